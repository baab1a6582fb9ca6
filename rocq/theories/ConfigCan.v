(** * When an edit of permissions succeeds *)
From Verif Require Import BaseFacts Actions Limits Authority Roles Env Handlers SpecConfig LimitsFacts ConfigFacts
  ConfigEdit ConfigEdit2 ConfigEdit3 Avail Avail3.

(** ** The boundary walk *)
Lemma upd_fix_skip role_end diff id acts new_len l : forall fuel P Q,
  Forall wf_role l -> (forall x, In x l -> r_id x <> id) ->
  (length P + roles_size l <= role_end)%nat -> (length P + roles_size l <= new_len)%nat -> Z.of_nat role_end < U32 ->
  upd_fix (length l + fuel) role_end diff id acts new_len (length P) (P ++ enc_roles (length P) l ++ Q)
  = upd_fix fuel role_end diff id acts new_len (length P + roles_size l) (P ++ enc_roles (length P) l ++ Q).
Proof.
  induction l as [|r t IH]; intros fuel P Q Hl Hi H1 H2 H3.
  - cbn [length Nat.add roles_size]. rewrite Nat.add_0_r. reflexivity.
  - inversion Hl as [|? ? Hr Ht]; subst. cbn [length Nat.add upd_fix enc_roles roles_size] in H1, H2 |- *.
    pose proof (role_len_ge r). pose proof (enc_role_length (length P) r (wf_pad _ Hr)) as L.
    replace (length P <? new_len)%nat with true by lia.
    replace (new_len <? length P + POS)%nat with false by (unfold POS; lia).
    rewrite <- !app_assoc.
    replace (length P + POS <=? length (P ++ enc_role (length P) r ++ enc_roles (length P + role_len r) t ++ Q))%nat with true
      by (symmetry; apply Nat.leb_le; rewrite !app_length, L; unfold POS; lia). cbn [guard bind].
    rewrite stale_bound by (try assumption; try reflexivity; lia).
    rewrite stale_id by (try assumption; reflexivity).
    replace (r_id r =? id) with false by (symmetry; apply Z.eqb_neq; apply Hi; left; reflexivity).
    replace (Z.of_nat role_end <? Z.of_nat (length P + role_len r)) with false by lia.
    rewrite nat_of_nat. rewrite stale_fix by (try assumption; reflexivity).
    rewrite (app_assoc P).
    replace (length P + role_len r)%nat with (length (P ++ enc_role (length P) r)) by (rewrite app_length; lia).
    rewrite IH; [|exact Ht|intros; apply Hi; right; assumption|rewrite app_length; lia|rewrite app_length; lia|exact H3].
    rewrite app_length, L. f_equal. lia.
Qed.

Lemma upd_fix_rest role_end diff id acts new_len l : forall fuel P ost Q,
  Forall wf_role l -> (forall x, In x l -> r_id x <> id) ->
  (role_end <= ost)%nat -> Z.of_nat (length P) = Z.of_nat ost + diff ->
  (new_len = length P + roles_size l)%nat ->
  Z.of_nat (ost + roles_size l) < U32 -> Z.of_nat (length P + roles_size l) < U32 -> (length l < fuel)%nat ->
  upd_fix fuel role_end diff id acts new_len (length P) (P ++ enc_roles ost l ++ Q) = Ok (P ++ enc_roles (length P) l ++ Q).
Proof.
  induction l as [|r t IH]; intros [|f] P ost Q Hl Hi H1 H2 H3 H4 H5 Hf; cbn [length] in *; try lia; cbn [upd_fix enc_roles roles_size] in *.
  - replace (length P <? new_len)%nat with false by lia. reflexivity.
  - inversion Hl as [|? ? Hr Ht]; subst.
    pose proof (role_len_ge r). pose proof (enc_role_length (length P) r (wf_pad _ Hr)) as L. pose proof (enc_role_length ost r (wf_pad _ Hr)) as L'.
    set (NL := (length P + (role_len r + roles_size t))%nat) in *.
    replace (length P <? NL)%nat with true by lia.
    replace (NL <? length P + POS)%nat with false by (unfold POS; lia).
    rewrite <- !app_assoc.
    replace (length P + POS <=? length (P ++ enc_role ost r ++ enc_roles (ost + role_len r) t ++ Q))%nat with true
      by (symmetry; apply Nat.leb_le; rewrite !app_length, L'; unfold POS; lia). cbn [guard bind].
    rewrite stale_bound by (try assumption; try reflexivity; lia).
    rewrite stale_id by (try assumption; reflexivity).
    replace (r_id r =? id) with false by (symmetry; apply Z.eqb_neq; apply Hi; left; reflexivity).
    replace (Z.of_nat role_end <? Z.of_nat (ost + role_len r)) with true by lia.
    replace ((Z.of_nat (ost + role_len r) + diff) mod U32) with (Z.of_nat (length P + role_len r))
      by (rewrite Z.mod_small; unfold U32, NL in *; lia).
    rewrite nat_of_nat. rewrite stale_fix by (try assumption; reflexivity).
    rewrite (app_assoc P).
    replace (length P + role_len r)%nat with (length (P ++ enc_role (length P) r)) by (rewrite app_length; lia).
    rewrite IH; [|exact Ht|intros; apply Hi; right; assumption|lia|rewrite app_length; lia|unfold NL; rewrite app_length; lia|lia|rewrite app_length; lia|lia].
    rewrite <- !app_assoc. reflexivity.
Qed.

Lemma walk_can fuel l1 r l2 X slack new l' :
  Forall wf_role (l1 ++ r :: l2) -> NoDup (map r_id (l1 ++ r :: l2)) ->
  parses new l' -> laid_out l' -> (1 <= length l' <= 255)%nat -> length X = length new ->
  let e := (roles_size l1 + role_len r)%nat in
  let e2 := (roles_size l1 + 16 + length (r_auth r) + length new)%nat in
  Z.of_nat (e + roles_size l2) < U32 -> Z.of_nat (e2 + roles_size l2) < U32 -> (length l1 + length l2 + 1 < fuel)%nat ->
  can (upd_fix fuel e (Z.of_nat (length new) - Z.of_nat (acts_len (r_acts r))) (r_id r) new
    (e2 + roles_size l2) 0 (enc_roles 0 l1 ++ h16 r e ++ X ++ enc_roles e l2 ++ slack)).
Proof.
  intros W Wnd Hp Hl Hn HX e e2 H1 H2 Hf.
  apply nodup_mid in Wnd as [Wn1 Wn2].
  apply Forall_app in W as [W1 W2]. inversion W2 as [|? ? Wr W3]; subst.
  pose proof (enc_roles_length 0 _ W1) as L1. pose proof (h16_length r e Wr) as L16.
  assert (He : e = (roles_size l1 + 16 + length (r_auth r) + acts_len (r_acts r))%nat) by (unfold e, role_len; lia).
  set (D := Z.of_nat (length new) - Z.of_nat (acts_len (r_acts r))) in *.
  set (Y := X ++ enc_roles e l2 ++ slack) in *.
  remember (length l2 + S (fuel - length l1 - length l2 - 2))%nat as g eqn:Eg.
  replace fuel with (length l1 + S g)%nat by lia.
  pose proof (upd_fix_skip e D (r_id r) new (e2 + roles_size l2) l1 (S g) [] (h16 r e ++ Y)) as S.
  cbn [app length Nat.add] in S. rewrite S; try assumption; try lia. clear S.
  cbn [upd_fix].
  replace (roles_size l1 <? e2 + roles_size l2)%nat with true by lia.
  replace (e2 + roles_size l2 <? roles_size l1 + POS)%nat with false by (unfold POS; lia).
  apply can_guard; [apply Nat.leb_le; rewrite !app_length, L1, L16; unfold POS; lia|].
  rewrite h16_id by assumption. rewrite Z.eqb_refl.
  rewrite h16_bound by (try assumption; lia).
  replace (Z.of_nat e <? Z.of_nat e) with false by lia.
  replace ((Z.of_nat e + D) mod U32) with (Z.of_nat e2) by (rewrite Z.mod_small; unfold D, U32 in *; lia).
  rewrite (num_actions_can _ _ Hp Hl Hn). cbn [bind].
  rewrite set_h16 by assumption. rewrite nat_of_nat.
  unfold Y. rewrite (app_assoc (enc_roles 0 l1)), (app_assoc (enc_roles 0 l1 ++ _)).
  set (PP := (enc_roles 0 l1 ++ h16 (with_acts r l') e2) ++ X).
  assert (LP : length PP = e2).
  { unfold PP. rewrite !app_length, L1, HX. unfold h16, h8, with_acts; cbn [r_aty r_auth r_acts r_pad r_id].
    rewrite !app_length, !le_enc_length, (wf_pad _ Wr). unfold e2. lia. }
  rewrite <- LP at 2. rewrite upd_fix_rest; try assumption; try lia. apply can_ok.
Qed.

(** ** Copying the new permissions *)
Lemma copy_while_can l : forall fuel acts ac start cur buf, parses (skipn ac acts) l -> (ac <= length acts)%nat -> laid_out l ->
  (cur + acts_len l <= length buf)%nat -> (length l < fuel)%nat -> can (copy_while fuel acts ac start cur buf).
Proof.
  induction l as [|a t IH]; intros [|f] acts ac start cur buf P Ha L Hb Hf; cbn [length] in *; try lia; cbn [copy_while].
  - pose proof (parses_length _ _ P) as Lp. rewrite skipn_length in Lp. cbn in Lp.
    replace (ac <? length acts)%nat with false by lia. apply can_ok.
  - destruct (parses_at _ _ _ _ Ha P) as (F1 & F2 & F3 & F4 & F5 & F6). inversion L as [|? ? La Lt]; subst. cbn [acts_len] in Hb.
    replace (ac <? length acts)%nat with true by lia.
    apply can_check; [lia|]. rewrite F2. apply can_check; [lia|].
    rewrite F1, (permission_can _ _ F6). cbn [bind]. rewrite F3, La. cbn [check bind].
    apply can_guard; [lia|]. apply IH; [assumption|lia|exact Lt| |lia].
    assert (H0 : length (sub ac 8 acts) = 8%nat) by (apply sub_length; lia).
    rewrite !splice_length; rewrite ?splice_length; rewrite ?splice_length, ?le_enc_length, ?H0; lia.
Qed.

Lemma roles_size_count l : (16 * length l <= roles_size l)%nat.
Proof. induction l as [|r t IH]; cbn [length roles_size]; [lia|]. pose proof (role_len_ge r). lia. Qed.

(** ** Replacing all permissions of a role *)
Lemma replace_all_can l1 r l2 slack new l' :
  Forall wf_role (l1 ++ r :: l2) -> NoDup (map r_id (l1 ++ r :: l2)) ->
  Z.of_nat (roles_size (l1 ++ r :: l2) + length slack + length new) < U32 ->
  parses new l' -> laid_out l' -> (1 <= length l' <= 255)%nat -> NoDup (v2_scopes l') ->
  (acts_len l' <= acts_len (r_acts r) + length slack)%nat ->
  can (replace_all (enc_roles 0 (l1 ++ r :: l2) ++ slack) (roles_size (l1 ++ r :: l2)) (roles_size l1)
    (roles_size l1 + 16 + length (r_auth r)) (acts_len (r_acts r)) new (r_id r)).
Proof.
  intros W Wnd Hsm Pl Lo Hn Nd Hfit. unfold replace_all.
  rewrite (reject_dup_can _ _ Pl Nd). cbn [bind].
  pose proof W as W0.
  apply Forall_app in W0 as [W1 W2]. inversion W2 as [|? ? Wr W3]; subst.
  pose proof (enc_roles_length 0 _ W1) as L1.
  set (e := (roles_size l1 + role_len r)%nat).
  pose proof (enc_roles_length e _ W3) as L2.
  assert (He : e = (roles_size l1 + 16 + length (r_auth r) + acts_len (r_acts r))%nat) by (unfold e, role_len; lia).
  assert (Es : roles_size (l1 ++ r :: l2) = (e + roles_size l2)%nat) by (rewrite roles_size_app; cbn; unfold e; lia).
  rewrite Es in *.
  assert (Eb : enc_roles 0 (l1 ++ r :: l2) ++ slack
               = enc_roles 0 l1 ++ h16 r e ++ enc_actions 0 (r_acts r) ++ enc_roles e l2 ++ slack).
  { rewrite enc_roles_app. cbn [enc_roles Nat.add]. fold e. rewrite enc_role_h16. fold e. rewrite <- !app_assoc. reflexivity. }
  rewrite Eb in *. clear Eb.
  set (ao := (roles_size l1 + 16 + length (r_auth r))%nat) in *.
  pose proof (h16_length r e Wr) as L16.
  pose proof (enc_actions_length 0 (r_acts r)) as La.
  pose proof (parses_length _ _ Pl) as Pn.
  set (buf := enc_roles 0 l1 ++ h16 r e ++ enc_actions 0 (r_acts r) ++ enc_roles e l2 ++ slack) in *.
  assert (Lbuf : length buf = (e + roles_size l2 + length slack)%nat) by (unfold buf; rewrite !app_length; lia).
  set (sz := acts_len (r_acts r)) in *.
  set (D := Z.of_nat (length new) - Z.of_nat sz) in *.
  set (e2 := (ao + length new)%nat) in *.
  assert (Hfit2 : (e2 + roles_size l2 <= length buf)%nat) by (unfold e2; lia).
  apply can_then.
  { destruct (negb (D =? 0)) eqn:Ed.
    - replace (e + roles_size l2 - (ao + sz))%nat with (roles_size l2) by (unfold ao, sz; lia).
      assert (Er2 : sub (ao + sz) (roles_size l2) buf = enc_roles e l2).
      { unfold buf. rewrite (app_assoc (h16 r e)), (app_assoc (enc_roles 0 l1)).
        apply sub_app_exact; [rewrite !app_length; unfold ao; lia|exact L2]. }
      rewrite Er2.
      apply can_bind with (a := splice e2 (enc_roles e l2) buf).
      { destruct (0 <? roles_size l2)%nat eqn:Er.
        - destruct (0 <? D) eqn:E0.
          + replace (e2 + roles_size l2 <=? length buf)%nat with true by lia. reflexivity.
          + replace (ao + sz + roles_size l2 <=? length buf)%nat with true by (symmetry; apply Nat.leb_le; unfold sz; lia). reflexivity.
        - assert (enc_roles e l2 = []) as -> by (apply length_zero_iff_nil; lia).
          rewrite splice_nil. reflexivity. }
      set (Y := enc_actions 0 (r_acts r) ++ enc_roles e l2 ++ slack) in *.
      assert (Ebuf : buf = (enc_roles 0 l1 ++ h16 r e) ++ Y) by (unfold buf, Y; rewrite <- !app_assoc; reflexivity).
      assert (LF : length (enc_roles 0 l1 ++ h16 r e) = ao) by (rewrite app_length; unfold ao; lia).
      assert (LY : (length Y = length buf - ao)%nat) by (rewrite Ebuf, app_length; lia).
      assert (E1 : splice e2 (enc_roles e l2) buf
                   = enc_roles 0 l1 ++ h16 r e ++ firstn (length new) Y ++ enc_roles e l2 ++ skipn (e2 + roles_size l2) buf).
      { unfold splice. rewrite L2. rewrite Ebuf at 1. rewrite firstn_app, firstn_all2 by lia.
        rewrite LF. replace (e2 - ao)%nat with (length new) by (unfold e2; lia). rewrite <- !app_assoc. reflexivity. }
      rewrite E1.
      replace (ao + sz)%nat with e by (unfold ao, sz; lia).
      replace (e + roles_size l2 + length new - sz)%nat with (e2 + roles_size l2)%nat by (unfold e2, ao, sz; lia).
      assert (LX : length (firstn (length new) Y) = length new) by (rewrite firstn_length; unfold e2 in *; lia).
      pose proof (roles_size_count l1). pose proof (roles_size_count l2). pose proof (role_len_ge r).
      apply (walk_can _ l1 r l2 _ _ new l'); try assumption; fold ao; fold e2; try lia.
    - rewrite (num_actions_can _ _ Pl Lo Hn). cbn [bind]. apply can_guard; [|apply can_ok].
      apply Nat.leb_le. unfold POS. lia. }
  intros buf2 Hb2. apply can_check; [unfold e2 in *; lia|].
  apply can_then; [|intros; apply can_ok].
  apply (copy_while_can l'); [exact Pl|lia|exact Lo| |pose proof (acts_len_count l'); lia].
  assert (Lb2 : length buf2 = length buf).
  { destruct (negb _) eqn:Ed in Hb2.
    - bind_inv Hb2. apply upd_fix_length in K. rewrite K. clear K.
      destruct (0 <? _)%nat eqn:Er in B.
      + bind_inv B. apply ok_inj in K. subst v. apply splice_length.
        destruct (0 <? D) eqn:E0.
        * apply check_ok, Nat.leb_le in B0. rewrite sub_length by lia. lia.
        * apply guard_ok, Nat.leb_le in B0. rewrite sub_length by lia. unfold D in *. lia.
      + apply ok_inj in B. subst v. reflexivity.
    - bind_inv Hb2. bind_inv K. apply ok_inj in K0. subst buf2. apply guard_ok, Nat.leb_le in B0.
      unfold POS in B0. rewrite splice_length; [reflexivity|rewrite le_enc_length; lia]. }
  unfold e2, ao in *. lia.
Qed.

(** ** Which permissions an edit asks for *)
Lemma filter_can keep f l : forall fuel acts cursor i acc, parses (skipn cursor acts) l -> (cursor <= length acts)%nat ->
  (forall a j, In a l -> keep (ac_ty a) j = Ok (f a j)) -> (length l < fuel)%nat ->
  can (filter_loop fuel keep acts cursor i acc).
Proof.
  induction l as [|a t IH]; intros [|fu] acts cursor i acc Hp Hc Hk Hf; cbn [length] in *; try lia; cbn [filter_loop].
  - apply parses_length in Hp. cbn in Hp. rewrite skipn_length in Hp.
    replace (cursor <? length acts)%nat with false by lia. apply can_ok.
  - destruct (parses_at _ _ _ _ Hc Hp) as (F1 & F2 & F3 & F4 & F5 & F6).
    replace (cursor <? length acts)%nat with true by lia. apply can_check; [lia|]. rewrite F1, F2.
    apply can_check; [lia|]. rewrite (Hk a i) by (left; reflexivity). cbn [bind].
    apply IH; [rewrite Nat.add_assoc; exact F4|lia|intros; apply Hk; right; assumption|lia].
Qed.
Lemma updated_can op arg l l' : Forall wf_action l -> (1 <= length l')%nat -> upd_result op arg l l' -> (op = 3 -> Nat.even (length arg) = true) ->
  exists new, updated_actions op arg (enc_actions 0 l) = Ok new /\ parses new l'.
Proof.
  intros Hl N U Ev. pose proof (parses_enc 0 l Hl) as P1. pose proof (parses_length _ _ P1) as Lp. pose proof (acts_len_count l) as Lc.
  unfold updated_actions. destruct U as [(-> & P)|[(-> & la & P & ->)|[(-> & ->)|(-> & ->)]]]; cbn [Z.eqb Pos.eqb].
  - exists arg. auto.
  - eexists. split; [reflexivity|]. apply parses_app; assumption.
  - destruct (filter_can (keep_types arg) (fun a _ => negb (existsb (Z.eqb (ac_ty a)) arg)) l
      (S (length (enc_actions 0 l))) (enc_actions 0 l) 0 0 []) as [x X]; [exact P1|lia|intros a j Ha; apply (keep_types_wf l); assumption|lia|].
    rewrite X. cbn [bind].
    apply (filter_loop_parses _ _ (fun a _ => negb (existsb (Z.eqb (ac_ty a)) arg)) _ _ _ _ _ l) in X;
      [|exact P1|lia|intros a j Ha; apply (keep_types_wf l); assumption].
    destruct X as (y & -> & Py). cbn [app]. rewrite keep_if_filter in Py. fold (drop_types arg l) in Py.
    pose proof (parses_length _ _ Py) as Ly. pose proof (acts_len_pos _ N).
    exists y. replace (length y =? 0)%nat with false by lia. auto.
  - rewrite (Ev eq_refl). cbn [check bind].
    destruct (filter_can (keep_indices (u16s arg)) (fun _ i => negb (existsb (Z.eqb i) (u16s arg))) l
      (S (length (enc_actions 0 l))) (enc_actions 0 l) 0 0 []) as [x X]; [exact P1|lia|reflexivity|lia|].
    rewrite X. cbn [bind].
    apply (filter_loop_parses _ _ (fun _ i => negb (existsb (Z.eqb i) (u16s arg))) _ _ _ _ _ l) in X; [|exact P1|lia|reflexivity].
    destruct X as (y & -> & Py). cbn [app]. change (parses y (drop_indices (u16_list arg) l)) in Py.
    pose proof (parses_length _ _ Py) as Ly. pose proof (acts_len_pos _ N).
    exists y. replace (length y =? 0)%nat with false by lia. auto.
Qed.

(** ** The whole edit *)
Lemma apply_update_can s l1 r l2 op arg size l' :
  wf_config s -> s_roles s = l1 ++ r :: l2 -> upd_result op arg (r_acts r) l' -> wf_actions l' -> laid_out l' ->
  (op = 3 -> Nat.even (length arg) = true) ->
  (length (enc_config s) <= size)%nat -> Z.of_nat size + Z.of_nat (acts_len l') < 4000000000 ->
  (acts_len l' <= acts_len (r_acts r) + (size - length (enc_config s)))%nat ->
  can (apply_update (enc_config s) (enc_claimer (s_claimer s)) (roles_size (s_roles s)) (roles_size l1)
    (roles_size l1 + 16 + length (r_auth r)) (acts_len (r_acts r)) (r_id r) op arg size).
Proof.
  intros W E U (Wn & Wa & Wd) Lo Ev Hsz Hsm Hfit.
  pose proof (enc_config_length s W) as Lc.
  pose proof W as (W1 & (W2 & W2') & W3 & W4 & W5 & W6 & W7 & W8 & W9 & W10 & W11 & W12 & W13).
  pose proof (enc_header_length s W2 W5) as Lh. pose proof (enc_roles_length 0 _ W8) as Lr.
  set (T := enc_claimer (s_claimer s)) in *.
  set (R := enc_roles 0 (s_roles s)) in *.
  assert (Lt : (length (enc_config s) = 48 + roles_size (s_roles s) + length T)%nat)
    by (unfold enc_config; fold R T; rewrite !app_length; unfold HDR in Lh; lia).
  unfold apply_update.
  set (k := (size - length (enc_config s))%nat).
  assert (E2 : resize_bytes size (enc_config s) = enc_header s ++ R ++ T ++ zeros k).
  { unfold resize_bytes. destruct (size <=? _)%nat eqn:El.
    - assert (size = length (enc_config s)) as -> by lia. rewrite firstn_all. unfold k.
      rewrite Nat.sub_diag. unfold zeros. cbn [repeat]. rewrite app_nil_r. reflexivity.
    - unfold enc_config. fold R T. fold k. rewrite <- !app_assoc. unfold k, enc_config. reflexivity. }
  rewrite E2. clear E2.
  assert (L2 : length (enc_header s ++ R ++ T ++ zeros k) = size).
  { rewrite !app_length, zeros_length. unfold k. unfold HDR in Lh. lia. }
  rewrite L2. apply can_guard; [apply Nat.leb_le; unfold HDR; lia|].
  assert (E3 : restore_at T (size - length T) (enc_header s ++ R ++ T ++ zeros k)
          = Ok (enc_header s ++ R ++ firstn k (T ++ zeros k) ++ T)).
  { unfold restore_at. destruct T as [|t0 t] eqn:ET.
    - cbn [app]. rewrite app_nil_r, firstn_all2 by (rewrite zeros_length; lia). reflexivity.
    - rewrite <- ET in *. replace (size - length T + length T <=? _)%nat with true.
      2:{ symmetry. apply Nat.leb_le. rewrite L2. lia. }
      cbn [check bind]. f_equal.
      replace (enc_header s ++ R ++ T ++ zeros k)
        with ((enc_header s ++ R ++ firstn k (T ++ zeros k)) ++ skipn k (T ++ zeros k) ++ []).
      + rewrite splice_app_exact; [rewrite <- !app_assoc, app_nil_r; reflexivity| |].
        * rewrite !app_length, firstn_length, app_length, zeros_length. unfold HDR in Lh. unfold k. lia.
        * rewrite skipn_length, app_length, zeros_length. lia.
      + rewrite app_nil_r, <- !app_assoc, firstn_skipn. reflexivity. }
  rewrite E3. cbn [bind].
  set (S0 := firstn k (T ++ zeros k)) in *.
  assert (LS : length S0 = k) by (unfold S0; rewrite firstn_length, app_length, zeros_length; lia).
  assert (L3 : length (enc_header s ++ R ++ S0 ++ T) = size).
  { rewrite !app_length. unfold k in LS. unfold HDR in Lh. lia. }
  rewrite L3.
  assert (Ecap : (size - HDR - length T = length (R ++ S0))%nat).
  { rewrite app_length. unfold HDR, k in *. lia. }
  rewrite Ecap.
  assert (Eb : sub HDR (length (R ++ S0)) (enc_header s ++ R ++ S0 ++ T) = R ++ S0).
  { rewrite (app_assoc R). apply sub_app_exact; [exact Lh|reflexivity]. }
  rewrite Eb.
  assert (Hro : (roles_size l1 + 16 + length (r_auth r) + acts_len (r_acts r) <= roles_size (s_roles s))%nat).
  { rewrite E, roles_size_app. cbn [roles_size]. unfold role_len. lia. }
  apply can_guard; [apply Nat.leb_le; rewrite app_length; lia|].
  assert (Ec : sub (roles_size l1 + 16 + length (r_auth r)) (acts_len (r_acts r)) (R ++ S0) = enc_actions 0 (r_acts r)).
  { unfold R. rewrite E, enc_roles_app. cbn [enc_roles]. rewrite enc_role_h16.
    pose proof W8 as W8'. rewrite E in W8'. apply Forall_app in W8' as [X1 X2]. pose proof (Forall_inv X2) as Xr.
    rewrite <- !app_assoc. rewrite (app_assoc (enc_roles 0 l1)).
    apply sub_app_exact; [rewrite app_length, (enc_roles_length 0 _ X1), h16_length by exact Xr; lia|apply enc_actions_length]. }
  rewrite Ec.
  assert (Wr : wf_role r). { rewrite E in W8. apply Forall_app in W8 as [_ X]. inversion X; assumption. }
  destruct (updated_can op arg (r_acts r) l') as (new & Hnew & Pn); [apply Wr|lia|exact U|exact Ev|].
  rewrite Hnew. cbn [bind]. pose proof (parses_length _ _ Pn) as Ln.
  apply can_then; [|intros [b df] _; apply can_ok].
  unfold R. rewrite E.
  apply (replace_all_can l1 r l2 S0 new l'); try assumption.
  - rewrite <- E. exact W8.
  - unfold ids in W9. rewrite E in W9. exact W9.
  - rewrite <- E, LS. unfold U32, k. lia.
  - rewrite LS. unfold k. lia.
Qed.

(** what the account measures afterwards *)
Lemma edited_size s l1 r l2 l' : wf_config s -> s_roles s = l1 ++ r :: l2 -> wf_actions l' ->
  length (enc_config (on_role (r_id r) (fun r => with_acts r l') s))
  = (length (enc_config s) + acts_len l' - acts_len (r_acts r))%nat /\ (acts_len (r_acts r) <= length (enc_config s))%nat.
Proof.
  intros W Es Wl. pose proof W as (W1 & (W2 & W2') & W3 & W4 & W5 & W6 & W7 & W8 & W9 & W10 & W11 & W12 & W13).
  pose proof (on_role_split (fun r => with_acts r l') s l1 r l2 W9 Es) as EO. cbn beta in EO. rewrite EO.
  assert (Wr' : Forall wf_role (l1 ++ with_acts r l' :: l2)).
  { rewrite Es in W8. apply Forall_app in W8 as [X1 X2]. inversion X2 as [|? ? Xr X3]; subst.
    apply Forall_app; split; [exact X1|]. constructor; [apply with_acts_wf; assumption|exact X3]. }
  unfold enc_config. rewrite !app_length.
  rewrite (enc_header_length _ W2 W5), (enc_roles_length 0 _ W8).
  assert (Hh : length (enc_header (with_roles s (l1 ++ with_acts r l' :: l2))) = HDR) by (apply enc_header_length; assumption).
  rewrite Hh. cbn [with_roles s_roles s_claimer]. rewrite (enc_roles_length 0 _ Wr'), Es, !roles_size_app. cbn [roles_size].
  unfold role_len, with_acts; cbn [r_auth r_acts]. lia.
Qed.

(** room made for an edit *)
Definition made_room (op : Z) (arg : bytes) (cur len : nat) : nat :=
  let pre := if op =? 0 then Z.of_nat (length arg) - Z.of_nat cur else if op =? 1 then Z.of_nat (length arg) else 0 in
  if 0 <? pre then align8 (len + nat_of pre) else len.
Lemma made_room_fits s l1 r l2 op arg l' : wf_config s -> s_roles s = l1 ++ r :: l2 -> wf_actions l' -> upd_result op arg (r_acts r) l' ->
  made_room op arg (acts_len (r_acts r)) (length (enc_config s))
  = (length (enc_config s) + (acts_len l' - acts_len (r_acts r)))%nat.
Proof.
  intros W Es P2 P1. pose proof W as (W1 & (W2 & W2') & W3 & W4 & W5 & W6 & W7 & W8 & W9 & W10 & W11 & W12 & W13).
  assert (Wr : wf_role r). { rewrite Es in W8. apply Forall_app in W8 as [_ X]. inversion X; assumption. }
  destruct (upd_result_len _ _ _ _ P1) as (U0 & U1 & U2).
  destruct (enc_config_8 s W) as [k1 E1].
  destruct (diff_8 (r_acts r) l') as (k2 & k3 & E2 & E3); [apply Wr|apply P2|].
  unfold made_room. cbv zeta.
  set (pre := if op =? 0 then _ else _).
  assert (Op : op = 0 \/ op = 1 \/ op = 2 \/ op = 3) by (unfold upd_result in P1; lia).
  assert (Hcase : (0 < pre /\ pre = Z.of_nat (acts_len l') - Z.of_nat (acts_len (r_acts r))) \/ (pre <= 0 /\ (acts_len l' <= acts_len (r_acts r))%nat)).
  { unfold pre. destruct (op =? 0) eqn:O0; [rewrite <- U0 by lia; lia|].
    destruct (op =? 1) eqn:O1; [rewrite U1 by lia; lia|].
    specialize (U2 ltac:(lia)). lia. }
  destruct Hcase as [[C1 C2]|[C1 C2]].
  - replace (0 <? pre) with true by lia.
    assert (length (enc_config s) + nat_of pre = 8 * (k1 + k3 - k2))%nat as Q by (unfold nat_of; lia).
    rewrite Q, align8_id. unfold nat_of in Q. lia.
  - replace (0 <? pre) with false by lia. lia.
Qed.

Lemma update_seal_can s l1 r l2 op arg l' d4 diff :
  wf_config s -> s_roles s = l1 ++ r :: l2 -> 0 <= op <= 3 -> all_bytes arg -> Z.of_nat (length arg) < 65536 ->
  let size := made_room op arg (acts_len (r_acts r)) (length (enc_config s)) in
  upd_result op arg (r_acts r) l' -> wf_actions l' ->
  apply_update (enc_config s) (enc_claimer (s_claimer s)) (roles_size (s_roles s)) (roles_size l1)
    (roles_size l1 + 16 + length (r_auth r)) (acts_len (r_acts r)) (r_id r) op arg size = Ok (d4, diff) ->
  can (seal_tail (enc_claimer (s_claimer s))
    (resize_bytes (if diff <? 0 then align8 (nat_of (Z.of_nat size + diff)) else size) d4)).
Proof.
  intros W Es Hop Hb Hl size P1' P2' H.
  pose proof (made_room_fits s l1 r l2 op arg l' W Es P2' P1') as Sz. fold size in Sz.
  pose proof (wf_roles_small s W) as Hsm.
  pose proof W as (W1 & (W2 & W2') & W3 & W4 & W5 & W6 & W7 & W8 & W9 & W10 & W11 & W12 & W13).
  pose proof (enc_config_length s W) as Lc.
  assert (Hro : (acts_len (r_acts r) <= roles_size (s_roles s))%nat).
  { rewrite Es, roles_size_app. cbn [roles_size]. unfold role_len. lia. }
  destruct (upd_result_len _ _ _ _ P1') as (U0' & U1' & U2').
  assert (Hd : (acts_len l' - acts_len (r_acts r) <= length arg)%nat).
  { destruct (Z.eq_dec op 0); [rewrite U0' by assumption; lia|]. destruct (Z.eq_dec op 1); [rewrite U1' by assumption; lia|].
    specialize (U2' ltac:(lia)). lia. }
  eapply apply_update_enc in H; [|exact W|exact Es|exact Hop|exact Hb|lia|lia].
  destruct H as (l0 & slack & P1 & P2 & P3 & P4 & P5 & P6).
  pose proof (made_room_fits s l1 r l2 op arg l0 W Es P2 P1) as Sz0. fold size in Sz0.
  assert (Wr : wf_role r). { rewrite Es in W8. apply Forall_app in W8 as [_ X]. inversion X; assumption. }
  assert (Wr' : Forall wf_role (l1 ++ with_acts r l0 :: l2)).
  { rewrite Es in W8. apply Forall_app in W8 as [X1 X2]. inversion X2 as [|? ? Xr X3]; subst.
    apply Forall_app; split; [exact X1|]. constructor; [apply with_acts_wf; assumption|exact X3]. }
  destruct (enc_config_8 s W) as [k1 E1].
  destruct (diff_8 (r_acts r) l0) as (k2 & k3 & E2 & E3); [apply Wr|apply P2|].
  set (size5 := if diff <? 0 then align8 (nat_of (Z.of_nat size + diff)) else size) in *.
  assert (Hs5 : Z.of_nat size5 = Z.of_nat (length (enc_config s)) + diff /\ (size5 <= size)%nat).
  { unfold size5. destruct (diff <? 0) eqn:D0; [|lia].
    assert (nat_of (Z.of_nat size + diff) = 8 * (k1 + k3 - k2))%nat as Q by (unfold nat_of; lia).
    rewrite Q, align8_id. unfold nat_of in Q. lia. }
  destruct Hs5 as [Hs5 Hle].
  assert (Er : resize_bytes size5 d4 = firstn size5 d4).
  { unfold resize_bytes. replace (size5 <=? length d4)%nat with true by lia. reflexivity. }
  rewrite Er.
  set (s' := with_roles s (l1 ++ with_acts r l0 :: l2)) in *.
  assert (Hh : enc_header s' = enc_header s).
  { unfold s'. apply enc_header_roles. rewrite Es, !app_length. reflexivity. }
  set (T := enc_claimer (s_claimer s)) in *.
  assert (Lr' : length (enc_roles 0 (l1 ++ with_acts r l0 :: l2)) = (roles_size (s_roles s) + acts_len l0 - acts_len (r_acts r))%nat).
  { rewrite enc_roles_length by assumption. rewrite Es, !roles_size_app. cbn [roles_size].
    unfold role_len, with_acts; cbn [r_auth r_acts]. lia. }
  pose proof (enc_header_length s W2 W5) as Lh.
  set (X := firstn (length T) (slack ++ T)).
  assert (LX : length X = length T) by (unfold X; rewrite firstn_length, app_length; lia).
  assert (Ef : firstn size5 d4 = enc_header s' ++ enc_roles 0 (s_roles s') ++ X).
  { rewrite P4, Hh. unfold s'; cbn [with_roles s_roles]. rewrite (app_assoc (enc_header s)).
    rewrite firstn_app, firstn_all2 by (rewrite app_length; lia). rewrite <- app_assoc. do 3 f_equal.
    unfold X. f_equal. rewrite app_length. lia. }
  rewrite Ef.
  assert (Hpre' : pre_ok s').
  { unfold pre_ok, s'. cbn [with_roles s_id s_pad s_roles].
    assert (length (l1 ++ with_acts r l0 :: l2) = length (s_roles s)) as -> by (rewrite Es, !app_length; reflexivity).
    split; [exact W2|]. split; [exact W5|]. split; [exact Wr'|]. split; [exact W11|].
    rewrite <- (enc_roles_length 0 _ Wr'), Lr'. unfold U32 in *. lia. }
  apply seal_can; [exact Hpre'|lia].
Qed.

(** AddActions by another handler *)
Lemma append_can s id r new la : wf_config s -> find_role id s = Some r -> all_bytes new -> Z.of_nat (length new) < 1000000 ->
  parses new la -> wf_actions (r_acts r ++ la) -> laid_out (r_acts r ++ la) ->
  can (append_actions (enc_config s) id new).
Proof.
  intros W Ef Hb Hl Pn Wl Lo. unfold append_actions.
  pose proof (wf_roles_small s W) as Hsm.
  pose proof W as (W1 & (W2 & W2') & W3 & W4 & W5 & W6 & W7 & W8 & W9 & W10 & W11 & W12 & W13).
  pose proof (enc_config_length s W) as Lc.
  apply can_guard; [apply Nat.leb_le; unfold HDR in *; lia|].
  assert (Hdc : h_disc (enc_config s) =? D_Config = true) by reflexivity.
  rewrite Hdc. cbn [check bind]. rewrite split_parts_enc by exact W. cbn [bind].
  rewrite take_tail_enc by exact W13. cbn [bind].
  replace (h_roles (enc_header s)) with (Z.of_nat (length (s_roles s))).
  2:{ symmetry. pose proof (hf_roles s W2 W5 [] W11) as X. rewrite app_nil_r in X. exact X. }
  rewrite nat_of_nat.
  rewrite find_offsets_at; [|exact W8| |cbn; lia].
  2:{ pose proof (roles_at_enc (s_roles s) [] W8) as X. rewrite app_nil_r in X. exact X. }
  destruct (find_split _ _ _ Ef) as (l1 & l2 & Es & Ei & E3). rewrite E3. cbn [bind]. rewrite (enc_roles_length 0 _ W8).
  subst id.
  apply can_then; [|intros [a b] _; apply can_ok].
  assert (U : upd_result 1 new (r_acts r) (r_acts r ++ la)) by (right; left; split; [reflexivity|exists la; auto]).
  pose proof (made_room_fits s l1 r l2 1 new _ W Es Wl U) as Sz. unfold made_room in Sz. cbn [Z.eqb Pos.eqb] in Sz. cbv zeta in Sz.
  pose proof (upd_result_len _ _ _ _ U) as (_ & U1 & _). specialize (U1 eq_refl).
  assert (Sz' : (if (0 <? length new)%nat then align8 (length (enc_config s) + length new) else length (enc_config s))
    = (length (enc_config s) + length new)%nat).
  { destruct (0 <? length new)%nat eqn:Q; [|lia]. replace (0 <? Z.of_nat (length new)) with true in Sz by lia.
    rewrite nat_of_nat in Sz. rewrite Sz. lia. }
  rewrite Sz'.
  assert (Hro : (acts_len (r_acts r) <= roles_size (s_roles s))%nat).
  { rewrite Es, roles_size_app. cbn [roles_size]. unfold role_len. lia. }
  apply (apply_update_can s l1 r l2 1 new _ (r_acts r ++ la)); try assumption; try discriminate; try lia.
Qed.
