(** * Editing configurations, continued: permission updates. *)
From Verif Require Import BaseFacts Actions Limits Authority Roles Env Handlers SpecConfig LimitsFacts ConfigFacts
  ConfigEdit ConfigEdit2.

(** ** Everything is a multiple of eight bytes *)
Lemma action_len_8 ty n : action_len ty = Some n -> exists k, n = (8 * k)%nat.
Proof.
  intros H. unfold action_len in H.
  repeat match type of H with
         | (if ?b then _ else _) = Some _ => destruct b; [injection H as <-|] end; try discriminate.
  all: try (exists 0%nat; reflexivity).
  all: try (exists 1%nat; reflexivity). all: try (exists 2%nat; reflexivity).
  all: try (exists 3%nat; reflexivity). all: try (exists 4%nat; reflexivity).
  all: try (exists 5%nat; reflexivity). all: try (exists 6%nat; reflexivity).
  all: try (exists 7%nat; reflexivity). all: try (exists 8%nat; reflexivity).
  all: try (exists 9%nat; reflexivity). all: try (exists 10%nat; reflexivity).
  all: try (exists 12%nat; reflexivity). all: try (exists 18%nat; reflexivity).
  all: try (exists 11%nat; reflexivity). all: try (exists 13%nat; reflexivity).
  all: try (exists 14%nat; reflexivity). all: try (exists 15%nat; reflexivity).
  all: try (exists 16%nat; reflexivity). all: try (exists 17%nat; reflexivity).
Qed.
Lemma authority_len_8 ty n : authority_len ty = Some n -> exists k, n = (8 * k)%nat.
Proof.
  intros H. unfold authority_len in H.
  repeat match type of H with
         | (if ?b then _ else _) = Some _ => destruct b; [injection H as <-|] end; try discriminate.
  all: first [exists 4%nat; reflexivity | exists 10%nat; reflexivity | exists 5%nat; reflexivity
             | exists 11%nat; reflexivity | exists 16%nat; reflexivity].
Qed.
Lemma acts_len_8 l : Forall wf_action l -> exists k, acts_len l = (8 * k)%nat.
Proof.
  induction 1 as [|a t [Ha _] Ht [k IH]]; cbn [acts_len]; [exists 0%nat; reflexivity|].
  apply action_len_8 in Ha as [j Ha]. exists (1 + j + k)%nat. lia.
Qed.
Lemma role_len_8 r : wf_role r -> exists k, role_len r = (8 * k)%nat.
Proof.
  intros (H1 & H2 & H3 & H4 & H5 & (H6 & H7 & H8)). unfold role_len.
  apply authority_len_8 in H2 as [j H2]. apply acts_len_8 in H7 as [k H7]. exists (2 + j + k)%nat. lia.
Qed.
Lemma roles_size_8 l : Forall wf_role l -> exists k, roles_size l = (8 * k)%nat.
Proof.
  induction 1 as [|a t Ha Ht [k IH]]; cbn [roles_size]; [exists 0%nat; reflexivity|].
  apply role_len_8 in Ha as [j Ha]. exists (j + k)%nat. lia.
Qed.
Lemma enc_config_8 s : wf_config s -> exists k, length (enc_config s) = (8 * k)%nat.
Proof.
  intros W. rewrite enc_config_length by exact W.
  destruct W as (W1 & (W2 & W2') & W3 & W4 & W5 & W6 & W7 & W8 & W9 & W10 & W11 & W12 & W13).
  apply roles_size_8 in W8 as [k ->]. destruct (s_claimer s) as [c|].
  - destruct (W13 c eq_refl) as [L _]. exists (11 + k)%nat. unfold enc_claimer, HDR. rewrite app_length, L. cbn [length]. lia.
  - exists (6 + k)%nat. unfold HDR. cbn [length enc_claimer]. lia.
Qed.
Lemma align8_id k : align8 (8 * k) = (8 * k)%nat.
Proof.
  unfold align8. replace (8 * k + 7)%nat with (7 + k * 8)%nat by lia.
  rewrite Nat.div_add by discriminate. change (7 / 8)%nat with 0%nat. lia.
Qed.

(** ** The target role's position *)
Lemma find_offsets_at l i o buf :
  Forall wf_role l -> roles_at o buf l -> Z.of_nat (o + roles_size l) < U32 ->
  find_offsets (length l) i buf o
  = match pos_of i o l with
    | Some (p, r) => Ok (p, (p + 16 + length (r_auth r))%nat, acts_len (r_acts r))
    | None => Err SInvalidAuthorityNotFoundByRoleId
    end.
Proof.
  intros Hl; revert o; induction Hl as [|r t Hr Ht IH]; intros o Hat Hsm; cbn [find_offsets length pos_of]; [reflexivity|].
  cbn in Hsm, Hat. destruct Hat as [H1 H2]. pose proof (role_len_ge r). pose proof (role_at_le _ _ _ H1).
  replace (o + POS <=? length buf)%nat with true by (unfold POS; lia). cbn [check bind].
  rewrite (fld_bound o buf r) by (try assumption; lia).
  replace ((o + POS <=? o + role_len r)%nat && (o + role_len r <=? length buf)%nat) with true by (unfold POS; lia).
  cbn [check bind]. rewrite (fld_id o buf r) by (try assumption; lia).
  destruct (r_id r =? i).
  - rewrite (fld_alen o buf r) by (try assumption; lia). unfold POS, role_len.
    replace (_ <=? _)%nat with true by lia. cbn [guard bind]. do 2 f_equal. lia.
  - apply IH; [exact H2|lia].
Qed.

(** ** Filtering existing permissions *)
Lemma parses_keep d a t x l : parses d (a :: t) -> parses x l ->
  parses (sub 0 (8 + length (ac_data a)) d ++ x) (a :: l).
Proof.
  intros H Hx. inv H. cbn [ac_data].
  replace (sub 0 (8 + length data) (le_enc 2 ty ++ le_enc 2 (Z.of_nat (length data)) ++ bnd ++ data ++ rest))
    with (le_enc 2 ty ++ le_enc 2 (Z.of_nat (length data)) ++ bnd ++ data).
  - rewrite <- !app_assoc. constructor; assumption.
  - symmetry. rewrite !app_assoc. rewrite <- (app_assoc (le_enc 2 ty)), <- !app_assoc.
    rewrite (app_assoc (le_enc 2 (Z.of_nat _))), (app_assoc (_ ++ _) data), (app_assoc (le_enc 2 ty)).
    apply (sub_app_exact 0 _ []); [reflexivity|rewrite !app_length, !le_enc_length; lia].
Qed.
Lemma filter_loop_parses fuel keep f acts cursor i acc out l :
  parses (skipn cursor acts) l -> (cursor <= length acts)%nat ->
  (forall a j, In a l -> keep (ac_ty a) j = Ok (f a j)) ->
  filter_loop fuel keep acts cursor i acc = Ok out ->
  exists x, out = acc ++ x /\ parses x (keep_if f i l).
Proof.
  revert fuel cursor i acc. induction l as [|a t IH]; intros fuel cursor i acc Hp Hc Hk H;
    (destruct fuel as [|fu]; [discriminate|]); cbn [filter_loop] in H.
  - apply parses_length in Hp. cbn in Hp. rewrite skipn_length in Hp.
    replace (cursor <? length acts)%nat with false in H by lia. inv H. exists []. rewrite app_nil_r. split; [reflexivity|constructor].
  - destruct (parses_fields _ _ Hp _ _ eq_refl) as (F1 & F2 & F3 & F4 & F5 & F6 & F7).
    rewrite skipn_length in F5. rewrite skipn_skipn' in F4. rewrite <- hdr_ty_skipn in F1. rewrite <- hdr_len_skipn in F2.
    replace (cursor <? length acts)%nat with true in H by lia.
    rewrite F1, F2 in H. rewrite (Hk a i) in H by (left; reflexivity).
    bind_inv H. bind_inv K. cbn [bind] in K0.
    apply IH in K0; [|exact F4|lia|intros; apply Hk; right; assumption].
    destruct K0 as (x & -> & Px). cbn [keep_if]. destruct (f a i).
    + exists (sub cursor (8 + length (ac_data a)) acts ++ x). rewrite app_assoc. split; [reflexivity|].
      replace cursor with (cursor + 0)%nat at 1 by lia. rewrite sub_skipn. apply (parses_keep _ _ t); assumption.
    + exists x. split; [reflexivity|exact Px].
Qed.
Lemma keep_if_filter g i l : keep_if (fun a _ => g a) i l = filter g l.
Proof. revert i; induction l as [|a t IH]; intros i; cbn; [reflexivity|]. rewrite IH. reflexivity. Qed.
Lemma parses_app d1 l1 d2 l2 : parses d1 l1 -> parses d2 l2 -> parses (d1 ++ d2) (l1 ++ l2).
Proof.
  induction 1 as [|ty bnd data rest l H1 H2 H3 IH]; intros H; [exact H|].
  cbn [app]. rewrite <- !app_assoc. constructor; auto.
Qed.

(** what the update operations do to a list of permissions; [la] is what the
    operation's argument parses to *)

Lemma keep_types_wf l a j types : Forall wf_action l -> In a l ->
  keep_types types (ac_ty a) j = Ok (negb (existsb (Z.eqb (ac_ty a)) types)).
Proof.
  intros Hl Ha. rewrite Forall_forall in Hl. destruct (Hl _ Ha) as [B _]. apply action_len_bound in B.
  unfold keep_types, permission. replace ((0 <=? ac_ty a) && (ac_ty a <=? 26)) with true by lia. reflexivity.
Qed.
Lemma parses_split d1 d2 l1 l : parses d1 l1 -> parses (d1 ++ d2) l -> exists l2, parses d2 l2 /\ l = l1 ++ l2.
Proof.
  intros H; revert l; induction H as [|ty bnd data rest l0 H1 H2 H3 IH]; intros l H; [exists l; auto|].
  destruct l as [|a t].
  - apply parses_length in H. cbn [acts_len] in H. rewrite !app_length, !le_enc_length in H. lia.
  - pose proof (parses_cons ty bnd data rest l0 H1 H2 H3) as Q.
    destruct (parses_fields _ _ Q _ _ eq_refl) as (A1 & A2 & A3 & A4 & A5 & A6 & A7).
    destruct (parses_fields _ _ H _ _ eq_refl) as (B1 & B2 & B3 & B4 & B5 & B6 & B7).
    cbn [ac_ty ac_data] in *.
    set (D := le_enc 2 ty ++ le_enc 2 (Z.of_nat (length data)) ++ bnd ++ data ++ rest) in *.
    assert (X1 : hdr_ty 0 (D ++ d2) = hdr_ty 0 D) by (unfold hdr_ty, u16_at; rewrite sub_app_l by lia; reflexivity).
    assert (X2 : hdr_len 0 (D ++ d2) = hdr_len 0 D) by (unfold hdr_len, u16_at; rewrite sub_app_l by lia; reflexivity).
    rewrite X1, A1 in B1. rewrite X2, A2 in B2. rewrite <- B2 in *.
    rewrite sub_app_l, A3 in B3 by lia. destruct a as [aty adata]. cbn [ac_ty ac_data] in *. subst aty adata.
    rewrite skipn_app in B4. replace (8 + length data - length D)%nat with 0%nat in B4 by lia. cbn [skipn] in B4.
    assert (X3 : skipn (8 + length data) D = rest).
    { unfold D. rewrite !app_assoc. apply skipn_app_exact. rewrite !app_length, !le_enc_length. lia. }
    change (skipn 0 d2) with d2 in B4. rewrite X3 in B4. apply IH in B4 as (l2 & P2 & ->).
    exists l2. split; [exact P2|reflexivity].
Qed.
Lemma updated_actions_enc op arg l new l' : Forall wf_action l -> 0 <= op <= 3 ->
  updated_actions op arg (enc_actions 0 l) = Ok new -> parses new l' -> upd_result op arg l l'.
Proof.
  intros Hl Hop H Hp. unfold updated_actions in H.
  destruct (op =? 0) eqn:E0. { inv H. left. split; [lia|exact Hp]. }
  destruct (op =? 1) eqn:E1.
  { inv H. right; left. split; [lia|]. pose proof (parses_enc 0 l Hl) as P1.
    destruct (parses_split _ _ _ _ P1 Hp) as (la & P2 & ->). exists la. split; [exact P2|reflexivity]. }
  bind_inv H. bind_inv K. inv K0.
  destruct (op =? 2) eqn:E2.
  - right; right; left. split; [lia|].
    apply (filter_loop_parses _ _ (fun a _ => negb (existsb (Z.eqb (ac_ty a)) arg)) _ _ _ _ _ l) in B;
      [|apply parses_enc; exact Hl|lia|intros a j Ha; apply (keep_types_wf l); assumption].
    destruct B as (x & -> & Px). cbn [app] in Hp. rewrite keep_if_filter in Px.
    apply (parses_det _ _ Hp _ Px).
  - right; right; right. split; [lia|]. bind_inv B.
    apply (filter_loop_parses _ _ (fun _ i => negb (existsb (Z.eqb i) (u16s arg))) _ _ _ _ _ l) in K;
      [|apply parses_enc; exact Hl|lia|reflexivity].
    destruct K as (x & -> & Px). cbn [app] in Hp.
    apply (parses_det _ _ Hp _ Px).
Qed.

(** ** Copying and validating the new permissions *)
Lemma copy_while_parses fuel acts ac start cur buf out :
  all_bytes acts -> (start <= cur)%nat -> (ac <= length acts)%nat -> (cur <= length buf)%nat ->
  copy_while fuel acts ac start cur buf = Ok out ->
  exists l, parses (skipn ac acts) l /\ (cur + acts_len l <= length buf)%nat
    /\ out = splice cur (enc_actions (cur - start) l) buf /\ laid_out l.
Proof.
  intros Hall.
  revert ac cur buf; induction fuel as [|f IH]; intros ac cur buf Hs Ha Hcb H; cbn [copy_while] in H; [discriminate|].
  destruct (ac <? length acts)%nat eqn:Eac.
  2:{ apply ok_inj in H. subst out. exists []. cbn [acts_len enc_actions]. rewrite splice_nil, skipn_all2 by lia.
      split; [constructor|split; [lia|split; [reflexivity|constructor]]]. }
  bind_inv H. bind_inv K. bind_inv K0. bind_inv K. bind_inv K0. bind_inv K.
  apply check_ok, Nat.leb_le in B. apply check_ok, Nat.leb_le in B0. apply permission_ok in B1 as [-> Bty].
  apply check_ok in B3. subst v2. apply guard_ok, Nat.leb_le in B4.
  set (n := hdr_len ac acts) in *. set (data := sub (ac + 8) n acts) in *.
  set (a := mk_action (hdr_ty ac acts) data).
  pose proof (validate_len _ _ B2) as Hal.
  assert (Ld : length data = n) by (apply sub_length; lia).
  assert (F7 : sub ac 4 acts = le_enc 2 (ac_ty a) ++ le_enc 2 (Z.of_nat n)).
  { cbn [ac_ty a]. unfold a, hdr_ty, n, hdr_len. cbn [ac_ty]. unfold nat_of. rewrite Z2Nat.id by (apply u16_bound; exact Hall).
    unfold u16_at.
    assert (G : forall k, (ac + k + 2 <= length acts)%nat -> le_enc 2 (le (sub (ac + k) 2 acts)) = sub (ac + k) 2 acts).
    { intros k Hk. pose proof (le_enc_le (sub (ac + k) 2 acts) (all_bytes_sub _ _ _ Hall)) as E.
      rewrite sub_length in E by lia. exact E. }
    pose proof (G 0%nat ltac:(lia)) as G0. rewrite Nat.add_0_r in G0. rewrite G0, (G 2%nat) by lia.
    rewrite (sub_skipn ac 2). replace ac with (ac + 0)%nat at 1 2 by lia. rewrite !sub_skipn. unfold sub. cbn [skipn].
    rewrite <- (firstn_skipn 2 (skipn ac acts)) at 1. rewrite firstn_app, firstn_firstn, firstn_length, skipn_length.
    replace (Nat.min 4 2) with 2%nat by reflexivity. replace (4 - Nat.min 2 (length acts - ac))%nat with 2%nat by lia. reflexivity. }
  assert (E : splice (cur + 8) data
                (splice (cur + 4) (le_enc 4 (Z.of_nat (cur - start + 8 + n))) (splice cur (sub ac 8 acts) buf))
              = splice cur (enc_action (cur - start) a) buf).
  { assert (E8 : sub ac 8 acts = (le_enc 2 (ac_ty a) ++ le_enc 2 (Z.of_nat n)) ++ sub (ac + 4) 4 acts).
    { rewrite <- F7. rewrite (sub_skipn ac 4). unfold sub.
      change 8%nat with (4 + 4)%nat. rewrite <- (firstn_skipn 4 (skipn ac acts)) at 1.
      rewrite firstn_app, firstn_firstn, firstn_length, skipn_length.
      replace (Nat.min (4 + 4) 4) with 4%nat by reflexivity.
      replace (4 + 4 - Nat.min 4 (length acts - ac))%nat with 4%nat by lia. reflexivity. }
    rewrite E8.
    replace (cur + 4)%nat with (cur + length (le_enc 2 (ac_ty a) ++ le_enc 2 (Z.of_nat n)))%nat
      by (rewrite app_length, !le_enc_length; reflexivity).
    rewrite splice_over.
    - replace (cur + 8)%nat with (cur + length ((le_enc 2 (ac_ty a) ++ le_enc 2 (Z.of_nat n)) ++
                                                le_enc 4 (Z.of_nat (cur - start + 8 + n))))%nat
        by (rewrite !app_length, !le_enc_length; reflexivity).
      rewrite splice_adjacent by (rewrite !app_length, !le_enc_length; lia).
      unfold enc_action. cbn [ac_data a]. unfold a; cbn [ac_data ac_ty]. rewrite Ld. rewrite <- !app_assoc. reflexivity.
    - rewrite sub_length, le_enc_length by lia. reflexivity.
    - rewrite !app_length, !le_enc_length, sub_length; lia. }
  rewrite E in K0.
  pose proof (enc_action_length (cur - start) a) as La. cbn [ac_data a] in La. unfold a in La; cbn [ac_data] in La. fold a in La.
  rewrite Ld in La.
  assert (Lb : length (splice cur (enc_action (cur - start) a) buf) = length buf)
    by (apply splice_length; lia).
  apply IH in K0; [|lia|lia|lia].
  destruct K0 as (t & K1 & K3 & K4 & K5). exists (a :: t). cbn [acts_len enc_actions].
  replace (length (ac_data a)) with n by (symmetry; exact Ld).
  rewrite Lb in K3. split; [|split; [lia|split; [|constructor; assumption]]].
  - replace (skipn ac acts) with (sub ac 4 acts ++ sub (ac + 4) 4 acts ++ data ++ skipn (ac + 8 + n) acts).
    + rewrite F7. unfold a; cbn [ac_ty]. rewrite <- Ld. rewrite <- !app_assoc. constructor; [exact Hal|apply sub_length; lia|].
      rewrite Ld. exact K1.
    + unfold data, sub. replace (ac + 8 + n)%nat with (ac + 4 + 4 + n)%nat by lia.
      replace (ac + 8)%nat with (ac + 4 + 4)%nat by lia.
      rewrite <- (skipn_skipn' n (ac + 4 + 4)), firstn_skipn.
      rewrite <- (skipn_skipn' 4 (ac + 4)), firstn_skipn.
      rewrite <- (skipn_skipn' 4 ac), firstn_skipn. reflexivity.
  - rewrite K4.
    replace (cur + 8 + n)%nat with (cur + length (enc_action (cur - start) a))%nat by lia.
    rewrite splice_adjacent by (rewrite enc_actions_length; lia).
    do 2 f_equal. f_equal. lia.
Qed.

(** ** The boundary walk *)
Lemma upd_fix_length fuel role_end diff id acts new_len cursor buf out :
  upd_fix fuel role_end diff id acts new_len cursor buf = Ok out -> length out = length buf.
Proof.
  revert cursor buf; induction fuel as [|f IH]; intros cursor buf H; cbn [upd_fix] in H; [discriminate|].
  destruct (cursor <? new_len)%nat; [|inv H; reflexivity].
  destruct (new_len <? cursor + POS)%nat; [inv H; reflexivity|].
  bind_inv H. apply guard_ok, Nat.leb_le in B. unfold POS in B.
  destruct (p_id cursor buf =? id).
  - bind_inv K. apply IH in K0. rewrite K0. lens.
  - apply IH in K. rewrite K. lens.
Qed.

Lemma upd_fix_before fuel role_end diff id acts new_len P l Q out :
  Forall wf_role l -> (forall x, In x l -> r_id x <> id) ->
  (length P + roles_size l <= role_end)%nat -> (length P + roles_size l <= new_len)%nat ->
  Z.of_nat role_end < U32 ->
  upd_fix fuel role_end diff id acts new_len (length P) (P ++ enc_roles (length P) l ++ Q) = Ok out ->
  exists f, upd_fix f role_end diff id acts new_len (length P + roles_size l) (P ++ enc_roles (length P) l ++ Q) = Ok out.
Proof.
  intros Hl; revert fuel P; induction Hl as [|r t Hr Ht IH]; intros fuel P Hi H1 H2 H3 H.
  - cbn [enc_roles roles_size] in *. rewrite Nat.add_0_r. exists fuel. exact H.
  - destruct fuel as [|f]; [discriminate|]. cbn [upd_fix enc_roles roles_size] in H, H1, H2 |- *.
    pose proof (role_len_ge r).
    replace (length P <? new_len)%nat with true in H by lia.
    replace (new_len <? length P + POS)%nat with false in H by (unfold POS; lia).
    rewrite <- !app_assoc in H. bind_inv H.
    rewrite stale_bound in K by (try assumption; try reflexivity; lia).
    rewrite stale_id in K by (try assumption; reflexivity).
    replace (r_id r =? id) with false in K
      by (symmetry; apply Z.eqb_neq; apply Hi; left; reflexivity).
    replace (Z.of_nat role_end <? Z.of_nat (length P + role_len r)) with false in K by lia.
    rewrite nat_of_nat in K. rewrite stale_fix in K by (try assumption; reflexivity).
    pose proof (enc_role_length (length P) r (wf_pad _ Hr)) as L.
    rewrite (app_assoc P) in K.
    replace (length P + role_len r)%nat with (length (P ++ enc_role (length P) r)) in K by (rewrite app_length; lia).
    apply IH in K; [|intros; apply Hi; right; assumption|rewrite app_length; lia|rewrite app_length; lia|exact H3].
    destruct K as (g & K). exists g. rewrite app_length, L in K. rewrite <- !app_assoc in K.
    rewrite <- !app_assoc. rewrite <- Nat.add_assoc in K. exact K.
Qed.

Lemma upd_fix_after fuel role_end diff id acts new_len P ost l Q out :
  Forall wf_role l -> (forall x, In x l -> r_id x <> id) ->
  (role_end <= ost)%nat -> Z.of_nat (length P) = Z.of_nat ost + diff ->
  (new_len = length P + roles_size l)%nat ->
  Z.of_nat (ost + roles_size l) < U32 -> Z.of_nat (length P + roles_size l) < U32 ->
  upd_fix fuel role_end diff id acts new_len (length P) (P ++ enc_roles ost l ++ Q) = Ok out ->
  out = P ++ enc_roles (length P) l ++ Q.
Proof.
  intros Hl; revert fuel P ost; induction Hl as [|r t Hr Ht IH]; intros fuel P ost Hi H1 H2 H3 H4 H5 H;
    (destruct fuel as [|f]; [discriminate|]); cbn [upd_fix enc_roles roles_size] in *.
  - replace (length P <? new_len)%nat with false in H by lia. apply ok_inj in H. subst. reflexivity.
  - pose proof (role_len_ge r).
    replace (length P <? new_len)%nat with true in H by lia.
    replace (new_len <? length P + POS)%nat with false in H by (unfold POS; lia).
    rewrite <- !app_assoc in H. bind_inv H.
    rewrite stale_bound in K by (try assumption; try reflexivity; lia).
    rewrite stale_id in K by (try assumption; reflexivity).
    replace (r_id r =? id) with false in K
      by (symmetry; apply Z.eqb_neq; apply Hi; left; reflexivity).
    replace (Z.of_nat role_end <? Z.of_nat (ost + role_len r)) with true in K by lia.
    replace ((Z.of_nat (ost + role_len r) + diff) mod U32) with (Z.of_nat (length P + role_len r)) in K
      by (rewrite Z.mod_small; unfold U32 in *; lia).
    rewrite nat_of_nat in K. rewrite stale_fix in K by (try assumption; reflexivity).
    pose proof (enc_role_length (length P) r (wf_pad _ Hr)) as L.
    rewrite (app_assoc P) in K.
    replace (length P + role_len r)%nat with (length (P ++ enc_role (length P) r)) in K by (rewrite app_length; lia).
    apply IH in K; [|intros; apply Hi; right; assumption|lia|rewrite app_length; lia|rewrite app_length; lia|lia|rewrite app_length; lia].
    rewrite K, app_length, L. rewrite <- !app_assoc. reflexivity.
Qed.

Lemma with_acts_wf r l : wf_role r -> wf_actions l -> wf_role (with_acts r l).
Proof. intros (H1 & H2 & H3 & H4 & H5 & H6) L. unfold wf_role, with_acts; cbn. tauto. Qed.

(** a role with the permissions replaced, before the new ones are copied in *)
Lemma enc_role_hole st r : enc_role st r
  = (h8 r ++ le_enc 4 (r_id r) ++ le_enc 4 (Z.of_nat (st + role_len r)) ++ r_auth r) ++ enc_actions 0 (r_acts r).
Proof. rewrite enc_role_parts. unfold body. rewrite <- !app_assoc. reflexivity. Qed.


Lemma set_nact r n P o X : length P = o ->
  splice (o + 4) (le_enc 2 n) (P ++ h8 r ++ X)
  = P ++ (le_enc 2 (r_aty r) ++ le_enc 2 (Z.of_nat (length (r_auth r))) ++ le_enc 2 n ++ r_pad r) ++ X.
Proof.
  intros HP. unfold h8. rewrite <- !app_assoc.
  rewrite (app_assoc P), (app_assoc (P ++ _)).
  rewrite splice_app_exact by (rewrite ?app_length, ?le_enc_length; lia).
  rewrite <- !app_assoc. reflexivity.
Qed.

Definition h16 (r : role) (e : nat) : bytes :=
  h8 r ++ le_enc 4 (r_id r) ++ le_enc 4 (Z.of_nat e) ++ r_auth r.
Lemma h16_length r e : wf_role r -> length (h16 r e) = (16 + length (r_auth r))%nat.
Proof. intros H. unfold h16. rewrite !app_length, !le_enc_length, h8_length by exact H. lia. Qed.
Lemma enc_role_h16 st r : enc_role st r = h16 r (st + role_len r) ++ enc_actions 0 (r_acts r).
Proof. rewrite enc_role_hole. reflexivity. Qed.
Lemma set_h16 r e e2 l' P o X : wf_role r -> length P = o ->
  splice (o + 4) (le_enc 2 (Z.of_nat (length l'))) (splice (o + 12) (le_enc 4 (Z.of_nat e2)) (P ++ h16 r e ++ X))
  = P ++ h16 (with_acts r l') e2 ++ X.
Proof.
  intros Hr HP. unfold h16. rewrite <- !app_assoc.
  rewrite (app_assoc P), (app_assoc (P ++ _)).
  rewrite splice_app_exact by (rewrite ?app_length, ?h8_length, ?le_enc_length by exact Hr; lia).
  rewrite <- !app_assoc. rewrite set_nact by exact HP. reflexivity.
Qed.
Lemma h16_id r e P o X : wf_role r -> length P = o -> p_id o (P ++ h16 r e ++ X) = r_id r.
Proof.
  intros Hr HP. unfold p_id, u32_at, h16. rewrite <- !app_assoc, (app_assoc P).
  rewrite sub_app_exact by (rewrite ?app_length, ?h8_length, ?le_enc_length by exact Hr; lia).
  apply le4. apply Hr.
Qed.
Lemma h16_bound r e P o X : wf_role r -> length P = o -> Z.of_nat e < U32 ->
  u32_at (o + 12) (P ++ h16 r e ++ X) = Z.of_nat e.
Proof.
  intros Hr HP He. unfold u32_at, h16. rewrite <- !app_assoc, (app_assoc P), (app_assoc (P ++ _)).
  rewrite sub_app_exact by (rewrite ?app_length, ?h8_length, ?le_enc_length by exact Hr; lia).
  apply le4. unfold is_u32. lia.
Qed.

(** the boundary walk over a table whose target role has been resized to
    [length X] bytes of permissions and whose later roles have moved *)
Lemma walk_enc fuel l1 r l2 X slack new buf2 l' :
  Forall wf_role (l1 ++ r :: l2) -> NoDup (map r_id (l1 ++ r :: l2)) ->
  parses new l' -> all_bytes new -> length X = length new ->
  let e := (roles_size l1 + role_len r)%nat in
  let e2 := (roles_size l1 + 16 + length (r_auth r) + length new)%nat in
  Z.of_nat (e + roles_size l2) < U32 -> Z.of_nat (e2 + roles_size l2) < U32 ->
  upd_fix fuel e (Z.of_nat (length new) - Z.of_nat (acts_len (r_acts r))) (r_id r) new
    (e2 + roles_size l2) 0 (enc_roles 0 l1 ++ h16 r e ++ X ++ enc_roles e l2 ++ slack) = Ok buf2 ->
  calculate_num_actions new = Ok (Z.of_nat (length l'))
  /\ (1 <= length l' <= 255)%nat
  /\ buf2 = enc_roles 0 l1 ++ h16 (with_acts r l') e2 ++ X ++ enc_roles e2 l2 ++ slack.
Proof.
  intros W Wnd Hp Hnew HX e e2 H1 H2 H.
  apply nodup_mid in Wnd as [Wn1 Wn2].
  apply Forall_app in W as [W1 W2]. inversion W2 as [|? ? Wr W3]; subst.
  pose proof (enc_roles_length 0 _ W1) as L1.
  assert (He : e = (roles_size l1 + 16 + length (r_auth r) + acts_len (r_acts r))%nat) by (unfold e, role_len; lia).
  set (D := Z.of_nat (length new) - Z.of_nat (acts_len (r_acts r))) in *.
  set (Y := X ++ enc_roles e l2 ++ slack) in *.
  destruct (upd_fix_before fuel e D (r_id r) new (e2 + roles_size l2) [] l1 (h16 r e ++ Y) buf2) as (f & Kf);
    try assumption; cbn [length Nat.add]; try lia.
  cbn [app length Nat.add] in Kf.
  destruct f as [|f]; [discriminate|]. cbn [upd_fix] in Kf.
  replace (roles_size l1 <? e2 + roles_size l2)%nat with true in Kf by lia.
  replace (e2 + roles_size l2 <? roles_size l1 + POS)%nat with false in Kf by (unfold POS; lia).
  bind_inv Kf. rewrite h16_id in K by assumption. rewrite Z.eqb_refl in K.
  rewrite h16_bound in K by (try assumption; lia).
  replace (Z.of_nat e <? Z.of_nat e) with false in K by lia.
  replace ((Z.of_nat e + D) mod U32) with (Z.of_nat e2) in K by (rewrite Z.mod_small; unfold D, U32 in *; lia).
  bind_inv K. rename v0 into n. rename B0 into Hn.
  destruct (num_actions_parses _ _ Hnew Hn) as (l0 & P1 & P2 & P3 & P4).
  pose proof (parses_det _ _ P1 _ Hp) as <-. rewrite P2 in *.
  split; [exact Hn|]. split; [exact P3|].
  rewrite set_h16 in K0 by assumption.
  unfold Y in K0.
  rewrite (app_assoc (enc_roles 0 l1)), (app_assoc (enc_roles 0 l1 ++ _)) in K0.
  set (PP := (enc_roles 0 l1 ++ h16 (with_acts r l0) e2) ++ X) in *.
  assert (LP : length PP = e2).
  { unfold PP. rewrite !app_length, L1, HX. unfold h16, h8, with_acts; cbn [r_aty r_auth r_acts r_pad r_id].
    rewrite !app_length, !le_enc_length, (wf_pad _ Wr). unfold e2. lia. }
  rewrite nat_of_nat in K0. rewrite <- LP in K0 at 2.
  apply upd_fix_after in K0; try assumption; try lia.
  rewrite K0, LP. unfold PP. rewrite <- !app_assoc. reflexivity.
Qed.

Lemma replace_all_enc l1 r l2 slack new b diff :
  Forall wf_role (l1 ++ r :: l2) -> NoDup (map r_id (l1 ++ r :: l2)) ->
  Z.of_nat (roles_size (l1 ++ r :: l2) + length slack + length new) < U32 -> all_bytes new ->
  replace_all (enc_roles 0 (l1 ++ r :: l2) ++ slack) (roles_size (l1 ++ r :: l2)) (roles_size l1)
    (roles_size l1 + 16 + length (r_auth r)) (acts_len (r_acts r)) new (r_id r) = Ok (b, diff) ->
  exists l' slack', parses new l' /\ wf_actions l'
    /\ diff = Z.of_nat (acts_len l') - Z.of_nat (acts_len (r_acts r))
    /\ b = enc_roles 0 (l1 ++ with_acts r l' :: l2) ++ slack'
    /\ length b = length (enc_roles 0 (l1 ++ r :: l2) ++ slack) /\ laid_out l'.
Proof.
  intros W Wnd Hsm Hnew H. unfold replace_all in H.
  bind_inv H. destruct v. rename B into Hdup. bind_inv K. rename v into buf2. rename B into Hb2.
  bind_inv K0. clear B. bind_inv K. rename v0 into buf3. rename B into Hcopy.
  apply ok_inj in K0. injection K0 as <- <-.
  pose proof W as W0.
  apply Forall_app in W0 as [W1 W2]. inversion W2 as [|? ? Wr W3]; subst.
  pose proof (enc_roles_length 0 _ W1) as L1.
  set (e := (roles_size l1 + role_len r)%nat).
  pose proof (enc_roles_length e _ W3) as L2.
  assert (He : e = (roles_size l1 + 16 + length (r_auth r) + acts_len (r_acts r))%nat) by (unfold e, role_len; lia).
  assert (Es : roles_size (l1 ++ r :: l2) = (e + roles_size l2)%nat) by (rewrite roles_size_app; cbn; unfold e; lia).
  rewrite Es in *.
  assert (Eb : enc_roles 0 (l1 ++ r :: l2) ++ slack
               = enc_roles 0 l1 ++ h16 r e ++ enc_actions 0 (r_acts r) ++ enc_roles e l2 ++ slack).
  { rewrite enc_roles_app. cbn [enc_roles Nat.add]. fold e. rewrite enc_role_h16. fold e. rewrite <- !app_assoc. reflexivity. }
  rewrite Eb in *. clear Eb.
  set (ao := (roles_size l1 + 16 + length (r_auth r))%nat) in *.
  pose proof (h16_length r e Wr) as L16.
  pose proof (enc_actions_length 0 (r_acts r)) as La.
  set (buf := enc_roles 0 l1 ++ h16 r e ++ enc_actions 0 (r_acts r) ++ enc_roles e l2 ++ slack) in *.
  assert (Lbuf : length buf = (e + roles_size l2 + length slack)%nat) by (unfold buf; rewrite !app_length; lia).
  set (sz := acts_len (r_acts r)) in *.
  set (D := Z.of_nat (length new) - Z.of_nat sz) in *.
  (* the intermediate buffer *)
  assert (Lb2 : length buf2 = length buf).
  { destruct (negb _) eqn:Ed in Hb2.
    - bind_inv Hb2. apply upd_fix_length in K. rewrite K. clear K.
      destruct (0 <? _)%nat eqn:Er in B.
      + bind_inv B. apply ok_inj in K. subst v0. apply splice_length.
        destruct (0 <? D) eqn:E0.
        * apply check_ok, Nat.leb_le in B0. rewrite sub_length by lia. lia.
        * apply guard_ok, Nat.leb_le in B0. rewrite sub_length by lia. unfold D in *. lia.
      + apply ok_inj in B. subst v0. reflexivity.
    - bind_inv Hb2. bind_inv K. apply ok_inj in K0. subst buf2. apply guard_ok, Nat.leb_le in B0.
      unfold POS in B0. lens. }
  assert (Hao : (ao <= length buf2)%nat) by lia.
  pose proof (copy_while_parses _ _ _ _ _ _ _ Hnew (le_n _) (Nat.le_0_l _) Hao Hcopy)
    as (l' & Pl & Pfit & Pout & Play).
  change (skipn 0 new) with new in Pl. rewrite Nat.sub_diag in Pout. rewrite Lb2 in Pfit.
  pose proof (parses_length _ _ Pl) as Pn. pose proof (reject_dup_nodup _ _ Pl Hdup) as Pd.
  pose proof (parses_wf _ _ Hnew Pl) as Pw.
  set (e2 := (ao + length new)%nat) in *.
  assert (Hshape : (1 <= length l' <= 255)%nat /\ exists X slack', length X = length new
     /\ buf2 = enc_roles 0 l1 ++ h16 (with_acts r l') e2 ++ X ++ enc_roles e2 l2 ++ slack').
  { destruct (negb _) eqn:Ed in Hb2.
    - bind_inv Hb2. rename v0 into buf1.
      replace (e + roles_size l2 - (ao + sz))%nat with (roles_size l2) in B by (unfold ao, sz; lia).
      assert (Er2 : sub (ao + sz) (roles_size l2) buf = enc_roles e l2).
      { unfold buf. rewrite (app_assoc (h16 r e)), (app_assoc (enc_roles 0 l1)).
        apply sub_app_exact; [rewrite !app_length; unfold ao; lia|exact L2]. }
      rewrite Er2 in B.
      assert (Hb1 : buf1 = splice e2 (enc_roles e l2) buf /\ (e2 + roles_size l2 <= length buf)%nat).
      { destruct (0 <? roles_size l2)%nat eqn:Er.
        - bind_inv B. apply ok_inj in K0. subst buf1. split; [reflexivity|].
          destruct (0 <? D) eqn:E0.
          + apply check_ok, Nat.leb_le in B0. unfold e2. lia.
          + apply guard_ok, Nat.leb_le in B0. unfold D, e2 in *. lia.
        - apply ok_inj in B. subst buf1.
          assert (enc_roles e l2 = []) as -> by (apply length_zero_iff_nil; lia).
          rewrite splice_nil. split; [reflexivity|]. unfold e2. lia. }
      destruct Hb1 as [-> Hfit]. clear B.
      set (Y := enc_actions 0 (r_acts r) ++ enc_roles e l2 ++ slack) in *.
      assert (Ebuf : buf = (enc_roles 0 l1 ++ h16 r e) ++ Y) by (unfold buf, Y; rewrite <- !app_assoc; reflexivity).
      assert (LF : length (enc_roles 0 l1 ++ h16 r e) = ao) by (rewrite app_length; unfold ao; lia).
      assert (LY : (length Y = length buf - ao)%nat) by (rewrite Ebuf, app_length; lia).
      assert (E1 : splice e2 (enc_roles e l2) buf
                   = enc_roles 0 l1 ++ h16 r e ++ firstn (length new) Y ++ enc_roles e l2 ++ skipn (e2 + roles_size l2) buf).
      { unfold splice. rewrite L2. rewrite Ebuf at 1. rewrite firstn_app, firstn_all2 by lia.
        rewrite LF. replace (e2 - ao)%nat with (length new) by (unfold e2; lia). rewrite <- !app_assoc. reflexivity. }
      rewrite E1 in K.
      replace (ao + sz)%nat with e in K by (unfold ao, sz; lia).
      replace (e + roles_size l2 + length new - sz)%nat with (e2 + roles_size l2)%nat in K by (unfold e2, ao, sz; lia).
      assert (LX : length (firstn (length new) Y) = length new) by (rewrite firstn_length; unfold e2 in *; lia).
      apply (walk_enc _ l1 r l2 _ _ new buf2 l') in K; try assumption.
      + destruct K as (K1 & K2 & K3). split; [exact K2|].
        eexists _, _. split; [exact LX|exact K3].
      + lia.
      + fold ao. fold e2. lia.
    - apply negb_false_iff, Z.eqb_eq in Ed. unfold D in Ed. assert (El : length new = sz) by lia.
      bind_inv Hb2. rename v0 into n. rename B into Hn. bind_inv K. apply ok_inj in K0.
      destruct (num_actions_parses _ _ Hnew Hn) as (l0 & P1 & P2 & P3 & P4).
      pose proof (parses_det _ _ P1 _ Pl) as ->. split; [exact P3|].
      exists (enc_actions 0 (r_acts r)), slack. split; [fold sz in La; lia|].
      subst buf2. rewrite P2. unfold buf.
      assert (Ee : e2 = e) by (unfold e2, ao, sz in *; lia). rewrite Ee.
      rewrite <- (set_h16 r e e l' (enc_roles 0 l1) (roles_size l1) _ Wr L1). f_equal.
      symmetry. unfold h16. rewrite <- !app_assoc. rewrite (app_assoc (enc_roles 0 l1)), (app_assoc (enc_roles 0 l1 ++ _)).
      rewrite splice_app_exact; [reflexivity| |rewrite !le_enc_length; reflexivity].
      rewrite !app_length, !le_enc_length, h8_length by exact Wr. lia. }
  destruct Hshape as (Hcnt & X & slack' & LX & Hsh).
  exists l', slack'. split; [exact Pl|]. split; [split; [exact Hcnt|split; assumption]|].
  split; [unfold D; lia|].
  assert (E3 : buf3 = enc_roles 0 (l1 ++ with_acts r l' :: l2) ++ slack').
  { rewrite Pout, Hsh. rewrite (app_assoc (enc_roles 0 l1)).
    rewrite splice_app_exact.
    - rewrite enc_roles_app. cbn [enc_roles Nat.add]. rewrite enc_role_h16.
      assert (role_len (with_acts r l') = (16 + length (r_auth r) + length new)%nat) as El
        by (unfold role_len, with_acts; cbn; lia).
      rewrite El. cbn [r_acts with_acts].
      replace (roles_size l1 + (16 + length (r_auth r) + length new))%nat with e2 by (unfold e2, ao; lia).
      rewrite <- !app_assoc. reflexivity.
    - rewrite app_length, L1. unfold h16, h8, with_acts; cbn [r_aty r_auth r_acts r_pad r_id].
      rewrite !app_length, !le_enc_length, (wf_pad _ Wr). unfold ao. lia.
    - rewrite enc_actions_length. lia. }
  split; [exact E3|]. split; [|exact Play].
  rewrite Pout. rewrite splice_length; [exact Lb2|rewrite enc_actions_length; lia].
Qed.

(** ** The whole update *)
Lemma filter_loop_bytes fuel keep acts cursor i acc out :
  all_bytes acts -> all_bytes acc -> filter_loop fuel keep acts cursor i acc = Ok out ->
  all_bytes out /\ (length out <= length acc + (length acts - cursor))%nat.
Proof.
  intros Ha; revert cursor i acc; induction fuel as [|f IH]; intros cursor i acc Hc H; cbn [filter_loop] in H; [discriminate|].
  destruct (cursor <? length acts)%nat eqn:E.
  - bind_inv H. bind_inv K. bind_inv K0. apply check_ok, Nat.leb_le in B0.
    apply IH in K.
    + destruct K as [K1 K2]. split; [exact K1|]. destruct v1; rewrite ?app_length, ?sub_length in K2 by lia; lia.
    + destruct v1; [|exact Hc]. apply all_bytes_app; split; [exact Hc|apply all_bytes_sub; exact Ha].
  - inv H. split; [exact Hc|lia].
Qed.
Lemma updated_actions_bytes op arg cur new : all_bytes arg -> all_bytes cur ->
  updated_actions op arg cur = Ok new -> all_bytes new /\ (length new <= length cur + length arg)%nat.
Proof.
  intros Ha Hc H. unfold updated_actions in H.
  destruct (op =? 0); [inv H; split; [exact Ha|lia]|].
  destruct (op =? 1). { apply ok_inj in H. subst new. split; [apply all_bytes_app; split; assumption|rewrite app_length; lia]. }
  bind_inv H. bind_inv K. inv K0.
  destruct (op =? 2).
  - apply filter_loop_bytes in B; [|exact Hc|constructor]. cbn [length] in B. destruct B. split; [assumption|lia].
  - peel B. apply filter_loop_bytes in B; [|exact Hc|constructor]. cbn [length] in B. destruct B. split; [assumption|lia].
Qed.

Lemma enc_actions_bytes o l : Forall wf_action l -> all_bytes (enc_actions o l).
Proof.
  intros H; revert o; induction H as [|a t [A1 A2] Ht IH]; intros o; cbn [enc_actions]; [constructor|].
  apply all_bytes_app; split; [|apply IH]. unfold enc_action.
  rewrite !all_bytes_app. auto using le_enc_bytes.
Qed.

Lemma apply_update_enc s l1 r l2 op arg size d4 diff :
  wf_config s -> s_roles s = l1 ++ r :: l2 -> 0 <= op <= 3 -> all_bytes arg ->
  (length (enc_config s) <= size)%nat -> Z.of_nat size + Z.of_nat (length arg) < 4000000000 ->
  apply_update (enc_config s) (enc_claimer (s_claimer s)) (roles_size (s_roles s)) (roles_size l1)
    (roles_size l1 + 16 + length (r_auth r)) (acts_len (r_acts r)) (r_id r) op arg size = Ok (d4, diff) ->
  exists l' slack, upd_result op arg (r_acts r) l' /\ wf_actions l'
    /\ diff = Z.of_nat (acts_len l') - Z.of_nat (acts_len (r_acts r))
    /\ d4 = enc_header s ++ enc_roles 0 (l1 ++ with_acts r l' :: l2) ++ slack ++ enc_claimer (s_claimer s)
    /\ length d4 = size /\ laid_out l'.
Proof.
  intros W E Hop Harg Hsz Hsm H.
  pose proof (enc_config_length s W) as Lc.
  pose proof W as (W1 & (W2 & W2') & W3 & W4 & W5 & W6 & W7 & W8 & W9 & W10 & W11 & W12 & W13).
  pose proof (enc_header_length s W2 W5) as Lh. pose proof (enc_roles_length 0 _ W8) as Lr.
  set (T := enc_claimer (s_claimer s)) in *.
  set (R := enc_roles 0 (s_roles s)) in *.
  assert (Lt : (length (enc_config s) = 48 + roles_size (s_roles s) + length T)%nat)
    by (unfold enc_config; fold R T; rewrite !app_length; unfold HDR in Lh; lia).
  unfold apply_update in H.
  set (k := (size - length (enc_config s))%nat).
  assert (E2 : resize_bytes size (enc_config s) = enc_header s ++ R ++ T ++ zeros k).
  { unfold resize_bytes. destruct (size <=? _)%nat eqn:El.
    - assert (size = length (enc_config s)) as -> by lia. rewrite firstn_all. unfold k.
      rewrite Nat.sub_diag. cbn [zeros repeat]. unfold zeros. cbn [repeat]. rewrite app_nil_r. reflexivity.
    - unfold enc_config. fold R T. fold k. rewrite <- !app_assoc. unfold k, enc_config. reflexivity. }
  rewrite E2 in H. clear E2.
  bind_inv H. clear B.
  assert (L2 : length (enc_header s ++ R ++ T ++ zeros k) = size).
  { rewrite !app_length, zeros_length. unfold k. unfold HDR in Lh. lia. }
  rewrite L2 in K.
  assert (E3 : restore_at T (size - length T) (enc_header s ++ R ++ T ++ zeros k)
          = Ok (enc_header s ++ R ++ firstn k (T ++ zeros k) ++ T)).
  { unfold restore_at. destruct T as [|t0 t] eqn:ET.
    - cbn [app]. rewrite app_nil_r, firstn_all2 by (rewrite zeros_length; lia). reflexivity.
    - rewrite <- ET in *. replace (size - length T + length T <=? _)%nat with true.
      2:{ symmetry. apply Nat.leb_le. rewrite L2. lia. }
      cbn [check bind]. f_equal.
      replace (enc_header s ++ R ++ T ++ zeros k)
        with ((enc_header s ++ R ++ firstn k (T ++ zeros k)) ++ skipn k (T ++ zeros k) ++ []).
      + rewrite splice_app_exact; [rewrite <- !app_assoc, app_nil_r; reflexivity| |].
        * rewrite !app_length, firstn_length, app_length, zeros_length. unfold HDR in Lh. unfold k. lia.
        * rewrite skipn_length, app_length, zeros_length. lia.
      + rewrite app_nil_r, <- !app_assoc, firstn_skipn. reflexivity. }
  rewrite E3 in K. cbn [bind] in K.
  set (S0 := firstn k (T ++ zeros k)) in *.
  assert (LS : length S0 = k) by (unfold S0; rewrite firstn_length, app_length, zeros_length; lia).
  assert (L3 : length (enc_header s ++ R ++ S0 ++ T) = size).
  { rewrite !app_length. unfold k in LS. unfold HDR in Lh. lia. }
  rewrite L3 in K.
  assert (Ecap : (size - HDR - length T = length (R ++ S0))%nat).
  { rewrite app_length. unfold HDR, k in *. lia. }
  rewrite Ecap in K.
  assert (Eb : sub HDR (length (R ++ S0)) (enc_header s ++ R ++ S0 ++ T) = R ++ S0).
  { rewrite (app_assoc R). apply sub_app_exact; [exact Lh|reflexivity]. }
  rewrite Eb in K. bind_inv K. clear B. bind_inv K0. rename B into Hnew. bind_inv K.
  destruct v2 as [b df]. rename B into Hrep. apply ok_inj in K0.
  apply pair_equal_spec in K0 as [K0 ->].
  assert (Ec : sub (roles_size l1 + 16 + length (r_auth r)) (acts_len (r_acts r)) (R ++ S0) = enc_actions 0 (r_acts r)).
  { unfold R. rewrite E, enc_roles_app. cbn [enc_roles]. rewrite enc_role_h16.
    pose proof W8 as W8'. rewrite E in W8'. apply Forall_app in W8' as [X1 X2]. pose proof (Forall_inv X2) as Xr.
    rewrite <- !app_assoc. rewrite (app_assoc (enc_roles 0 l1)).
    apply sub_app_exact; [rewrite app_length, (enc_roles_length 0 _ X1), h16_length by exact Xr; lia|apply enc_actions_length]. }
  rewrite Ec in Hnew.
  assert (Wr : wf_role r). { rewrite E in W8. apply Forall_app in W8 as [_ X]. inversion X; assumption. }
  assert (Wa : Forall wf_action (r_acts r)) by apply Wr.
  destruct (updated_actions_bytes _ _ _ _ Harg (enc_actions_bytes 0 _ Wa) Hnew) as [Bn Ln].
  rewrite enc_actions_length in Ln.
  assert (Hro : (acts_len (r_acts r) <= roles_size (s_roles s))%nat).
  { rewrite E, roles_size_app. cbn [roles_size]. unfold role_len. lia. }
  unfold R in Hrep. rewrite E in Hrep.
  apply replace_all_enc in Hrep; [| rewrite <- E; exact W8|unfold ids in W9; rewrite E in W9; exact W9| |exact Bn].
  2:{ rewrite <- E, LS. unfold U32, k. lia. }
  destruct Hrep as (l' & slack & P1 & P2 & P3 & P4 & P5 & P6).
  exists l', slack.
  split; [apply (updated_actions_enc _ _ _ v1); assumption|]. split; [exact P2|]. split; [exact P3|].
  rewrite firstn_app_exact in K0 by exact Lh.
  rewrite (app_assoc R), (app_assoc (enc_header s) (R ++ S0) T) in K0.
  rewrite skipn_app_exact in K0 by (rewrite app_length, Lh; reflexivity).
  rewrite <- K0. split; [rewrite P4, <- !app_assoc; reflexivity|]. split; [|exact P6].
  rewrite !app_length. rewrite P5, <- E. fold R. rewrite !app_length in L3. rewrite app_length. lia.
Qed.

Lemma wf_config_acts s l1 r l2 l' : wf_config s -> s_roles s = l1 ++ r :: l2 -> wf_actions l' ->
  Z.of_nat (length (enc_config (with_roles s (l1 ++ with_acts r l' :: l2)))) <= 10485760 ->
  wf_config (with_roles s (l1 ++ with_acts r l' :: l2)).
Proof.
  intros W E Wa Hlen.
  destruct W as (W1 & (W2 & W2') & W3 & W4 & W5 & W6 & W7 & W8 & W9 & W10 & W11 & W12 & W13).
  assert (I : ids (with_roles s (l1 ++ with_acts r l' :: l2)) = ids s).
  { unfold ids. cbn [with_roles s_roles]. rewrite E, !map_app. reflexivity. }
  assert (Wr : Forall wf_role (l1 ++ with_acts r l' :: l2)).
  { rewrite E in W8. apply Forall_app in W8 as [X1 X2]. inversion X2 as [|? ? Xr X3]; subst.
    apply Forall_app; split; [exact X1|]. constructor; [apply with_acts_wf; assumption|exact X3]. }
  unfold wf_config. rewrite I.
  cbn [with_roles s_bump s_id s_counter s_wbump s_pad s_subctr s_roles s_claimer].
  assert (length (l1 ++ with_acts r l' :: l2) = length (s_roles s)) as -> by (rewrite E, !app_length; reflexivity).
  unfold wf_key. tauto.
Qed.

Lemma acts_len_pos l : (1 <= length l)%nat -> (8 <= acts_len l)%nat.
Proof. destruct l; cbn; lia. Qed.

Lemma diff_8 l l' : Forall wf_action l -> Forall wf_action l' ->
  exists k j, acts_len l = (8 * k)%nat /\ acts_len l' = (8 * j)%nat.
Proof. intros H1 H2. apply acts_len_8 in H1 as [k ->]. apply acts_len_8 in H2 as [j ->]. eauto. Qed.

Lemma upd_result_len op arg l l' : upd_result op arg l l' ->
  (op = 0 -> acts_len l' = length arg) /\ (op = 1 -> acts_len l' = (acts_len l + length arg)%nat)
  /\ (op = 2 \/ op = 3 -> (acts_len l' <= acts_len l)%nat).
Proof.
  assert (K : forall f i l, (acts_len (keep_if f i l) <= acts_len l)%nat).
  { intros f i l0; revert i; induction l0 as [|a t IH]; intros i; cbn; [lia|].
    destruct (f a i); cbn; pose proof (IH (i + 1)); lia. }
  assert (A : forall a b, acts_len (a ++ b) = (acts_len a + acts_len b)%nat).
  { intros a b; induction a; cbn; lia. }
  intros [[-> H]|[[-> (la & H & ->)]|[[-> ->]|[-> ->]]]]; repeat split; intros; try lia;
    try (apply parses_length in H); rewrite ?A; try lia.
  - unfold drop_types. rewrite <- (keep_if_filter _ 0). apply K.
  - apply K.
Qed.

(** AddActions by another handler (no final resize): the result is already the layout *)
Lemma append_actions_enc s id new d :
  wf_config s -> all_bytes new -> Z.of_nat (length new) < 1000000 ->
  append_actions (enc_config s) id new = Ok d ->
  exists r la, find_role id s = Some r /\ parses new la /\ wf_actions (r_acts r ++ la)
    /\ d = enc_config (on_role id (fun r => with_acts r (r_acts r ++ la)) s)
    /\ (Z.of_nat (length d) <= 10485760 -> wf_config (on_role id (fun r => with_acts r (r_acts r ++ la)) s))
    /\ laid_out (r_acts r ++ la).
Proof.
  intros W Hb Hl H. unfold append_actions in H.
  pose proof (wf_roles_small s W) as Hsm.
  pose proof W as (W1 & (W2 & W2') & W3 & W4 & W5 & W6 & W7 & W8 & W9 & W10 & W11 & W12 & W13).
  bind_inv H. bind_inv K. clear B B0. rewrite split_parts_enc in K0 by exact W. cbn [bind] in K0.
  rewrite take_tail_enc in K0 by exact W13. cbn [bind] in K0.
  replace (h_roles (enc_header s)) with (Z.of_nat (length (s_roles s))) in K0.
  2:{ symmetry. pose proof (hf_roles s W2 W5 [] W11) as X. rewrite app_nil_r in X. exact X. }
  rewrite nat_of_nat in K0.
  rewrite find_offsets_at in K0; [|exact W8| |cbn; lia].
  2:{ pose proof (roles_at_enc (s_roles s) [] W8) as X. rewrite app_nil_r in X. exact X. }
  destruct (pos_of id 0 (s_roles s)) as [[p r]|] eqn:Ep; cbn [bind] in K0; [|discriminate].
  destruct (pos_of_split _ _ _ _ _ Ep) as (l1 & l2 & Es & Eo & Ei & Hn). cbn in Eo. subst p id.
  rewrite (enc_roles_length 0 _ W8) in K0.
  bind_inv K0. destruct v1 as [d4 df]. apply ok_inj in K. subst d4.
  pose proof (enc_config_length s W) as Lc.
  assert (Hsize : (length (enc_config s) <= (if (0 <? length new)%nat then align8 (length (enc_config s) + length new) else length (enc_config s)))%nat
     /\ Z.of_nat (if (0 <? length new)%nat then align8 (length (enc_config s) + length new) else length (enc_config s)) + Z.of_nat (length new) < 4000000000).
  { destruct (0 <? length new)%nat; [|lia]. unfold align8.
    pose proof (Nat.div_mod (length (enc_config s) + length new + 7) 8 ltac:(discriminate)).
    pose proof (Nat.mod_upper_bound (length (enc_config s) + length new + 7) 8 ltac:(discriminate)). lia. }
  destruct Hsize as [Hs1 Hs2].
  eapply apply_update_enc in B; [|exact W|exact Es|lia|exact Hb|exact Hs1|exact Hs2].
  destruct B as (l' & slack & P1 & P2 & P3 & P4 & P5 & P6).
  destruct (upd_result_len _ _ _ _ P1) as (_ & U1 & _). specialize (U1 eq_refl).
  destruct P1 as [[? _]|[[_ (la & P1 & ->)]|[[? _]|[? _]]]]; try discriminate.
  exists r, la.
  assert (Hf : find_role (r_id r) s = Some r). { apply pos_find in Ep. exact Ep. }
  split; [exact Hf|]. split; [exact P1|]. split; [exact P2|].
  pose proof (on_role_split (fun r => with_acts r (r_acts r ++ la)) s l1 r l2 W9 Es) as EO. cbn beta in EO. rewrite EO.
  set (s' := with_roles s (l1 ++ with_acts r (r_acts r ++ la) :: l2)) in *.
  assert (Wr' : Forall wf_role (l1 ++ with_acts r (r_acts r ++ la) :: l2)).
  { rewrite Es in W8. apply Forall_app in W8 as [X1 X2]. inversion X2 as [|? ? Xr X3]; subst.
    apply Forall_app; split; [exact X1|]. constructor; [apply with_acts_wf; assumption|exact X3]. }
  assert (Wr : wf_role r). { rewrite Es in W8. apply Forall_app in W8 as [_ X]. inversion X; assumption. }
  assert (Hh : enc_header s' = enc_header s).
  { unfold s'. apply enc_header_roles. rewrite Es, !app_length. reflexivity. }
  assert (D : d = enc_config s').
  { assert (slack = []) as ->.
    { apply length_zero_iff_nil.
      assert (Lsz : (if (0 <? length new)%nat then align8 (length (enc_config s) + length new) else length (enc_config s)) = (length (enc_config s) + length new)%nat).
      { destruct (0 <? length new)%nat eqn:E0; [|lia].
        destruct (enc_config_8 s W) as [k1 E1].
        destruct (diff_8 (r_acts r) (r_acts r ++ la)) as (k2 & k3 & E2 & E3); [apply Wr|apply P2|].
        replace (length (enc_config s) + length new)%nat with (8 * (k1 + k3 - k2))%nat by lia. apply align8_id. }
      rewrite Lsz in P5. rewrite P4 in P5.
      rewrite !app_length, enc_header_length, enc_roles_length in P5 by assumption.
      rewrite Lc in P5. rewrite Es, !roles_size_app in P5. cbn [roles_size] in P5.
      assert (role_len (with_acts r (r_acts r ++ la)) = role_len r + length new)%nat by (unfold role_len, with_acts; cbn; lia).
      lia. }
    cbn [app] in P4. rewrite P4. unfold enc_config. rewrite Hh. reflexivity. }
  split; [exact D|]. split; [|exact P6]. intros Hd. apply wf_config_acts; try assumption. fold s'. rewrite <- D. exact Hd.
Qed.

(** the end of UpdateAuthority: shrink to the exact size and put the claimer back *)
Lemma update_seal_enc s l1 r l2 op arg size d4 diff d5 :
  wf_config s -> s_roles s = l1 ++ r :: l2 -> 0 <= op <= 3 -> all_bytes arg -> Z.of_nat (length arg) < 65536 ->
  let pre := if op =? 0 then Z.of_nat (length arg) - Z.of_nat (acts_len (r_acts r))
             else if op =? 1 then Z.of_nat (length arg) else 0 in
  size = (if 0 <? pre then align8 (length (enc_config s) + nat_of pre) else length (enc_config s)) ->
  apply_update (enc_config s) (enc_claimer (s_claimer s)) (roles_size (s_roles s)) (roles_size l1)
    (roles_size l1 + 16 + length (r_auth r)) (acts_len (r_acts r)) (r_id r) op arg size = Ok (d4, diff) ->
  seal_tail (enc_claimer (s_claimer s))
    (resize_bytes (if diff <? 0 then align8 (nat_of (Z.of_nat size + diff)) else size) d4) = Ok d5 ->
  exists l', upd_result op arg (r_acts r) l' /\ wf_actions l'
    /\ diff = Z.of_nat (acts_len l') - Z.of_nat (acts_len (r_acts r))
    /\ d5 = enc_config (on_role (r_id r) (fun r => with_acts r l') s)
    /\ length d5 = (if diff <? 0 then align8 (nat_of (Z.of_nat size + diff)) else size)
    /\ (Z.of_nat (length d5) <= 10485760 -> wf_config (on_role (r_id r) (fun r => with_acts r l') s))
    /\ laid_out l'.
Proof.
  intros W Es Hop Hb Hl pre Hsize H Hseal.
  pose proof (wf_roles_small s W) as Hsm.
  pose proof W as (W1 & (W2 & W2') & W3 & W4 & W5 & W6 & W7 & W8 & W9 & W10 & W11 & W12 & W13).
  pose proof (enc_config_length s W) as Lc.
  assert (Hro : (acts_len (r_acts r) <= roles_size (s_roles s))%nat).
  { rewrite Es, roles_size_app. cbn [roles_size]. unfold role_len. lia. }
  assert (Hpre : pre <= Z.of_nat (length arg)) by (unfold pre; destruct (op =? 0), (op =? 1); lia).
  assert (Hs : (length (enc_config s) <= size)%nat /\ Z.of_nat size + Z.of_nat (length arg) < 4000000000).
  { rewrite Hsize. destruct (0 <? pre) eqn:E0; [|lia]. unfold align8.
    pose proof (Nat.div_mod (length (enc_config s) + nat_of pre + 7) 8 ltac:(discriminate)).
    pose proof (Nat.mod_upper_bound (length (enc_config s) + nat_of pre + 7) 8 ltac:(discriminate)).
    unfold nat_of in *. lia. }
  eapply apply_update_enc in H; [|exact W|exact Es|exact Hop|exact Hb|apply Hs|apply Hs].
  destruct H as (l' & slack & P1 & P2 & P3 & P4 & P5 & P6).
  destruct (upd_result_len _ _ _ _ P1) as (U0 & U1 & U2).
  exists l'. split; [exact P1|]. split; [exact P2|]. split; [exact P3|].
  assert (Wr : wf_role r). { rewrite Es in W8. apply Forall_app in W8 as [_ X]. inversion X; assumption. }
  assert (Wr' : Forall wf_role (l1 ++ with_acts r l' :: l2)).
  { rewrite Es in W8. apply Forall_app in W8 as [X1 X2]. inversion X2 as [|? ? Xr X3]; subst.
    apply Forall_app; split; [exact X1|]. constructor; [apply with_acts_wf; assumption|exact X3]. }
  destruct (enc_config_8 s W) as [k1 E1].
  destruct (diff_8 (r_acts r) l') as (k2 & k3 & E2 & E3); [apply Wr|apply P2|].
  set (size5 := if diff <? 0 then align8 (nat_of (Z.of_nat size + diff)) else size) in *.
  assert (Hs5 : Z.of_nat size5 = Z.of_nat (length (enc_config s)) + diff /\ (size5 <= size)%nat).
  { unfold size5. assert (Hcase : (0 < pre /\ diff = pre) \/ (pre <= 0 /\ diff <= 0)).
    { unfold pre. destruct (op =? 0) eqn:O0; [rewrite P3, U0 by lia; lia|].
      destruct (op =? 1) eqn:O1; [rewrite P3, U1 by lia; lia|].
      specialize (U2 ltac:(lia)). lia. }
    destruct Hcase as [[C1 C2]|[C1 C2]].
    - replace (0 <? pre) with true in Hsize by lia. replace (diff <? 0) with false by lia.
      assert (length (enc_config s) + nat_of pre = 8 * (k1 + k3 - k2))%nat as Q by (unfold nat_of; lia).
      rewrite Q, align8_id in Hsize. unfold nat_of in Q. lia.
    - replace (0 <? pre) with false in Hsize by lia. subst size.
      destruct (diff <? 0) eqn:D0; [|lia].
      assert (nat_of (Z.of_nat (length (enc_config s)) + diff) = 8 * (k1 + k3 - k2))%nat as Q by (unfold nat_of; lia).
      rewrite Q, align8_id. unfold nat_of in Q. lia. }
  destruct Hs5 as [Hs5 Hle].
  assert (Er : resize_bytes size5 d4 = firstn size5 d4).
  { unfold resize_bytes. replace (size5 <=? length d4)%nat with true by lia. reflexivity. }
  rewrite Er in Hseal.
  pose proof (on_role_split (fun r => with_acts r l') s l1 r l2 W9 Es) as EO. cbn beta in EO. rewrite EO.
  set (s' := with_roles s (l1 ++ with_acts r l' :: l2)) in *.
  assert (Hh : enc_header s' = enc_header s).
  { unfold s'. apply enc_header_roles. rewrite Es, !app_length. reflexivity. }
  set (T := enc_claimer (s_claimer s)) in *.
  assert (Lr' : length (enc_roles 0 (l1 ++ with_acts r l' :: l2)) = (roles_size (s_roles s) + acts_len l' - acts_len (r_acts r))%nat).
  { rewrite enc_roles_length by assumption. rewrite Es, !roles_size_app. cbn [roles_size].
    unfold role_len, with_acts; cbn [r_auth r_acts]. lia. }
  pose proof (enc_header_length s W2 W5) as Lh.
  set (X := firstn (length T) (slack ++ T)).
  assert (LX : length X = length T) by (unfold X; rewrite firstn_length, app_length; lia).
  assert (Ef : firstn size5 d4 = enc_header s' ++ enc_roles 0 (s_roles s') ++ X).
  { rewrite P4, Hh. unfold s'; cbn [with_roles s_roles]. rewrite (app_assoc (enc_header s)).
    rewrite firstn_app, firstn_all2 by (rewrite app_length; lia). rewrite <- app_assoc. do 3 f_equal.
    unfold X. f_equal. rewrite app_length. lia. }
  rewrite Ef in Hseal.
  assert (Hpre' : pre_ok s').
  { unfold pre_ok, s'. cbn [with_roles s_id s_pad s_roles].
    assert (length (l1 ++ with_acts r l' :: l2) = length (s_roles s)) as -> by (rewrite Es, !app_length; reflexivity).
    split; [exact W2|]. split; [exact W5|]. split; [exact Wr'|]. split; [exact W11|].
    rewrite <- (enc_roles_length 0 _ Wr'), Lr'. unfold U32 in *. lia. }
  apply seal_tail_enc in Hseal; [|exact Hpre'|lia].
  rewrite LX, Nat.sub_diag in Hseal. unfold zeros in Hseal. cbn [repeat] in Hseal. rewrite app_nil_r in Hseal.
  assert (D5 : d5 = enc_config s') by exact Hseal.
  split; [exact D5|]. split; [|split; [|exact P6]].
  - rewrite Hseal, !app_length, Hh. unfold s'; cbn [with_roles s_roles]. lia.
  - intros Hd. apply wf_config_acts; try assumption. fold s'. rewrite <- D5. exact Hd.
Qed.
