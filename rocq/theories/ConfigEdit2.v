(** * Editing configurations, continued: removal, permission updates,
    credential replacement, in-place edits, tail. *)
From Verif Require Import BaseFacts Actions Limits Authority Roles Env Handlers SpecConfig LimitsFacts ConfigFacts ConfigEdit.

Lemma ok_inj {A} (a b : A) : Ok a = Ok b -> a = b.
Proof. congruence. Qed.

(** ** A role whose boundary word may be stale *)
Definition h8 (r : role) : bytes :=
  le_enc 2 (r_aty r) ++ le_enc 2 (Z.of_nat (length (r_auth r)))
  ++ le_enc 2 (Z.of_nat (length (r_acts r))) ++ r_pad r.
Definition body (r : role) : bytes := r_auth r ++ enc_actions 0 (r_acts r).
Lemma enc_role_parts st r :
  enc_role st r = h8 r ++ le_enc 4 (r_id r) ++ le_enc 4 (Z.of_nat (st + role_len r)) ++ body r.
Proof. unfold enc_role, h8, body. rewrite <- !app_assoc. reflexivity. Qed.
Lemma h8_length r : wf_role r -> length (h8 r) = 8%nat.
Proof. intros H. unfold h8. rewrite !app_length, !le_enc_length, wf_pad by exact H. reflexivity. Qed.

Section Stale.
  Variables (P Q : bytes) (st o : nat) (r : role).
  Hypothesis HP : length P = o.
  Hypothesis Hr : wf_role r.
  Lemma stale_id : p_id o (P ++ enc_role st r ++ Q) = r_id r.
  Proof.
    unfold p_id, u32_at. rewrite enc_role_parts, <- !app_assoc, (app_assoc P).
    rewrite sub_app_exact by (rewrite ?app_length, ?h8_length, ?le_enc_length by exact Hr; lia).
    apply le4. apply Hr.
  Qed.
  Lemma stale_bound : Z.of_nat (st + role_len r) < U32 ->
    u32_at (o + 12) (P ++ enc_role st r ++ Q) = Z.of_nat (st + role_len r).
  Proof.
    intros H. unfold u32_at. rewrite enc_role_parts, <- !app_assoc, (app_assoc P), (app_assoc (P ++ _)).
    rewrite sub_app_exact by (rewrite ?app_length, ?h8_length, ?le_enc_length by exact Hr; lia).
    apply le4. unfold is_u32. lia.
  Qed.
  Lemma stale_fix st2 : splice (o + 12) (le_enc 4 (Z.of_nat (st2 + role_len r))) (P ++ enc_role st r ++ Q)
                        = P ++ enc_role st2 r ++ Q.
  Proof.
    rewrite !enc_role_parts, <- !app_assoc. rewrite (app_assoc P), (app_assoc (P ++ _)).
    rewrite splice_app_exact by (rewrite ?app_length, ?h8_length, ?le_enc_length by exact Hr; lia).
    rewrite <- !app_assoc. reflexivity.
  Qed.
End Stale.

(** ** Removing *)
Lemma remove_scan_at n i o buf l found :
  Forall wf_role l -> roles_at o buf l -> length buf = (o + roles_size l)%nat ->
  Z.of_nat (length buf) < U32 -> n = length l ->
  exists f, remove_scan n i buf o found = Ok f
    /\ (forall p r, pos_of i o l = Some (p, r) -> NoDup (map r_id l) -> f = Some (p, (p + role_len r)%nat))
    /\ (pos_of i o l = None -> f = found).
Proof.
  intros Hl; revert n o found; induction Hl as [|r t Hr Ht IH]; intros n o found Hat Hlen Hsm ->;
    cbn [remove_scan length pos_of].
  - exists found. split; [reflexivity|]. split; [discriminate|reflexivity].
  - cbn in Hlen, Hat. destruct Hat as [H1 H2]. pose proof (role_len_ge r). pose proof (role_at_le _ _ _ H1).
    replace (length buf <=? o)%nat with false by lia.
    replace (o + POS <=? length buf)%nat with true by (unfold POS; lia). cbn [check bind].
    rewrite (fld_bound o buf r) by (try assumption; lia).
    rewrite (fld_id o buf r) by (try assumption; lia).
    replace (o + role_len r <=? length buf)%nat with true by lia. cbn [check bind].
    destruct (IH (length t) (o + role_len r)%nat
                (if r_id r =? i then Some (o, (o + role_len r)%nat) else found)) as (f & F1 & F2 & F3);
      try assumption; try lia.
    exists f. split; [exact F1|].
    destruct (r_id r =? i) eqn:E.
    + split; [|discriminate]. intros p r' Hp Hnd. injection Hp as <- <-.
      cbn in Hnd. inv Hnd. apply F3.
      destruct (pos_of i (o + role_len r) t) as [[p' r'']|] eqn:E2; [|reflexivity].
      apply pos_of_split in E2 as (l1 & l2 & -> & _ & E3 & _). exfalso. apply H5.
      rewrite map_app. apply in_or_app. right. left. lia.
    + split; [|exact F3]. intros p r' Hp Hnd. cbn in Hnd. inv Hnd. apply F2; assumption.
Qed.

Lemma remove_fix_shift fuel size P l Q :
  Forall wf_role l -> (length l < fuel)%nat -> (0 < size)%nat ->
  Z.of_nat (length P + size + roles_size l) < U32 ->
  remove_fix fuel size (length P) (length P + roles_size l) (P ++ enc_roles (length P + size) l ++ Q)
  = Ok (P ++ enc_roles (length P) l ++ Q).
Proof.
  intros Hl; revert fuel P; induction Hl as [|r t Hr Ht IH]; intros fuel P Hf Hs Hsm;
    (destruct fuel as [|f]; [cbn in Hf; lia|]); cbn [remove_fix].
  - cbn. replace (length P <? length P + 0)%nat with false by lia. reflexivity.
  - cbn [enc_roles roles_size length] in *. rewrite <- !app_assoc. pose proof (role_len_ge r).
    replace (length P <? length P + (role_len r + roles_size t))%nat with true by lia.
    match goal with |- context [(?a <=? length ?b)%nat] => replace (a <=? length b)%nat with true end.
    2:{ rewrite !app_length, enc_role_length by (apply wf_pad; exact Hr). unfold POS; lia. }
    unfold p_bound. rewrite stale_bound by (try assumption; try reflexivity; lia). rewrite nat_of_nat.
    replace (size <? length P + size + role_len r)%nat with true by lia.
    replace (length P + size + role_len r - size)%nat with (length P + role_len r)%nat by lia.
    rewrite stale_fix by (try assumption; reflexivity).
    pose proof (enc_role_length (length P) r (wf_pad _ Hr)) as L.
    rewrite (app_assoc P (enc_role (length P) r)).
    replace (length P + role_len r)%nat with (length (P ++ enc_role (length P) r)) by (rewrite app_length; lia).
    replace (length P + (role_len r + roles_size t))%nat
      with (length (P ++ enc_role (length P) r) + roles_size t)%nat by (rewrite app_length; lia).
    replace (length P + size + role_len r)%nat
      with (length (P ++ enc_role (length P) r) + size)%nat by (rewrite app_length; lia).
    rewrite IH by (rewrite ?app_length; lia). rewrite <- !app_assoc. reflexivity.
Qed.

Lemma remove_role_enc s l1 r l2 :
  Forall wf_role (s_roles s) -> length (s_id s) = 32%nat -> length (s_pad s) = 3%nat ->
  Z.of_nat (length (s_roles s)) < 65536 -> NoDup (ids s) ->
  Z.of_nat (roles_size (s_roles s)) < U32 -> s_roles s = l1 ++ r :: l2 ->
  remove_role (enc_header s) (enc_roles 0 (s_roles s)) (r_id r)
  = Ok (enc_header (with_roles s (l1 ++ l2)), enc_roles 0 (l1 ++ l2) ++ zeros (role_len r), role_len r).
Proof.
  intros Wr Wid Wpad Wn Wnd Hsm El. unfold remove_role.
  assert (Hr : h_roles (enc_header s) = Z.of_nat (length (s_roles s)))
    by (rewrite <- (app_nil_r (enc_header s)); apply hf_roles; assumption).
  rewrite Hr, nat_of_nat. pose proof (enc_roles_length 0 _ Wr) as HL.
  pose proof (roles_at_enc _ [] Wr) as Hat. rewrite app_nil_r in Hat.
  destruct (remove_scan_at (length (s_roles s)) (r_id r) 0 (enc_roles 0 (s_roles s)) (s_roles s) None)
    as (f & F1 & F2 & _); try assumption; try lia; try reflexivity.
  rewrite F1. cbn [bind]. clear F1.
  assert (Hp : pos_of (r_id r) 0 (s_roles s) = Some (roles_size l1, r)).
  { unfold ids in Wnd. rewrite El in Wnd |- *. clear - Wnd. change (roles_size l1) with (0 + roles_size l1)%nat.
    generalize 0%nat as o. induction l1 as [|x t IH]; intros o; cbn.
    - rewrite Z.eqb_refl. do 2 f_equal. lia.
    - cbn in Wnd. inv Wnd. replace (r_id x =? r_id r) with false.
      + rewrite IH by assumption. do 2 f_equal. lia.
      + symmetry. apply Z.eqb_neq. intros E. apply H1. rewrite E, map_app. apply in_or_app. right; left; reflexivity. }
  rewrite (F2 _ _ Hp Wnd). clear F2 Hp f.
  replace (roles_size l1 <=? roles_size l1 + role_len r)%nat with true by lia. cbn [guard bind].
  replace (roles_size l1 + role_len r - roles_size l1)%nat with (role_len r) by lia.
  rewrite El in Wr, HL, Hsm |- *. rewrite roles_size_app in HL, Hsm. cbn [roles_size] in HL, Hsm.
  apply Forall_app in Wr as [W1 W2]. inversion W2 as [|? ? W3 W4]; subst.
  set (n := role_len r) in *. pose proof (role_len_ge r). fold n in H.
  pose proof (enc_roles_length 0 _ W1) as L1.
  rewrite enc_roles_app. cbn [enc_roles Nat.add]. fold n.
  pose proof (enc_role_length (roles_size l1) r (wf_pad _ W3)) as Lr. fold n in Lr.
  pose proof (enc_roles_length (roles_size l1 + n) _ W4) as L2.
  rewrite (app_assoc (enc_roles 0 l1)).
  rewrite (skipn_app_exact (roles_size l1 + n)) by (rewrite app_length; lia).
  rewrite <- (app_assoc (enc_roles 0 l1)).
  set (R := enc_roles (roles_size l1 + n) l2) in *. set (P := enc_roles 0 l1) in *.
  assert (Hbuf1 : exists Q, splice (roles_size l1) R (P ++ enc_role (roles_size l1) r ++ R) = P ++ R ++ Q /\ length Q = n).
  { exists (skipn (roles_size l1 + length R) (P ++ enc_role (roles_size l1) r ++ R)).
    split; [|rewrite skipn_length, !app_length; lia].
    unfold splice. rewrite firstn_app_exact by exact L1. reflexivity. }
  destruct Hbuf1 as (Q & -> & LQ). rewrite L2. unfold R. rewrite <- !L1.
  rewrite <- L1 in Hsm.
  rewrite remove_fix_shift; [|exact W4| |lia|rewrite <- Nat.add_assoc; exact Hsm].
  2:{ rewrite !app_length, (enc_roles_length _ _ W4). pose proof (roles_size_ge l2). lia. }
  cbn [bind]. f_equal. f_equal. f_equal.
  - rewrite header_set_roles by assumption. unfold enc_header, with_roles; cbn [s_bump s_id s_roles s_counter s_wbump s_pad s_subctr].
    rewrite !app_length. cbn [length].
    replace ((Z.of_nat (length l1 + S (length l2)) - 1) mod U16) with (Z.of_nat (length l1 + length l2)); [reflexivity|].
    rewrite El, app_length in Wn. cbn [length] in Wn. unfold U16. rewrite Z.mod_small; lia.
  - rewrite enc_roles_app. cbn [Nat.add]. fold P. rewrite <- L1.
    rewrite (app_assoc P (enc_roles (length P) l2) Q). f_equal. apply firstn_app_exact.
    rewrite !app_length, !(enc_roles_length _ _ W4). rewrite <- L1 in Lr. lia.
Qed.

(** ** Roles by id *)
Lemma find_split i s r : find_role i s = Some r ->
  exists l1 l2, s_roles s = l1 ++ r :: l2 /\ r_id r = i /\ pos_of i 0 (s_roles s) = Some (roles_size l1, r).
Proof.
  unfold find_role. intros H. rewrite <- (pos_of_find i 0) in H.
  destruct (pos_of i 0 (s_roles s)) as [[p x]|] eqn:E; cbn in H; inv H.
  pose proof E as E2. apply pos_of_split in E2 as (l1 & l2 & E3 & -> & E4 & _).
  exists l1, l2. auto.
Qed.
Lemma pos_find i s p r : pos_of i 0 (s_roles s) = Some (p, r) -> find_role i s = Some r.
Proof. intros H. unfold find_role. rewrite <- (pos_of_find i 0), H. reflexivity. Qed.
Lemma nodup_mid l1 (r : role) l2 : NoDup (map r_id (l1 ++ r :: l2)) ->
  (forall x, In x l1 -> r_id x <> r_id r) /\ (forall x, In x l2 -> r_id x <> r_id r).
Proof.
  rewrite map_app. cbn. intros H. apply NoDup_remove_2 in H.
  split; intros x Hx E; apply H; apply in_or_app; [left|right]; rewrite <- E; apply in_map; exact Hx.
Qed.
Lemma map_other i f l : (forall x, In x l -> r_id x <> i) ->
  map (fun r => if r_id r =? i then f r else r) l = l.
Proof.
  induction l as [|x t IH]; intros H; cbn; [reflexivity|].
  replace (r_id x =? i) with false; [f_equal; apply IH; intros y Hy; apply H; right; exact Hy|].
  symmetry. apply Z.eqb_neq. apply H. left; reflexivity.
Qed.
Lemma on_role_split f s l1 r l2 : NoDup (ids s) -> s_roles s = l1 ++ r :: l2 ->
  on_role (r_id r) f s = with_roles s (l1 ++ f r :: l2).
Proof.
  unfold ids, on_role. intros H E. rewrite E in *. apply nodup_mid in H as [H1 H2].
  rewrite map_app. cbn [map]. rewrite !map_other by assumption. rewrite Z.eqb_refl. reflexivity.
Qed.
Lemma drop_role_split s l1 r l2 : NoDup (ids s) -> s_roles s = l1 ++ r :: l2 ->
  drop_role (r_id r) s = with_roles s (l1 ++ l2).
Proof.
  unfold ids, drop_role. intros H E. rewrite E in *. apply nodup_mid in H as [H1 H2].
  assert (F : forall l, (forall x, In x l -> r_id x <> r_id r) -> filter (fun x => negb (r_id x =? r_id r)) l = l).
  { induction l as [|x t IH]; intros G; cbn; [reflexivity|].
    replace (r_id x =? r_id r) with false; [cbn; f_equal; apply IH; intros y Hy; apply G; right; exact Hy|].
    symmetry. apply Z.eqb_neq. apply G. left; reflexivity. }
  rewrite filter_app. cbn [filter]. rewrite Z.eqb_refl. cbn [negb]. rewrite !F by assumption. reflexivity.
Qed.
Lemma with_roles_eta s : with_roles s (s_roles s) = s.
Proof. destruct s; reflexivity. Qed.

(** same-size in-place edit of one role *)
Lemma wf_config_edit f s l1 r l2 : wf_config s -> s_roles s = l1 ++ r :: l2 ->
  wf_role (f r) -> r_id (f r) = r_id r -> role_len (f r) = role_len r ->
  wf_config (with_roles s (l1 ++ f r :: l2)).
Proof.
  intros W E Wf Hid Hlen. pose proof (enc_config_length s W) as L.
  destruct W as (W1 & (W2 & W2') & W3 & W4 & W5 & W6 & W7 & W8 & W9 & W10 & W11 & W12 & W13).
  assert (Wr : Forall wf_role (l1 ++ f r :: l2)).
  { rewrite E in W8. apply Forall_app in W8 as [A B]. inv B. apply Forall_app. split; [exact A|constructor; assumption]. }
  assert (Ei : ids (with_roles s (l1 ++ f r :: l2)) = ids s).
  { unfold ids. cbn [s_roles with_roles]. rewrite E, !map_app. cbn. rewrite Hid. reflexivity. }
  assert (Er : roles_size (l1 ++ f r :: l2) = roles_size (s_roles s)).
  { rewrite E, !roles_size_app. cbn. rewrite Hlen. reflexivity. }
  unfold wf_config. rewrite Ei. cbn [s_bump s_id s_counter s_wbump s_pad s_subctr s_roles s_claimer with_roles].
  split; [exact W1|]. split; [split; assumption|]. split; [exact W3|]. split; [exact W4|].
  split; [exact W5|]. split; [exact W6|]. split; [exact W7|]. split; [exact Wr|]. split; [exact W9|].
  split; [exact W10|]. split.
  { rewrite E in W11. rewrite app_length in *. cbn [length] in *. exact W11. }
  split; [|exact W13].
  unfold enc_config. cbn [s_roles s_claimer with_roles].
  rewrite !app_length, enc_header_length, enc_roles_length by assumption. rewrite Er. rewrite L in W12.
  unfold HDR in *. lia.
Qed.
Lemma enc_header_roles s l : length l = length (s_roles s) -> enc_header (with_roles s l) = enc_header s.
Proof. intros H. unfold enc_header; cbn. rewrite H. reflexivity. Qed.

Lemma put_auth_enc l1 r l2 auth : Forall wf_role (l1 ++ r :: l2) -> length auth = length (r_auth r) ->
  put_auth (view_of (roles_size l1) r) auth (enc_roles 0 (l1 ++ r :: l2))
  = enc_roles 0 (l1 ++ with_auth r auth :: l2).
Proof.
  intros W L. apply Forall_app in W as [W1 W2]. inversion W2 as [|? ? W3 W4]; subst.
  pose proof (enc_roles_length 0 _ W1) as L1.
  unfold put_auth, view_of; cbn [rv_off]. rewrite !enc_roles_app. cbn [enc_roles Nat.add].
  assert (Hrl : role_len (with_auth r auth) = role_len r) by (unfold role_len, with_auth; cbn; lia).
  rewrite Hrl. rewrite !enc_role_parts. unfold body. rewrite Hrl. cbn [r_id r_auth r_acts with_auth].
  rewrite <- !app_assoc.
  replace (h8 (with_auth r auth)) with (h8 r) by (unfold h8, with_auth; cbn; rewrite L; reflexivity).
  rewrite (app_assoc (enc_roles 0 l1)), (app_assoc (enc_roles 0 l1 ++ _)), (app_assoc ((enc_roles 0 l1 ++ _) ++ _)).
  rewrite splice_app_exact.
  - rewrite <- !app_assoc. reflexivity.
  - rewrite !app_length, !le_enc_length, h8_length by assumption. unfold POS. lia.
  - lia.
Qed.

Lemma with_auth_wf r auth : wf_role r -> length auth = length (r_auth r) -> all_bytes auth -> wf_role (with_auth r auth).
Proof.
  intros (H1 & H2 & H3 & H4 & H5 & H6) L B. unfold wf_role, with_auth; cbn. rewrite L. tauto.
Qed.

Lemma open_with_enc authf s rid o : wf_config s ->
  (forall r auth, find_role rid s = Some r -> forall v, rv_ty v = r_aty r -> rv_auth v = r_auth r ->
     authf v = Ok auth -> length auth = length (r_auth r) /\ all_bytes auth) ->
  open_with authf (enc_config s) rid = Ok o ->
  exists r auth s1, find_role rid s = Some r /\ o_role o = view_of (rv_off (o_role o)) r
    /\ authf (o_role o) = Ok auth /\ length auth = length (r_auth r) /\ all_bytes auth
    /\ s1 = on_role rid (fun r => with_auth r auth) s
    /\ wf_config s1
    /\ o_hdr o = enc_header s1 /\ o_roles o = enc_roles 0 (s_roles s1) /\ o_tail o = enc_claimer (s_claimer s1).
Proof.
  intros W Hf H. unfold open_with in H. rewrite split_parts_enc in H by exact W. cbn [bind] in H.
  pose proof (wf_roles_small s W) as Hsm.
  pose proof W as (W1 & (W2 & W2') & W3 & W4 & W5 & W6 & W7 & W8 & W9 & W10 & W11 & W12 & W13).
  rewrite get_mut_role_enc in H by (try assumption; lia). cbn [bind] in H.
  destruct (pos_of rid 0 (s_roles s)) as [[p r]|] eqn:E; cbn [option_map ok_or bind fst snd] in H; [|discriminate].
  bind_inv H. inv K. cbn [o_role o_hdr o_roles o_tail].
  pose proof (pos_find _ _ _ _ E) as Ef.
  destruct (find_split _ _ _ Ef) as (l1 & l2 & E1 & E2 & E3).
  rewrite E in E3. inv E3.
  destruct (Hf _ _ Ef (view_of (roles_size l1) r) eq_refl eq_refl B) as [La Lb].
  exists r, v, (on_role (r_id r) (fun r => with_auth r v) s).
  assert (Wr : wf_role r). { rewrite E1 in W8. apply Forall_app in W8 as [_ W8]. inv W8. assumption. }
  pose proof (on_role_split (fun r => with_auth r v) s l1 r l2 W9 E1) as Eo.
  split; [exact Ef|]. split; [reflexivity|]. split; [exact B|]. split; [exact La|]. split; [exact Lb|].
  split; [reflexivity|]. rewrite Eo. split; [|split; [|split]].
  - apply (wf_config_edit (fun r => with_auth r v)); try assumption; try reflexivity.
    + apply with_auth_wf; assumption.
    + unfold role_len; cbn. lia.
  - symmetry. apply enc_header_roles. rewrite E1, !app_length. reflexivity.
  - cbn [s_roles with_roles]. rewrite E1. apply put_auth_enc; [rewrite <- E1; exact W8|exact La].
  - reflexivity.
Qed.

(** ** Credentials keep their size *)
Lemma authority_len_40 ty n : authority_len ty = Some n -> 3 <= ty -> (40 <= n)%nat.
Proof.
  unfold authority_len, T_Ed25519, T_Ed25519Session, T_Secp256k1, T_Secp256k1Session, T_Secp256r1,
    T_Secp256r1Session, T_ProgramExec, T_ProgramExecSession.
  repeat match goal with |- context [if ?b then _ else _] => destruct b eqn:?E end;
    intros H; inv H; lia.
Qed.
Lemma authenticate_size E cx ty auth payload data out :
  authenticate E cx ty auth payload data = Ok out -> authority_len ty = Some (length auth) -> all_bytes auth ->
  length out = length auth /\ all_bytes out.
Proof.
  intros H L B. unfold authenticate in H.
  repeat match type of H with (if ?b then _ else _) = _ => destruct b eqn:?E0 end; try discriminate.
  - peel H. inv H. auto.
  - unfold secp256k1_auth in H. peel H. inv H.
    assert (40 <= length auth)%nat by (apply (authority_len_40 ty); [exact L|unfold T_Secp256k1, T_Secp256k1Session in *; lia]).
    split; [lens|apply all_bytes_splice; [apply le_enc_bytes|exact B]].
  - unfold secp256r1_auth in H. peel H. inv H.
    assert (40 <= length auth)%nat by (apply (authority_len_40 ty); [exact L|unfold T_Secp256r1, T_Secp256r1Session in *; lia]).
    split; [lens|apply all_bytes_splice; [apply le_enc_bytes|exact B]].
  - peel H. inv H. auto.
Qed.
Lemma role_authenticate_size E cx ty auth payload data out :
  role_authenticate E cx ty auth payload data = Ok out -> authority_len ty = Some (length auth) -> all_bytes auth ->
  length out = length auth /\ all_bytes out.
Proof.
  intros H L B. unfold role_authenticate in H. destruct (session_based ty).
  - peel H. inv H. auto.
  - eapply authenticate_size; eassumption.
Qed.
Lemma session_offsets_fit ty n ko mo eo : authority_len ty = Some n -> session_offsets ty = Some (ko, mo, eo) ->
  (ko + 32 <= mo)%nat /\ (mo + 8 <= eo)%nat /\ (eo + 8 <= n)%nat.
Proof.
  unfold authority_len, session_offsets, T_Ed25519, T_Ed25519Session, T_Secp256k1, T_Secp256k1Session, T_Secp256r1,
    T_Secp256r1Session, T_ProgramExec, T_ProgramExecSession.
  intros H1 H2.
  repeat match type of H2 with (if ?b then _ else _) = _ => destruct b eqn:?E0 end; inv H2;
  repeat match type of H1 with (if ?b then _ else _) = _ => destruct b eqn:?E1 end; inv H1; lia.
Qed.
Lemma start_session_size ty auth skey slot dur out :
  start_session ty auth skey slot dur = Ok out -> authority_len ty = Some (length auth) ->
  all_bytes auth -> length skey = 32%nat -> all_bytes skey ->
  length out = length auth /\ all_bytes out.
Proof.
  intros H L B Lk Bk. unfold start_session in H.
  destruct (session_offsets ty) as [[[ko mo] eo]|] eqn:E; [|discriminate].
  pose proof (session_offsets_fit _ _ _ _ _ L E) as F. peel H. inv H.
  split; [lens|]. repeat apply all_bytes_splice; auto using le_enc_bytes.
Qed.
Lemma normalize_signer_len ty new pk : normalize_signer ty new = Ok pk -> (length pk <= 33)%nat.
Proof.
  unfold normalize_signer. intros H.
  repeat match type of H with (if ?b then _ else _) = _ => destruct b eqn:?E0 end; try discriminate;
    peel H; inv H; try lia. rewrite compress_length; lia.
Qed.
Lemma normalize_signer_bytes ty new pk : normalize_signer ty new = Ok pk -> all_bytes new -> all_bytes pk.
Proof.
  unfold normalize_signer. intros H HB.
  repeat match type of H with (if ?b then _ else _) = _ => destruct b eqn:?E0 end; try discriminate;
    peel H; inv H; auto using compress_bytes.
Qed.
Lemma normalize_signer_type ty new pk : normalize_signer ty new = Ok pk -> 1 <= ty <= 6.
Proof.
  unfold normalize_signer, T_Ed25519, T_Ed25519Session, T_Secp256k1, T_Secp256k1Session, T_Secp256r1, T_Secp256r1Session.
  intros H. repeat match type of H with (if ?b then _ else _) = _ => destruct b eqn:?E0 end; try discriminate; lia.
Qed.
Lemma normalize_signer_fit ty new pk n : normalize_signer ty new = Ok pk -> authority_len ty = Some n ->
  (length pk <= n)%nat.
Proof.
  unfold normalize_signer, authority_len, T_Ed25519, T_Ed25519Session, T_Secp256k1, T_Secp256k1Session, T_Secp256r1,
    T_Secp256r1Session, T_ProgramExec, T_ProgramExecSession.
  intros H1 H2. pose proof (normalize_signer_len ty new pk H1) as Hl.
  repeat match type of H2 with (if ?b then _ else _) = _ => destruct b eqn:?E1 end; inv H2; try lia.
  cbn [orb] in H1. peel H1. inv H1. lia.
Qed.
Lemma replaced_authority_size ty auth pk :
  authority_len ty = Some (length auth) -> (length pk <= length auth)%nat -> all_bytes auth -> all_bytes pk ->
  length (replaced_authority ty auth pk) = length auth /\ all_bytes (replaced_authority ty auth pk).
Proof.
  intros L P B Bp. unfold replaced_authority. pose proof (authority_len_bound _ _ L) as Bd.
  set (a1 := splice 0 pk auth).
  assert (A1 : length a1 = length auth /\ all_bytes a1)
    by (split; [apply splice_length; lia|apply all_bytes_splice; assumption]).
  set (a2 := if (ty =? T_Ed25519) || (ty =? T_Ed25519Session) then a1 else splice 36 (zeros 4) a1).
  assert (A2 : length a2 = length auth /\ all_bytes a2).
  { unfold a2. destruct ((ty =? T_Ed25519) || (ty =? T_Ed25519Session)) eqn:E; [exact A1|].
    assert (40 <= length auth)%nat by (apply (authority_len_40 ty); [exact L|unfold T_Ed25519, T_Ed25519Session in *; lia]).
    destruct A1 as [A1 A1']. split; [lens|apply all_bytes_splice; auto using zeros_bytes]. }
  destruct (session_offsets ty) as [[[ko mo] eo]|] eqn:E; [|exact A2].
  pose proof (session_offsets_fit _ _ _ _ _ L E) as F. destruct A2 as [A2 A2'].
  split; [lens|repeat apply all_bytes_splice; auto using zeros_bytes].
Qed.

(** ** Replacing a credential *)
Lemma replace_loop_enc E l buf post swig acting target new proof o out :
  Forall wf_role l -> roles_at o buf l -> Z.of_nat (o + roles_size l) < U32 ->
  buf = post ->
  replace_loop E (length l) buf swig acting target new proof o = Ok out ->
  exists p r pk, pos_of target o l = Some (p, r)
    /\ normalize_signer (r_aty r) new = Ok pk
    /\ (forall wal h, proof = Some (wal, h) ->
          proof_hash E swig wal acting target (r_aty r) (sub 0 (length pk) (r_auth r)) pk = h)
    /\ sub 0 (length pk) (r_auth r) <> pk
    /\ out = splice (p + POS) (replaced_authority (r_aty r) (r_auth r) pk) buf.
Proof.
  intros Hl; revert o; induction Hl as [|r t Hr Ht IH]; intros o Hat Hsm -> H; cbn [replace_loop length] in H; [discriminate|].
  cbn in Hat, Hsm. destruct Hat as [H1 H2]. pose proof (role_len_ge r). bind_inv H. clear B v.
  rewrite (fld_id o post r) in K by (try assumption; lia). cbn [pos_of].
  destruct (r_id r =? target) eqn:Ei.
  - rewrite (fld_type o post r) in K by (try assumption; lia).
    pose proof Hr as (W1 & W2 & W3 & W4 & W5 & W6). pose proof (authority_len_bound _ _ W2) as Bd.
    unfold authority_type in K. replace ((1 <=? r_aty r) && (r_aty r <=? 8)) with true in K by lia. cbn [bind] in K.
    bind_inv K. rename v into pk. rewrite W2 in K0. cbn [ok_or bind] in K0.
    bind_inv K0. apply slice_ok in B0 as [B1 ->].
    unfold POS in K. rewrite (fld_auth o post r) in K by (try assumption; lia).
    bind_inv K. bind_inv K0. inv K. apply check_ok in B2. apply negb_true_iff, beq_neq in B2.
    exists o, r, pk. split; [reflexivity|]. split; [exact B|]. split; [|split; [exact B2|reflexivity]].
    intros wal h ->. apply check_ok, beq_eq in B0. exact B0.
  - rewrite (fld_bound o post r) in K by (try assumption; lia).
    apply IH in K; try assumption; try lia; reflexivity.
Qed.

(** ** Restoring the tail *)
Definition pre_ok (s : config) : Prop :=
  length (s_id s) = 32%nat /\ length (s_pad s) = 3%nat /\ Forall wf_role (s_roles s)
  /\ Z.of_nat (length (s_roles s)) < 65536 /\ Z.of_nat (roles_size (s_roles s)) < U32.
Lemma roles_len_pre s rest : pre_ok s ->
  roles_len (enc_header s ++ enc_roles 0 (s_roles s) ++ rest) = Ok (roles_size (s_roles s)).
Proof.
  intros (W2 & W5 & W8 & W11 & Hsm).
  unfold roles_len. rewrite app_length, enc_header_length by assumption.
  replace (HDR <=? _)%nat with true by (unfold HDR; lia). cbn [check bind].
  rewrite hf_roles, nat_of_nat by assumption.
  rewrite skipn_app_exact by (apply enc_header_length; assumption).
  apply roles_end_at; [assumption|apply roles_at_enc; assumption|lia].
Qed.
Lemma seal_tail_enc s tail slack d : pre_ok s -> (length tail <= length slack)%nat ->
  seal_tail tail (enc_header s ++ enc_roles 0 (s_roles s) ++ slack) = Ok d ->
  d = enc_header s ++ enc_roles 0 (s_roles s) ++ tail ++ zeros (length slack - length tail).
Proof.
  intros W Hl H. unfold seal_tail in H. rewrite roles_len_pre in H by exact W. cbn [bind] in H.
  destruct W as (W2 & W5 & W8 & W11 & Hsm).
  pose proof (enc_header_length s W2 W5) as L1. pose proof (enc_roles_length 0 _ W8) as L2.
  rewrite app_assoc in H. rewrite firstn_app_exact in H by (rewrite app_length; lia).
  rewrite !app_length, L1, L2 in H. replace (HDR + roles_size (s_roles s) + length slack - (HDR + roles_size (s_roles s)))%nat with (length slack) in H by lia.
  unfold restore_at in H. destruct tail as [|t0 t].
  - apply ok_inj in H. subst d. cbn [app length]. rewrite Nat.sub_0_r, <- !app_assoc. reflexivity.
  - remember (t0 :: t) as T. peel H. apply ok_inj in H. subst d.
    replace (length slack) with (length T + (length slack - length T))%nat at 1 by lia.
    rewrite zeros_app. rewrite splice_app_exact; [rewrite <- !app_assoc; reflexivity|rewrite app_length; lia|apply zeros_length].
Qed.
