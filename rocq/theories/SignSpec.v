(** * The signing instructions in terms of configurations *)
From Verif Require Import BaseFacts SpecConfig ConfigFacts ConfigEdit ConfigEdit2 ConfigEdit3.
From Verif Require Export SignTrace.

(** ** The acting role's permissions inside the account *)
Lemma acts_in_config s i p tr l' : wf_config s -> pos_of i 0 (s_roles s) = Some (p, tr) ->
  acts_len l' = acts_len (r_acts tr) -> length l' = length (r_acts tr) -> wf_actions l' ->
  let off := (HDR + p + POS + length (r_auth tr))%nat in
  let s' := on_role i (fun r => with_acts r l') s in
  sub off (acts_len (r_acts tr)) (enc_config s) = enc_actions 0 (r_acts tr)
  /\ splice off (enc_actions 0 l') (enc_config s) = enc_config s' /\ wf_config s'.
Proof.
  intros W Hp SL1 SL2 Wl off s'.
  pose proof W as (W1 & (W2 & W2') & W3 & W4 & W5 & W6 & W7 & W8 & W9 & W10 & W11 & W12 & W13).
  pose proof (pos_find _ _ _ _ Hp) as Ef. destruct (find_split _ _ _ Ef) as (l1 & l2 & E1 & E2 & E3).
  rewrite Hp in E3. injection E3 as ->. subst i.
  assert (Wr : wf_role tr). { rewrite E1 in W8. apply Forall_app in W8 as [_ W8]. exact (Forall_inv W8). }
  assert (RL : role_len (with_acts tr l') = role_len tr) by (unfold role_len; cbn [with_acts r_auth r_acts]; rewrite SL1; reflexivity).
  pose proof (enc_header_length s W2 W5) as LH.
  rewrite E1 in W8. apply Forall_app in W8 as [W8a W8b]. pose proof (enc_roles_length 0 _ W8a) as L1.
  pose proof (h16_length tr (roles_size l1 + role_len tr) Wr) as L16.
  set (h := h16 tr (roles_size l1 + role_len tr)) in *.
  set (R := enc_roles (roles_size l1 + role_len tr) l2).
  assert (Lay : enc_config s = (enc_header s ++ enc_roles 0 l1 ++ h) ++ enc_actions 0 (r_acts tr) ++ (R ++ enc_claimer (s_claimer s))).
  { unfold enc_config. rewrite E1, enc_roles_app. cbn [enc_roles Nat.add]. rewrite enc_role_h16. fold h. fold R.
    rewrite <- !app_assoc. reflexivity. }
  assert (LP : length (enc_header s ++ enc_roles 0 l1 ++ h) = off).
  { rewrite !app_length, LH, L1, L16. unfold off, POS. lia. }
  split; [|split].
  - rewrite Lay. apply sub_app_exact; [exact LP|apply enc_actions_length].
  - rewrite Lay, splice_app_exact by (try exact LP; rewrite !enc_actions_length; congruence).
    unfold s'. rewrite (on_role_split _ s l1 tr l2 W9 E1). unfold enc_config. cbn [s_roles with_roles s_claimer].
    rewrite (enc_header_roles s (l1 ++ with_acts tr l' :: l2)) by (rewrite E1, !app_length; reflexivity).
    rewrite enc_roles_app. cbn [enc_roles Nat.add]. rewrite enc_role_h16, RL.
    replace (h16 (with_acts tr l') (roles_size l1 + role_len tr)) with h
      by (unfold h, h16, h8; cbn [with_acts r_aty r_auth r_acts r_pad r_id]; rewrite SL2; reflexivity).
    cbn [with_acts r_auth r_acts]. fold R. rewrite <- !app_assoc. reflexivity.
  - unfold s'. rewrite (on_role_split _ s l1 tr l2 W9 E1).
    apply (wf_config_edit (fun r => with_acts r l')); try assumption; try reflexivity. apply with_acts_wf; assumption.
Qed.

Lemma is_config_good E w k : good_world E w -> is_config w k = true -> exists s, is_cfg (w k) s.
Proof.
  intros G H. unfold is_config in H. apply andb_prop in H as [H H3]. apply andb_prop in H as [H1 H2].
  apply beq_eq in H1. apply (good_config E); try assumption; unfold HDR in H2; lia.
Qed.
Lemma role_okl r : wf_role r -> okl (r_acts r).
Proof. intros H. split; [apply H|apply wf_role_acts_small; exact H]. Qed.
Lemma has_mut_role ty q r : wf_role r -> has_mut ty q (enc_actions 0 (r_acts r)) = Ok (has ty q r).
Proof. intros H. rewrite has_mut_enc by (apply role_okl; exact H). rewrite has_first_of. reflexivity. Qed.

(** The unrestricted roles *)
Definition unlimited (r : role) : bool := has P_All [] r || has P_AllButManageAuthority [] r.

(** ** SignV2 *)
Lemma sign_v2_spec E cx cs w w' s : wf_ctx cx ->
  let ms := c_metas cx in let data := c_data cx in let swig := mkey ms 0 in let wallet := mkey ms 1 in
  let pdas := pda_list E (seeds_wallet swig (s_wbump s)) in
  is_cfg (w swig) s -> tag data = 11 ->
  sign_v2 E cx cs w = Ok w' ->
  exists r s1 w0 xs, acted E cx s r s1 /\ wf_role r /\ wf_config s1
    /\ only_data w w0 swig (enc_config s1) /\ (forall k, a_lamports (w0 k) = a_lamports (w k))
    /\ c_height cx = 1%nat
    /\ nth_error cs 0 = Some CThisSwig /\ nth_error cs 1 = Some CWallet
    /\ parse_all ms wallet (signed_of data) = Ok xs
    /\ ((unlimited r = true /\ run_all E cx wallet pdas xs w0 = Ok w')
        \/ (unlimited r = false /\ exists p r1 snaps w1 sol cs1 acts',
              let off := (HDR + p + POS + length (r_auth r1))%nat in let len := acts_len (r_acts r) in
              pos_of (r_id r) 0 (s_roles s1) = Some (p, r1) /\ r_acts r1 = r_acts r
              /\ sign_v2_inner E cx cs w = Ok (w0, w1)
              /\ snapshots E w0 (enc_actions 0 (r_acts r)) 0 ms cs = Ok snaps
              /\ limited_loop E cx swig wallet pdas off len (has P_ProgramAll [] r)
                   (negb (has P_ProgramAll [] r) && has P_ProgramCurated [] r) xs w0 0 cs = Ok (w1, sol, cs1)
              /\ settle E (c_slot cx) w1 wallet xs sol ms cs1 snaps (acts_now w1 swig off len) = Ok acts'
              /\ set_data ms w1 swig (splice off acts' (a_data (w1 swig))) = Ok w')).
Proof.
  intros Hc ms data swig wallet pdas (Co & Hd & W) Ht H.
  unfold sign_v2 in H. cbv zeta in H. fold ms in H. fold swig wallet data in H.
  assert (Ly : auth_layout data = Some (4, 8, 8 + arg_len data)%nat) by (unfold auth_layout; rewrite Ht; reflexivity).
  assert (Sg : signed_of data = sub 8 (nat_of (u16_at 2 data)) data).
  { unfold signed_of. rewrite Ly. f_equal. unfold arg_len. lia. }
  assert (I : sign_v2_inner E cx cs w = sign_v2_inner E cx cs w) by reflexivity.
  unfold sign_v2_inner at 2 in I. cbv zeta in I. fold ms in I. fold swig wallet data in I.
  peel H. unfold need in I.
  repeat match goal with B : ?x = true |- _ =>
    match type of I with context[check x _] => rewrite B in I; cbn [check bind] in I end end.
  repeat match goal with B : ?x = Ok _ |- _ =>
    match type of I with _ = bind x _ => rewrite B in I; cbn [bind] in I end end.
  cfg s Hd W. unpair.
  match goal with B : open_role _ _ _ _ _ _ = Ok ?x |- _ => rename x into op; rename B into Bo end.
  pose proof Bo as Bo2. apply open_role_enc in Bo2; [|exact W].
  destruct Bo2 as (r & s1 & O1 & O2 & O3 & O4 & O5 & O6 & O7 & O8 & O9 & O10).
  pose proof (acting_fields _ _ _ _ _ _ _ _ O1) as (F1 & F2 & F3 & F4 & F5 & F6 & F7 & F8).
  rewrite O8 in *.
  repeat match goal with B : has_mut _ _ _ = Ok _ |- _ => rewrite has_mut_role in B by exact O2; apply ok_inj in B; subst end.
  match goal with B : set_data _ _ _ (o_bytes _) = Ok ?x |- _ => rename x into w0; rename B into Bd end.
  apply set_data_only in Bd as (D1 & _ & D3). rewrite O7 in D1.
  match goal with B : parse_all _ _ _ = Ok ?x |- _ => rename x into xs; rename B into Bx end.
  assert (Hw : h_wbump (o_hdr op) = s_wbump s) by (rewrite O4, hdr_wbump by exact O3; exact F4). rewrite Hw in H.
  exists r, s1, w0, xs.
  split. { unfold acted, actor_of, payload_of. fold data. rewrite Sg, Ly. exact O1. }
  split; [exact O2|]. split; [exact O3|]. split; [exact D1|]. split; [exact D3|].
  split; [apply Nat.eqb_eq; assumption|].
  split. { grab (is_this _ = true) as Bt. unfold is_this in Bt. destruct (nth_error cs 0) as [[]|]; try discriminate Bt; reflexivity. }
  split. { grab (is_wal _ = true) as Bt. unfold is_wal in Bt. destruct (nth_error cs 1) as [[]|]; try discriminate Bt; reflexivity. }
  split; [rewrite Sg; exact Bx|].
  match type of H with (if ?x then _ else _) = _ => rename x into abm end.
  assert (Ha : abm = unlimited r).
  { unfold unlimited. grab ((if has P_All [] r then _ else _) = Ok abm) as Q. destruct (has P_All [] r).
    - apply ok_inj in Q. auto.
    - rewrite has_mut_role in Q by exact O2. apply ok_inj in Q. auto. }
  rewrite Ha in H. destruct (unlimited r) eqn:U.
  - left. split; [reflexivity|exact H].
  - right. split; [reflexivity|]. rewrite enc_actions_length in H.
    rewrite has_mut_role in H by exact O2. cbn [bind] in H.
    apply bind_ok in H as (pcur & Bp & H).
    assert (Hp : pcur = negb (has P_ProgramAll [] r) && has P_ProgramCurated [] r).
    { destruct (has P_ProgramAll [] r); [apply ok_inj in Bp; auto|]. rewrite has_mut_role in Bp by exact O2. apply ok_inj in Bp. auto. }
    subst pcur. apply bind_ok in H as (snaps & Bs & H). apply bind_ok in H as ([[w1 sol] cs1] & Bl & H).
    apply bind_ok in H as (acts' & Be & H).
    rewrite Hw, enc_actions_length, !has_mut_role in I by exact O2. cbn [bind] in I.
    assert (I2 : (if has P_ProgramAll [] r then Ok false else Ok (has P_ProgramCurated [] r))
      = Ok (negb (has P_ProgramAll [] r) && has P_ProgramCurated [] r)) by (destruct (has P_ProgramAll [] r); reflexivity).
    rewrite I2 in I. cbn [bind] in I. rewrite Bl in I. cbn [bind] in I.
    destruct (open_pos _ _ _ _ _ _ _ _ _ W O3 Bo O1) as (r1 & P1 & P2 & P3 & P4).
    rewrite <- P3 in *. rewrite <- (acting_id _ _ _ _ _ _ _ _ O1) in P1.
    exists (rv_off (o_role op)), r1, snaps, w1, sol, cs1, acts'. cbv zeta. auto 10.
Qed.

(** ** Sub-account signing *)
Lemma sub_sign_v1_spec E cx w w' s : wf_ctx cx ->
  let ms := c_metas cx in let data := c_data cx in let swig := mkey ms 0 in let sa := mkey ms 1 in
  is_cfg (w swig) s -> tag data = 9 ->
  sub_account_sign_v1 E cx w = Ok w' ->
  exists r s1 p w0 xs, acted E cx s r s1 /\ wf_role r /\ wf_config s1
    /\ only_data w w0 swig (enc_config s1) /\ (forall k, a_lamports (w0 k) = a_lamports (w k))
    /\ c_height cx = 1%nat /\ a_owner (w sa) = SYSTEM
    /\ first_of P_SubAccount sa (r_acts r) = Some p
    /\ sa_swig_id p = s_id s /\ sa_role p = r_id r /\ sa_enabled p <> 0
    /\ parse_all ms sa (signed_of data) = Ok xs
    /\ run_all E cx sa (pda_list E (seeds_sub (s_id s) (r_id r) (sa_bump p))) xs w0 = Ok w'
    /\ rent E (length (a_data (w' sa))) <= a_lamports (w' sa).
Proof.
  intros Hc ms data swig sa (Co & Hd & W) Ht H.
  unfold sub_account_sign_v1 in H. cbv zeta in H. fold ms in H. fold swig sa data in H.
  assert (Ly : auth_layout data = Some (4, 16, 16 + arg_len data)%nat) by (unfold auth_layout; rewrite Ht; reflexivity).
  assert (Sg : signed_of data = sub 16 (nat_of (u16_at 2 data)) data).
  { unfold signed_of. rewrite Ly. f_equal. unfold arg_len. lia. }
  peel H. cfg s Hd W. unpair. opening W. rewrite O8 in *.
  grab (get_action _ _ _ = Ok _) as Bg.
  destruct (get_action_role P_SubAccount sa r SA_LEN O2 eq_refl) as (oo & G1 & G2).
  rewrite G1 in Bg. apply ok_inj in Bg. subst oo.
  match type of G2 with match ?o with Some _ => _ | None => _ end => destruct o as [off|] end; [|discriminate].
  destruct G2 as (p & G2 & G3).
  repeat match goal with B : ok_or (Some _) _ = Ok _ |- _ => apply ok_or_ok in B; injection B as <- end.
  match goal with B : set_data _ _ _ (o_bytes _) = Ok ?x |- _ => rename x into w0; rename B into Bd end.
  apply set_data_only in Bd as (D1 & _ & D3). rewrite O7 in D1.
  match goal with B : parse_all _ _ _ = Ok ?x |- _ => rename x into xs; rename B into Bx end.
  grab (beq (sa_swig_id _) _ = true) as Q1. apply beq_eq in Q1. rewrite O4, hdr_id, F2 in Q1 by exact O3.
  grab ((sa_role _ =? _) = true) as Q2. apply Z.eqb_eq in Q2.
  grab (negb (sa_enabled _ =? 0) = true) as Q3. apply negb_true_iff, Z.eqb_neq in Q3.
  pose proof (acting_id _ _ _ _ _ _ _ _ O1) as Hi. rewrite Q1, Q2, <- Hi in *.
  match goal with B : Some off = Some _ |- _ => injection B as <- end. rewrite G3 in Q1, Q2, Q3.
  grab (run_all _ _ _ _ _ _ = Ok _) as Br. rewrite G3 in Br. apply ok_inj in H. subst w'.
  exists r, s1, p, w0, xs.
  split. { unfold acted, actor_of, payload_of. fold data. rewrite Sg, Ly. rewrite <- Hi. exact O1. }
  split; [exact O2|]. split; [exact O3|]. split; [exact D1|]. split; [exact D3|].
  split; [apply Nat.eqb_eq; assumption|]. split; [apply beq_eq; assumption|]. split; [exact G2|]. split; [exact Q1|]. split; [exact Q2|].
  split; [exact Q3|]. split; [rewrite Sg; exact Bx|]. split; [exact Br|]. lia.
Qed.

Lemma sub_sign_v2_spec E cx w w' s : wf_ctx cx ->
  let ms := c_metas cx in let data := c_data cx in
  let swig := mkey ms 0 in let state := mkey ms 1 in let sa := mkey ms 2 in let id := u32_at 8 data in
  is_cfg (w swig) s -> tag data = 20 ->
  sub_account_sign_v2 E cx w = Ok w' ->
  exists r s1 w0 xs, acted E cx s r s1 /\ wf_role r /\ wf_config s1
    /\ only_data w w0 swig (enc_config s1) /\ (forall k, a_lamports (w0 k) = a_lamports (w k))
    /\ c_height cx = 1%nat /\ a_owner (w sa) = SYSTEM
    /\ scoped P_SubAccountV2Sign id r = true /\ is_v2 s /\ v2_enabled_for E w s state sa id
    /\ parse_all ms sa (sub 16 (arg_len data) data) = Ok xs
    /\ run_all E cx sa (pda_list E (seeds_v2_asset (s_id s) id (v2_asset_bump (a_data (w state))))) xs w0 = Ok w'
    /\ rent E (length (a_data (w' sa))) <= a_lamports (w' sa).
Proof.
  intros Hc ms data swig state sa id (Co & Hd & W) Ht H.
  unfold sub_account_sign_v2 in H. cbv zeta in H. fold ms in H. fold swig state sa data in H. fold id in H.
  assert (Ly : auth_layout data = Some (4, 0, 16 + arg_len data)%nat) by (unfold auth_layout; rewrite Ht; reflexivity).
  assert (Sg : signed_of data = sub 0 (16 + nat_of (u16_at 2 data)) data).
  { unfold signed_of. rewrite Ly. unfold arg_len. f_equal. }
  peel H. cfg s Hd W. unpair. opening W. rewrite O8 in *.
  grab (require_swig_v2 _ = Ok _) as Bv. apply require_v2_enc in Bv; [|exact W].
  grab (authorize_scoped_v2 _ _ _ = Ok _) as Ba. apply authorize_enc in Ba; [|unfold P_SubAccountV2Sign; lia|exact O2].
  grab (set_data _ _ _ _ = Ok _) as Bd. apply set_data_only in Bd as (D1 & _ & D3). rewrite O7 in D1.
  grab (validate_v2_state _ _ _ _ _ _ = Ok _) as Bx.
  match type of Bx with validate_v2_state _ _ _ _ (h_id (o_hdr ?o)) _ = _ =>
    assert (Hid : h_id (o_hdr o) = s_id s) by (rewrite O4, hdr_id by exact O3; exact F2); rewrite Hid in * end.
  apply validate_ok in Bx as [Bx ->]. destruct (state_not_swig _ _ _ _ _ _ _ _ _ D1 Bx) as [Hne Bx2].
  match type of D1 with only_data _ ?w1 _ _ => rename w1 into w0 end.
  assert (Hrd : a_data (w0 state) = a_data (w state)) by (destruct D1 as (_ & _ & D1); apply D1; congruence).
  rewrite Hrd in *.
  match goal with B : parse_all _ _ _ = Ok ?x |- _ => rename x into xs; rename B into Bp end.
  grab (run_all _ _ _ _ _ _ = Ok _) as Br. apply ok_inj in H. subst w'.
  exists r, s1, w0, xs.
  split. { unfold acted, actor_of, payload_of. fold data. rewrite Sg, Ly. exact O1. }
  split; [exact O2|]. split; [exact O3|]. split; [exact D1|]. split; [exact D3|].
  split; [apply Nat.eqb_eq; assumption|]. split; [apply beq_eq; assumption|].
  split; [exact Ba|]. split; [exact Bv|]. split; [exact Bx2|]. split; [exact Bp|]. split; [exact Br|]. lia.
Qed.
