(** * The accounts of the program keep their rent through every history.  Proofs *)
From Verif Require Import BaseFacts SpecConfig ConfigFacts ConfigEdit ConfigEdit2 ConfigEdit3.
From Verif Require Import AuthProps HandlerRoles HandlerRoles2 HandlerSub HandlerLife HandlerV2 HandlerAssets SignSpec Spend.
From Verif Require Export Rent2.

Definition safe (E : env) (w w' : world) (k : key) : Prop :=
  a_owner (w k) = SELF -> exempt E (w k) -> a_owner (w' k) = SELF /\ exempt E (w' k).
Lemma safe_refl E w k : safe E w w k.
Proof. intros O X. split; assumption. Qed.
Lemma safe_trans E a b c k : safe E a b k -> safe E b c k -> safe E a c k.
Proof. intros H1 H2 O X. destruct (H1 O X) as [O1 X1]. exact (H2 O1 X1). Qed.
Lemma gains_safe E w w' k : gains w w' k -> (a_owner (w k) = SELF -> length (a_data (w' k)) = length (a_data (w k))) -> safe E w w' k.
Proof. intros G L O X. destruct (G O) as [O' Lm]. split; [exact O'|]. unfold exempt in *. rewrite (L O). lia. Qed.

Section Safe.
Variable (E : env).
Hypothesis (F : foreign_ok E) (Hr : rent_grows E).

Lemma foreign_safe w x w' k : foreign E w x = Ok w' -> safe E w w' k.
Proof.
  intros H. apply gains_safe; [eapply foreign_gains; eassumption|]. intros O. destruct (F _ _ _ H k) as [A _]. destruct (A O) as [[A1 _] _]. congruence.
Qed.

Lemma dispatch_safe cx w w' k : wf_ctx cx -> good_world E w -> roomy 1 w -> dispatch E cx w = Ok w' -> safe E w w' k.
Proof.
  intros Hc G R H. pose proof (dispatch_changes E cx w w' Hc G F R H k) as C. pose proof Hc as (Hb & _).
  destruct (bytes_dec k (mkey (c_metas cx) 0)) as [Q|Q].
  2:{ apply gains_safe; [eapply dispatch_gn; eauto|]. intros O. eapply len_kept; eauto. }
  destruct (in_dec Z.eq_dec (tag (c_data cx)) [1; 2; 3; 13; 15; 17; 18]) as [I|I].
  2:{ apply gains_safe.
      - eapply dispatch_gn; try eassumption. right. intros J. apply I. cbn in *. tauto.
      - intros O. eapply len_kept; [exact C|exact O|]. right. intros J. apply I. cbn in *. tauto. }
  intros O X. split; [eapply change_self; eassumption|]. subst k.
  pose proof (len_kept _ _ _ _ _ C O) as Lk.
  unfold dispatch in H. cbv zeta in H. peel H. unfold tag in *.
  repeat match type of I with
  | In _ (_ :: _) => destruct I as [I|I]
  | In _ [] => destruct I
  end; rewrite <- I in H; cbn [Z.eqb Pos.eqb orb] in H.
  - destruct (cfg_add E cx w w' G H) as (s & S). eapply add_ex; try eassumption. eapply R; exact S.
  - destruct (cfg_remove E cx w w' G H) as (s & S). eapply remove_ex; eassumption.
  - destruct (cfg_update E cx w w' G H) as (s & S). eapply update_ex; eassumption.
  - destruct (cfg_xfer E cx w w' G H) as (s & S). eapply assets_ex; try eassumption. apply Lk. right. rewrite <- I. cbn. lia.
  - destruct (cfg_close E cx w w' G H) as (s & S). eapply close_ex; eassumption.
  - destruct (cfg_claimer E cx w w' G H) as (s & S). eapply claimer_ex; eassumption.
  - destruct (cfg_sub2 E cx w w' G H) as (s & S). eapply create_sub2_ex; eassumption.
Qed.

Section Run.
Variables (cx : ctx) (sk k : key) (sd : list bytes).
Hypothesis (Hc : wf_ctx cx) (Hsd : asset_seeds sd) (Hh : c_height cx = 1%nat) (Nk : k <> sk).
Lemma run_inner_safe w w' x : good_world E w -> roomy 1 w -> from_outer_ix (c_metas cx) sk x ->
  run_inner E cx sk (pda_list E sd) w (in_ix x) = Ok w' -> safe E w w' k.
Proof.
  intros G R X H. unfold run_inner in H. bind_inv H.
  match type of K with (if ?b then _ else _) = _ => destruct b end.
  - peel K. pose proof X as (_ & _ & _ & Xb). apply gains_safe.
    + eapply move_gains; [exact Nk|apply u64_ge; exact Xb|exact K].
    + intros O. apply move_lamports_keeps in K. destruct (K k). congruence.
  - unfold invoke in K. bind_inv K. apply check_ok in B0. destruct (beq (ix_prog (in_ix x)) SELF) eqn:Qs.
    + unfold process_inner in K0. bind_inv K0. pose proof (nested_of E cx sk sd Hc Hsd Hh x X B0 Qs) as N.
      eapply dispatch_safe; [apply N|exact G|exact R|exact K].
    + eapply foreign_safe; exact K0.
Qed.
Lemma run_all_safe xs : Forall (from_outer_ix (c_metas cx) sk) xs -> (length xs <= 255)%nat -> forall w w', good_world E w ->
  roomy (Z.of_nat (length xs)) w -> run_all E cx sk (pda_list E sd) xs w = Ok w' -> safe E w w' k.
Proof.
  induction 1 as [|x r X Xs IH]; intros Hn w w' G R H; cbn [run_all] in H.
  - apply ok_inj in H. subst. apply safe_refl.
  - bind_inv H. cbn [length] in *.
    assert (T : trace E cx 1 w v) by (eapply run_inner_trace; try eassumption; eapply roomy_le; [|exact R]; lia).
    eapply safe_trans; [eapply run_inner_safe; try eassumption; eapply roomy_le; [|exact R]; lia|]. apply IH; [lia| | |exact K].
    + eapply trace_good; eassumption.
    + eapply trace_roomy; [exact T|cbn; lia|]. eapply roomy_le; [|exact R]. lia.
Qed.
Lemma limited_safe swig off len pall cur xs : Forall (from_outer_ix (c_metas cx) sk) xs -> (length xs <= 255)%nat ->
  forall w w' sol sol' cs cs', good_world E w -> roomy (Z.of_nat (length xs)) w ->
  limited_loop E cx swig sk (pda_list E sd) off len pall cur xs w sol cs = Ok (w', sol', cs') -> safe E w w' k.
Proof.
  induction 1 as [|x r X Xs IH]; intros Hn w w' sol sol' cs cs' G R H; cbn [limited_loop] in H.
  - apply ok_inj in H. injection H as <- <- <-. apply safe_refl.
  - bind_inv H. bind_inv K. bind_inv K0. cbn [length] in *.
    assert (T : trace E cx 1 w v0) by (eapply run_inner_trace; try eassumption; eapply roomy_le; [|exact R]; lia).
    eapply safe_trans; [eapply run_inner_safe; try eassumption; eapply roomy_le; [|exact R]; lia|].
    eapply IH; [lia| | |exact K].
    + eapply trace_good; eassumption.
    + eapply trace_roomy; [exact T|cbn; lia|]. eapply roomy_le; [|exact R]. lia.
Qed.
End Run.

Section Call.
Variables (cx : ctx) (w w' : world) (k : key).
Hypothesis (Hc : wf_ctx cx) (Hf : flags_ok (c_metas cx)) (G : good_world E w) (R : roomy 300 w) (Ncl : ~ clash E cx w).
Notation ms := (c_metas cx).
Notation swig := (mkey (c_metas cx) 0).

Lemma use_safe w0 s r s1 : is_cfg (w swig) s -> acted E cx s r s1 -> wf_config s1 ->
  only_data w w0 swig (enc_config s1) -> (forall k, a_lamports (w0 k) = a_lamports (w k)) -> safe E w w0 k.
Proof.
  intros (C1 & C2 & C3) A W1 (D1 & D2 & D3) L. apply gains_safe.
  - intros O. split; [|rewrite L; lia]. destruct (bytes_dec k swig) as [->|N]; [congruence|]. destruct (D3 k N). congruence.
  - intros O. destruct (bytes_dec k swig) as [->|N]; [|destruct (D3 k N); congruence]. rewrite D1, C2. apply shape_len; try assumption.
    eapply acted_shape; exact A.
Qed.
Lemma sign_v2_safe cs : classify_all w ms = Ok cs -> tag (c_data cx) = 11 -> sign_v2 E cx cs w = Ok w' -> safe E w w' k.
Proof.
  intros Cs Ht H. pose proof (classify_all_ok _ _ _ Cs) as (S1 & S2 & S3).
  assert (Hs : exists s, is_cfg (w swig) s).
  { apply (is_config_good E); [exact G|]. apply S3. unfold sign_v2 in H. cbv zeta in H. peel H. assumption. }
  destruct Hs as (s & C).
  destruct (sign_v2_spec _ _ _ _ _ _ Hc C Ht H) as (r & s1 & w0 & xs & A & Wr & W1 & D0 & L0 & Hh & N0 & N1 & Px & Cases). clear H.
  pose proof (parse_all_ok _ _ _ _ (sub_all_bytes_signed _ Hc) Px) as [Fx Lx].
  assert (T0 : trace E cx 1 w w0) by (eapply use_changes; [rewrite Ht; cbn; tauto|exact C|exact A|exact D0|exact W1]).
  pose proof (trace_good _ _ _ _ _ T0 G) as G0.
  assert (R0 : roomy 299 w0) by (eapply trace_roomy; [exact T0|lia|exact R]).
  assert (C0 : is_cfg (w0 swig) s1) by (eapply only_data_cfg; eassumption).
  assert (Sd : asset_seeds (seeds_wallet swig (s_wbump s))) by (left; eauto).
  intros O X.
  assert (Nk : k <> mkey ms 1) by (intros ->; pose proof (wallet_class cx w cs Cs N1) as Wo; unfold wallet_of, acct in Wo; rewrite Wo in O; discriminate).
  revert O X. change (safe E w w' k). eapply safe_trans; [eapply use_safe; eassumption|].
  destruct Cases as [(U & Hrun)|(U & p & r1 & snaps & w1 & sol & cs1 & acts' & Hp & Ra & In & Sn & Lo & St & Fin)].
  - eapply run_all_safe; try eassumption. eapply roomy_le; [|exact R0]. lia.
  - assert (R1 : roomy (Z.of_nat (length xs)) w0) by (eapply roomy_le; [|exact R0]; lia).
    pose proof (limited_trace E cx (mkey ms 1) (seeds_wallet swig (s_wbump s)) F Hc Sd Hh swig _ _ _ _ xs Fx Lx w0 w1 0 sol cs cs1 G0 R1
      (Z.le_refl 0) S1 S2 Lo) as (T1 & Sol & Sc & Lc & Hk).
    assert (O1 : a_owner (w1 swig) = SELF) by (eapply trace_self; [exact T1|]; destruct C0 as (C1 & _); exact C1).
    eapply safe_trans; [eapply limited_safe; eassumption|].
    destruct (writable ms swig) eqn:Wt.
    + assert (T1c : nth_error cs1 0 = Some CThisSwig).
      { destruct (nth_error cs1 0) as [c|] eqn:Q.
        - destruct (Hk c eq_refl) as (c0 & Q1 & Q2). rewrite N0 in Q1. injection Q1 as <-. destruct c; try contradiction. reflexivity.
        - apply nth_error_None in Q. assert (length cs <> 0)%nat by (intros Z; apply length_zero_iff_nil in Z; subst cs; discriminate). lia. }
      destruct (limited_end E cx cs w w0 w1 w' s s1 r xs p r1 snaps sol cs1 acts') as [(Ne & Ha)|(C1 & l' & Es & Ch & W' & D1 & L1)]; try assumption.
      { apply from_outer_inner in Fx. exact Fx. }
      * exfalso. apply Ncl. exists cs, w0, w1. repeat split; assumption.
      * destruct D1 as (E1 & E2 & E3). apply gains_safe.
        -- intros O. split; [|rewrite L1; lia]. destruct (bytes_dec k swig) as [->|N]; [congruence|]. destruct (E3 k N). congruence.
        -- intros O. destruct (bytes_dec k swig) as [->|N]; [|destruct (E3 k N); congruence]. rewrite E1. destruct C1 as (_ & C1 & _). rewrite C1.
           apply shape_len; try assumption. apply shape_on. intros r0 I Hi. split; [reflexivity|]. cbn [with_acts r_acts].
           apply charges_charged in Ch. rewrite (charged_types _ _ _ Ch). destruct C as (_ & _ & Wc). destruct Wc as (_ & _ & _ & _ & _ & _ & _ & _ & Nd & _).
           rewrite (acted_acts_of _ _ _ _ _ _ Nd A I Hi). reflexivity.
    + unfold set_data in Fin. fold swig in Fin.
      destruct (beq _ _); [apply ok_inj in Fin; subst; apply safe_refl|]. rewrite Wt in Fin. discriminate.
Qed.
Lemma sub_sign_v1_safe : tag (c_data cx) = 9 -> sub_account_sign_v1 E cx w = Ok w' -> safe E w w' k.
Proof.
  intros Ht H. assert (Hs : exists s, is_cfg (w swig) s) by (unfold sub_account_sign_v1 in H; has_cfg E G H). destruct Hs as (s & C).
  destruct (sub_sign_v1_spec _ _ _ _ _ Hc C Ht H) as (r & s1 & p & w0 & xs & A & Wr & W1 & D0 & L0 & Hh & Os & _ & _ & _ & _ & Px & Hrun & _).
  pose proof (parse_all_ok _ _ _ _ (sub_all_bytes_signed _ Hc) Px) as [Fx Lx].
  assert (T0 : trace E cx 1 w w0) by (eapply use_changes; [rewrite Ht; cbn; tauto|exact C|exact A|exact D0|exact W1]).
  pose proof (trace_good _ _ _ _ _ T0 G) as G0.
  intros O X. assert (Nk : k <> mkey ms 1) by (intros ->; rewrite Os in O; discriminate).
  revert O X. change (safe E w w' k). eapply safe_trans; [eapply use_safe; eassumption|].
  eapply run_all_safe; try eassumption; [right; left; eauto|].
  eapply trace_roomy; [exact T0| |]; [lia|]. eapply roomy_le; [|exact R]. lia.
Qed.
Lemma sub_sign_v2_safe : tag (c_data cx) = 20 -> sub_account_sign_v2 E cx w = Ok w' -> safe E w w' k.
Proof.
  intros Ht H. assert (Hs : exists s, is_cfg (w swig) s) by (unfold sub_account_sign_v2 in H; has_cfg E G H). destruct Hs as (s & C).
  destruct (sub_sign_v2_spec _ _ _ _ _ Hc C Ht H) as (r & s1 & w0 & xs & A & Wr & W1 & D0 & L0 & Hh & Os & _ & _ & _ & Px & Hrun & _).
  pose proof Hc as [Hb _].
  pose proof (parse_all_ok _ _ _ _ (all_bytes_sub _ _ _ Hb) Px) as [Fx Lx].
  assert (T0 : trace E cx 1 w w0) by (eapply use_changes; [rewrite Ht; cbn; tauto|exact C|exact A|exact D0|exact W1]).
  pose proof (trace_good _ _ _ _ _ T0 G) as G0.
  intros O X. assert (Nk : k <> mkey ms 2) by (intros ->; rewrite Os in O; discriminate).
  revert O X. change (safe E w w' k). eapply safe_trans; [eapply use_safe; eassumption|].
  eapply run_all_safe; try eassumption; [right; right; eauto|].
  eapply trace_roomy; [exact T0| |]; [lia|]. eapply roomy_le; [|exact R]. lia.
Qed.
Lemma process_safe : process E cx w = Ok w' -> safe E w w' k.
Proof.
  intros H. unfold process in H. bind_inv H. peel K. destruct (_ =? 11) eqn:T11.
  { apply Z.eqb_eq in T11. eapply sign_v2_safe; eassumption. }
  destruct (_ =? 9) eqn:T9.
  { apply Z.eqb_eq in T9. eapply sub_sign_v1_safe; eassumption. }
  destruct (_ =? 20) eqn:T20.
  { apply Z.eqb_eq in T20. eapply sub_sign_v2_safe; eassumption. }
  eapply dispatch_safe; try eassumption. eapply roomy_le; [|exact R]. lia.
Qed.
End Call.

Lemma reach_safe w w' k : good_world E w -> reach E w w' -> safe E w w' k.
Proof.
  intros G. induction 1 as [|w1 e Re IH A]; [apply safe_refl|]. eapply safe_trans; [exact IH|].
  assert (G1 : good_world E w1) by (eapply reach_good; eassumption). destruct e as [cx|x]; cbn [step].
  - destruct A as (A1 & A2 & A3 & A4). destruct (process E cx w1) as [w'| |] eqn:Q; try apply safe_refl. eapply process_safe; eassumption.
  - destruct (foreign E w1 x) as [w'| |] eqn:Q; try apply safe_refl. eapply foreign_safe; exact Q.
Qed.

(** creation *)
Lemma created_exempt cx w w' : wf_ctx cx -> succeeds E cx w w' -> auth_layout (c_data cx) = None -> exempt E (w' (acct cx 0)).
Proof.
  intros Hc P Ht. apply none_create in P; [|exact Ht]. pose proof P as H.
  destruct (create_v1_spec _ _ _ _ Hc H) as (nr & W & _ & Ty & _ & _ & Pa & _ & _ & _ & Ow & _ & _ & _ & _ & O2 & D & _). unfold acct.
  unfold create_v1 in H. cbv zeta in H. open_up H.
  grab (sys_create_account _ _ _ _ _ _ _ = Ok _) as Bc. grab (rent_topup _ _ _ _ _ _ = Ok _) as Bt. grab (authority_len _ = Some _) as Bl.
  grab (authority_type _ = Ok _) as Bty. apply authority_type_id in Bty. subst.
  apply set_data_only in H as (_ & _ & L). unfold exempt. rewrite L.
  pose proof Bc as Bc'. apply sys_create_account_spec in Bc' as (C1 & _ & _ & C4 & _).
  apply (topup_gains _ _ _ _ _ _ _ (mkey (c_metas cx) 0)) in Bt. destruct (Bt C4) as [_ Lg].
  eapply Z.le_trans; [|exact Lg].
  unfold sys_create_account in Bc. peel Bc. grab (sys_transfer _ _ _ _ _ _ = Ok _) as Bs. unfold sys_allocate_assign in Bc. peel Bc.
  apply ok_inj in Bc. rewrite <- Bc. rewrite upd_same. cbn [a_lamports].
  match type of Bs with sys_transfer _ _ _ _ _ ?a = _ => set (amt := a) in * end.
  assert (Ln : (length (a_data (w' (mkey (c_metas cx) 0))) <= align8 (HDR + POS + v4 + length (skipn (40 + nat_of (u16_at 4 (c_data cx))) (c_data cx))))%nat).
  { rewrite D, enc_config_length by exact W. cbn [add_to empty_config s_roles s_claimer enc_claimer app roles_size length].
    eapply Nat.le_trans; [|apply align8_ge].
    destruct W as (_ & _ & _ & _ & _ & _ & _ & W & _). cbn [add_to empty_config s_roles app] in W. inversion W as [|? ? Wn _]; subst.
    unfold role_len. rewrite (parses_length _ _ Pa). destruct Wn as (_ & Wl & _). rewrite Ty, Bl in Wl. injection Wl as ->. unfold POS. lia. }
  apply Hr in Ln. eapply Z.le_trans; [apply Ln|]. pose proof Bs as Bs'. unfold sys_transfer in Bs'. peel Bs'.
  apply sys_transfer_moved in Bs as (M & _). destruct M as (_ & M1 & M2).
  destruct (bytes_dec (mkey (c_metas cx) 1) (mkey (c_metas cx) 0)) as [Q|Q].
  - rewrite (M1 Q). grab ((amt <=? _) = true) as Bz. rewrite Q in Bz. unfold amt, sat_sub in Bz. lia.
  - destruct (M2 Q) as (_ & -> & _). unfold amt, sat_sub. lia.
Qed.
End Safe.
