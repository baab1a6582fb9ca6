(** * A successful SignV2 call, whole *)
From Verif Require Import BaseFacts SpecConfig ConfigFacts ConfigEdit ConfigEdit2 ConfigEdit3.
From Verif Require Export SignProcess FrameRO Ledger Track Actors.

Lemma settle_finish E cx w1 w' s1 r xs p r1 snaps sol cs1 acts' :
  let ms := c_metas cx in let swig := mkey ms 0 in let wallet := mkey ms 1 in
  let off := (HDR + p + POS + length (r_auth r1))%nat in let len := acts_len (r_acts r) in
  wf_role r -> is_cfg (w1 swig) s1 -> Forall spent_ok cs1 -> 0 <= sol -> Forall inner_ok xs ->
  pos_of (r_id r) 0 (s_roles s1) = Some (p, r1) -> r_acts r1 = r_acts r ->
  settle E (c_slot cx) w1 wallet xs sol ms cs1 snaps (acts_now w1 swig off len) = Ok acts' ->
  set_data ms w1 swig (splice off acts' (a_data (w1 swig))) = Ok w' ->
  exists l', settle_a E (c_slot cx) w1 wallet xs sol ms cs1 snaps (r_acts r) = Ok l'
    /\ charges (c_slot cx) (r_acts r) l'
    /\ let s' := on_role (r_id r) (fun r0 => with_acts r0 l') s1 in wf_config s'
    /\ only_data w1 w' swig (enc_config s') /\ (forall k, a_lamports (w' k) = a_lamports (w1 k)).
Proof.
  intros ms swig wallet off len Wr C1 Sc Sol Xi Hp Ra St Sd. pose proof C1 as (P1 & D1 & P3).
  assert (Acts : acts_now w1 swig off len = enc_actions 0 (r_acts r)).
  { unfold acts_now. rewrite D1. unfold len. rewrite <- Ra.
    apply (acts_in_config s1 (r_id r) p r1 (r_acts r1) P3 Hp eq_refl eq_refl). rewrite Ra. apply Wr. }
  rewrite Acts in St. rewrite settle_enc in St by (try assumption; apply role_okl; exact Wr). unfold encr in St.
  destruct (settle_a E (c_slot cx) w1 wallet xs sol ms cs1 snaps (r_acts r)) as [l'| |] eqn:Es; try discriminate.
  apply ok_inj in St. subst acts'. exists l'. split; [reflexivity|].
  assert (Ch : charges (c_slot cx) (r_acts r) l') by (eapply settle_charges; eassumption). split; [exact Ch|].
  destruct (charges_okl _ _ _ Ch (role_okl _ Wr)) as ((Wl & _) & L1 & L2).
  rewrite <- Ra in L1, L2.
  destruct (acts_in_config s1 (r_id r) p r1 l' P3 Hp L1 L2 Wl) as (_ & Sp & W').
  rewrite D1 in Sd. fold off in Sp. rewrite Sp in Sd.
  split; [exact W'|]. apply set_data_only in Sd as (S1 & _ & S2). split; [exact S1|exact S2].
Qed.

(** Authentication of [r], leading to [w0] *)
Definition signed_in (E : env) (cx : ctx) (w : world) (s : config) (r : role) (s1 : config) (w0 : world) (xs : list inner) : Prop :=
  acted E cx s r s1 /\ wf_role r /\ wf_config s1 /\ only_data w w0 (mkey (c_metas cx) 0) (enc_config s1)
  /\ (forall k, a_lamports (w0 k) = a_lamports (w k)) /\ c_height cx = 1%nat
  /\ is_cfg (w0 (mkey (c_metas cx) 0)) s1 /\ good_world E w0 /\ roomy 299 w0
  /\ parse_all (c_metas cx) (mkey (c_metas cx) 1) (signed_of (c_data cx)) = Ok xs
  /\ Forall (from_outer_ix (c_metas cx) (mkey (c_metas cx) 1)) xs /\ (length xs <= 255)%nat.
Definition sign_pdas (E : env) (cx : ctx) (s : config) : list key := pda_list E (seeds_wallet (mkey (c_metas cx) 0) (s_wbump s)).
(** a limited role: everything that happens between [w0] and [w'] *)
Record limited_run (E : env) (cx : ctx) (w : world) (s : config) (r : role) (s1 : config) (w0 : world) (xs : list inner)
  (cs : list cls) (snaps : list (option bytes)) (w1 : world) (sol : Z) (cs1 : list cls) (l' : list action) (w' : world) : Prop := {
  lr_cls : classify_all w (c_metas cx) = Ok cs;
  lr_cfg : nth_error cs 0 = Some CThisSwig;
  lr_wallet : nth_error cs 1 = Some CWallet;
  lr_snaps : snapshots E w0 (enc_actions 0 (r_acts r)) 0 (c_metas cx) cs = Ok snaps;
  lr_loop : exists p r1, pos_of (r_id r) 0 (s_roles s1) = Some (p, r1) /\ r_acts r1 = r_acts r
    /\ limited_loop E cx (mkey (c_metas cx) 0) (mkey (c_metas cx) 1) (sign_pdas E cx s) (HDR + p + POS + length (r_auth r1))
         (acts_len (r_acts r)) (has P_ProgramAll [] r) (negb (has P_ProgramAll [] r) && has P_ProgramCurated [] r) xs w0 0 cs = Ok (w1, sol, cs1);
  lr_w1 : is_cfg (w1 (mkey (c_metas cx) 0)) s1;
  lr_trace : trace E cx (length xs) w0 w1;
  lr_spent : Forall spent_ok cs1;
  lr_sol : 0 <= sol;
  lr_len : length cs1 = length (c_metas cx);
  lr_settle : settle_a E (c_slot cx) w1 (mkey (c_metas cx) 1) xs sol (c_metas cx) cs1 snaps (r_acts r) = Ok l';
  lr_charges : charges (c_slot cx) (r_acts r) l';
  lr_wf : wf_config (on_role (r_id r) (fun r0 => with_acts r0 l') s1);
  lr_end : only_data w1 w' (mkey (c_metas cx) 0) (enc_config (on_role (r_id r) (fun r0 => with_acts r0 l') s1));
  lr_lam : forall k, a_lamports (w' k) = a_lamports (w1 k) }.

Theorem sign_whole E cx w w' s : wf_ctx cx -> flags_ok (c_metas cx) -> good_world E w -> foreign_ok E -> roomy 300 w -> ~ clash E cx w ->
  is_cfg (w (mkey (c_metas cx) 0)) s -> tag (c_data cx) = 11 -> process E cx w = Ok w' ->
  exists r s1 w0 xs, signed_in E cx w s r s1 w0 xs
    /\ ((unlimited r = true /\ run_all E cx (mkey (c_metas cx) 1) (sign_pdas E cx s) xs w0 = Ok w')
        \/ (unlimited r = false /\ exists cs snaps w1 sol cs1 l', limited_run E cx w s r s1 w0 xs cs snaps w1 sol cs1 l' w')).
Proof.
  intros Hc Hf G F R NC C Ht H. unfold process in H. bind_inv H. rename v into cs. rename B into Cs. peel K.
  unfold tag in Ht. rewrite Ht in K. cbn [Z.eqb Pos.eqb] in K. rename K into H. fold (tag (c_data cx)) in Ht.
  pose proof (classify_all_ok _ _ _ Cs) as (S1 & S2 & S3).
  destruct (sign_v2_spec _ _ _ _ _ _ Hc C Ht H) as (r & s1 & w0 & xs & A & Wr & W1 & D0 & L0 & Hh & N0 & N1 & Px & Cases). clear H.
  pose proof (parse_all_ok _ _ _ _ (sub_all_bytes_signed _ Hc) Px) as [Fx Lx].
  assert (T0 : trace E cx 1 w w0) by (eapply use_changes; [rewrite Ht; cbn; tauto|exact C|exact A|exact D0|exact W1]).
  pose proof (trace_good _ _ _ _ _ T0 G) as G0.
  assert (R0 : roomy 299 w0) by (eapply trace_roomy; [exact T0|lia|exact R]).
  assert (C0 : is_cfg (w0 (mkey (c_metas cx) 0)) s1) by (eapply only_data_cfg; eassumption).
  exists r, s1, w0, xs. split; [repeat (split; [assumption|]); assumption|].
  destruct Cases as [(U & Hr)|(U & p & r1 & snaps & w1 & sol & cs1 & acts' & Hp & Ra & In & Sn & Lo & St & Fin)].
  - left. split; [exact U|exact Hr].
  - right. split; [exact U|].
    assert (Sd : asset_seeds (seeds_wallet (mkey (c_metas cx) 0) (s_wbump s))) by (left; eauto).
    assert (R1 : roomy (Z.of_nat (length xs)) w0) by (eapply roomy_le; [|exact R0]; lia).
    pose proof (limited_trace E cx (mkey (c_metas cx) 1) (seeds_wallet (mkey (c_metas cx) 0) (s_wbump s)) F Hc Sd Hh (mkey (c_metas cx) 0) _ _ _ _ xs Fx Lx w0 w1 0 sol cs cs1 G0 R1
      (Z.le_refl 0) S1 S2 Lo) as (T1 & Sol & Sc & Lc & Hk).
    assert (O1 : a_owner (w1 (mkey (c_metas cx) 0)) = SELF) by (eapply trace_self; [exact T1|]; destruct C0 as (C1 & _); exact C1).
    assert (Xi : Forall inner_ok xs) by (apply from_outer_inner in Fx; exact Fx).
    assert (C1 : is_cfg (w1 (mkey (c_metas cx) 0)) s1).
    { destruct (writable (c_metas cx) (mkey (c_metas cx) 0)) eqn:Wt.
      - assert (T1c : nth_error cs1 0 = Some CThisSwig).
        { destruct (nth_error cs1 0) as [c|] eqn:Q.
          - destruct (Hk c eq_refl) as (c0 & Q1 & Q2). rewrite N0 in Q1. injection Q1 as <-. destruct c; try contradiction. reflexivity.
          - apply nth_error_None in Q. assert (length cs <> 0)%nat by (intros Z; apply length_zero_iff_nil in Z; subst cs; discriminate). lia. }
        destruct (limited_end E cx cs w w0 w1 w' s s1 r xs p r1 snaps sol cs1 acts') as [(Ne & Ha)|(C1 & _)]; try assumption.
        exfalso. apply NC. exists cs, w0, w1. repeat split; assumption.
      - pose proof (limited_steady _ _ _ _ _ _ _ _ _ _ F _ _ _ _ _ _ Lo) as Sy.
        destruct C0 as (P1 & P2 & P3). destruct (Sy _ Wt P1) as (K1 & K2).
        split; [congruence|]. split; [congruence|exact P3]. }
    destruct (settle_finish _ _ _ _ _ _ _ _ _ _ _ _ _ Wr C1 Sc Sol Xi Hp Ra St Fin) as (l' & E1 & E2 & E3 & E4 & E5).
    exists cs, snaps, w1, sol, cs1, l'. constructor; try assumption.
    exists p, r1. split; [exact Hp|]. split; [exact Ra|exact Lo].
Qed.
