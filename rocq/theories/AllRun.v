(** * A signing call succeeds only if every inner instruction does *)
From Verif Require Import BaseFacts SpecConfig ConfigFacts ConfigEdit ConfigEdit2 ConfigEdit3.
From Verif Require Export SignRules Roundtrip.

Definition inner_ok_step (E : env) (cx : ctx) (sk : key) (ps : list key) (w : world) (x : ix) (w' : world) : Prop :=
  run_inner E cx sk ps w x = Ok w'.
Lemma run_all_turn E cx sk ps xs : forall w w', run_all E cx sk ps xs w = Ok w' ->
  in_turn (inner_ok_step E cx sk ps) (map in_ix xs) w w'.
Proof.
  induction xs as [|x r IH]; intros w w' H; cbn [run_all map] in *.
  - apply ok_inj in H. subst. constructor.
  - bind_inv H. econstructor; [exact B|]. apply IH. exact K.
Qed.
Lemma loop_turn E cx swig wallet ps off n pall cur xs : forall w sol cs w' sol' cs',
  limited_loop E cx swig wallet ps off n pall cur xs w sol cs = Ok (w', sol', cs') ->
  in_turn (inner_ok_step E cx wallet ps) (map in_ix xs) w w'.
Proof.
  induction xs as [|x r IH]; intros w sol cs w' sol' cs' H; cbn [limited_loop map] in *; cbv zeta in H.
  - apply ok_inj in H. injection H as -> _ _. constructor.
  - apply bind_ok in H as (u & _ & H). apply bind_ok in H as (w1 & R & H). apply bind_ok in H as (cs1 & _ & H).
    econstructor; [exact R|]. eapply IH. exact H.
Qed.
Lemma only_here_of w w' k d : only_data w w' k d -> (forall k', a_lamports (w' k') = a_lamports (w k')) -> only_here k w w'.
Proof. intros (_ & _ & H) L. split; [|exact L]. intros k' N. apply H. exact N. Qed.

Theorem all_run E cx w w' s : foreign_ok E -> good_world E w -> admissible E w (Call cx) ->
  is_cfg (w (acct cx 0)) s -> In (tag (c_data cx)) [9; 11; 20] -> succeeds E cx w w' ->
  exists ps xs w0 w1,
    inner_ixs (c_metas cx) (signs_for cx) (inner_payload (c_data cx)) xs
    /\ only_here (acct cx 0) w w0
    /\ in_turn (inner_ok_step E cx (signs_for cx) ps) xs w0 w1
    /\ only_here (acct cx 0) w1 w'.
Proof.
  intros F G Ad S T H. pose proof Ad as (Hc & Hf & R & Nc). unfold succeeds in H. pose proof Hc as [Hb _].
  assert (Refl : forall v, only_here (acct cx 0) v v) by (intros v; split; [intros k' _; split; reflexivity|reflexivity]).
  destruct T as [T|[T|[T|[]]]]; symmetry in T.
  - assert (Hs : sub_account_sign_v1 E cx w = Ok w').
    { unfold process in H. peel H. unfold tag in T. rewrite T in H. exact H. }
    destruct (sub_sign_v1_spec _ _ _ _ _ Hc S T Hs) as (r & s1 & p & w0 & xs & A & Wr & W1 & D0 & L0 & Hh & _ & _ & _ & _ & _ & Px & Hr & _).
    exists (pda_list E (seeds_sub (s_id s) (r_id r) (sa_bump p))), (map in_ix xs), w0, w'.
    unfold signs_for. rewrite T. cbn [Z.eqb Pos.eqb].
    split. { apply parse_all_inner in Px; [|apply sub_all_bytes_signed; exact Hc]. unfold inner_payload. rewrite T. cbn [Z.eqb Pos.eqb].
             unfold signed_of, auth_layout in Px. rewrite T in Px. cbn [Z.eqb Pos.eqb] in Px. replace (16 + arg_len (c_data cx) - 16)%nat with (arg_len (c_data cx)) in Px by lia. exact Px. }
    split; [eapply only_here_of; eassumption|]. split; [apply run_all_turn; exact Hr|apply Refl].
  - destruct (sign_whole E cx w w' s Hc Hf G F R Nc S T H) as (r & s1 & w0 & xs & O & Cases).
    destruct O as (A & Wr & W1 & D0 & Lam0 & Hh & C0 & G0 & R0 & Px & Fx & Lx).
    assert (Ix : inner_ixs (c_metas cx) (signs_for cx) (inner_payload (c_data cx)) (map in_ix xs)).
    { apply parse_all_inner in Px; [|apply sub_all_bytes_signed; exact Hc]. rewrite inner_payload_signed by exact T. unfold signs_for. rewrite T. exact Px. }
    assert (O0 : only_here (acct cx 0) w w0) by (eapply only_here_of; eassumption).
    unfold signs_for in *. rewrite T in *. cbn [Z.eqb Pos.eqb] in *.
    destruct Cases as [[_ Hr]|(_ & cs & snaps & w1 & sol & cs1 & l' & Lr)].
    + exists (sign_pdas E cx s), (map in_ix xs), w0, w'. split; [exact Ix|]. split; [exact O0|]. split; [apply run_all_turn; exact Hr|apply Refl].
    + destruct Lr as [Cs N0 N1 Sn (p & r1 & Hp & Ra & Lo) Cw1 Tr Sc Sol Lc St Ch Wf En Lm].
      exists (sign_pdas E cx s), (map in_ix xs), w0, w1. split; [exact Ix|]. split; [exact O0|]. split; [eapply loop_turn; exact Lo|].
      eapply only_here_of; eassumption.
  - assert (Hs : sub_account_sign_v2 E cx w = Ok w').
    { unfold process in H. peel H. unfold tag in T. rewrite T in H. exact H. }
    destruct (sub_sign_v2_spec _ _ _ _ _ Hc S T Hs) as (r & s1 & w0 & xs & A & Wr & W1 & D0 & L0 & Hh & _ & _ & _ & _ & Px & Hr & _).
    exists (pda_list E (seeds_v2_asset (s_id s) (u32_at 8 (c_data cx)) (v2_asset_bump (a_data (w (acct cx 1)))))), (map in_ix xs), w0, w'.
    unfold signs_for. rewrite T. cbn [Z.eqb Pos.eqb].
    split. { apply parse_all_inner in Px; [|apply all_bytes_sub; exact Hb]. unfold inner_payload. rewrite T. exact Px. }
    split; [eapply only_here_of; eassumption|]. split; [apply run_all_turn; exact Hr|apply Refl].
Qed.

Lemma inner_privileges ms sk l xs : inner_ixs ms sk l xs -> forall x m, In x xs -> In m (ix_metas x) ->
  exists m0, In m0 ms /\ m_key m = m_key m0 /\ m_writable m = m_writable m0
    /\ (m_signer m = true -> m_signer m0 = true \/ m_key m = sk).
Proof.
  intros (_ & rest & _ & H). induction H as [rest'|prog accts data x rest' xs (P & A & D) L1 L2 H IH]; intros y m Hy Hm; [contradiction|].
  destruct Hy as [<-|Hy]; [|eapply IH; eassumption].
  clear - A Hm. induction A as [|a b t u (m0 & N & ->) A IH]; [contradiction|]. destruct Hm as [<-|Hm]; [|apply IH; exact Hm].
  exists m0. split; [eapply nth_error_In; exact N|]. cbn. split; [reflexivity|]. split; [reflexivity|].
  intros Q. apply orb_prop in Q as [Q|Q]; [left; exact Q|right; apply beq_eq; exact Q].
Qed.
Theorem decoded_privileges ms sk l xs : all_bytes l -> parse_all ms sk l = Ok xs -> forall x m, In x xs -> In m (ix_metas (in_ix x)) ->
  exists m0, In m0 ms /\ m_key m = m_key m0 /\ m_writable m = m_writable m0
    /\ (m_signer m = true -> m_signer m0 = true \/ m_key m = sk).
Proof.
  intros B P x m Hx Hm. eapply inner_privileges; [eapply parse_all_inner; eassumption| |exact Hm]. apply in_map. exact Hx.
Qed.
