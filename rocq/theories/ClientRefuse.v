(** * Instructions built by the client that the program refuses *)
From Verif Require Import BaseFacts SpecClient ClientFacts ClientAuth AuthFacts Actors SignSpec LifeProps NewCredential ConfigEdit.

Section Refuse.
Variables (E : env) (cx : ctx) (w w' : world) (s : config).
Hypothesis (Hc : wf_ctx cx) (S : is_cfg (w (acct cx 0)) s) (H : succeeds E cx w w').

Lemma acted_of : In (tag (c_data cx)) [6; 7; 9; 10; 13] -> exists r s1, acted E cx s r s1.
Proof.
  intro T. pose proof S as (So & Sd & Sw). cbn in T. unfold acct in *.
  repeat destruct T as [T|T]; try contradiction; symmetry in T; pose proof H as P; by_tag P T.
  - destruct (create_sub_v1_spec _ _ _ _ _ Hc P Sd Sw) as (r & s1 & nr & A & _). do 2 eexists. acted_by T A.
  - destruct (withdraw_v1_spec _ _ _ _ _ P Sd Sw) as (r & s1 & x1 & x2 & x3 & A & _). do 2 eexists. acted_by T A.
  - destruct (sub_sign_v1_spec _ _ _ _ _ Hc S T P) as (r & s1 & p & w0 & xs & A & _). do 2 eexists. exact A.
  - destruct (toggle_sub_v1_spec _ _ _ _ _ Hc P Sd Sw) as (r & s1 & x1 & x2 & A & _). do 2 eexists. acted_by T A.
  - destruct (transfer_assets_spec _ _ _ _ _ P Sd Sw) as (r & s1 & x1 & x2 & A & _). do 2 eexists. acted_by T A.
Qed.
End Refuse.

Definition old_order (o : order) : Prop :=
  match o with CreateSub _ | WithdrawSub _ | SignSub _ | ToggleSub _ _ | TransferAssets => True | _ => False end.
Lemma old_tag d o : order_of d = Some o -> old_order o -> In (tag d) [6; 7; 9; 10; 13].
Proof.
  unfold order_of. cbv zeta. intros H O.
  repeat match type of H with (if ?b then _ else _) = _ => let e := fresh in destruct b eqn:e;
    [apply Z.eqb_eq in e; rewrite e; injection H as <-; cbn in O |- *; tauto|] end. discriminate.
Qed.
Lemma built_k1_old_order swig rid E sign slot o ks x : built_k1_old swig rid E sign slot o ks x -> old_order o.
Proof. destruct 1; exact I. Qed.
Lemma built_r1_old_order swig rid E sign pk slot counter o ks l : built_r1_old swig rid E sign pk slot counter o ks l -> old_order o.
Proof. destruct 1; exact I. Qed.

Theorem refused_k1_old E swig rid sign slot o ks x cx w w' s r : is_u32 rid -> in_range o ->
  built_k1_old swig rid E sign slot o ks x -> (forall m, length (sign (keccak E m)) = 65%nat) ->
  wf_ctx cx -> sent cx x -> is_cfg (w (acct cx 0)) s -> find_role rid s = Some r -> r_aty r = 3 ->
  ~ succeeds E cx w w'.
Proof.
  intros R G B Ls Hc [Sd _] S F T H. pose proof (built_k1_old_order _ _ _ _ _ _ _ _ B) as O.
  destruct (built_k1_old_shape _ _ _ _ _ _ _ _ R B G) as (ms & Bd & signed & -> & Rd & _).
  cbn [by_k1_old build ix_data] in Sd.
  match type of Sd with _ = Bd ++ ?p => destruct (Rd p) as (Ra & Ro & Rs & Rp & _); set (pl := p) in * end.
  rewrite <- Sd in Ra, Ro, Rs, Rp.
  destruct (acted_of E cx w w' s Hc S H (old_tag _ _ Ro O)) as (r' & s1 & F' & a & A & _).
  rewrite Ra, F in F'. injection F' as <-. rewrite T, Rp in A. unfold role_authenticate in A. cbn [session_based Z.eqb Pos.eqb orb T_Ed25519Session T_Secp256k1Session T_Secp256r1Session T_ProgramExecSession] in A.
  unfold authenticate in A. cbn [Z.eqb Pos.eqb orb T_Ed25519 T_Ed25519Session T_Secp256k1] in A.
  unfold secp256k1_auth in A. apply bind_ok in A as (u & A & _). apply check_ok, Nat.leb_le in A.
  unfold pl in A. rewrite !app_length, !le_enc_length in A. unfold prepare_k1 in A. rewrite Ls in A. lia.
Qed.
Theorem refused_r1_old E swig rid sign pk slot counter o ks v x cx w w' s r : is_u32 rid -> in_range o ->
  built_r1_old swig rid E sign pk slot counter o ks [v; x] ->
  wf_ctx cx -> sent cx x -> is_cfg (w (acct cx 0)) s -> find_role rid s = Some r -> r_aty r = 5 ->
  ~ succeeds E cx w w'.
Proof.
  intros R G B Hc [Sd _] S F T H. pose proof (built_r1_old_order _ _ _ _ _ _ _ _ _ _ B) as O.
  destruct (built_r1_old_shape _ _ _ _ _ _ _ _ _ _ R B G) as (ms & Bd & signed & i & El & Rd & _).
  unfold by_r1_old in El. injection El as -> ->. cbn [build ix_data] in Sd.
  match type of Sd with _ = Bd ++ ?p => destruct (Rd p) as (Ra & Ro & Rs & Rp & _) end.
  rewrite <- Sd in Ra, Ro, Rs, Rp.
  destruct (acted_of E cx w w' s Hc S H (old_tag _ _ Ro O)) as (r' & s1 & F' & a & A & _).
  rewrite Ra, F in F'. injection F' as <-. rewrite T, Rp in A. discriminate A.
Qed.

(** ** Accounts at the wrong place *)
Lemma sent_key cx x i m : sent cx x -> nth_error (ix_metas x) i = Some m -> acct cx i = m_key m.
Proof.
  intros [_ Sm] N. destruct (wider_nth _ _ _ _ Sm N) as (m' & N' & K & _). unfold acct, mkey.
  rewrite (nth_error_nth _ _ _ N'). exact K.
Qed.
Lemma withdraw_place E cx w w' : tag (c_data cx) = 7 -> succeeds E cx w w' ->
  acct cx 4 = fst (find_pda E (seeds_wallet0 (acct cx 0))) /\ a_owner (w (acct cx 4)) = SYSTEM.
Proof.
  intros T H. by_tag H T. unfold withdraw_v1 in H. cbv zeta in H. unfold owned_by in H.
  do 7 (let u := fresh in let C := fresh "C" in apply bind_ok in H as (u & C & H)). clear H.
  apply check_ok, beq_eq in C2, C5. split; [symmetry|]; assumption.
Qed.
Theorem misplaced_withdraw E swig rid pre tix payer sa wallet amount x cx w w' :
  withdraw_sol_exec swig payer pre sa wallet rid amount tix = [pre; x] -> sent cx x ->
  succeeds E cx w w' -> fst (find_pda E (seeds_wallet0 swig)) = SYSTEM.
Proof.
  unfold withdraw_sol_exec, by_exec. intros B Sn H. injection B as <-.
  destruct (withdraw_place E cx w w') as [P _]; [rewrite (proj1 Sn); reflexivity|exact H|].
  rewrite (sent_key _ _ 4 SYS Sn eq_refl), (sent_key _ _ 0 (w_ swig) Sn eq_refl) in P. symmetry. exact P.
Qed.
Theorem misplaced_withdraw_token E swig rid pre tix payer sa wallet src dst prog amount x cx w w' :
  withdraw_token_exec swig payer pre sa wallet src dst prog rid amount tix = [pre; x] -> sent cx x ->
  succeeds E cx w w' -> fst (find_pda E (seeds_wallet0 swig)) = src /\ a_owner (w src) = SYSTEM.
Proof.
  unfold withdraw_token_exec, by_exec. intros B Sn H. injection B as <-.
  destruct (withdraw_place E cx w w') as [P O]; [rewrite (proj1 Sn); reflexivity|exact H|].
  rewrite (sent_key _ _ 4 (w_ src) Sn eq_refl) in P, O. rewrite (sent_key _ _ 0 (w_ swig) Sn eq_refl) in P.
  split; [symmetry; exact P|exact O].
Qed.
Theorem misplaced_sub_sign E swig rid pre tix sa payer inner x cx w w' s r : is_u32 rid ->
  short (packed [swig; sa] [ro_ swig; ros payer; w_ sa; SYS; IXS] inner) ->
  sub_sign_exec swig sa payer pre rid inner tix = [pre; x] -> sent cx x -> wf_ctx cx -> wf_key payer ->
  is_cfg (w (acct cx 0)) s -> find_role rid s = Some r ->
  succeeds E cx w w' -> exists b, owns_sub s r payer b.
Proof.
  intros R G B Sn Hc L S F H. unfold sub_sign_exec in B.
  compacted [swig; sa] [ro_ swig; ros payer; w_ sa; SYS; IXS] inner.
  unfold by_exec in B. injection B as <-.
  assert (T : tag (c_data cx) = 9) by (rewrite (proj1 Sn); reflexivity).
  assert (A : actor_of (c_data cx) = rid).
  { rewrite (proj1 Sn). apply (reads_sub_sign rid (into_bytes cs) R G). }
  pose proof H as P. by_tag P T. unfold acct in S.
  destruct (sub_sign_v1_spec _ _ _ _ _ Hc S T P) as (r' & s1 & p & w0 & xs & (F' & _) & _ & _ & _ & _ & _ & _ & Fs & I1 & I2 & I3 & _).
  rewrite A, F in F'. injection F' as <-.
  pose proof (sent_key _ _ 1 (ros payer) Sn eq_refl) as K. unfold acct in K. rewrite K in Fs. exists (sa_bump p). now apply first_of_owns.
Qed.

(** ** The instruction that vouches for a replacement *)
Lemma key33_id k : length k = 33%nat -> key33 k = k.
Proof. intro L. unfold key33. rewrite L. reflexivity. Qed.
Lemma normal_k1_is k c : normal_k1 k = Some c -> c = key33 k /\ length c = 33%nat.
Proof.
  unfold normal_k1. destruct (length k =? 33)%nat eqn:Q.
  - apply Nat.eqb_eq in Q. intros [= <-]. rewrite key33_id by exact Q. auto.
  - destruct (length k =? 64)%nat eqn:Q'; [|discriminate]. apply Nat.eqb_eq in Q'. intros [= <-].
    split; [apply compress_key33; exact Q'|]. apply compress_length. lia.
Qed.
Lemma same_len_is n cur new a b : same_len n cur new = Some (a, b) -> a = cur /\ b = new /\ length a = n /\ length b = n.
Proof.
  unfold same_len. destruct (_ && _) eqn:Q; [|discriminate]. apply andb_prop in Q as [Q1 Q2].
  apply Nat.eqb_eq in Q1, Q2. intros [= <- <-]. auto.
Qed.
Theorem proof_shows E swig wallet rid target ty cur new d i x m0 m1 rest cx :
  proof_data E swig wallet rid target ty cur new = Some d ->
  (i < c_cur cx)%nat -> nth_error (c_ixs cx) i = Some x -> ix_data x = d -> ix_metas x = m0 :: m1 :: rest ->
  m_key m0 = swig -> m_key m1 = wallet -> acct cx 0 = swig -> acct cx 1 = wallet ->
  1 <= ty <= 6 /\ replacement_shown E cx rid target ty (new_key ty cur) (new_key ty new).
Proof.
  unfold proof_data. cbv zeta. intros P Hi N D M K0 K1 A0 A1.
  assert (Q : exists a b, d = proof_tag ++ sha256 E (proof_domain ++ swig ++ wallet ++ le_enc 4 rid ++ le_enc 4 target ++ le_enc 2 ty ++ a ++ b)
     /\ 1 <= ty <= 6 /\ a = new_key ty cur /\ b = new_key ty new).
  { destruct (_ || _) eqn:E1 in P; [|destruct (_ || _) eqn:E2 in P; [|destruct (_ || _) eqn:E3 in P; [|discriminate]]].
    - destruct (same_len _ _ _) as [[a b]|] eqn:L; [|discriminate]. apply same_len_is in L as (-> & -> & La & Lb). injection P as <-.
      exists cur, new. split; [reflexivity|]. apply orb_prop in E1. destruct E1 as [T|T]; apply Z.eqb_eq in T; subst ty; (split; [unfold T_Ed25519, T_Ed25519Session; lia|]); split; reflexivity.
    - destruct (normal_k1 cur) as [a|] eqn:La; [|discriminate]. destruct (normal_k1 new) as [b|] eqn:Lb; [|discriminate].
      apply normal_k1_is in La as [-> _], Lb as [-> _]. injection P as <-. do 2 eexists. split; [reflexivity|].
      apply orb_prop in E2. destruct E2 as [T|T]; apply Z.eqb_eq in T; subst ty; (split; [unfold T_Secp256k1, T_Secp256k1Session; lia|]); split; reflexivity.
    - destruct (same_len _ _ _) as [[a b]|] eqn:L; [|discriminate]. apply same_len_is in L as (-> & -> & La & Lb). injection P as <-.
      exists cur, new. split; [reflexivity|]. apply orb_prop in E3. destruct E3 as [T|T]; apply Z.eqb_eq in T; subst ty; (split; [unfold T_Secp256r1, T_Secp256r1Session; lia|]); unfold new_key; cbn [Z.eqb Pos.eqb orb T_Secp256r1 T_Secp256r1Session]; rewrite !key33_id by assumption; auto. }
  destruct Q as (a & b & -> & T & -> & ->). split; [exact T|]. exists i, x, m0, m1, rest. rewrite A0, A1.
  split; [exact Hi|]. split; [exact N|]. split; [exact M|]. split; [exact K0|]. split; [exact K1|]. exact D.
Qed.
