(** * A wallet whose roles watch the system program unreadably.  Proofs *)
From Verif Require Import BaseFacts SpecConfig ConfigFacts ConfigEdit ConfigEdit2 ConfigEdit3.
From Verif Require Import Actors ConfigProps SpecAvail Avail Avail2 FrameNat Rent3.

(** ** Nothing that lists the system program runs *)
Lemma classify_from_each w cache k0 k1 m ms : forall wal i cs, classify_from w cache k0 k1 wal i ms = Ok cs -> In m ms ->
  exists wal' j, (i <= j)%nat /\ can (classify w cache k0 k1 wal' j (m_key m)).
Proof.
  induction ms as [|x t IH]; intros wal i cs H I; [destruct I|]. cbn [classify_from] in H. bind_inv H. bind_inv K.
  destruct I as [->|I]; [exists wal, i; split; [lia|exists v; exact B]|].
  destruct (IH _ _ _ B0 I) as (wal' & j & L & C). exists wal', j. split; [lia|exact C].
Qed.
Lemma scope_found w s p : wf_config s -> locked w s -> find_scope (scope_list s) SYSTEM = Some p ->
  exists a, ac_data a = p /\ unreadable (a_data (w SYSTEM)) a.
Proof.
  intros W (_ & L) H. apply find_some in H as [I Q]. apply scope_list_in in I as (r & a & I1 & I2 & T & <-); [|exact W].
  exists a. split; [reflexivity|]. apply (L r a I1 I2). split; [exact T|]. apply beq_eq in Q. exact Q.
Qed.
Lemma scope_there w s : wf_config s -> locked w s -> find_scope (scope_list s) SYSTEM <> None.
Proof.
  intros W ((r & a & I1 & I2 & T & Q) & _) H. unfold find_scope in H.
  assert (I : In (ac_data a) (scope_list s)) by (apply scope_list_in; [exact W|]; exists r, a; auto).
  pose proof (find_none _ _ H _ I) as X. cbv beta in X. unfold ps_target in X. rewrite Q, beq_refl in X. discriminate.
Qed.
Lemma locked_listed w ms s cs : is_cfg (w (mkey ms 0)) s -> native w -> locked w s ->
  In SYSTEM (map m_key (tl ms)) -> classify_all w ms <> Ok cs.
Proof.
  intros C N L I H. unfold classify_all in H. peel H. cbv zeta in H. rewrite (cfg_is_config w s _ C) in H.
  pose proof C as (_ & D & W). rewrite D, scope_cache_enc in H by exact W.
  destruct ms as [|m0 t]; [destruct I|]. cbn [classify_from tl] in *. bind_inv H. bind_inv K.
  apply in_map_iff in I as (m & Q & I). destruct (classify_from_each _ _ _ _ _ _ _ _ _ B2 I) as (wal' & j & J & v' & X).
  rewrite Q in X. unfold classify in X. cbv zeta in X.
  assert (Ne : forall k, In k [SELF; SYSTEM; STAKING; SPL_TOKEN; SPL_TOKEN_2022] -> beq (a_owner (w SYSTEM)) k = false).
  { intros k Ik. apply beq_neq. intros E0. apply N. rewrite E0. exact Ik. }
  unfold is_token_program in X. rewrite !Ne in X by (cbn; tauto). cbn [andb orb] in X.
  replace (j =? 0)%nat with false in X by lia.
  pose proof (scope_there w s W L) as T. destruct (find_scope (scope_list s) SYSTEM) as [p|] eqn:Fp; [|congruence].
  destruct (scope_found w s p W L Fp) as (a & <- & U1 & U2).
  bind_inv X. unfold scope_balance0, ps_type, ps_end in B3. replace (u64_at 112 (ac_data a) =? 0) with false in B3 by lia.
  bind_inv B3. apply check_ok in B4. lia.
Qed.

(** the instructions that name the system program *)
Lemma names_system E cx w w' : dispatch E cx w = Ok w' -> In (tag (c_data cx)) [1; 2; 3; 15; 17; 18] ->
  In SYSTEM (map m_key (tl (c_metas cx))).
Proof.
  assert (X : forall i, (S i < length (c_metas cx))%nat -> mkey (c_metas cx) (S i) = SYSTEM -> In SYSTEM (map m_key (tl (c_metas cx)))).
  { intros i L Q. destruct (c_metas cx) as [|m t]; [cbn in L; lia|]. cbn [tl length] in *. unfold mkey in Q. cbn [nth] in Q.
    rewrite <- Q. apply in_map. apply nth_In. lia. }
  intros H T. unfold dispatch in H. cbv zeta in H. peel H. unfold tag in T.
  repeat match type of T with
  | In _ (_ :: _) => destruct T as [T|T]
  | In _ [] => destruct T
  end; rewrite <- T in H; cbn [Z.eqb Pos.eqb orb] in H.
  - unfold add_authority_v1, need in H. cbv zeta in H. peel H. apply (X 1%nat); [lia|apply beq_eq; assumption].
  - unfold remove_authority_v1, need in H. cbv zeta in H. peel H. apply (X 1%nat); [lia|apply beq_eq; assumption].
  - unfold update_authority_v1, need in H. cbv zeta in H. peel H. apply (X 1%nat); [lia|apply beq_eq; assumption].
  - unfold close_swig_v1, need in H. cbv zeta in H. peel H. apply (X 2%nat); [lia|apply beq_eq; assumption].
  - unfold set_rent_claimer_v1, need in H. cbv zeta in H. peel H. apply (X 1%nat); [lia|apply beq_eq; assumption].
  - unfold create_sub_account_v2, need in H. cbv zeta in H. peel H. apply (X 3%nat); [lia|apply beq_eq; assumption].
Qed.
Lemma locked_tags E cx w s w' cs : is_cfg (w (acct cx 0)) s -> native w -> locked w s -> classify_all w (c_metas cx) = Ok cs ->
  dispatch E cx w = Ok w' -> ~ In (tag (c_data cx)) [1; 2; 3; 15; 17; 18].
Proof. intros C N L K H T. eapply locked_listed; [exact C|exact N|exact L| |exact K]. eapply names_system; eassumption. Qed.
Theorem locked_fails E cx w s w' : is_cfg (w (acct cx 0)) s -> native w -> locked w s ->
  In (tag (c_data cx)) [1; 2; 3; 15; 17; 18] \/ In SYSTEM (map m_key (tl (c_metas cx))) -> ~ succeeds E cx w w'.
Proof.
  intros C N L [T|T] H; unfold succeeds, process in H; bind_inv H.
  - peel K. assert (Q : tag (c_data cx) <> 11 /\ tag (c_data cx) <> 9 /\ tag (c_data cx) <> 20) by (cbn in T; lia).
    cbv zeta in K. unfold tag in Q. replace (_ =? 11) with false in K by lia. replace (_ =? 9) with false in K by lia. replace (_ =? 20) with false in K by lia.
    eapply locked_tags; eassumption.
  - eapply locked_listed; eassumption.
Qed.
