(** * Every call of the program is a sequence of specified changes *)
From Verif Require Import BaseFacts SpecConfig ConfigFacts ConfigEdit ConfigEdit2 ConfigEdit3.
From Verif Require Export SignSpec.

Lemma only_data_cfg w w' k s s' : is_cfg (w k) s -> only_data w w' k (enc_config s') -> wf_config s' -> is_cfg (w' k) s'.
Proof. intros (O & _) (D1 & D2 & _) W. split; [congruence|]. split; assumption. Qed.
Lemma use_changes E cx w w0 s r s1 : let k := mkey (c_metas cx) 0 in
  In (tag (c_data cx)) [7; 9; 11; 13; 14; 19; 20; 21] ->
  is_cfg (w k) s -> acted E cx s r s1 -> only_data w w0 k (enc_config s1) -> wf_config s1 -> trace E cx 1 w w0.
Proof.
  intros k Ht C A D W. apply trace_one. eapply config_changes; [exact C| |exact D|exact W].
  eapply by_role; [reflexivity|exact A|]. apply ed_use. exact Ht.
Qed.
Lemma writable_head ms i m : flags_ok ms -> nth_error ms i = Some m -> m_writable m = writable ms (m_key m).
Proof.
  intros F H. apply nth_error_In in H. unfold writable. symmetry. destruct (m_writable m) eqn:Q.
  - apply existsb_exists. exists m. split; [exact H|]. rewrite beq_refl, Q. reflexivity.
  - apply Bool.not_true_is_false. intros T. apply existsb_exists in T as (m' & I & T). apply andb_prop in T as [T1 T2].
    apply beq_eq in T1. destruct (F m' m I H T1). congruence.
Qed.
Lemma sub_all_bytes_signed cx : wf_ctx cx -> all_bytes (signed_of (c_data cx)).
Proof.
  intros [H _]. unfold signed_of. destruct (auth_layout _) as [[[a b] c]|]; [apply all_bytes_sub; exact H|constructor].
Qed.
Lemma acted_role E cx s r s1 p r1 : acted E cx s r s1 -> pos_of (r_id r) 0 (s_roles s1) = Some (p, r1) ->
  r_acts r1 = r_acts r -> r_id r1 = r_id r.
Proof. intros _ H _. apply pos_find in H. apply find_some in H as [_ H]. lia. Qed.

(** The end of a limited SignV2: either a SHA-256 collision on the contents of
    the configuration account, or the account is exactly as the authentication
    step left it, and then the acting role's limits are charged *)
Lemma limited_end E cx cs w w0 w1 w' s s1 r xs p r1 snaps sol cs1 acts' : wf_ctx cx -> flags_ok (c_metas cx) ->
  let ms := c_metas cx in let swig := mkey ms 0 in let wallet := mkey ms 1 in
  let off := (HDR + p + POS + length (r_auth r1))%nat in let len := acts_len (r_acts r) in
  is_cfg (w swig) s -> acted E cx s r s1 -> wf_role r -> is_cfg (w0 swig) s1 ->
  nth_error cs1 0 = Some CThisSwig -> nth_error cs 0 = Some CThisSwig -> length cs = length ms ->
  Forall spent_ok cs1 -> 0 <= sol -> Forall inner_ok xs -> a_owner (w1 swig) = SELF -> writable ms swig = true ->
  pos_of (r_id r) 0 (s_roles s1) = Some (p, r1) -> r_acts r1 = r_acts r ->
  snapshots E w0 (enc_actions 0 (r_acts r)) 0 ms cs = Ok snaps ->
  settle E (c_slot cx) w1 wallet xs sol ms cs1 snaps (acts_now w1 swig off len) = Ok acts' ->
  set_data ms w1 swig (splice off acts' (a_data (w1 swig))) = Ok w' ->
  (a_data (w0 swig) <> a_data (w1 swig) /\ sha256 E (SELF ++ a_data (w0 swig)) = sha256 E (SELF ++ a_data (w1 swig)))
  \/ (is_cfg (w1 swig) s1 /\ exists l', settle_a E (c_slot cx) w1 wallet xs sol ms cs1 snaps (r_acts r) = Ok l'
        /\ charges (c_slot cx) (r_acts r) l'
        /\ let s' := on_role (r_id r) (fun r0 => with_acts r0 l') s1 in wf_config s'
        /\ only_data w1 w' swig (enc_config s') /\ (forall k, a_lamports (w' k) = a_lamports (w1 k))).
Proof.
  intros Hc Hf ms swig wallet off len C A Wr C0 T1 T0 Lc Sc Sol Xi O1 Wt Hp Ra Sn St Sd.
  destruct ms as [|m mr] eqn:Em; [destruct cs; discriminate|]. destruct cs as [|c cr]; [discriminate|].
  destruct cs1 as [|c1 cr1]; [discriminate|]. injection T0 as ->. injection T1 as ->.
  assert (Hm : m_key m = swig) by (unfold swig; reflexivity).
  assert (Hw : m_writable m = true).
  { rewrite (writable_head (m :: mr) 0 m); [rewrite Hm; exact Wt|rewrite <- Em; exact Hf|reflexivity]. }
  pose proof Sn as Sn'. cbn [snapshots] in Sn'. bind_inv Sn'. bind_inv K. apply ok_inj in K0. rewrite <- K0 in St.
  unfold snapshot in B. rewrite Hw, Hm in B. cbn in B. apply ok_inj in B. subst v.
  pose proof St as St'. cbn [settle settle1] in St'. bind_inv St'. bind_inv B. unfold check_snapshot in B1. rewrite Hw, Hm in B1.
  apply check_ok, beq_eq in B1. unfold hash_full in B1. destruct C0 as (P1 & P2 & P3). rewrite P1, O1 in B1.
  destruct (bytes_dec (a_data (w0 swig)) (a_data (w1 swig))) as [Eq|Ne]; [|left; split; assumption].
  right. assert (C1 : is_cfg (w1 swig) s1) by (split; [exact O1|]; split; [congruence|exact P3]). split; [exact C1|].
  assert (Acts : acts_now w1 swig off len = enc_actions 0 (r_acts r)).
  { unfold acts_now. destruct C1 as (_ & -> & _). unfold len. rewrite <- Ra.
    apply (acts_in_config s1 (r_id r) p r1 (r_acts r1) P3 Hp eq_refl eq_refl). rewrite Ra. apply Wr. }
  rewrite Acts in St. rewrite settle_enc in St by (try assumption; apply role_okl; exact Wr).
  unfold encr in St. rewrite <- K0.
  destruct (settle_a E (c_slot cx) w1 wallet xs sol (m :: mr) (CThisSwig :: cr1)) as [l'| |] eqn:Es; try discriminate.
  apply ok_inj in St. subst acts'. exists l'. split; [reflexivity|].
  assert (Ch : charges (c_slot cx) (r_acts r) l') by (eapply settle_charges; eassumption). split; [exact Ch|].
  destruct (charges_okl _ _ _ Ch (role_okl _ Wr)) as ((Wl & _) & L1 & L2).
  rewrite <- Ra in L1, L2.
  destruct (acts_in_config s1 (r_id r) p r1 l' P3 Hp L1 L2 Wl) as (_ & Sp & W').
  destruct C1 as (_ & D1 & _). rewrite D1 in Sd. fold off in Sp. rewrite Sp in Sd.
  split; [exact W'|]. apply set_data_only in Sd as (S1 & _ & S2). split; [exact S1|exact S2].
Qed.

Section Sign.
Variables (E : env) (cx : ctx) (w w' : world).
Hypothesis (Hc : wf_ctx cx) (Hf : flags_ok (c_metas cx)) (G : good_world E w) (F : foreign_ok E) (R : roomy 300 w).
Notation ms := (c_metas cx).
Notation swig := (mkey (c_metas cx) 0).

(** The call first authenticates a role, then runs the rest *)
Definition split_call (s : config) : Prop :=
  exists r s1 w0 n, acted E cx s r s1 /\ only_data w w0 swig (enc_config s1) /\ wf_config s1
    /\ good_world E w0 /\ (n <= 256)%nat /\ trace E cx n w0 w'.
Lemma split_trace s : In (tag (c_data cx)) [7; 9; 11; 13; 14; 19; 20; 21] -> is_cfg (w swig) s -> split_call s ->
  exists n, (n <= 257)%nat /\ trace E cx n w w'.
Proof.
  intros Ht C (r & s1 & w0 & n & A & D0 & W1 & _ & L & T). exists (1 + n)%nat. split; [lia|].
  eapply trace_app; [|exact T]. eapply use_changes; eassumption.
Qed.

Lemma sign_v2_split cs s : classify_all w ms = Ok cs -> tag (c_data cx) = 11 -> is_cfg (w swig) s -> sign_v2 E cx cs w = Ok w' ->
  split_call s \/ clash E cx w.
Proof.
  intros Cs Ht C H. pose proof (classify_all_ok _ _ _ Cs) as (S1 & S2 & S3).
  destruct (sign_v2_spec _ _ _ _ _ _ Hc C Ht H) as (r & s1 & w0 & xs & A & Wr & W1 & D0 & L0 & Hh & N0 & N1 & Px & Cases). clear H.
  pose proof (parse_all_ok _ _ _ _ (sub_all_bytes_signed _ Hc) Px) as [Fx Lx].
  assert (T0 : trace E cx 1 w w0) by (eapply use_changes; [rewrite Ht; cbn; tauto|exact C|exact A|exact D0|exact W1]).
  pose proof (trace_good _ _ _ _ _ T0 G) as G0.
  assert (R0 : roomy 299 w0) by (eapply trace_roomy; [exact T0|lia|exact R]).
  assert (C0 : is_cfg (w0 swig) s1) by (eapply only_data_cfg; eassumption).
  assert (Sd : asset_seeds (seeds_wallet swig (s_wbump s))) by (left; eauto).
  destruct Cases as [(U & Hr)|(U & p & r1 & snaps & w1 & sol & cs1 & acts' & Hp & Ra & In & Sn & Lo & St & Fin)].
  - left. exists r, s1, w0, (length xs). repeat (split; [first [assumption|lia]|]).
    eapply run_all_trace; try eassumption. eapply roomy_le; [|exact R0]. lia.
  - assert (R1 : roomy (Z.of_nat (length xs)) w0) by (eapply roomy_le; [|exact R0]; lia).
    pose proof (limited_trace E cx (mkey ms 1) (seeds_wallet swig (s_wbump s)) F Hc Sd Hh swig _ _ _ _ xs Fx Lx w0 w1 0 sol cs cs1 G0 R1
      (Z.le_refl 0) S1 S2 Lo) as (T1 & Sol & Sc & Lc & Hk).
    assert (O1 : a_owner (w1 swig) = SELF) by (eapply trace_self; [exact T1|]; destruct C0 as (C1 & _); exact C1).
    destruct (writable ms swig) eqn:Wt.
    + assert (T1c : nth_error cs1 0 = Some CThisSwig).
      { destruct (nth_error cs1 0) as [c|] eqn:Q.
        - destruct (Hk c eq_refl) as (c0 & Q1 & Q2). rewrite N0 in Q1. injection Q1 as <-. destruct c; try contradiction. reflexivity.
        - apply nth_error_None in Q. assert (length cs <> 0)%nat by (intros Z; apply length_zero_iff_nil in Z; subst cs; discriminate). lia. }
      destruct (limited_end E cx cs w w0 w1 w' s s1 r xs p r1 snaps sol cs1 acts') as [(Ne & Ha)|(C1 & l' & Es & Ch & W' & D1 & _)]; try assumption.
      { apply from_outer_inner in Fx. exact Fx. }
      * right. exists cs, w0, w1. repeat split; assumption.
      * left. exists r, s1, w0, (length xs + 1)%nat. repeat (split; [first [assumption|lia]|]).
        eapply trace_app; [exact T1|]. apply trace_one.
        eapply config_changes; [exact C1| |exact D1|exact W'].
        eapply by_spending; [reflexivity|exact Ht|exact Hh|exact A|apply charges_charged; exact Ch].
    + left. exists r, s1, w0, (length xs). repeat (split; [first [assumption|lia]|]). unfold set_data in Fin. fold swig in Fin.
      destruct (beq _ _); [apply ok_inj in Fin; subst; exact T1|]. rewrite Wt in Fin. discriminate.
Qed.
Theorem sign_v2_trace cs : classify_all w ms = Ok cs -> tag (c_data cx) = 11 -> sign_v2 E cx cs w = Ok w' ->
  (exists n, (n <= 257)%nat /\ trace E cx n w w') \/ clash E cx w.
Proof.
  intros Cs Ht H. pose proof (classify_all_ok _ _ _ Cs) as (S1 & S2 & S3).
  assert (Hs : exists s, is_cfg (w swig) s).
  { apply (is_config_good E); [exact G|]. apply S3. unfold sign_v2 in H. cbv zeta in H. peel H. assumption. }
  destruct Hs as (s & C). destruct (sign_v2_split cs s Cs Ht C H) as [Sp|Cl]; [left|right; exact Cl].
  eapply split_trace; [rewrite Ht; cbn; tauto|exact C|exact Sp].
Qed.

Lemma sub_sign_v1_split s : tag (c_data cx) = 9 -> is_cfg (w swig) s -> sub_account_sign_v1 E cx w = Ok w' -> split_call s.
Proof.
  intros Ht C H.
  destruct (sub_sign_v1_spec _ _ _ _ _ Hc C Ht H) as (r & s1 & p & w0 & xs & A & Wr & W1 & D0 & _ & Hh & _ & _ & _ & _ & _ & Px & Hr & _).
  pose proof (parse_all_ok _ _ _ _ (sub_all_bytes_signed _ Hc) Px) as [Fx Lx].
  assert (T0 : trace E cx 1 w w0) by (eapply use_changes; [rewrite Ht; cbn; tauto|exact C|exact A|exact D0|exact W1]).
  pose proof (trace_good _ _ _ _ _ T0 G) as G0.
  exists r, s1, w0, (length xs). repeat (split; [first [assumption|lia]|]).
  eapply run_all_trace; try eassumption; [right; left; eauto|].
  eapply trace_roomy; [exact T0| |]; [lia|]. eapply roomy_le; [|exact R]. lia.
Qed.
Lemma sub_sign_v1_trace : tag (c_data cx) = 9 -> sub_account_sign_v1 E cx w = Ok w' -> exists n, (n <= 257)%nat /\ trace E cx n w w'.
Proof.
  intros Ht H. assert (Hs : exists s, is_cfg (w swig) s) by (unfold sub_account_sign_v1 in H; has_cfg E G H).
  destruct Hs as (s & C). eapply split_trace; [rewrite Ht; cbn; tauto|exact C|apply sub_sign_v1_split; assumption].
Qed.
Lemma sub_sign_v2_split s : tag (c_data cx) = 20 -> is_cfg (w swig) s -> sub_account_sign_v2 E cx w = Ok w' -> split_call s.
Proof.
  intros Ht C H.
  destruct (sub_sign_v2_spec _ _ _ _ _ Hc C Ht H) as (r & s1 & w0 & xs & A & Wr & W1 & D0 & _ & Hh & _ & _ & _ & _ & Px & Hr & _).
  pose proof Hc as [Hb _].
  pose proof (parse_all_ok _ _ _ _ (all_bytes_sub _ _ _ Hb) Px) as [Fx Lx].
  assert (T0 : trace E cx 1 w w0) by (eapply use_changes; [rewrite Ht; cbn; tauto|exact C|exact A|exact D0|exact W1]).
  pose proof (trace_good _ _ _ _ _ T0 G) as G0.
  exists r, s1, w0, (length xs). repeat (split; [first [assumption|lia]|]).
  eapply run_all_trace; try eassumption; [right; right; eauto|].
  eapply trace_roomy; [exact T0| |]; [lia|]. eapply roomy_le; [|exact R]. lia.
Qed.
Lemma sub_sign_v2_trace : tag (c_data cx) = 20 -> sub_account_sign_v2 E cx w = Ok w' -> exists n, (n <= 257)%nat /\ trace E cx n w w'.
Proof.
  intros Ht H. assert (Hs : exists s, is_cfg (w swig) s) by (unfold sub_account_sign_v2 in H; has_cfg E G H).
  destruct Hs as (s & C). eapply split_trace; [rewrite Ht; cbn; tauto|exact C|apply sub_sign_v2_split; assumption].
Qed.

(** ** One call of the program *)
Theorem process_trace : process E cx w = Ok w' -> (exists n, (n <= 257)%nat /\ trace E cx n w w') \/ clash E cx w.
Proof.
  intros H. unfold process in H. bind_inv H. peel K. destruct (_ =? 11) eqn:T11.
  { apply Z.eqb_eq in T11. eapply sign_v2_trace; eassumption. }
  destruct (_ =? 9) eqn:T9.
  { apply Z.eqb_eq in T9. left. destruct (sub_sign_v1_trace T9 K) as (n & L & T). exists n. split; [lia|exact T]. }
  destruct (_ =? 20) eqn:T20.
  { apply Z.eqb_eq in T20. left. destruct (sub_sign_v2_trace T20 K) as (n & L & T). exists n. split; [lia|exact T]. }
  left. exists 1%nat. split; [lia|]. apply trace_one. eapply dispatch_changes; try eassumption. eapply roomy_le; [|exact R]. lia.
Qed.
End Sign.
