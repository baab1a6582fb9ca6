(** * Good worlds stay good; room shrinks by one role per step *)
From Verif Require Import BaseFacts SpecConfig ConfigFacts ConfigEdit ConfigEdit2 ConfigEdit3.
From Verif Require Export Settle.

Lemma app_split {A} (a a' b b' : list A) : length a = length a' -> a ++ b = a' ++ b' -> a = a' /\ b = b'.
Proof.
  revert a'; induction a as [|x t IH]; intros [|y t'] L H; cbn in *; try discriminate; [auto|].
  injection H as -> H. injection L as L. destruct (IH _ L H) as [-> ->]. auto.
Qed.
Ltac cutl H K := apply app_split in H; [destruct H as [K H]|rewrite ?le_enc_length; try lia; try congruence].

Lemma enc_actions_inj l l' : Forall wf_action l -> Forall wf_action l' -> enc_actions 0 l = enc_actions 0 l' -> l = l'.
Proof.
  intros W W' H. eapply parses_det; [apply parses_enc; exact W|]. rewrite H. apply parses_enc. exact W'.
Qed.
Lemma le2_inj a b : is_u16 a -> is_u16 b -> le_enc 2 a = le_enc 2 b -> a = b.
Proof. intros A B H. apply (le_enc_inj 2); try exact H; unfold is_u16, U16 in *; cbn; lia. Qed.
Lemma le4_inj a b : is_u32 a -> is_u32 b -> le_enc 4 a = le_enc 4 b -> a = b.
Proof. intros A B H. apply (le_enc_inj 4); try exact H; unfold is_u32, U32 in *; cbn; lia. Qed.

Lemma enc_roles_inj st l l' : Forall wf_role l -> Forall wf_role l' -> length l = length l' ->
  Z.of_nat (st + roles_size l) < U32 -> Z.of_nat (st + roles_size l') < U32 ->
  enc_roles st l = enc_roles st l' -> l = l'.
Proof.
  intros W; revert st l'; induction W as [|r t Wr Wt IH]; intros st [|r' t'] W' L S S' H; cbn in L; try discriminate; [reflexivity|].
  cbn [enc_roles roles_size] in *. pose proof (Forall_inv W') as Wr'. pose proof (Forall_inv_tail W') as Wt'.
  unfold enc_role in H. rewrite <- !app_assoc in H.
  pose proof Wr as (A1 & A2 & A3 & A4 & A5 & A6). pose proof Wr' as (A1' & A2' & A3' & A4' & A5' & A6').
  pose proof (role_len_bound _ Wr) as B. pose proof (role_len_bound _ Wr') as B'.
  assert (T : forall x n, authority_len x = Some n -> is_u16 x).
  { intros x n Hx. apply authority_len_bound in Hx. unfold is_u16, U16. lia. }
  cutl H H1. cutl H H2. cutl H H3. cutl H H4. cutl H H5. cutl H H6.
  apply le2_inj in H1; [|eapply T; eassumption|eapply T; eassumption].
  apply le4_inj in H5; [|assumption|assumption].
  apply le4_inj in H6; [|unfold is_u32; lia|unfold is_u32; lia].
  assert (La : length (r_auth r) = length (r_auth r')) by congruence.
  cutl H H7. cutl H H8. 2:{ rewrite !enc_actions_length. unfold role_len in H6. lia. }
  assert (Ea : r_acts r = r_acts r') by (apply enc_actions_inj; [apply A6|apply A6'|exact H8]).
  assert (Er : r = r') by (destruct r, r'; cbn in *; congruence). subst r'. f_equal.
  apply (IH (st + role_len r)%nat); try assumption; lia.
Qed.

Lemma wf_size s : wf_config s -> Z.of_nat (roles_size (s_roles s)) < U32.
Proof.
  intros W. pose proof (enc_config_length s W) as L. destruct W as (_ & _ & _ & _ & _ & _ & _ & _ & _ & _ & _ & W12 & _). unfold U32. lia.
Qed.
Lemma enc_config_inj s s' : wf_config s -> wf_config s' -> enc_config s = enc_config s' -> s = s'.
Proof.
  intros W W' H. pose proof (wf_size _ W) as Z1. pose proof (wf_size _ W') as Z2.
  pose proof (split_parts_enc s W) as P. rewrite H, (split_parts_enc s' W') in P. apply ok_inj in P.
  apply pair_equal_spec in P as [P P3]. apply pair_equal_spec in P as [P1 P2].
  pose proof W as (W1 & (W2 & W2b) & W3 & W4 & W5 & W6 & W7 & W8 & W9 & W10 & W11 & W12 & W13).
  pose proof W' as (W1' & (W2' & W2b') & W3' & W4' & W5' & W6' & W7' & W8' & W9' & W10' & W11' & W12' & W13').
  unfold enc_header in P1.
  cutl P1 Q1; [|reflexivity]. injection Q1 as Q1. cutl P1 Q2. cutl P1 Q3. cutl P1 Q4. cutl P1 Q5; [|reflexivity]. cutl P1 Q6.
  injection Q5 as Q5. apply le2_inj in Q3; [|unfold is_u16, U16; lia|unfold is_u16, U16; lia].
  apply le4_inj in Q4; [|assumption|assumption]. apply le4_inj in P1; [|assumption|assumption].
  apply enc_roles_inj in P2; [|assumption|assumption|lia|exact Z2|exact Z1].
  assert (Ec : s_claimer s = s_claimer s').
  { destruct (s_claimer s), (s_claimer s'); cbn in P3; try discriminate; congruence. }
  destruct s, s'; cbn in *; congruence.
Qed.
Lemma is_cfg_inj a s s' : is_cfg a s -> is_cfg a s' -> s = s'.
Proof. intros (_ & A & B) (_ & C & D). apply enc_config_inj; congruence. Qed.
Lemma enc_config_byte s : byte_at 0 (enc_config s) = 1.
Proof. reflexivity. Qed.

(** ** One change *)
Lemma record_toggle E k d en : record_at E k d -> en = 0 \/ en = 1 -> record_at E k (splice 3 [en] d).
Proof.
  intros (b & ab & e & id & sid & sa & -> & He & R) H. exists b, ab, en, id, sid, sa. split; [reflexivity|]. split; [exact H|exact R].
Qed.
Lemma good_record E k d : good_data E k d -> byte_at 0 d = D_SubV2 -> record_at E k d.
Proof.
  intros [(n & ->)|[(s & -> & _)|[H|H]]] B; [rewrite zeros_byte in B; discriminate|discriminate|exact H|subst d; discriminate].
Qed.

Lemma change_good E cx w w' : good_world E w -> (forall k, change E cx k w w') -> good_world E w'.
Proof.
  intros G C k O. destruct (C k) as [(D & Ow)|s s' _ _ (_ & D & W)|nr id bump wbump s' _ _ _ _ _ _ _ _ _ _ _ (_ & D & W)
    |swig s s' b ab sa S S' _ _ _ _ _ _ _ P1 P2 B1 B2 B3 _ D|swig s r s1 en S _ _ _ _ rd _ _ _ _ B0 He _ Ow _ D
    |s r s1 _ _ _ _ _ _ _ D|N Z].
  - rewrite D. apply G. congruence.
  - right; left. eauto.
  - right; left. eauto.
  - right; right; left. rewrite D. pose proof S as (_ & _ & (_ & Wi & _ & _ & _ & _ & Wc & _)). exists b, ab, 1, (s_subctr s), (s_id s), sa.
    split; [reflexivity|]. split; [auto|]. split; [exact B1|]. split; [exact B2|]. split; [exact Wc|]. split; [exact Wi|].
    split; [exact B3|]. split; assumption.
  - right; right; left. rewrite D. apply record_toggle; [|exact He]. apply good_record; [|exact B0]. apply G. exact Ow.
  - right; right; right. exact D.
  - left. apply Z. exact O.
Qed.

Lemma filter_len {A} (f : A -> bool) l : (length (filter f l) <= length l)%nat.
Proof. induction l as [|a t IH]; cbn; [lia|]. destruct (f a); cbn; lia. Qed.
Lemma edit_room E cx k w s r s1 s' n : acted E cx s r s1 -> edit E cx k w s r s1 s' -> room (n + 1) s -> room n s'.
Proof.
  intros A H (R1 & R2). pose proof (acting_fields _ _ _ _ _ _ _ _ A) as (_ & _ & F3 & _ & _ & _ & _ & F8).
  unfold room in *. destruct H; cbn [add_to drop_role with_roles on_role set_claimer migrated set_subctr s_counter s_roles]; rewrite ?map_length; try lia.
  - rewrite app_length. cbn [length]. lia.
  - pose proof (filter_len (fun r => negb (r_id r =? target)) (s_roles s1)). lia.
  - destruct (has P_SubAccountV2All _ _); cbn [with_roles on_role set_subctr s_counter s_roles]; rewrite ?map_length; lia.
Qed.
Lemma config_step_room E cx k w s s' n : config_step E cx k w s s' -> room (n + 1) s -> room n s'.
Proof.
  intros H R. destruct H.
  - eapply edit_room; eassumption.
  - unfold room in *. cbn [on_role with_roles s_counter s_roles]. rewrite map_length. lia.
  - unfold room in *. cbn [on_role with_roles s_counter s_roles]. rewrite map_length. lia.
Qed.
Lemma change_roomy E cx w w' n : n <= 65000 -> (forall k, change E cx k w w') -> roomy (n + 1) w -> roomy n w'.
Proof.
  intros Hn C R k s0 S0. pose proof S0 as (O0 & D0 & W0).
  destruct (C k) as [(D & Ow)|s s' S St S'|nr id bump wbump s' _ _ _ _ _ _ _ _ _ _ _ S'
    |swig s s' b ab sa S S' _ _ _ _ _ _ _ P1 P2 B1 B2 B3 _ D|swig s r s1 en S _ _ _ _ rd _ _ _ _ B0 He _ Ow _ D
    |s r s1 _ _ _ _ _ _ _ D|N Z].
  - destruct (R k s0) as [R1 R2]; [split; [congruence|split; [congruence|exact W0]]|]. unfold room. lia.
  - rewrite (is_cfg_inj _ _ _ S0 S'). eapply config_step_room; [exact St|]. apply (R k). exact S.
  - rewrite (is_cfg_inj _ _ _ S0 S'). unfold s', room, U32, U16. cbn. lia.
  - rewrite D0 in D. apply (f_equal (byte_at 0)) in D. discriminate D.
  - rewrite D0 in D. apply (f_equal (byte_at 0)) in D. rewrite enc_config_byte in D.
    unfold byte_at in D, B0. destruct rd as [|x rd]; [discriminate B0|]. cbn in B0. unfold splice in D. cbn in D. unfold D_SubV2 in B0. lia.
  - rewrite D0 in D. apply (f_equal (byte_at 0)) in D. discriminate D.
  - destruct (Z O0) as (m & Hm). rewrite D0 in Hm. apply (f_equal (byte_at 0)) in Hm. rewrite zeros_byte in Hm. discriminate Hm.
Qed.
Lemma roomy_le n m w : n <= m -> roomy m w -> roomy n w.
Proof. intros H R k s S. destruct (R k s S). unfold room. lia. Qed.

(** ** Traces *)
Lemma trace_one E cx w w' : (forall k, change E cx k w w') -> trace E cx 1 w w'.
Proof. intros H. eapply tr_own; [apply tr_nil|exact H]. Qed.
Lemma trace_app E cx n m w1 w2 w3 : trace E cx n w1 w2 -> trace E cx m w2 w3 -> trace E cx (n + m) w1 w3.
Proof.
  intros H1 H2. induction H2 as [w|m w wa wb H2 IH C|m w wa wb cx' H2 IH N C].
  - rewrite Nat.add_0_r. exact H1.
  - rewrite Nat.add_succ_r. eapply tr_own; [apply IH; exact H1|exact C].
  - rewrite Nat.add_succ_r. eapply tr_inner; [apply IH; exact H1|exact N|exact C].
Qed.
Lemma trace_good E cx n w w' : trace E cx n w w' -> good_world E w -> good_world E w'.
Proof.
  induction 1 as [w|n w wa wb H IH C|n w wa wb cx' H IH N C]; intros G; [exact G| |]; eapply change_good; try exact C; auto.
Qed.
Lemma trace_roomy E cx n w w' m : trace E cx n w w' -> m + Z.of_nat n <= 65000 -> roomy (m + Z.of_nat n) w -> roomy m w'.
Proof.
  intros T; revert m. induction T as [w|n w wa wb H IH C|n w wa wb cx' H IH N C]; intros m Hm R.
  - rewrite Z.add_0_r in R. exact R.
  - eapply change_roomy; [lia|exact C|]. apply IH; [lia|]. replace (m + 1 + Z.of_nat n) with (m + Z.of_nat (S n)) by lia. exact R.
  - eapply change_roomy; [lia|exact C|]. apply IH; [lia|]. replace (m + 1 + Z.of_nat n) with (m + Z.of_nat (S n)) by lia. exact R.
Qed.
Lemma change_self E cx k w w' : change E cx k w w' -> a_owner (w k) = SELF -> a_owner (w' k) = SELF.
Proof.
  intros [(D & Ow)|s s' _ _ (O & _)|nr id bump wbump s' _ _ _ _ _ _ _ _ _ _ _ (O & _) _
    |swig s s' b ab sa S S' _ _ _ _ _ _ _ P1 P2 B1 B2 B3 O D|swig s r s1 en S _ _ _ _ rd _ _ _ _ B0 He _ Ow O D
    |s r s1 _ _ _ _ _ _ O D|N Z] H; congruence.
Qed.
Lemma trace_self E cx n w w' k : trace E cx n w w' -> a_owner (w k) = SELF -> a_owner (w' k) = SELF.
Proof.
  induction 1 as [w|n w wa wb H IH C|n w wa wb cx' H IH N C]; intros G; [exact G| |]; (eapply change_self; [apply C|auto]).
Qed.
