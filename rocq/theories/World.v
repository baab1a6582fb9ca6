(** * Every instruction that does not sign changes accounts only as specified *)
From Verif Require Import BaseFacts SpecConfig ConfigFacts ConfigEdit ConfigEdit2 ConfigEdit3.
From Verif Require Export HandlerAssets.

Lemma acts_as_acted E cx s o n r s1 : auth_layout (c_data cx) = Some (o, 0%nat, n) ->
  acts_as E cx s (u32_at o (c_data cx)) n r s1 -> acted E cx s r s1.
Proof.
  intros L (_ & H). unfold acted, actor_of, payload_of, signed_of. rewrite L, Nat.sub_0_r. exact H.
Qed.
Lemma acting_id E cx s rid p d r s1 : acting E cx s rid p d r s1 -> r_id r = rid.
Proof. intros (H & _). apply find_some in H as [_ H]. lia. Qed.

Lemma zeros_byte o n : byte_at o (zeros n) = 0.
Proof. unfold byte_at, zeros. revert o; induction n as [|n IH]; intros [|o]; cbn; auto. Qed.

Lemma good_config E w k : good_world E w -> a_owner (w k) = SELF ->
  (1 <= length (a_data (w k)))%nat -> h_disc (a_data (w k)) = D_Config -> exists s, is_cfg (w k) s.
Proof.
  intros G O L D. destruct (G k O) as [(n & Hn)|[(s & H1 & H2)|[H|H]]].
  - rewrite Hn in D. unfold h_disc in D. rewrite zeros_byte in D. discriminate.
  - exists s. split; [exact O|]. split; assumption.
  - destruct H as (b & ab & en & id & sid & sa & H & _). rewrite H in D. discriminate D.
  - rewrite H in D. discriminate D.
Qed.
Lemma good_loaded E w k d : good_world E w -> a_owner (w k) = SELF -> load_config w k = Ok d -> exists s, is_cfg (w k) s.
Proof.
  intros G O H. unfold load_config in H. peel H. apply (good_config E); try assumption; [|lia].
  apply Nat.leb_le; assumption.
Qed.

Lemma only_data_changes E cx w w' k d : only_data w w' k d -> change E cx k w w' -> forall k', change E cx k' w w'.
Proof.
  intros (_ & _ & H) C k'. destruct (bytes_dec k' k) as [->|N]; [exact C|]. apply ch_same. apply H. exact N.
Qed.
Lemma keeps_changes E cx w w' : keeps w w' -> forall k, change E cx k w w'.
Proof. intros H k. apply ch_same. apply H. Qed.

(** a configuration step, nothing else *)
Lemma config_changes E cx w w' s s' : let k := mkey (c_metas cx) 0 in
  is_cfg (w k) s -> config_step E cx k w s s' -> only_data w w' k (enc_config s') -> wf_config s' ->
  forall k', change E cx k' w w'.
Proof.
  intros k C S D W. eapply only_data_changes; [exact D|]. eapply ch_config; [exact C|exact S|].
  destruct C as (C1 & _). destruct D as (D1 & D2 & _). split; [congruence|]. split; assumption.
Qed.

(** calls to other programs *)
Definition outside (w w' : world) : Prop := forall k,
  (a_owner (w k) = SELF -> kept w w' k)
  /\ (a_owner (w k) <> SELF -> a_owner (w' k) = SELF -> exists n, a_data (w' k) = zeros n).
Lemma outside_refl w : outside w w.
Proof. intros k. split; [intros; split; reflexivity|congruence]. Qed.
Lemma keeps_outside w w' : keeps w w' -> outside w w'.
Proof. intros H k. destruct (H k) as [H1 H2]. split; [intros; split; assumption|congruence]. Qed.
Lemma outside_trans w1 w2 w3 : outside w1 w2 -> outside w2 w3 -> outside w1 w3.
Proof.
  intros H1 H2 k. destruct (H1 k) as [A1 B1], (H2 k) as [A2 B2]. split.
  - intros O. destruct (A1 O) as [X1 X2]. destruct A2 as [Y1 Y2]; [congruence|]. split; congruence.
  - intros N O. destruct (bytes_dec (a_owner (w2 k)) SELF) as [O2|N2]; [|auto].
    destruct (B1 N O2) as (n & Hn). exists n. destruct (A2 O2). congruence.
Qed.
Lemma foreign_outside E w x w' : foreign_ok E -> foreign E w x = Ok w' -> outside w w'.
Proof. intros F H k. destruct (F _ _ _ H k) as [A B]. split; [intros O; apply A; exact O|exact B]. Qed.
Lemma calls_outside E P w w' : foreign_ok E -> calls E P w w' -> outside w w'.
Proof.
  intros F. induction 1 as [w|w x w1 w2 _ H _ IH]; [apply outside_refl|].
  eapply outside_trans; [eapply foreign_outside; eassumption|exact IH].
Qed.
Lemma outside_changes E cx w w' : outside w w' -> forall k, change E cx k w w'.
Proof.
  intros H k. destruct (H k) as [A B]. destruct (bytes_dec (a_owner (w k)) SELF) as [O|N].
  - apply ch_same. apply A. exact O.
  - apply ch_outside; [exact N|apply B; exact N].
Qed.
(** a configuration step followed by calls to other programs *)
Lemma config_outside_changes E cx w w1 w' s s' : let k := mkey (c_metas cx) 0 in
  is_cfg (w k) s -> config_step E cx k w s s' -> only_data w w1 k (enc_config s') -> wf_config s' ->
  outside w1 w' -> forall k', change E cx k' w w'.
Proof.
  intros k C S (D1 & D2 & D3) W O k'. pose proof C as (C1 & _).
  destruct (bytes_dec k' k) as [->|N].
  - destruct (O k) as [A _]. destruct A as [A1 A2]; [congruence|].
    eapply ch_config; [exact C|exact S|]. split; [congruence|]. split; [congruence|exact W].
  - destruct (D3 k' N) as [X1 X2], (O k') as [A B].
    destruct (bytes_dec (a_owner (w k')) SELF) as [Q|Q].
    + apply ch_same. destruct A as [A1 A2]; [congruence|]. split; congruence.
    + apply ch_outside; [exact Q|]. apply B. congruence.
Qed.

(** ** Handler by handler *)
Ltac lay Ht := unfold auth_layout, tag; rewrite Ht; reflexivity.
Ltac acted_by Ht A := refine (acts_as_acted _ _ _ _ _ _ _ _ A); lay Ht.

Section Handlers.
Variables (E : env) (cx : ctx) (w w' : world).
Hypothesis (Hc : wf_ctx cx) (G : good_world E w).
Notation swig := (mkey (c_metas cx) 0).
Notation t := (u16_at 0 (c_data cx)).

Lemma own0 : forall e u, owned_by w swig SELF e = Ok u -> a_owner (w swig) = SELF.
Proof. intros e u H. unfold owned_by in H. apply check_ok, beq_eq in H. exact H. Qed.

Lemma add_changes s : t = 1 -> is_cfg (w swig) s -> room 1 s -> add_authority_v1 E cx w = Ok w' ->
  forall k, change E cx k w w'.
Proof.
  intros Ht C R H. pose proof C as (_ & Cd & Cw).
  destruct (add_authority_spec _ _ _ _ _ Hc H Cd Cw R) as (r & s1 & nr & A1 & A2 & A3 & A4 & A5 & A5b & A6 & _ & A8 & A9 & A10).
  eapply config_changes; [exact C| |exact A8|exact A9].
  eapply by_role; [reflexivity|acted_by Ht A1|]. apply ed_add; assumption.
Qed.
Lemma remove_changes s : t = 2 -> is_cfg (w swig) s -> remove_authority_v1 E cx w = Ok w' ->
  forall k, change E cx k w w'.
Proof.
  intros Ht C H. pose proof C as (_ & Cd & Cw).
  destruct (remove_authority_spec _ _ _ _ _ H Cd Cw) as (r & s1 & tr & A1 & A2 & A3 & A4 & _ & A6 & A7).
  eapply config_changes; [exact C| |exact A6|exact A7].
  eapply by_role; [reflexivity|acted_by Ht A1|]. eapply ed_remove; [exact Ht| |exact A3|exact A4].
  destruct A2 as [A2|A2]; [left; exact A2|right]. destruct A1 as (_ & A1). rewrite (acting_id _ _ _ _ _ _ _ _ A1). exact A2.
Qed.
Lemma update_changes s : t = 3 -> is_cfg (w swig) s -> update_authority_v1 E cx w = Ok w' ->
  forall k, change E cx k w w'.
Proof.
  intros Ht C H. pose proof C as (_ & Cd & Cw).
  destruct (update_authority_spec _ _ _ _ _ Hc H Cd Cw) as (r & s1 & tr & l' & A1 & A2 & A3 & A4 & A5 & _ & A7 & A8 & _).
  eapply config_changes; [exact C| |exact A7|exact A8].
  eapply by_role; [reflexivity|acted_by Ht A1|]. eapply ed_update; eassumption.
Qed.
Lemma replace_changes s : t = 16 -> is_cfg (w swig) s -> replace_authority_v1 E cx w = Ok w' ->
  forall k, change E cx k w w'.
Proof.
  intros Ht C H. pose proof C as (_ & Cd & Cw).
  destruct (replace_authority_spec _ _ _ _ _ Hc H Cd Cw) as (r & s1 & tr & pk & A1 & A2 & A3 & A4 & A5 & A6 & _ & A8 & A9).
  eapply config_changes; [exact C| |exact A8|exact A9].
  eapply by_role; [reflexivity|acted_by Ht A1|]. eapply ed_replace; try eassumption.
  unfold payload_of, actor_of, auth_layout, tag. rewrite Ht. exact A6.
Qed.
Lemma session_changes s : t = 5 -> is_cfg (w swig) s -> create_session_v1 E cx w = Ok w' ->
  forall k, change E cx k w w'.
Proof.
  intros Ht C H. pose proof C as (_ & Cd & Cw).
  destruct (create_session_spec _ _ _ _ _ Hc H Cd Cw) as (r & a & a' & A1 & A2 & A3 & A4 & A5 & _ & A7 & A8).
  assert (Hr : r_id r = u32_at 4 (c_data cx)) by (apply find_some in A1 as [_ A1]; lia). cbv zeta in A7, A8. rewrite <- Hr in A7, A8.
  eapply config_changes; [exact C| |exact A7|exact A8].
  eapply by_session; [reflexivity|exact Ht| |exact A2| |exact A5|exact A3];
    unfold payload_of, actor_of, signed_of, auth_layout, tag; rewrite Ht; assumption.
Qed.
Lemma claimer_changes s : t = 17 -> is_cfg (w swig) s -> set_rent_claimer_v1 E cx w = Ok w' ->
  forall k, change E cx k w w'.
Proof.
  intros Ht C H. pose proof C as (_ & Cd & Cw).
  destruct (set_rent_claimer_spec _ _ _ _ _ Hc H Cd Cw) as (r & s1 & A1 & A2 & A3 & A4 & A5 & A6 & _ & A7 & A8).
  eapply config_changes; [exact C| |exact A7|exact A8].
  eapply by_role; [reflexivity|acted_by Ht A1|]. apply ed_claimer; assumption.
Qed.
Lemma sub_v1_changes s : t = 6 -> is_cfg (w swig) s -> create_sub_account_v1 E cx w = Ok w' ->
  forall k, change E cx k w w'.
Proof.
  intros Ht C H. pose proof C as (_ & Cd & Cw).
  destruct (create_sub_v1_spec _ _ _ _ _ Hc H Cd Cw) as (r & s1 & old & A1 & A2 & A3 & _ & _ & A6 & A7).
  pose proof A1 as (_ & A0). apply acting_id in A0. rewrite <- A0 in A3, A6, A7.
  eapply config_changes; [exact C| |exact A6|exact A7].
  eapply by_role; [reflexivity|acted_by Ht A1|]. apply ed_sub_v1; assumption.
Qed.
Lemma toggle_v1_changes s : t = 10 -> is_cfg (w swig) s -> toggle_sub_account_v1 E cx w = Ok w' ->
  forall k, change E cx k w w'.
Proof.
  intros Ht C H. pose proof C as (_ & Cd & Cw).
  destruct (toggle_sub_v1_spec _ _ _ _ _ Hc H Cd Cw) as (r & s1 & tr & old & A1 & A2 & A3 & A4 & _ & A6 & A7).
  pose proof A1 as (_ & A0). apply acting_id in A0.
  eapply config_changes; [exact C| |exact A6|exact A7].
  eapply by_role; [reflexivity|acted_by Ht A1|]. apply ed_toggle_v1; try assumption. rewrite A0. exact A2.
Qed.
Lemma withdraw_v1_changes s : foreign_ok E -> t = 7 -> is_cfg (w swig) s -> withdraw_v1 E cx w = Ok w' ->
  forall k, change E cx k w w'.
Proof.
  intros F Ht C H. pose proof C as (_ & Cd & Cw).
  destruct (withdraw_v1_spec _ _ _ _ _ H Cd Cw) as (r & s1 & sr & sb & w1 & A1 & _ & _ & _ & _ & _ & A7 & A8 & _ & A9).
  eapply config_outside_changes; [exact C| |exact A7|exact A8|].
  - eapply by_role; [reflexivity|acted_by Ht A1|]. apply ed_use. unfold tag. rewrite Ht. cbn. tauto.
  - destruct A9 as [(_ & _ & (A9 & _) & _)|(_ & _ & _ & _ & _ & A9)]; [apply keeps_outside; exact A9|eapply foreign_outside; eassumption].
Qed.
Lemma withdraw_v2_changes s : foreign_ok E -> t = 21 -> is_cfg (w swig) s -> withdraw_v2 E cx w = Ok w' ->
  forall k, change E cx k w w'.
Proof.
  intros F Ht C H. pose proof C as (_ & Cd & Cw).
  destruct (withdraw_v2_spec _ _ _ _ _ H Cd Cw) as (r & s1 & w1 & A1 & _ & _ & _ & _ & _ & _ & _ & A7 & A8 & _ & A9).
  eapply config_outside_changes; [exact C| |exact A7|exact A8|].
  - eapply by_role; [reflexivity|acted_by Ht A1|]. apply ed_use. unfold tag. rewrite Ht. cbn. tauto.
  - destruct A9 as [(_ & _ & (A9 & _) & _)|(_ & _ & _ & _ & _ & _ & _ & _ & A9)]; [apply keeps_outside; exact A9|eapply foreign_outside; eassumption].
Qed.
Lemma close_token_changes s : foreign_ok E -> t = 14 -> is_cfg (w swig) s -> close_token_account_v1 E cx w = Ok w' ->
  forall k, change E cx k w w'.
Proof.
  intros F Ht C H. pose proof C as (_ & Cd & Cw).
  destruct (close_token_spec _ _ _ _ _ H Cd Cw) as (r & s1 & w1 & A1 & _ & _ & _ & _ & _ & A7 & A8 & _ & A9).
  eapply config_outside_changes; [exact C| |exact A7|exact A8|eapply calls_outside; eassumption].
  eapply by_role; [reflexivity|acted_by Ht A1|]. apply ed_use. unfold tag. rewrite Ht. cbn. tauto.
Qed.
Lemma transfer_assets_changes s : foreign_ok E -> t = 13 -> is_cfg (w swig) s -> transfer_assets_v1 E cx w = Ok w' ->
  forall k, change E cx k w w'.
Proof.
  intros F Ht C H. pose proof C as (_ & Cd & Cw).
  destruct (transfer_assets_spec _ _ _ _ _ H Cd Cw) as (r & s1 & w1 & w2 & A1 & _ & _ & _ & _ & A7 & A8 & _ & (A9 & _) & A10).
  eapply config_outside_changes; [exact C| |exact A7|exact A8|].
  - eapply by_role; [reflexivity|acted_by Ht A1|]. apply ed_use. unfold tag. rewrite Ht. cbn. tauto.
  - eapply outside_trans; [apply keeps_outside; exact A9|eapply calls_outside; eassumption].
Qed.
Lemma migrate_changes : t = 12 -> migrate_v1 E cx w = Ok w' -> forall k, change E cx k w w'.
Proof.
  intros Ht H. destruct (bytes_dec (a_owner (w swig)) SELF) as [O|N].
  - assert (Hs : exists s, is_cfg (w swig) s).
    { unfold migrate_v1 in H. cbv zeta in H. peel H. apply (good_config E); try assumption; [|lia].
      grab ((HDR <=? _)%nat = true) as Bh. apply Nat.leb_le in Bh. unfold HDR in Bh. lia. }
    destruct Hs as (s & C). pose proof C as (_ & Cd & Cw).
    destruct (migrate_spec _ _ _ _ _ Hc H Cd Cw) as (r & s1 & A1 & A2 & A3 & A4 & A5 & _ & A7 & A8).
    eapply config_changes; [exact C| |exact A7|exact A8].
    eapply by_role; [reflexivity|acted_by Ht A1|]. apply ed_migrate; assumption.
  - apply keeps_changes. unfold migrate_v1 in H. cbv zeta in H. peel H.
    apply rent_topup_keeps in H. grab (set_data _ _ _ _ = Ok _) as Bs.
    eapply keeps_trans; [|exact H]. unfold set_data in Bs. destruct (beq _ _) eqn:X in Bs.
    + apply ok_inj in Bs. subst. apply keeps_refl.
    + peel Bs. exfalso. apply N. apply beq_eq. assumption.
Qed.
Lemma close_changes s : t = 15 -> is_cfg (w swig) s -> close_swig_v1 E cx w = Ok w' -> forall k, change E cx k w w'.
Proof.
  intros Ht C H. pose proof C as (Co & Cd & Cw).
  destruct (close_swig_spec _ _ _ _ _ H Cd Cw) as (r & s1 & A1 & A2 & A3 & A4 & _ & _ & _ & A8).
  eapply only_data_changes; [exact A8|]. destruct A8 as (A8 & A9 & _).
  eapply ch_closed; [exact C|reflexivity|exact Ht|acted_by Ht A1|exact A2|exact A3|congruence|exact A8].
Qed.
Lemma sub_v2_changes s : t = 18 -> is_cfg (w swig) s -> create_sub_account_v2 E cx w = Ok w' -> forall k, change E cx k w w'.
Proof.
  intros Ht C H. pose proof C as (Co & Cd & Cw). pose proof Hc as (Hc1 & Hc2).
  assert (H5 : (5 <= length (c_metas cx))%nat).
  { pose proof H as H'. unfold create_sub_account_v2 in H'. cbv zeta in H'. peel H'. apply Nat.leb_le. assumption. }
  destruct (create_sub_v2_spec _ _ _ _ _ Hc H Cd Cw) as (r & s1 & A1 & A2 & A3 & A4 & A5 & A6 & A7 & A8 & A9 & _ & A11 & A12 & A13 & A14 & A15 & A16 & _).
  pose proof A1 as (_ & A0). pose proof (acting_fields _ _ _ _ _ _ _ _ A0) as (_ & _ & _ & _ & _ & F6 & _).
  apply acting_id in A0. rewrite <- A0 in A11, A13. rewrite <- A0 in A1.
  match type of A13 with wf_config ?x => assert (C' : is_cfg (w' swig) x) by (split; [exact A12|split; assumption]) end.
  assert (S : config_step E cx swig w s
    (let s2 := set_subctr s1 (s_subctr s + 1) in
      if has P_SubAccountV2All (le_enc 4 (s_subctr s)) r then s2
      else on_role (r_id r) (fun r0 => with_acts r0 (r_acts r0 ++ [all_powers (s_subctr s)])) s2)).
  { eapply by_role; [reflexivity| |apply ed_sub_v2; assumption]. rewrite A0 in A1. acted_by Ht A1. }
  intros k. destruct (bytes_dec k swig) as [->|N1]; [|destruct (bytes_dec k (mkey (c_metas cx) 2)) as [->|N2]].
  - eapply ch_config; [exact C|exact S|exact C'].
  - eapply ch_record; [exact C|exact C'|exact Ht|reflexivity|reflexivity|reflexivity| |exact A8|exact A9|exact A5|exact A6| | | |exact A15|exact A14].
    + destruct (has P_SubAccountV2All _ r); reflexivity.
    + apply bytes_ge0; exact Hc1.
    + apply bytes_ge0; exact Hc1.
    + apply nth_wf; [exact Hc2|lia].
  - apply ch_same. apply A16; assumption.
Qed.
Lemma toggle_v2_changes s : t = 19 -> is_cfg (w swig) s -> toggle_sub_account_v2 E cx w = Ok w' -> forall k, change E cx k w w'.
Proof.
  intros Ht C H. pose proof C as (Co & Cd & Cw).
  destruct (toggle_sub_v2_spec _ _ _ _ _ Hc H Cd Cw)
    as (r & s1 & A1 & A2 & A3 & A4 & A5 & A6 & A7 & A8 & A9 & A10 & _ & A12 & A13 & A14 & A15 & A16 & A17).
  assert (Ha : acted E cx s r s1) by acted_by Ht A1.
  intros k. destruct (bytes_dec k swig) as [->|N1]; [|destruct (bytes_dec k (mkey (c_metas cx) 2)) as [->|N2]].
  - eapply ch_config; [exact C| |split; [rewrite A16; exact Co|split; [exact A13|exact A14]]].
    eapply by_role; [reflexivity|exact Ha|]. apply ed_use. unfold tag. rewrite Ht. cbn. tauto.
  - eapply (ch_toggled E cx _ w w' swig s r s1 (byte_at 2 (c_data cx))); try assumption; try reflexivity.
    + rewrite A8. exact A2.
    + rewrite A16. exact A12.
  - apply ch_same. apply A17; assumption.
Qed.
End Handlers.
