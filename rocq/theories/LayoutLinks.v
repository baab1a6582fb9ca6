(** * The encodings of the specification are the structs of the code (C94) *)
From Coq Require Import String.
From Verif Require Import Base BaseFacts SpecLayout LayoutFacts SpecLimits SpecWorld SubAccounts.
Local Notation length := List.length.

Lemma derives_of A d : target A -> In d declared -> derives A d = true.
Proof. intros T I. pose proof (all_derive A T) as H. rewrite forallb_forall in H. exact (H d I). Qed.
Ltac member := unfold declared; repeat first [left; reflexivity|right].

Theorem actor_field A data d n : target A -> args_of (tag data) = Some (d, n) -> le (field A d n data) = actor_of data.
Proof.
  intros T. unfold actor_of, auth_layout, args_of. cbv zeta.
  repeat match goal with |- context [if ?b then _ else _] => destruct b end; intros H; try discriminate;
    injection H as <- <-; destruct T as [->| ->]; reflexivity.
Qed.
Theorem no_actor data : args_of (tag data) = None <-> auth_layout data = None.
Proof.
  unfold auth_layout, args_of. cbv zeta. repeat match goal with |- context [if ?b then _ else _] => destruct b end;
    split; intros H; first [discriminate|reflexivity].
Qed.

Lemma le_enc_len n z : length (le_enc n z) = n.
Proof. apply le_enc_length. Qed.
Theorem header_struct A s : target A -> length (s_id s) = 32%nat -> length (s_pad s) = 3%nat ->
  image A d_Swig [[1]; [s_bump s]; s_id s; le_enc 2 (Z.of_nat (length (s_roles s))); le_enc 4 (s_counter s); [s_wbump s]; s_pad s; le_enc 4 (s_subctr s)]
    (enc_header s).
Proof.
  intros T L1 L2. apply packed; [exact T|apply derives_of; [exact T|member]| |].
  - unfold fits. cbn [map d_fields d_Swig size_ty snd]. rewrite L1, L2, !le_enc_len. reflexivity.
  - unfold enc_header. cbn [concat]. rewrite ?app_nil_r, <- ?app_assoc. reflexivity.
Qed.
Theorem role_struct A start r : target A -> length (r_pad r) = 2%nat -> exists b,
  image A d_Position [le_enc 2 (r_aty r); le_enc 2 (Z.of_nat (length (r_auth r))); le_enc 2 (Z.of_nat (length (r_acts r))); r_pad r;
    le_enc 4 (r_id r); le_enc 4 (Z.of_nat (start + role_len r))] b
  /\ enc_role start r = b ++ r_auth r ++ enc_actions 0 (r_acts r).
Proof.
  intros T L1. eexists. split.
  - apply packed; [exact T|apply derives_of; [exact T|member]| |reflexivity].
    unfold fits. cbn [map d_fields d_Position size_ty snd]. rewrite L1, !le_enc_len. reflexivity.
  - unfold enc_role. cbn [concat]. rewrite ?app_nil_r, <- ?app_assoc. reflexivity.
Qed.
Theorem action_struct A start a : target A -> exists b,
  image A d_Action [le_enc 2 (ac_ty a); le_enc 2 (Z.of_nat (length (ac_data a))); le_enc 4 (Z.of_nat (start + 8 + length (ac_data a)))] b
  /\ enc_action start a = b ++ ac_data a.
Proof.
  intros T. eexists. split.
  - apply packed; [exact T|apply derives_of; [exact T|member]| |reflexivity].
    unfold fits. cbn [map d_fields d_Action size_ty snd]. rewrite !le_enc_len. reflexivity.
  - unfold enc_action. cbn [concat]. rewrite ?app_nil_r, <- ?app_assoc. reflexivity.
Qed.
Theorem record_struct A bump abump en id sid sa : target A -> length sid = 32%nat -> length sa = 32%nat ->
  image A d_SubAccountV2 [[2]; [bump]; [abump]; [en]; le_enc 4 id; sid; sa] (v2_record bump abump en id sid sa).
Proof.
  intros T L1 L2. apply packed; [exact T|apply derives_of; [exact T|member]| |].
  - unfold fits. cbn [map d_fields d_SubAccountV2 size_ty snd]. rewrite L1, L2, !le_enc_len. reflexivity.
  - unfold v2_record. cbn [concat]. rewrite ?app_nil_r, <- ?app_assoc. reflexivity.
Qed.
Local Open Scope string_scope.
Theorem recurring_structs A : target A ->
  laid_as A d_SolRecurringLimit SolRec "recurring_amount" "window" "last_reset" "current_amount"
  /\ laid_as A d_StakeRecurringLimit SolRec "recurring_amount" "window" "last_reset" "current_amount"
  /\ laid_as A d_TokenRecurringLimit TokRec "limit" "window" "last_reset" "current"
  /\ laid_as A d_SolRecurringDestinationLimit SolRecDest "recurring_amount" "window" "last_reset" "current_amount"
  /\ laid_as A d_TokenRecurringDestinationLimit TokRecDest "recurring_amount" "window" "last_reset" "current_amount".
Proof. intros [->| ->]; unfold laid_as; repeat split; reflexivity. Qed.
Theorem other_structs A p : target A ->
  u64_at 0 p = le (field A d_SolLimit "amount" p) /\ u64_at 32 p = le (field A d_TokenLimit "current_amount" p)
  /\ u64_at 32 p = le (field A d_SolDestinationLimit "amount" p) /\ u64_at 64 p = le (field A d_TokenDestinationLimit "amount" p)
  /\ u64_at 0 p = le (field A d_StakeLimit "amount" p)
  /\ sub 0 16 p = field A d_ProgramScope "current_amount" p /\ sub 16 16 p = field A d_ProgramScope "limit" p
  /\ u64_at 32 p = le (field A d_ProgramScope "window" p) /\ u64_at 40 p = le (field A d_ProgramScope "last_reset" p)
  /\ sub 48 32 p = field A d_ProgramScope "program_id" p /\ sub 80 32 p = field A d_ProgramScope "target_account" p
  /\ u64_at 112 p = le (field A d_ProgramScope "scope_type" p) /\ u64_at 120 p = le (field A d_ProgramScope "numeric_type" p)
  /\ u64_at 128 p = le (field A d_ProgramScope "balance_field_start" p) /\ u64_at 136 p = le (field A d_ProgramScope "balance_field_end" p).
Proof. intros [->| ->]; repeat split; reflexivity. Qed.
Local Close Scope string_scope.
Theorem overread : exists A d len, target A /\ In (d, len) lengths /\ derives A d = true
  /\ forall vs b after, fits d vs -> image A d vs b -> (8 <= length after)%nat -> into_memory A len b after = b ++ firstn 8 after.
Proof.
  exists 8%nat, d_CreateProgramExecSessionAuthority, (fun A => size_of A d_ProgramExecSessionAuthority).
  split; [left; reflexivity|]. split; [unfold lengths; repeat first [left; reflexivity|right]|]. split; [reflexivity|].
  intros vs b after F (L & _) G. unfold into_memory. rewrite firstn_app, L.
  change (size_of 8 d_ProgramExecSessionAuthority) with 128%nat. change (size_of 8 d_CreateProgramExecSessionAuthority) with 120%nat in *.
  rewrite firstn_all2 by lia. reflexivity.
Qed.
