(** * Property theorems: records on chain are their fields, one after the other (C94)

    Vocabulary (SpecLayout): [target A]: a platform on which [u128] is aligned to [A]
    bytes; [derives A d]: the derive macro accepts the struct [d], so the code
    compiles; [image A d vs b]: memory [b] may hold the struct with the field values
    [vs]; [declared]: all structs of the program and of its accounts; [field A d n b]:
    the field named [n] in a buffer. *)
From Coq Require Import String.
From Verif Require Import SpecLayout LayoutFacts LayoutLinks SpecLimits SpecWorld SubAccounts.
Local Notation length := List.length.

(** ** C94.  In a struct that the macro accepts, the fields leave no gap: equal records
    have equal bytes, and all bytes mean something *)
Theorem C94_packed : forall A d vs b, target A -> derives A d = true -> fits d vs -> (image A d vs b <-> b = concat vs).
Proof. exact packed. Qed.
Print Assumptions C94_packed.
(** each field begins where the fields before it end, at an offset its type allows *)
Theorem C94_offsets : forall A d i f, target A -> derives A d = true -> nth_error (d_fields d) i = Some f ->
  let before := fold_right (fun g n => size_ty (snd g) + n)%nat 0%nat (firstn i (d_fields d)) in
  nth_error (offsets_of A d) i = Some before /\ Nat.modulo before (align_ty A (snd f)) = 0%nat.
Proof. exact offsets. Qed.
Print Assumptions C94_offsets.
(** whatever follows in the buffer, reading a field gives what was written *)
Theorem C94_reads : forall A d vs b i f o v rest, target A -> derives A d = true -> fits d vs -> image A d vs b ->
  nth_error (d_fields d) i = Some f -> nth_error (offsets_of A d) i = Some o -> nth_error vs i = Some v ->
  sub o (size_ty (snd f)) (b ++ rest) = v.
Proof. exact reads. Qed.
Print Assumptions C94_reads.
(** The macro is exact: a struct it refuses for its size has bytes that its values do not determine *)
Theorem C94_gaps : forall A d vs, target A -> repr_c d = true -> repr_align8 d = true -> derives A d = false -> fits d vs ->
  exists b b', image A d vs b /\ image A d vs b' /\ b <> b'.
Proof. exact gaps. Qed.
Print Assumptions C94_gaps.
(** All structs of the code are accepted, on all targets *)
Theorem C94_declared : forall A, target A -> forallb (derives A) declared = true.
Proof. exact all_derive. Qed.
Print Assumptions C94_declared.
(** All are read and written with their true length, but for one ... *)
Theorem C94_lengths : forall A, target A ->
  forallb (fun p => (snd p A =? size_of A (fst p))%nat || String.eqb (d_name (fst p)) "CreateProgramExecSessionAuthority"%string) lengths = true.
Proof. exact lengths_right. Qed.
Print Assumptions C94_lengths.
(** ... of which the bytes include eight bytes of memory that do not belong to it *)
Theorem C94_overread_refuted : exists A d len, target A /\ In (d, len) lengths /\ derives A d = true
  /\ forall vs b after, fits d vs -> image A d vs b -> (8 <= length after)%nat -> into_memory A len b after = b ++ firstn 8 after.
Proof. exact overread. Qed.
Print Assumptions C94_overread_refuted.
(** The encodings in the other specifications are those of the structs *)
Theorem C94_header : forall A s, target A -> length (s_id s) = 32%nat -> length (s_pad s) = 3%nat ->
  image A d_Swig [[1]; [s_bump s]; s_id s; le_enc 2 (Z.of_nat (length (s_roles s))); le_enc 4 (s_counter s); [s_wbump s]; s_pad s; le_enc 4 (s_subctr s)]
    (enc_header s).
Proof. exact header_struct. Qed.
Print Assumptions C94_header.
Theorem C94_role : forall A start r, target A -> length (r_pad r) = 2%nat -> exists b,
  image A d_Position [le_enc 2 (r_aty r); le_enc 2 (Z.of_nat (length (r_auth r))); le_enc 2 (Z.of_nat (length (r_acts r))); r_pad r;
    le_enc 4 (r_id r); le_enc 4 (Z.of_nat (start + role_len r))] b
  /\ enc_role start r = b ++ r_auth r ++ enc_actions 0 (r_acts r).
Proof. exact role_struct. Qed.
Print Assumptions C94_role.
Theorem C94_action : forall A start a, target A -> exists b,
  image A d_Action [le_enc 2 (ac_ty a); le_enc 2 (Z.of_nat (length (ac_data a))); le_enc 4 (Z.of_nat (start + 8 + length (ac_data a)))] b
  /\ enc_action start a = b ++ ac_data a.
Proof. exact action_struct. Qed.
Print Assumptions C94_action.
Theorem C94_sub_account : forall A bump abump en id sid sa, target A -> length sid = 32%nat -> length sa = 32%nat ->
  image A d_SubAccountV2 [[2]; [bump]; [abump]; [en]; le_enc 4 id; sid; sa] (v2_record bump abump en id sid sa).
Proof. exact record_struct. Qed.
Print Assumptions C94_sub_account.
(** and so are the places where they look for the acting role and for limits *)
Theorem C94_actor : forall A data d n, target A -> args_of (tag data) = Some (d, n) -> le (field A d n data) = actor_of data.
Proof. exact actor_field. Qed.
Print Assumptions C94_actor.
Local Open Scope string_scope.
Theorem C94_recurring : forall A, target A ->
  laid_as A d_SolRecurringLimit SolRec "recurring_amount" "window" "last_reset" "current_amount"
  /\ laid_as A d_StakeRecurringLimit SolRec "recurring_amount" "window" "last_reset" "current_amount"
  /\ laid_as A d_TokenRecurringLimit TokRec "limit" "window" "last_reset" "current"
  /\ laid_as A d_SolRecurringDestinationLimit SolRecDest "recurring_amount" "window" "last_reset" "current_amount"
  /\ laid_as A d_TokenRecurringDestinationLimit TokRecDest "recurring_amount" "window" "last_reset" "current_amount".
Proof. exact recurring_structs. Qed.
Print Assumptions C94_recurring.
Theorem C94_limits : forall A p, target A ->
  u64_at 0 p = le (field A d_SolLimit "amount" p) /\ u64_at 32 p = le (field A d_TokenLimit "current_amount" p)
  /\ u64_at 32 p = le (field A d_SolDestinationLimit "amount" p) /\ u64_at 64 p = le (field A d_TokenDestinationLimit "amount" p)
  /\ u64_at 0 p = le (field A d_StakeLimit "amount" p)
  /\ sub 0 16 p = field A d_ProgramScope "current_amount" p /\ sub 16 16 p = field A d_ProgramScope "limit" p
  /\ u64_at 32 p = le (field A d_ProgramScope "window" p) /\ u64_at 40 p = le (field A d_ProgramScope "last_reset" p)
  /\ sub 48 32 p = field A d_ProgramScope "program_id" p /\ sub 80 32 p = field A d_ProgramScope "target_account" p
  /\ u64_at 112 p = le (field A d_ProgramScope "scope_type" p) /\ u64_at 120 p = le (field A d_ProgramScope "numeric_type" p)
  /\ u64_at 128 p = le (field A d_ProgramScope "balance_field_start" p) /\ u64_at 136 p = le (field A d_ProgramScope "balance_field_end" p).
Proof. exact other_structs. Qed.
Print Assumptions C94_limits.

(** the permission for first-version sub-accounts: six fields; with the two bytes of
    padding left out, four bytes further on would be no place for the role id *)
Example C94_case : let vs := [zeros 32; [254]; [1]; zeros 2; le_enc 4 7; zeros 32] in
  target 8 /\ derives 8 d_SubAccount = true /\ fits d_SubAccount vs /\ image 8 d_SubAccount vs (concat vs)
  /\ nth_error (offsets_of 8 d_SubAccount) 4 = Some 36%nat /\ field 8 d_SubAccount "role_id" (concat vs) = le_enc 4 7.
Proof.
  cbv zeta. repeat (split; [try (left; reflexivity); reflexivity|]). split; [|split; reflexivity].
  apply packed; [left; reflexivity|reflexivity|reflexivity|reflexivity].
Qed.
Example C94_gaps_case : let d := mk_decl "SubAccount" [RC; RAlign 8] [("sub_account", TBytes 32); ("bump", TU8); ("enabled", TBool); ("role_id", TU32); ("swig_id", TBytes 32)] in
  target 16 /\ repr_c d = true /\ repr_align8 d = true /\ derives 16 d = false /\ fits d [zeros 32; [254]; [1]; le_enc 4 7; zeros 32].
Proof. cbv zeta. split; [right; reflexivity|]. repeat split. Qed.
Example C94_actor_case : let data := (le_enc 2 10 ++ [1] ++ zeros 5 ++ le_enc 4 3 ++ le_enc 4 9)%list in
  args_of (tag data) = Some (d_ToggleSubAccountV1Args, "auth_role_id") /\ actor_of data = 9.
Proof. split; reflexivity. Qed.
