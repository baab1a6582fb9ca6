(** * Dispatch of the handlers that do not run inner instructions.

    Models program/src/actions/mod.rs:60-130.  [dispatch] is what a nested call
    of the wallet program by itself can do: the three signing instructions
    reject a call depth other than 1. *)
From Verif Require Export Classify Compact.

Definition dispatch (E : env) (cx : ctx) (w : world) : res world :=
  check (2 <=? length (c_data cx))%nat PInvalidInstructionData ;;
  let t := u16_at 0 (c_data cx) in
  if t =? 1 then add_authority_v1 E cx w
  else if t =? 2 then remove_authority_v1 E cx w
  else if t =? 3 then update_authority_v1 E cx w
  else if t =? 4 then Err PInvalidInstructionData
  else if t =? 5 then create_session_v1 E cx w
  else if t =? 6 then create_sub_account_v1 E cx w
  else if t =? 7 then withdraw_v1 E cx w
  else if (t =? 9) || (t =? 11) || (t =? 20) then Err SCpi
  else if t =? 10 then toggle_sub_account_v1 E cx w
  else if t =? 12 then migrate_v1 E cx w
  else if t =? 13 then transfer_assets_v1 E cx w
  else if t =? 14 then close_token_account_v1 E cx w
  else if t =? 15 then close_swig_v1 E cx w
  else if t =? 16 then replace_authority_v1 E cx w
  else if t =? 17 then set_rent_claimer_v1 E cx w
  else if t =? 18 then create_sub_account_v2 E cx w
  else if t =? 19 then toggle_sub_account_v2 E cx w
  else if t =? 21 then withdraw_v2 E cx w
  else create_v1 E cx w.

(** A nested call of the wallet program *)
Definition process_inner (E : env) (cx : ctx) (w : world) : res world :=
  let* _ := classify_all w (c_metas cx) in
  dispatch E cx w.

(** A cross-program call made by the wallet program while running [cx]: to
    itself (direct recursion is the only re-entrancy the runtime allows) or to
    another program. *)
Definition invoke (E : env) (cx : ctx) (pdas : list key) (w : world) (x : ix) : res world :=
  check (privileges_ok (c_metas cx) pdas x) RPrivilegeEscalation ;;
  if beq (ix_prog x) SELF then
    process_inner E (mk_ctx (c_slot cx) (S (c_height cx)) (c_ixs cx) (c_cur cx) (ix_metas x) (ix_data x)) w
  else foreign E w x.

(** instructions/src/lib.rs:59-105 [InstructionHolder::execute].  [sk] is the
    wallet (or sub-account) address.  The direct lamport branch is reached only
    when an inner instruction has re-assigned [sk] to another program. *)
Definition run_inner (E : env) (cx : ctx) (sk : key) (pdas : list key) (w : world) (x : ix) : res world :=
  let direct :=
    beq (ix_prog x) SYSTEM && (12 <=? length (ix_data x))%nat
    && beq (sub 0 4 (ix_data x)) [2; 0; 0; 0] in
  guard (negb direct || (1 <=? length (ix_metas x))%nat) ;;
  if direct && beq (mkey (ix_metas x) 0) sk && negb (beq (a_owner (w sk)) SYSTEM) then
    guard (2 <=? length (ix_metas x))%nat ;;
    move_lamports (c_metas cx) w sk (mkey (ix_metas x) 1) (u64_at 4 (ix_data x))
  else invoke E cx pdas w x.

Fixpoint run_all (E : env) (cx : ctx) (sk : key) (pdas : list key) (xs : list inner) (w : world)
  : res world :=
  match xs with
  | [] => Ok w
  | x :: r => let* w1 := run_inner E cx sk pdas w (in_ix x) in run_all E cx sk pdas r w1
  end.
