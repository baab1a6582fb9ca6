(** * Permissions ("actions") and their byte layout.

    Models state/src/action/*.rs and the action walkers of state/src/role.rs. *)
From Verif Require Export Base.

(** state/src/action/mod.rs:112-170 [enum Permission] *)
Definition P_None := 0.
Definition P_SolLimit := 1.
Definition P_SolRecurringLimit := 2.
Definition P_Program := 3.
Definition P_ProgramScope := 4.
Definition P_TokenLimit := 5.
Definition P_TokenRecurringLimit := 6.
Definition P_All := 7.
Definition P_ManageAuthority := 8.
Definition P_SubAccount := 9.
Definition P_StakeLimit := 10.
Definition P_StakeRecurringLimit := 11.
Definition P_StakeAll := 12.
Definition P_ProgramAll := 13.
Definition P_ProgramCurated := 14.
Definition P_AllButManageAuthority := 15.
Definition P_SolDestinationLimit := 16.
Definition P_SolRecurringDestinationLimit := 17.
Definition P_TokenDestinationLimit := 18.
Definition P_TokenRecurringDestinationLimit := 19.
Definition P_CloseSwigAuthority := 20.
Definition P_ReplaceAuthority := 21.
Definition P_SubAccountV2Create := 22.
Definition P_SubAccountV2All := 23.
Definition P_SubAccountV2Sign := 24.
Definition P_SubAccountV2Withdraw := 25.
Definition P_SubAccountV2Toggle := 26.

(** state/src/action/mod.rs:172-184 [TryFrom<u16> for Permission] *)
Definition permission (ty : Z) : res Z :=
  if (0 <=? ty) && (ty <=? 26) then Ok ty else Err TPermissionLoadError.

(** [Transmutable::LEN] of each action struct, state/src/action/*.rs.
    [None] for [Permission::None], which has no struct. *)
Definition action_len (ty : Z) : option nat :=
  if ty =? P_SolLimit then Some 8%nat
  else if ty =? P_SolRecurringLimit then Some 32%nat
  else if ty =? P_Program then Some 32%nat
  else if ty =? P_ProgramScope then Some 144%nat
  else if ty =? P_TokenLimit then Some 40%nat
  else if ty =? P_TokenRecurringLimit then Some 64%nat
  else if ty =? P_All then Some 0%nat
  else if ty =? P_ManageAuthority then Some 0%nat
  else if ty =? P_SubAccount then Some 72%nat
  else if ty =? P_StakeLimit then Some 8%nat
  else if ty =? P_StakeRecurringLimit then Some 32%nat
  else if ty =? P_StakeAll then Some 0%nat
  else if ty =? P_ProgramAll then Some 0%nat
  else if ty =? P_ProgramCurated then Some 32%nat
  else if ty =? P_AllButManageAuthority then Some 0%nat
  else if ty =? P_SolDestinationLimit then Some 40%nat
  else if ty =? P_SolRecurringDestinationLimit then Some 64%nat
  else if ty =? P_TokenDestinationLimit then Some 72%nat
  else if ty =? P_TokenRecurringDestinationLimit then Some 96%nat
  else if ty =? P_CloseSwigAuthority then Some 0%nat
  else if ty =? P_ReplaceAuthority then Some 8%nat
  else if ty =? P_SubAccountV2Create then Some 0%nat
  else if ty =? P_SubAccountV2All then Some 8%nat
  else if ty =? P_SubAccountV2Sign then Some 8%nat
  else if ty =? P_SubAccountV2Withdraw then Some 8%nat
  else if ty =? P_SubAccountV2Toggle then Some 8%nat
  else None.

(** The [REPEATABLE] constant together with [match_data] of each action:
    [!REPEATABLE || match_data(query)].  state/src/action/{program.rs:47,
    program_scope.rs:431, token_limit.rs:71, token_recurring_limit.rs:85,
    sub_account.rs:99, sol_destination_limit.rs:79,
    sol_recurring_destination_limit.rs:103, token_destination_limit.rs:93,
    token_recurring_destination_limit.rs:115, replace_authority.rs:48,
    sub_account_v2.rs:91}.  Program/TokenLimit/TokenRecurringLimit index
    [query[0..32]] unconditionally; every caller passes 32 bytes, so that
    panic is not modelled (a shorter query simply does not match). *)
Definition action_matches (ty : Z) (query data : bytes) : bool :=
  if (ty =? P_Program) || (ty =? P_TokenLimit) || (ty =? P_TokenRecurringLimit)
     || (ty =? P_SolDestinationLimit) || (ty =? P_SolRecurringDestinationLimit)
  then (32 <=? length query)%nat && beq (sub 0 32 query) (sub 0 32 data)
  else if ty =? P_ProgramScope
  then (32 <=? length query)%nat && beq (sub 0 32 query) (sub 80 32 data)
  else if (ty =? P_TokenDestinationLimit) || (ty =? P_TokenRecurringDestinationLimit)
  then (64 <=? length query)%nat && beq (sub 0 64 query) (sub 0 64 data)
  else if ty =? P_SubAccount
  then match query with
       | [] => beq (sub 0 32 data) (zeros 32)
       | _ => (length query =? 32)%nat && beq (sub 0 32 data) query
       end
  else if (ty =? P_ReplaceAuthority) || (ty =? P_SubAccountV2All)
          || (ty =? P_SubAccountV2Sign) || (ty =? P_SubAccountV2Withdraw)
          || (ty =? P_SubAccountV2Toggle)
  then (length query =? 4)%nat && beq (sub 0 4 data) query
  else true.

(** state/src/action/mod.rs:267-301 [ActionLoader::validate_layout], with the
    [valid_layout] overrides of the recurring limits (which slice before
    checking the length, hence the [Panic]s) and of [SubAccount]. *)
Definition validate_layout (ty : Z) (data : bytes) : res bool :=
  if (ty =? P_SolRecurringLimit) || (ty =? P_StakeRecurringLimit) then
    guard (32 <=? length data)%nat ;;
    Ok (beq (sub 24 8 data) (sub 0 8 data) && beq (sub 16 8 data) (zeros 8)
        && (length data =? 32)%nat)
  else if ty =? P_TokenRecurringLimit then
    guard (64 <=? length data)%nat ;;
    Ok (beq (sub 48 8 data) (sub 40 8 data) && beq (sub 56 8 data) (zeros 8)
        && (length data =? 64)%nat)
  else if ty =? P_SolRecurringDestinationLimit then
    Ok ((length data =? 64)%nat && negb (u64_at 40 data =? 0)
        && (u64_at 56 data <=? u64_at 32 data))
  else if ty =? P_TokenRecurringDestinationLimit then
    Ok ((length data =? 96)%nat && negb (u64_at 72 data =? 0)
        && (u64_at 88 data <=? u64_at 64 data))
  else if ty =? P_SubAccount then
    Ok ((length data =? 72)%nat && beq (sub 0 32 data) (zeros 32))
  else match action_len ty with
       | Some n => Ok (length data =? n)%nat
       | None => Ok false
       end.

(** An action header, state/src/action/mod.rs:62-76: type u16, length u16,
    boundary u32.  [o] is the offset of the header in [d]. *)
Definition hdr_ty (o : nat) (d : bytes) : Z := u16_at o d.
Definition hdr_len (o : nat) (d : bytes) : nat := nat_of (u16_at (o + 2) d).
Definition hdr_boundary (o : nat) (d : bytes) : nat := nat_of (u32_at (o + 4) d).

(** state/src/swig.rs:302-336 [SwigBuilder::calculate_num_actions].
    [fuel] bounds the number of loop iterations; every iteration consumes at
    least the eight header bytes so [S (length d)] suffices. *)
Fixpoint calc_loop (fuel : nat) (d : bytes) (cursor : nat) (count : Z) : res Z :=
  match fuel with
  | O => Err RComputeExhausted
  | S f =>
    if (cursor <? length d)%nat then
      check (cursor + 8 <=? length d)%nat PInvalidInstructionData ;;
      let alen := hdr_len cursor d in
      check (cursor + 8 + alen <=? length d)%nat TInvalidAuthorityMustHaveAtLeastOneAction ;;
      let* p := permission (hdr_ty cursor d) in
      let* ok := validate_layout p (sub (cursor + 8) alen d) in
      check ok PInvalidInstructionData ;;
      check (count + 1 <? U8) PInvalidInstructionData ;;
      calc_loop f d (cursor + 8 + alen) (count + 1)
    else
      check (negb (count =? 0)) TInvalidAuthorityMustHaveAtLeastOneAction ;;
      Ok count
  end.
Definition calculate_num_actions (d : bytes) : res Z := calc_loop (S (length d)) d 0 0.

(** state/src/action/mod.rs:244-260 [v2_dedup_key] *)
Definition v2_dedup_key (ty : Z) (data : bytes) : option (Z * Z) :=
  if ty =? P_SubAccountV2Create then Some (ty, 0)
  else if (ty =? P_SubAccountV2All) || (ty =? P_SubAccountV2Sign)
          || (ty =? P_SubAccountV2Withdraw) || (ty =? P_SubAccountV2Toggle)
  then if (4 <=? length data)%nat then Some (ty, u32_at 0 data) else None
  else None.

(** First pass of state/src/action/mod.rs:314-347
    [reject_duplicate_v2_scoped]: the list of dedup keys. *)
Fixpoint v2_keys_loop (fuel : nat) (d : bytes) (cursor : nat) (acc : list (Z * Z))
  : res (list (Z * Z)) :=
  match fuel with
  | O => Err RComputeExhausted
  | S f =>
    if (cursor + 8 <=? length d)%nat then
      let dend := (cursor + 8 + hdr_len cursor d)%nat in
      check (dend <=? length d)%nat PInvalidInstructionData ;;
      let* p := permission (hdr_ty cursor d) in
      let acc' := match v2_dedup_key p (sub (cursor + 8) (hdr_len cursor d) d) with
                  | Some k => k :: acc
                  | None => acc
                  end in
      v2_keys_loop f d dend acc'
    else Ok acc
  end.

Definition key2_eqb (a b : Z * Z) : bool := (fst a =? fst b) && (snd a =? snd b).
Fixpoint has_dup (l : list (Z * Z)) : bool :=
  match l with
  | [] => false
  | k :: t => existsb (key2_eqb k) t || has_dup t
  end.

(** state/src/action/mod.rs:314-347.  The Rust code sorts packed keys
    [(ty << 32) | id] and compares neighbours; the packing is injective for
    u16/u32 parts, so this is "two equal keys exist". *)
Definition reject_duplicate_v2_scoped (d : bytes) : res unit :=
  let* ks := v2_keys_loop (S (length d)) d 0 [] in
  check (negb (has_dup ks)) TDuplicateV2SubAccountAction.

(** Loop of state/src/role.rs [Role::get_action], [RoleMut::get_action] and
    [RoleMut::get_action_mut].  Returns the offset (in the actions buffer) of
    the payload of the first action of type [ty] whose payload matches [query].
    The Rust code follows the stored boundaries with unchecked reads: an
    out-of-bounds read is [Panic] here, a boundary cycle (an infinite loop on
    chain, i.e. compute exhaustion) runs out of fuel. *)
Fixpoint get_action_loop (fuel : nat) (ty : Z) (query : bytes) (acts : bytes) (cursor : nat)
  : res (option nat) :=
  match fuel with
  | O => Err RComputeExhausted
  | S f =>
    if (cursor <? length acts)%nat then
      guard (cursor + 8 <=? length acts)%nat ;;
      let* p := permission (hdr_ty cursor acts) in
      if p =? ty then
        match action_len ty with
        | None => Panic
        | Some n =>
          guard (cursor + 8 + n <=? length acts)%nat ;;
          if action_matches ty query (sub (cursor + 8) n acts)
          then Ok (Some (cursor + 8)%nat)
          else get_action_loop f ty query acts (hdr_boundary cursor acts)
        end
      else get_action_loop f ty query acts (hdr_boundary cursor acts)
    else Ok None
  end.

(** state/src/role.rs [RoleMut::get_action] *)
Definition get_action (ty : Z) (query acts : bytes) : res (option nat) :=
  check (8 <=? length acts)%nat PInvalidAccountData ;;
  get_action_loop (S (length acts)) ty query acts 0.

(** state/src/role.rs [RoleMut::get_action_mut] (no initial length check) *)
Definition get_action_mut (ty : Z) (query acts : bytes) : res (option nat) :=
  get_action_loop (S (length acts)) ty query acts 0.

Definition is_some {A} (o : option A) : bool := match o with Some _ => true | None => false end.

(** [role.get_action::<T>(q)?.is_some()] *)
Definition has_action (ty : Z) (query acts : bytes) : res bool :=
  let* o := get_action ty query acts in Ok (is_some o).

(** state/src/action/mod.rs:350-365 [ActionLoader::find_action], for the
    zero-length actions it is used with (All, ManageAuthority).  It follows the
    *client supplied* boundaries of the not yet normalised action buffer. *)
Fixpoint find_action_loop (fuel : nat) (ty : Z) (d : bytes) (cursor : nat) : res bool :=
  match fuel with
  | O => Err RComputeExhausted
  | S f =>
    if (cursor <? length d)%nat then
      guard (cursor + 8 <=? length d)%nat ;;
      if hdr_ty cursor d =? ty then
        guard (cursor + hdr_len cursor d <=? length d)%nat ;;
        check (hdr_len cursor d =? 0)%nat PInvalidAccountData ;;
        Ok true
      else find_action_loop f ty d (hdr_boundary cursor d)
    else Ok false
  end.
Definition find_action (ty : Z) (d : bytes) : res bool := find_action_loop (S (length d)) ty d 0.
