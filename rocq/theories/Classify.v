(** * Account classification, done before any handler runs.

    Models program/src/lib.rs:139-530 ([is_swig_config_account],
    [classify_account], the loop of [execute]) and util/mod.rs:41-230
    (program-scope cache and balance reading). *)
From Verif Require Export SubAccounts.

(** state/src/lib.rs [AccountClassification]; fields no handler reads are dropped *)
Inductive cls :=
| CNone | CThisSwig | CWallet
| CToken (balance spent : Z)
| CStake (balance lamports spent : Z)
| CScope (balance spent : Z).

(** program/src/lib.rs:139-147 *)
Definition is_config (w : world) (k : key) : bool :=
  beq (a_owner (w k)) SELF && (HDR <=? length (a_data (w k)))%nat
  && (h_disc (a_data (w k)) =? D_Config).

(** ** ProgramScope fields: program_scope.rs:76-100 *)
Definition SCOPE_LEN : nat := 144.
Definition ps_target (p : bytes) : bytes := sub 80 32 p.
Definition ps_type (p : bytes) : Z := u64_at 112 p.
Definition ps_numeric (p : bytes) : Z := u64_at 120 p mod U8.
Definition ps_start (p : bytes) : Z := u64_at 128 p.
Definition ps_end (p : bytes) : Z := u64_at 136 p.

(** state/src/util.rs:28-110 [read_numeric_field!] for the four numeric types;
    [end - start] wraps in the Rust code, which makes it unequal to the width
    whenever [end < start] *)
Definition numeric_width (t : Z) : option Z :=
  if t =? 0 then Some 1 else if t =? 1 then Some 4 else if t =? 2 then Some 8
  else if t =? 3 then Some 16 else None.
Definition read_numeric (p d : bytes) : option Z :=
  match numeric_width (ps_numeric p) with
  | None => None
  | Some wd =>
    if ps_end p - ps_start p =? wd then Some (le (sub (nat_of (ps_start p)) (nat_of wd) d)) else None
  end.
(** util/mod.rs:191-226 [read_program_scope_account_balance] *)
Definition scope_balance0 (p d : bytes) : res Z :=
  if ps_type p =? 0 then Ok 0
  else
    check (ps_end p <=? Z.of_nat (length d)) SInvalidProgramScopeBalanceFields ;;
    ok_or (read_numeric p d) SInvalidProgramScopeBalanceFields.
(** program_scope.rs:226-285 [read_account_balance]; None is any error *)
Definition scope_balance (p d : bytes) : option Z :=
  if (ps_start p =? 0) && (ps_end p =? 0) then Some 0
  else if ps_end p <=? Z.of_nat (length d) then read_numeric p d
  else None.

(** util/mod.rs:74-133: the program scopes of one role, walking by length *)
Fixpoint scopes_loop (fuel : nat) (acts : bytes) (cursor : nat) : list bytes :=
  match fuel with
  | O => []
  | S f =>
    if (cursor + 8 <=? length acts)%nat then
      let n := hdr_len cursor acts in
      if (cursor + 8 + n <=? length acts)%nat then
        (if (hdr_ty cursor acts =? P_ProgramScope) && (n =? SCOPE_LEN)%nat
         then [sub (cursor + 8) n acts] else [])
        ++ scopes_loop f acts (cursor + 8 + n)
      else []
    else []
  end.
(** util/mod.rs:67-140 [load_from_swig]: role ids 0 .. role_counter in order *)
Definition scope_cache (d : bytes) : option (list bytes) :=
  match split_parts d with
  | Ok (h, roles, _) =>
    Some (flat_map (fun i => match get_mut_role (Z.of_nat i) roles with
                             | Ok (Some v) => scopes_loop (S (length (rv_acts v))) (rv_acts v) 0
                             | _ => []
                             end) (seq 0 (nat_of (h_counter h))))
  | _ => None
  end.
(** util/mod.rs:148-165 [find_program_scope]: the first entry for the target *)
Definition find_scope (cache : list bytes) (k : key) : option bytes :=
  find (fun p => beq (ps_target p) k) cache.

(** program/src/lib.rs:364-527 [classify_account].  [k0], [k1] are the first two
    account keys, [wal] whether account 1 was classified as the wallet address. *)
Definition classify (w : world) (cache : option (list bytes)) (k0 k1 : key) (wal : bool)
  (i : nat) (k : key) : res cls :=
  let a := w k in
  let d := a_data a in
  let ours (f : bytes) := beq k0 f || ((1 <? i)%nat && wal && beq k1 f) in
  let scoped :=
    if (i =? 0)%nat then Ok CNone
    else match cache with
         | None => Ok CNone
         | Some c =>
           match find_scope c k with
           | None => Ok CNone
           | Some p => let* b := scope_balance0 p d in Ok (CScope b 0)
           end
         end in
  if beq (a_owner a) SELF then
    if negb (is_config w k) then Ok CNone
    else if (i =? 0)%nat then Ok CThisSwig
    else if is_config w k0 then Ok CNone
    else Err SInvalidAccountsSwigMustBeFirst
  else if beq (a_owner a) SYSTEM && (i =? 1)%nat then
    Ok (if is_config w k0 then CWallet else CNone)
  else if beq (a_owner a) STAKING then
    if (i =? 0)%nat then Ok CNone
    else if (length d <? 200)%nat then Ok CNone
    else if negb (ours (sub 44 32 d)) then Ok CNone
    else
      check (u32_at 0 d <=? 3) PInvalidAccountData ;;
      Ok (CStake (u64_at 156 d) (a_lamports a) 0)
  else if is_token_program (a_owner a) && negb (i =? 0)%nat && (165 <=? length d)%nat then
    if ours (sub 32 32 d) then Ok (CToken (u64_at 64 d) 0) else Ok CNone
  else scoped.

Definition is_wallet (c : cls) : bool := match c with CWallet => true | _ => false end.

Fixpoint classify_from (w : world) (cache : option (list bytes)) (k0 k1 : key) (wal : bool)
  (i : nat) (ms : list meta) : res (list cls) :=
  match ms with
  | [] => Ok []
  | m :: r =>
    let* c := classify w cache k0 k1 wal i (m_key m) in
    let* cs := classify_from w cache k0 k1 (if (i =? 1)%nat then is_wallet c else wal) (S i) r in
    Ok (c :: cs)
  end.

(** program/src/lib.rs:87-340 [process_instruction]/[execute] up to the dispatch *)
Definition MAX_ACCOUNTS : nat := 254.
Definition classify_all (w : world) (ms : list meta) : res (list cls) :=
  check (length ms <=? MAX_ACCOUNTS)%nat SInvalidAccountsLength ;;
  check (1 <=? length ms)%nat SInvalidAccountsLength ;;
  let k0 := mkey ms 0 in
  let cache := if is_config w k0 then scope_cache (a_data (w k0)) else None in
  classify_from w cache k0 (mkey ms 1) false 0 ms.
