(** * The chain: accounts, instruction context, syscalls.

    What is not source code of the wallet but surrounds it.  Everything the
    wallet obtains from outside (hash functions, signature recovery, address
    derivation, the rent table, other programs) is a field of the record [env];
    every theorem quantifies over it, and any assumption about a field is an
    explicit hypothesis of the theorem that uses it. *)
From Coq Require Import Ascii String.
From Verif Require Export Base.

Definition key := bytes.   (* a 32-byte account address *)

(** ** Program addresses (base58 decoded at definition time) *)
Definition base58_alphabet : string :=
  "123456789ABCDEFGHJKLMNPQRSTUVWXYZabcdefghijkmnopqrstuvwxyz"%string.

Fixpoint index_of (c : ascii) (s : string) (i : Z) : Z :=
  match s with
  | EmptyString => -1
  | String c' t => if Ascii.eqb c c' then i else index_of c t (i + 1)
  end.

Fixpoint base58_num (s : string) (acc : Z) : Z :=
  match s with
  | EmptyString => acc
  | String c t => base58_num t (acc * 58 + index_of c base58_alphabet 0)
  end.

(** 32-byte big-endian value of a base58 address *)
Definition base58 (s : string) : bytes := rev (le_enc 32 (base58_num s 0)).

(** program/src/lib.rs:41-53 and assertions/src/lib.rs:12 [declare_id!] *)
Definition SELF : key := Eval vm_compute in base58 "swigypWHEksbC64pWKwah1WTeh9JXwx8H1rJHLdbQMB".
Definition SPL_TOKEN : key := Eval vm_compute in base58 "TokenkegQfeZyiNwAJbNbGKPFXCWuBvf9Ss623VQ5DA".
Definition SPL_TOKEN_2022 : key := Eval vm_compute in base58 "TokenzQdBNbLqP5VEhdkAS6EPFLC1PHnBqCXEpPxuEb".
Definition STAKING : key := Eval vm_compute in base58 "Stake11111111111111111111111111111111111111".
Definition SYSTEM : key := Eval vm_compute in base58 "11111111111111111111111111111111".
(** pinocchio sysvars/instructions [INSTRUCTIONS_ID] *)
Definition INSTRUCTIONS_ID : key := Eval vm_compute in base58 "Sysvar1nstructions1111111111111111111111111".
(** state/src/authority/secp256r1.rs:27 [SECP256R1_PROGRAM_ID] *)
Definition SECP256R1_ID : key := Eval vm_compute in base58 "Secp256r1SigVerify1111111111111111111111111".

(** ** Accounts and the world *)
Record account := mk_account
  { a_lamports : Z;
    a_owner : key;
    a_data : bytes }.

(** Every address names an account; a never-touched one is the empty
    system-owned account, as on chain. *)
Definition world := key -> account.

Definition upd (w : world) (k : key) (a : account) : world :=
  fun k' => if beq k' k then a else w k'.

(** ** Instructions *)
Record meta := mk_meta { m_key : key; m_signer : bool; m_writable : bool }.

Record ix := mk_ix { ix_prog : key; ix_metas : list meta; ix_data : bytes }.

(** Execution context of one instruction of the wallet program: the slot, the
    call depth (1 = top level), the instructions sysvar (all top-level
    instructions of the transaction and the index of the running one), and the
    instruction's own accounts and data. *)
Record ctx := mk_ctx
  { c_slot : Z;
    c_height : nat;
    c_ixs : list ix;
    c_cur : nat;
    c_metas : list meta;
    c_data : bytes }.

(** ** Syscalls and other programs *)
Record env := mk_env
  { sha256 : bytes -> bytes;
    keccak : bytes -> bytes;
    (** sol_secp256k1_recover: hash, recovery id, 64-byte signature *)
    recover : bytes -> Z -> bytes -> option bytes;
    (** core::str::from_utf8 succeeds *)
    utf8_ok : bytes -> bool;
    (** create_program_address(seeds, SELF) *)
    pda : list bytes -> option key;
    (** find_program_address(seeds, SELF) *)
    find_pda : list bytes -> key * Z;
    (** Rent::minimum_balance(data_len) *)
    rent : nat -> Z;
    (** a cross-program call to a program other than the wallet itself *)
    foreign : world -> ix -> res world }.

(** ** Account operations available to the wallet program.
    Each carries the rule the runtime enforces on it. *)

Definition writable (ms : list meta) (k : key) : bool :=
  existsb (fun m => beq (m_key m) k && m_writable m) ms.
Definition signer (ms : list meta) (k : key) : bool :=
  existsb (fun m => beq (m_key m) k && m_signer m) ms.

(** Overwrite account data.  Runtime: changed data requires the account to be
    writable and owned by the executing program. *)
Definition set_data (ms : list meta) (w : world) (k : key) (d : bytes) : res world :=
  if beq d (a_data (w k)) then Ok w
  else
    check (writable ms k) RNotWritable ;;
    check (beq (a_owner (w k)) SELF) RExternalDataModified ;;
    Ok (upd w k (mk_account (a_lamports (w k)) (a_owner (w k)) d)).

(** Resize account data (pinocchio [resize]/[realloc]): growth is zero-filled.
    Growth beyond 10240 bytes in one instruction or 10 MiB in total is
    rejected. *)
Definition resize_bytes (n : nat) (d : bytes) : bytes :=
  if (n <=? length d)%nat then firstn n d else d ++ zeros (n - length d).
Definition resize (ms : list meta) (w : world) (k : key) (n : nat) : res world :=
  let d := a_data (w k) in
  check (Z.of_nat n <=? 10485760) RInvalidRealloc ;;
  check (Z.of_nat n <=? Z.of_nat (length d) + 10240) RInvalidRealloc ;;
  set_data ms w k (resize_bytes n d).

(** Direct lamport move between two accounts by the wallet program.  Runtime:
    only the owner may debit, both must be writable, balances stay u64. *)
Definition move_lamports (ms : list meta) (w : world) (from to : key) (amt : Z) : res world :=
  if amt =? 0 then Ok w
  else if beq from to then Ok w
  else
    check (writable ms from && writable ms to) RNotWritable ;;
    check (beq (a_owner (w from)) SELF) RExternalLamportSpend ;;
    check (amt <=? a_lamports (w from)) RUnbalanced ;;
    check (a_lamports (w to) + amt <? U64) RUnbalanced ;;
    let w1 := upd w from (mk_account (a_lamports (w from) - amt) (a_owner (w from)) (a_data (w from))) in
    Ok (upd w1 to (mk_account (a_lamports (w to) + amt) (a_owner (w to)) (a_data (w to)))).

(** System program Transfer by CPI.  [pdas] are the addresses the wallet
    program signs for.  The system program requires the source to sign, to be
    system-owned and to carry no data. *)
Definition sys_transfer (ms : list meta) (pdas : list key) (w : world) (from to : key) (amt : Z)
  : res world :=
  check (signer ms from || existsb (beq from) pdas) RPrivilegeEscalation ;;
  check (writable ms from && writable ms to) RNotWritable ;;
  check (beq (a_owner (w from)) SYSTEM) RSystemProgram ;;
  check (length (a_data (w from)) =? 0)%nat RSystemProgram ;;
  check (amt <=? a_lamports (w from)) RSystemProgram ;;
  if beq from to then Ok w
  else
    check (a_lamports (w to) + amt <? U64) RSystemProgram ;;
    let w1 := upd w from (mk_account (a_lamports (w from) - amt) (a_owner (w from)) (a_data (w from))) in
    Ok (upd w1 to (mk_account (a_lamports (w to) + amt) (a_owner (w to)) (a_data (w to)))).

(** System program Allocate + Assign(SELF) by CPI on an empty system-owned
    account that signs (here always a PDA of the wallet program). *)
Definition sys_allocate_assign (ms : list meta) (pdas : list key) (w : world) (k : key) (n : nat)
  : res world :=
  check (signer ms k || existsb (beq k) pdas) RPrivilegeEscalation ;;
  check (writable ms k) RNotWritable ;;
  check (beq (a_owner (w k)) SYSTEM) RSystemProgram ;;
  check (length (a_data (w k)) =? 0)%nat RSystemProgram ;;
  check (Z.of_nat n <=? 10240) RInvalidRealloc ;;
  Ok (upd w k (mk_account (a_lamports (w k)) SELF (zeros n))).

(** System program CreateAccount(owner = SELF) by CPI.  It refuses an address
    that already holds lamports, whatever amount is to be transferred. *)
Definition sys_create_account (ms : list meta) (pdas : list key) (w : world) (from k : key)
  (amt : Z) (n : nat) : res world :=
  check (signer ms k || existsb (beq k) pdas) RPrivilegeEscalation ;;
  check (a_lamports (w k) =? 0) RSystemProgram ;;
  check (beq (a_owner (w k)) SYSTEM) RSystemProgram ;;
  check (length (a_data (w k)) =? 0)%nat RSystemProgram ;;
  check (Z.of_nat n <=? 10240) RInvalidRealloc ;;
  let* w1 := sys_transfer ms pdas w from k amt in
  sys_allocate_assign ms pdas w1 k n.

(** Cross-program call to a program other than the wallet.  The runtime checks
    that the callee gets no privilege the caller lacks: every signer is a signer
    of the caller or an address the caller derives ([pdas]), every writable
    account is writable for the caller. *)
Definition privileges_ok (ms : list meta) (pdas : list key) (x : ix) : bool :=
  forallb (fun m => (negb (m_signer m) || signer ms (m_key m) || existsb (beq (m_key m)) pdas)
                    && (negb (m_writable m) || writable ms (m_key m))) (ix_metas x).
Definition cpi (E : env) (ms : list meta) (pdas : list key) (w : world) (x : ix) : res world :=
  check (privileges_ok ms pdas x) RPrivilegeEscalation ;;
  foreign E w x.
