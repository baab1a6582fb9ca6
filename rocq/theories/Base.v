(** * Byte strings, machine integers and the result type.

    Shared vocabulary of the whole model.  A Rust [u8] slice is a [bytes]; a
    fallible Rust function returns [res]; a Rust panic (or a read that would be
    out of bounds) is the explicit value [Panic].  The on-chain program aborts
    the transaction on both [Err] and [Panic]. *)
From Coq Require Export List ZArith Lia Bool PeanoNat.
Export ListNotations.
Global Open Scope Z_scope.

Definition bytes := list Z.

(** A byte is a value in 0..255. *)
Definition is_byte (b : Z) : Prop := 0 <= b < 256.
Definition all_bytes (l : bytes) : Prop := Forall is_byte l.

(** Errors.  Names follow the Rust enums: [P] program/src uses
    pinocchio::ProgramError, [S] program/src/error.rs SwigError, [T]
    state/src/lib.rs SwigStateError (from 1000), [A] state/src/lib.rs
    SwigAuthenticateError (from 3000), [R] errors raised by the Solana
    runtime rather than by the program. *)
Inductive err : Set :=
(* pinocchio ProgramError *)
| PInvalidAccountData | PInvalidInstructionData | PInvalidArgument
| PInsufficientFunds | PNotEnoughAccountKeys | PMissingRequiredSignature
| PUnsupportedSysvar | PInvalidSeeds | PArithmeticOverflow | PIncorrectProgramId
| PInvalidAccountOwner | PAccountAlreadyInitialized
(* SwigError *)
| SInvalidSwigAccountDiscriminator | SOwnerMismatchSwigAccount
| SAccountNotEmptySwigAccount | SStateError | SInvalidAuthorityType
| SInvalidSeedSwigAccount | SInvalidAuthorityNotFoundByRoleId
| SInvalidAuthorityMustHaveAtLeastOneAction | SInstructionExecutionError
| SInvalidAccountsLength | SInvalidAccountsSwigMustBeFirst
| SInvalidSystemProgram | SInvalidOperation | SInvalidSeedSubAccount
| SInsufficientFunds | SOwnerMismatchTokenAccount | SPermissionDenied
| SOwnerMismatchSubAccount | SSubAccountAlreadyExists
| SAuthorityCannotCreateSubAccount | SInvalidSwigSubAccountDisabled
| SInvalidSwigSubAccountSwigIdMismatch | SInvalidSwigSubAccountRoleIdMismatch
| SInvalidSwigTokenAccountOwner | SInvalidProgramScopeBalanceFields
| SAccountDataModifiedUnexpectedly | SSignV2CannotBeUsedWithSwigV1
| STokenAccountNotEmpty | SWalletNotEmpty | SInvalidInstructionDataTooShort
| SReplaceAuthorityInvalidPayload | SReplaceAuthorityProofMismatch
| SReplaceAuthorityProofInvalidData | SReplaceAuthorityProofInvalidAccounts
| SReplaceAuthorityProofInvalidInstruction | SReplaceAuthorityInvalidSignerLength
| SUnsupportedReplaceAuthorityType | SRentClaimerAlreadySet
| SInvalidRentClaimerValue | SInvalidRentClaimerDestination
| SAuthorityCannotCreateSubAccountV2
| SPermissionDeniedMissingSubAccountV2Permission
| SOwnerMismatchSubAccountV2State | SInvalidSwigSubAccountV2SwigIdMismatch
| SInvalidSwigSubAccountV2IdMismatch | SInvalidSwigSubAccountV2Disabled
| SInvalidSeedSubAccountV2 | SReplaceAuthoritySameSigner | SCpi
(* SwigStateError *)
| TInvalidActionData | TInvalidRoleData | TInvalidAuthorityData | TRoleNotFound
| TPermissionLoadError | TInvalidAuthorityMustHaveAtLeastOneAction
| TInvalidRentClaimerLayout | TDuplicateV2SubAccountAction | TInvalidSwigData
(* SwigAuthenticateError *)
| AInvalidAuthority | AInvalidAuthorityPayload | AInvalidDataPayload
| AMissingAuthorityAccount | ANoSessionSupport | APermissionDenied
| AMissingPermission | ATokenAccountPermissionFailure
| ATokenAccountDelegatePresent | ATokenAccountNotInitialized
| AToManageAuthority | AInsufficientBalance | ACannotRemoveRootAuthority
| ASessionExpired | ASecp256k1InvalidSignature | ASecp256k1InvalidSignatureAge
| ASecp256k1SignatureReused | ASecp256k1InvalidHash | ASecp256r1SignatureReused
| AStakeAccountInvalidState | ACannotReuseSessionKey | AInvalidSessionDuration
| ATokenAccountAuthorityNotSwig | ASecp256r1InvalidInstruction
| ASecp256r1InvalidPubkey | ASecp256r1InvalidMessageHash
| ASecp256r1InvalidMessage | ASecp256r1InvalidAuthenticationKind
| ASolDestinationLimitExceeded | ASolRecurringDestinationLimitExceeded
| ATokenDestinationLimitExceeded | ATokenRecurringDestinationLimitExceeded
| AProgramExecInvalidInstruction | AProgramExecInvalidProgram
| AProgramExecInvalidInstructionData | AProgramExecMissingAccounts
| AProgramExecInvalidConfigAccount | AProgramExecInvalidWalletAccount
| AProgramExecCannotBeSwig
(* instructions/src InstructionError *)
| IMissingInstructions | IMissingAccountInfo | IMissingData
(* assertion errors *)
| BytesMismatch
(* Solana runtime *)
| RNotWritable | RExternalDataModified | RExternalLamportSpend | RUnbalanced
| RPrivilegeEscalation | RCallDepth | RComputeExhausted | RInvalidRealloc
| RSystemProgram | RCpiFailed | RReentrancy.

Inductive res (A : Type) : Type :=
| Ok (a : A)
| Err (e : err)
| Panic.
Arguments Ok {A} a.
Arguments Err {A} e.
Arguments Panic {A}.

Definition bind {A B} (m : res A) (f : A -> res B) : res B :=
  match m with Ok a => f a | Err e => Err e | Panic => Panic end.

Notation "'let*' x ':=' m 'in' k" := (bind m (fun x => k))
  (at level 200, x name, m at level 100, k at level 200, right associativity).
Notation "'let*' ' p ':=' m 'in' k" := (bind m (fun p => k))
  (at level 200, p pattern, m at level 100, k at level 200, right associativity).
Notation "m ;; k" := (bind m (fun _ => k)) (at level 199, right associativity).

(** [check b e] is Rust's [if !b { return Err(e) }]. *)
Definition check (b : bool) (e : err) : res unit := if b then Ok tt else Err e.

(** [guard b] is an assertion whose failure is a panic (slice bounds etc.). *)
Definition guard (b : bool) : res unit := if b then Ok tt else Panic.

Definition ok_or {A} (o : option A) (e : err) : res A :=
  match o with Some a => Ok a | None => Err e end.

Definition is_ok {A} (r : res A) : bool := match r with Ok _ => true | _ => false end.

(** ** Machine integers: values are [Z]; wrap-around is written out. *)
Definition U8 := 256.
Definition U16 := 65536.
Definition U32 := 4294967296.
Definition U64 := 18446744073709551616.
Definition U128 := 340282366920938463463374607431768211456.

Definition is_u16 z := 0 <= z < U16.
Definition is_u32 z := 0 <= z < U32.
Definition is_u64 z := 0 <= z < U64.
Definition is_u128 z := 0 <= z < U128.

(** saturating_sub / saturating_add of unsigned integers *)
Definition sat_sub (a b : Z) : Z := Z.max 0 (a - b).
Definition sat_add (bound a b : Z) : Z := Z.min (bound - 1) (a + b).

(** ** Little-endian integers: from_le_bytes / to_le_bytes *)
Fixpoint le (l : bytes) : Z :=
  match l with [] => 0 | b :: t => b + 256 * le t end.

Fixpoint le_enc (n : nat) (z : Z) : bytes :=
  match n with O => [] | S n' => (z mod 256) :: le_enc n' (z / 256) end.

(** ** Slices.  [sub o n l] is [&l[o..o+n]]; callers establish bounds. *)
Definition sub (o n : nat) (l : bytes) : bytes := firstn n (skipn o l).

(** copy [new] over [d] at offset [o] *)
Definition splice (o : nat) (new d : bytes) : bytes :=
  firstn o d ++ new ++ skipn (o + length new) d.

(** Checked slice: panics when out of bounds. *)
Definition slice (o n : nat) (l : bytes) : res bytes :=
  if (o + n <=? length l)%nat then Ok (sub o n l) else Panic.

Definition zeros (n : nat) : bytes := repeat 0 n.

(** Byte-string equality. *)
Fixpoint beq (a b : bytes) : bool :=
  match a, b with
  | [], [] => true
  | x :: a', y :: b' => (x =? y) && beq a' b'
  | _, _ => false
  end.

Definition u16_at (o : nat) (d : bytes) : Z := le (sub o 2 d).
Definition u32_at (o : nat) (d : bytes) : Z := le (sub o 4 d).
Definition u64_at (o : nat) (d : bytes) : Z := le (sub o 8 d).
Definition u128_at (o : nat) (d : bytes) : Z := le (sub o 16 d).
Definition byte_at (o : nat) (d : bytes) : Z := nth o d 0.
Definition nat_of (z : Z) : nat := Z.to_nat z.
