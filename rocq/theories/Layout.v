(** * Structs as bytes, and the derive macro that guards them

    All records on chain and all instruction arguments are structs that the code
    reads and writes as raw memory (state/src/transmute.rs).  no-padding/src/lib.rs is
    the derive macro that refuses structs with gaps. *)
From Coq Require Import String.
From Verif Require Import Base.
Local Notation length := List.length.

(** Types of fields; all that occur.  [TTag] is the enum [SwigInstruction] with
    [repr(u16)], [TWords n] is [[u16; n]], [TBytes n] is [[u8; n]] *)
Inductive ty := TU8 | TBool | TU16 | TTag | TU32 | TU64 | TU128 | TBytes (n : nat) | TWords (n : nat).
(* what a repr attribute says *)
Inductive repr := RC | RAlign (n : nat) | ROther.
Record decl := mk_decl { d_name : string; d_reprs : list repr; d_fields : list (string * ty) }.

(** Sizes and alignments of the language.  The alignment of [u128] depends on the
    target, it is 8 or 16: [A] *)
Definition size_ty (t : ty) : nat :=
  match t with
  | TU8 | TBool => 1 | TU16 | TTag => 2 | TU32 => 4 | TU64 => 8 | TU128 => 16 | TBytes n => n | TWords n => 2 * n
  end.
Definition align_ty (A : nat) (t : ty) : nat :=
  match t with
  | TU8 | TBool | TBytes _ => 1 | TU16 | TTag | TWords _ => 2 | TU32 => 4 | TU64 => 8 | TU128 => A
  end.

(** The layout of [repr(C)] structs (Rust reference, type layout): each field at the
    next offset that its alignment divides, the size rounded up to the alignment of
    the struct *)
Definition up (a n : nat) : nat := ((n + (a - 1)) / a * a)%nat.
Fixpoint place (A at_ : nat) (fs : list (string * ty)) : list nat :=
  match fs with
  | [] => []
  | (_, t) :: fs => let o := up (align_ty A t) at_ in o :: place A (o + size_ty t) fs
  end.
Fixpoint finish (A at_ : nat) (fs : list (string * ty)) : nat :=
  match fs with
  | [] => at_
  | (_, t) :: fs => finish A (up (align_ty A t) at_ + size_ty t) fs
  end.
Definition struct_align (A : nat) (d : decl) : nat :=
  fold_right Nat.max 1%nat (map (fun r => match r with RAlign n => n | _ => 1 end)%nat (d_reprs d) ++ map (fun f => align_ty A (snd f)) (d_fields d)).
Definition offsets_of (A : nat) (d : decl) : list nat := place A 0 (d_fields d).
Definition size_of (A : nat) (d : decl) : nat := up (struct_align A d) (finish A 0 (d_fields d)).

(* no-padding/src/lib.rs:43-70: among the repr attributes there are [C] and
   [align(8)].  Not modelled: structs only (lib.rs:73-81), generics *)
Definition repr_c (d : decl) : bool := existsb (fun r => match r with RC => true | _ => false end) (d_reprs d).
Definition repr_align8 (d : decl) : bool := existsb (fun r => match r with RAlign n => (n =? 8)%nat | _ => false end) (d_reprs d).
(* no-padding/src/lib.rs:97-122 [generate_size_assertions] *)
Definition fields_size (fs : list (string * ty)) : nat := fold_left (fun n f => n + size_ty (snd f))%nat fs 0%nat.
(* no-padding/src/lib.rs:26-95 [impl_no_padding]: the struct compiles *)
Definition derives (A : nat) (d : decl) : bool :=
  repr_c d && repr_align8 d && (size_of A d =? fields_size (d_fields d))%nat.

(** The constant [LEN] of a record (state/src/transmute.rs:7-12), for the target [A]: it
    is given next to the struct *)
Definition len_const : Type := nat -> nat.
(* state/src/transmute.rs:18-25 and 38-45 [load_unchecked], [load_mut_unchecked]: the
   slice must have [LEN] bytes; the struct is then read where the slice begins *)
Definition loads (A : nat) (len : len_const) (b : bytes) : bool := (length b =? len A)%nat.
(* [into_bytes] of each record (e.g. state/src/authority/programexec/session.rs:65-71):
   the [LEN] bytes of memory from where the struct begins; [after] is what follows it *)
Definition into_memory (A : nat) (len : len_const) (image after : bytes) : bytes := firstn (len A) (image ++ after).
