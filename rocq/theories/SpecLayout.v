(** * Vocabulary: records as bytes

    [image A d vs b]: [b] is what the memory of a struct [d] may hold when its
    fields hold [vs].  The bytes of gaps may be anything. *)
From Coq Require Import String.
From Verif Require Export Base Layout LayoutTable.
Local Notation length := List.length.

(** one value for each field, of the right size *)
Definition fits (d : decl) (vs : list bytes) : Prop := map (@length Z) vs = map (fun f => size_ty (snd f)) (d_fields d).
Definition image (A : nat) (d : decl) (vs : list bytes) (b : bytes) : Prop :=
  length b = size_of A d
  /\ forall i f o v, nth_error (d_fields d) i = Some f -> nth_error (offsets_of A d) i = Some o -> nth_error vs i = Some v ->
     sub o (size_ty (snd f)) b = v.
(** The targets: the alignment of u128 *)
Definition target (A : nat) : Prop := A = 8%nat \/ A = 16%nat.
(** where the field with a name lies: offset and size *)
Fixpoint seek (fs : list (string * ty)) (os : list nat) (n : string) : option (nat * nat) :=
  match fs, os with
  | (x, t) :: fs, o :: os => if String.eqb x n then Some (o, size_ty t) else seek fs os n
  | _, _ => None
  end.
(** the bytes of the field [n] in a buffer that begins with a struct [d] *)
Definition field (A : nat) (d : decl) (n : string) (b : bytes) : bytes :=
  match seek (d_fields d) (offsets_of A d) n with Some (o, l) => sub o l b | None => [] end.

(** The arguments of the instruction with a tag, and its field for the acting role *)
Local Open Scope string_scope.
Definition args_of (t : Z) : option (decl * string) :=
  if (t =? 1)%Z then Some (d_AddAuthorityV1Args, "acting_role_id")
  else if (t =? 2)%Z then Some (d_RemoveAuthorityV1Args, "acting_role_id")
  else if (t =? 3)%Z then Some (d_UpdateAuthorityV1Args, "acting_role_id")
  else if (t =? 5)%Z then Some (d_CreateSessionV1Args, "role_id")
  else if (t =? 6)%Z then Some (d_CreateSubAccountV1Args, "role_id")
  else if (t =? 7)%Z then Some (d_WithdrawFromSubAccountV1Args, "role_id")
  else if (t =? 9)%Z then Some (d_SubAccountSignV1Args, "role_id")
  else if (t =? 10)%Z then Some (d_ToggleSubAccountV1Args, "auth_role_id")
  else if (t =? 11)%Z then Some (d_SignV2Args, "role_id")
  else if (t =? 12)%Z then Some (d_MigrateToWalletAddressV1Args, "role_id")
  else if (t =? 13)%Z then Some (d_TransferAssetsV1Args, "role_id")
  else if (t =? 14)%Z then Some (d_CloseTokenAccountV1Args, "role_id")
  else if (t =? 15)%Z then Some (d_CloseSwigV1Args, "role_id")
  else if (t =? 16)%Z then Some (d_ReplaceAuthorityV1Args, "acting_role_id")
  else if (t =? 17)%Z then Some (d_SetRentClaimerV1Args, "role_id")
  else if (t =? 18)%Z then Some (d_CreateSubAccountV2Args, "role_id")
  else if (t =? 19)%Z then Some (d_ToggleSubAccountV2Args, "auth_role_id")
  else if (t =? 20)%Z then Some (d_SubAccountSignV2Args, "role_id")
  else if (t =? 21)%Z then Some (d_WithdrawFromSubAccountV2Args, "role_id")
  else None.

(** the bytes of a recurring limit, as the other specifications name them, are the
    fields of the struct [d] *)
From Verif Require Import SpecLimits.
Definition laid_as (A : nat) (d : decl) (L : layout) (limit window last left : string) : Prop :=
  size_of A d = lay_len L /\ forall p,
  u64_at (lay_limit L) p = le (field A d limit p) /\ u64_at (lay_window L) p = le (field A d window p)
  /\ u64_at (lay_last L) p = le (field A d last p) /\ u64_at (lay_left L) p = le (field A d left p).
