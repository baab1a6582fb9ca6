(** * What the command line tool should do, said without its code *)
From Coq Require Import String.
From Verif Require Import Base BaseFacts.
From Verif Require Export SpecSdk.
From Verif Require Import Cli.
Local Notation length := List.length.

(** ** The JSON value [v] says [g]: the type names the kind, keys are base58 texts,
    amounts and windows are numbers *)
Definition has_field (v : json) (k : string) (x : json) : Prop := get k v = Some x.
Definition word (s : string) : json := JStr (ascii_bytes s).
Definition says_key (b58 : bytes -> option key) (v : json) (k : string) (x : key) : Prop :=
  exists t, has_field v k (JStr t) /\ b58 t = Some x.
Definition says_number (v : json) (k : string) (o : option Z) : Prop :=
  match o with Some n => has_field v k (JNat n) | None => get k v = None end.
Definition says_renewal (v : json) (r : option renewal) : Prop :=
  match r with
  | None => get "recurring" v = None
  | Some q => exists x, has_field v "recurring" x /\ has_field x "window" (JNat (rn_window q)) /\ q = mk_renewal (rn_window q) 0 0
  end.
Definition states (b58 : bytes -> option key) (v : json) (g : grant) : Prop :=
  match g with
  | GAll => has_field v "type" (word "all")
  | GCurated => has_field v "type" (word "programCurated")
  | GAllButManage => has_field v "type" (word "allButManageAuthority")
  | GManage => has_field v "type" (word "manageAuthority")
  | GProgramAll => has_field v "type" (word "programAll")
  | GSol n r => has_field v "type" (word "sol") /\ says_number v "amount" (Some n) /\ says_renewal v r
  | GSolTo d n r => has_field v "type" (word "solDestination") /\ says_key b58 v "destination" d
      /\ says_number v "amount" (Some n) /\ says_renewal v r
  | GTokenTo m d n r => has_field v "type" (word "tokenDestination") /\ says_key b58 v "mint" m /\ says_key b58 v "destination" d
      /\ says_number v "amount" (Some n) /\ says_renewal v r
  | GProgram p => has_field v "type" (word "program") /\ says_key b58 v "programId" p
  | GScope p a n lim win x y => has_field v "type" (word "programScope") /\ says_key b58 v "programId" p /\ says_key b58 v "targetAccount" a
      /\ says_number v "numericType" (Some n) /\ says_number v "limit" lim /\ says_number v "window" win
      /\ says_number v "balanceFieldStart" x /\ says_number v "balanceFieldEnd" y
  | GSub k => has_field v "type" (word "subAccount") /\ has_field v "subAccount" (JStr k) /\ length k = 32%nat
  | _ => False
  end.

(** The numbers of [v] are given, and are numbers *)
Definition numbers : list string :=
  ["amount"; "numericType"; "limit"; "window"; "balanceFieldStart"; "balanceFieldEnd"]%string.
Definition complete (v : json) : Prop :=
  (exists n, has_field v "amount" (JNat n)) /\ (exists n, has_field v "numericType" (JNat n))
  /\ (forall k x, In k numbers -> has_field v k x -> exists n, x = JNat n)
  /\ (forall x, has_field v "recurring" x -> exists n, has_field x "window" (JNat n)).

(** ** JSON as a reader of it must take it: the fields of an object are separated by
    commas, and a value starts, after blanks, with one of these: a quote, a minus
    sign, a digit, an opening bracket or brace, or t, f, n *)
Fixpoint commas (t : bytes) : nat := match t with [] => O | c :: t' => ((if (c =? 44)%Z then 1 else 0) + commas t')%nat end.
Definition blank (c : Z) : bool := (c =? 32) || (c =? 9) || (c =? 10) || (c =? 13).
Fixpoint first_char (t : bytes) : Z := match t with [] => 0 | c :: t' => if blank c then first_char t' else c end.
Definition starts_value (c : Z) : Prop := In c [34; 45; 123; 91; 116; 102; 110] \/ 48 <= c <= 57.
Definition json_reader (read : bytes -> option json) : Prop :=
  (forall t l, read t = Some (JObj l) -> (length l <= 1 + commas t)%nat)
  /\ (forall t v, read t = Some v -> starts_value (first_char t)).

(** ** Texts typed on a keyboard *)
Definition typed (t : bytes) : Prop := Forall (fun c => 32 <= c <= 126) t.

(** The part of a stored credential that every key has: its bytes 1 to 31 *)
Definition key_part (c : bytes) : bytes := firstn 31 (skipn 1 c).

(** ** A text of one-byte characters, as its characters *)
Definition one_byte (t : bytes) : list bytes := map (fun c => [c]) t.
(** Keys are read as 32 bytes *)
Definition keys32 (b58 : bytes -> option key) : Prop := forall t k, b58 t = Some k -> length k = 32%nat.
(** with "0x" in front *)
Definition zero_x (t : bytes) : bytes := 48 :: 120 :: t.
