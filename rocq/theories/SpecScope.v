(** * Vocabulary: limits on a field of another program's account

    A program scope (permission kind 4) names an account of another program and
    the place of a number in its data.  Its bytes: 0 used so far (16 bytes), 16
    limit (16 bytes), 32 window, 40 start of the current window, 48 program, 80
    account, 112 kind (0 no limit, 1 limit, 2 limit per window), 120 type of the
    number, 128 where the number starts, 136 where it ends. *)
From Verif Require Export SpecSign.

Definition scope_from (p : bytes) : nat := nat_of (u64_at 128 p).
Definition scope_to (p : bytes) : nat := nat_of (u64_at 136 p).
(** the number, if the account is large enough *)
Definition scope_value (p : bytes) (a : account) : option Z :=
  if (scope_to p <=? length (a_data a))%nat
  then Some (le (sub (scope_from p) (scope_to p - scope_from p) (a_data a))) else None.
(** ... of the account [k] in world [w] *)
Definition scope_reads (p : bytes) (k : key) (w : world) : option Z := scope_value p (w k).
(** The program counts up to 2^128 - 1 *)
Definition capped128 (n : Z) : Z := Z.min (U128 - 1) n.
(** [p'] is [p] after the amount [x] was charged at [slot] *)
Definition scope_charged (slot : Z) (p p' : bytes) (x : Z) : Prop :=
  let used := le (sub 0 16 p) in let limit := le (sub 16 16 p) in
  let window := u64_at 32 p in let start := u64_at 40 p in
  let over := u64_at 112 p = 2 /\ window < slot - start in
  exists old, ((over /\ old = 0 /\ u64_at 40 p' = slot / window * window) \/ (~ over /\ old = used /\ u64_at 40 p' = start))
    /\ le (sub 0 16 p') = capped128 (old + x) /\ capped128 (old + x) <= limit
    /\ sub 16 24 p' = sub 16 24 p /\ skipn 48 p' = skipn 48 p.

(** [m] is listed once among the accounts of the call, not as one of the first two *)
Definition listed_once (cx : ctx) (m : meta) : Prop :=
  exists pre post, c_metas cx = pre ++ m :: post /\ (2 <= length pre)%nat /\ ~ In (m_key m) (map m_key (pre ++ post)).
(** what is protected of the account: owner and all data outside the field *)
Definition scope_frame (p : bytes) (a : account) : bytes :=
  a_owner a ++ firstn (scope_from p) (a_data a) ++ skipn (scope_to p) (a_data a).
