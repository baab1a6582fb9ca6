(** * Specification vocabulary for spending limits (independent of the model).

    A permission is an opaque state; a request is (slot, amount).  [replay] runs
    a history of requests: a granted one updates the state, a refused one
    (error or abort) leaves it as it was, as a failed transaction does. *)
From Verif Require Import Base.

Definition request := (Z * Z)%type.
Definition slot_of (r : request) : Z := fst r.
Definition amount_of (r : request) : Z := snd r.

(** Returns the final state and the granted requests, in order. *)
Fixpoint replay {A} (run : A -> Z -> Z -> res A) (s : A) (h : list request) : A * list request :=
  match h with
  | [] => (s, [])
  | r :: t =>
    match run s (slot_of r) (amount_of r) with
    | Ok s' => let (e, g) := replay run s' t in (e, r :: g)
    | _ => replay run s t
    end
  end.

Fixpoint total (g : list request) : Z :=
  match g with [] => 0 | r :: t => amount_of r + total t end.

(** Total granted at slots s with lo < s <= hi *)
Definition spent_in (lo hi : Z) (g : list request) : Z :=
  total (filter (fun r => (lo <? slot_of r) && (slot_of r <=? hi)) g).

(** Slots are u64 and never go backwards; amounts are not negative. *)
Fixpoint ordered_from (s : Z) (h : list request) : Prop :=
  match h with
  | [] => True
  | r :: t => s <= slot_of r < U64 /\ 0 <= amount_of r /\ ordered_from (slot_of r) t
  end.
Definition history (h : list request) : Prop := ordered_from 0 h.

(** ** What a one-shot allowance of [len] bytes with its balance (u64) at
    offset [o] must satisfy, for every initial content and every history. *)
Definition one_shot (run : bytes -> Z -> Z -> res bytes) (len o : nat) : Prop :=
  forall d h, all_bytes d -> length d = len -> history h ->
  let d' := fst (replay run d h) in
  let granted := snd (replay run d h) in
  (* conservation: what is left plus what was granted is what there was *)
  0 <= u64_at o d' /\ u64_at o d' + total granted = u64_at o d
  (* nothing else in the permission changes *)
  /\ length d' = len /\ firstn o d' = firstn o d /\ skipn (o + 8) d' = skipn (o + 8) d
  (* a further request is granted exactly when it fits what is left *)
  /\ (forall slot a, 0 <= a -> is_ok (run d' slot a) = (a <=? u64_at o d')).

(** ** Recurring allowance; field offsets of limit, window, last refresh and
    what is left *)
Record layout := { lay_len : nat; lay_limit : nat; lay_window : nat; lay_last : nat; lay_left : nat }.

(** The four on-chain layouts (byte offsets in the permission payload) *)
Definition SolRec : layout := {| lay_len := 32; lay_limit := 0; lay_window := 8; lay_last := 16; lay_left := 24 |}.
Definition TokRec : layout := {| lay_len := 64; lay_limit := 40; lay_window := 32; lay_last := 56; lay_left := 48 |}.
Definition SolRecDest : layout := {| lay_len := 64; lay_limit := 32; lay_window := 40; lay_last := 48; lay_left := 56 |}.
Definition TokRecDest : layout := {| lay_len := 96; lay_limit := 64; lay_window := 72; lay_last := 80; lay_left := 88 |}.

(** same permission except for last refresh and what is left *)
Definition same_terms (L : layout) (d d' : bytes) : Prop :=
  length d' = length d /\
  forall i, (i < length d)%nat ->
    ~ (lay_last L <= i < lay_last L + 8)%nat -> ~ (lay_left L <= i < lay_left L + 8)%nat ->
    nth i d' 0 = nth i d 0.

Definition aligned_windows (fresh : bytes -> Prop) (run : bytes -> Z -> Z -> res bytes) (L : layout) : Prop :=
  forall d h, all_bytes d -> fresh d -> history h ->
  let limit := u64_at (lay_limit L) d in
  let W := u64_at (lay_window L) d in
  0 < W ->
  let d' := fst (replay run d h) in
  let granted := snd (replay run d h) in
  (* at most the limit in each window (kW, (k+1)W] *)
  (forall k, spent_in (k * W) ((k + 1) * W) granted <= limit)
  (* at most twice the limit in any W consecutive slots *)
  /\ (forall t, spent_in t (t + W) granted <= 2 * limit)
  /\ same_terms L d d'
  (* what is left is granted; once the window is over the full limit is again *)
  /\ (forall slot a, 0 <= a -> 0 <= slot < U64 ->
       a <= u64_at (lay_left L) d' \/ (u64_at (lay_last L) d' + W < slot /\ a <= limit) ->
       is_ok (run d' slot a) = true).

Definition rolling_windows (run : bytes -> Z -> Z -> res bytes) (L : layout) : Prop :=
  forall d h, all_bytes d -> length d = lay_len L ->
  let limit := u64_at (lay_limit L) d in
  let W := u64_at (lay_window L) d in
  let last := u64_at (lay_last L) d in
  let left := u64_at (lay_left L) d in
  left <= limit ->
  (* the stored last refresh is not after the first request *)
  ordered_from last h ->
  let d' := fst (replay run d h) in
  let granted := snd (replay run d h) in
  (* at most the limit at any one slot, twice the limit in any W + 1 consecutive slots *)
  (forall t, spent_in t (t + 1) granted <= limit)
  /\ (forall t, spent_in t (t + W + 1) granted <= 2 * limit)
  (* long-run rate: one limit per W + 1 slots *)
  /\ (forall t, last <= t -> spent_in (last - 1) t granted <= left + (t - last) / (W + 1) * limit)
  /\ same_terms L d d'
  /\ (forall slot a, 0 <= a -> u64_at (lay_last L) d' <= slot < U64 ->
       a <= u64_at (lay_left L) d' \/ (u64_at (lay_last L) d' + W < slot /\ a <= limit) ->
       is_ok (run d' slot a) = true).

(** ** Program scope, 144 bytes: recorded spend (u128) at 0, limit (u128) at
    16, window (u64) at 32, last refresh (u64) at 40, kind (u64, low byte) at 112 *)
Definition scope_kind (d : bytes) : Z := u64_at 112 d mod 256.
Definition scope_spec (run : bytes -> Z -> Z -> res bytes) : Prop :=
  forall d h, all_bytes d -> length d = 144%nat -> history h ->
  let spent := u128_at 0 in
  let limit := u128_at 16 d in
  let W := u64_at 32 d in
  let d' := fst (replay run d h) in
  let granted := snd (replay run d h) in
  (* Basic: every request granted, nothing recorded *)
  (scope_kind d = 0 -> replay run d h = (d, h))
  (* Limit: recorded spend is exactly the total granted and stays within the
     limit; a request is granted exactly when it fits *)
  /\ (scope_kind d = 1 -> limit < U128 - 1 -> spent d <= limit ->
      spent d' = spent d + total granted /\ spent d' <= limit /\ skipn 16 d' = skipn 16 d
      /\ forall slot a, 0 <= a -> is_ok (run d' slot a) = (spent d' + a <=? limit))
  (* RecurringLimit: at most the limit per aligned window *)
  /\ (scope_kind d = 2 -> limit < U128 - 1 -> spent d <= limit -> 0 < W -> u64_at 40 d mod W = 0 ->
      (forall k, spent_in (k * W) ((k + 1) * W) granted <= limit)
      /\ (forall t, spent_in t (t + W) granted <= 2 * limit)
      /\ firstn 24 (skipn 16 d') = firstn 24 (skipn 16 d) /\ skipn 48 d' = skipn 48 d)
  (* any other kind: nothing is ever granted *)
  /\ (~ (0 <= scope_kind d <= 2) -> granted = []).

(** A last refresh in the future is treated as long past: whatever was left,
    the full limit becomes available at once. *)
Definition future_refresh (run : bytes -> Z -> Z -> res bytes) (L : layout) : Prop :=
  forall d slot a, all_bytes d -> length d = lay_len L -> 0 <= slot < u64_at (lay_last L) d ->
  u64_at (lay_window L) d + (u64_at (lay_last L) d - slot) < U64 ->
  0 <= a <= u64_at (lay_limit L) d ->
  exists d', run d slot a = Ok d' /\ u64_at (lay_last L) d' = slot
             /\ u64_at (lay_left L) d' = u64_at (lay_limit L) d - a.
