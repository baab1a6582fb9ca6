(** * Spending-limit bookkeeping.

    Models the [run] methods of the limit actions.  The numeric kernels come
    first; the byte-level versions below read the fields from the action
    payload and write them back, exactly as the Rust structs overlay it. *)
From Verif Require Export Actions.

(** One-shot limits: sol_limit.rs:32-38, token_limit.rs:36-42,
    stake_limit.rs:38-44, sol_destination_limit.rs:38-44,
    token_destination_limit.rs:41-49.  Returns the new remaining amount. *)
Definition oneshot_run (e : err) (remaining amount : Z) : res Z :=
  if remaining <? amount then Err e else Ok (sat_sub remaining amount).

Record recurring := mk_recurring
  { rc_limit : Z;    (* recurring_amount / limit *)
    rc_window : Z;   (* window, in slots *)
    rc_last : Z;     (* last_reset *)
    rc_cur : Z }.    (* amount still spendable *)

(** sol_recurring_limit.rs:44-57, token_recurring_limit.rs:48-59,
    stake_recurring_limit.rs:46-59.  [slot / window] panics for window 0. *)
Definition recurring_run (r : recurring) (amount slot : Z) : res recurring :=
  let* r1 :=
    if (rc_window r <? sat_sub slot (rc_last r)) && (amount <=? rc_limit r) then
      guard (negb (rc_window r =? 0)) ;;
      Ok {| rc_limit := rc_limit r; rc_window := rc_window r;
            rc_last := ((slot / rc_window r) * rc_window r) mod U64;
            rc_cur := rc_limit r |}
    else Ok r in
  if rc_cur r1 <? amount then Err PInsufficientFunds
  else Ok {| rc_limit := rc_limit r1; rc_window := rc_window r1; rc_last := rc_last r1;
             rc_cur := sat_sub (rc_cur r1) amount |}.

(** sol_recurring_destination_limit.rs:49-67,
    token_recurring_destination_limit.rs:54-73.  [current_slot - last_reset] is
    a plain u64 subtraction: it wraps in a release build. *)
Definition recurring_dest_run (e : err) (r : recurring) (amount slot : Z) : res recurring :=
  let r1 :=
    if (rc_window r <? (slot - rc_last r) mod U64) && (amount <=? rc_limit r) then
      {| rc_limit := rc_limit r; rc_window := rc_window r; rc_last := slot;
         rc_cur := rc_limit r |}
    else r in
  if rc_cur r1 <? amount then Err e
  else Ok {| rc_limit := rc_limit r1; rc_window := rc_window r1; rc_last := rc_last r1;
             rc_cur := (rc_cur r1 - amount) mod U64 |}.

Record scope := mk_scope
  { sc_type : Z;      (* scope_type as u8: 0 Basic, 1 Limit, 2 RecurringLimit *)
    sc_limit : Z; sc_window : Z; sc_last : Z;
    sc_spent : Z }.   (* current_amount: total spent so far *)

(** program_scope.rs:297-332 [ProgramScope::run]; the caller always passes
    [Some(slot)] *)
Definition scope_run (s : scope) (amount slot : Z) : res scope :=
  if sc_type s =? 0 then Ok s
  else if sc_type s =? 1 then
    if sc_limit s <? sat_add U128 (sc_spent s) amount then Err AInsufficientBalance
    else Ok {| sc_type := sc_type s; sc_limit := sc_limit s; sc_window := sc_window s;
               sc_last := sc_last s; sc_spent := sat_add U128 (sc_spent s) amount |}
  else if sc_type s =? 2 then
    let* s1 :=
      if sc_window s <? sat_sub slot (sc_last s) then
        guard (negb (sc_window s =? 0)) ;;
        Ok {| sc_type := sc_type s; sc_limit := sc_limit s; sc_window := sc_window s;
              sc_last := ((slot / sc_window s) * sc_window s) mod U64; sc_spent := 0 |}
      else Ok s in
    if sc_limit s1 <? sat_add U128 (sc_spent s1) amount then Err AInsufficientBalance
    else Ok {| sc_type := sc_type s1; sc_limit := sc_limit s1; sc_window := sc_window s1;
               sc_last := sc_last s1; sc_spent := sat_add U128 (sc_spent s1) amount |}
  else Err AInvalidDataPayload.

(** ** Byte-level versions: payload in, payload out *)
Definition set_u64 (o : nat) (z : Z) (d : bytes) : bytes := splice o (le_enc 8 z) d.

(** [SolLimit::run], [StakeLimit::run] (amount at 0) *)
Definition sol_limit_bytes (d : bytes) (amount : Z) : res bytes :=
  let* r := oneshot_run AInsufficientBalance (u64_at 0 d) amount in Ok (set_u64 0 r d).
(** [TokenLimit::run] (current_amount at 32) *)
Definition token_limit_bytes (d : bytes) (amount : Z) : res bytes :=
  let* r := oneshot_run AInsufficientBalance (u64_at 32 d) amount in Ok (set_u64 32 r d).
(** [SolDestinationLimit::run] (amount at 32) *)
Definition sol_dest_bytes (d : bytes) (amount : Z) : res bytes :=
  let* r := oneshot_run ASolDestinationLimitExceeded (u64_at 32 d) amount in
  Ok (set_u64 32 r d).
(** [TokenDestinationLimit::run] (amount at 64) *)
Definition token_dest_bytes (d : bytes) (amount : Z) : res bytes :=
  let* r := oneshot_run ATokenDestinationLimitExceeded (u64_at 64 d) amount in
  Ok (set_u64 64 r d).

Definition read_recurring (ol ow ola oc : nat) (d : bytes) : recurring :=
  {| rc_limit := u64_at ol d; rc_window := u64_at ow d;
     rc_last := u64_at ola d; rc_cur := u64_at oc d |}.
Definition write_recurring (ola oc : nat) (r : recurring) (d : bytes) : bytes :=
  set_u64 oc (rc_cur r) (set_u64 ola (rc_last r) d).

(** [SolRecurringLimit::run], [StakeRecurringLimit::run]: recurring_amount 0,
    window 8, last_reset 16, current_amount 24 *)
Definition sol_recurring_bytes (d : bytes) (amount slot : Z) : res bytes :=
  let* r := recurring_run (read_recurring 0 8 16 24 d) amount slot in
  Ok (write_recurring 16 24 r d).
(** [TokenRecurringLimit::run]: window 32, limit 40, current 48, last_reset 56 *)
Definition token_recurring_bytes (d : bytes) (amount slot : Z) : res bytes :=
  let* r := recurring_run (read_recurring 40 32 56 48 d) amount slot in
  Ok (write_recurring 56 48 r d).
(** [SolRecurringDestinationLimit::run]: 32 recurring, 40 window, 48 last, 56 current *)
Definition sol_rec_dest_bytes (d : bytes) (amount slot : Z) : res bytes :=
  let* r := recurring_dest_run ASolRecurringDestinationLimitExceeded
              (read_recurring 32 40 48 56 d) amount slot in
  Ok (write_recurring 48 56 r d).
(** [TokenRecurringDestinationLimit::run]: 64 recurring, 72 window, 80 last, 88 current *)
Definition token_rec_dest_bytes (d : bytes) (amount slot : Z) : res bytes :=
  let* r := recurring_dest_run ATokenRecurringDestinationLimitExceeded
              (read_recurring 64 72 80 88 d) amount slot in
  Ok (write_recurring 80 88 r d).

(** [ProgramScope]: current_amount u128 0, limit u128 16, window 32,
    last_reset 40, program_id 48, target_account 80, scope_type u64 112,
    numeric_type u64 120, balance_field_start 128, balance_field_end 136.
    [self.scope_type as u8] keeps the low byte. *)
Definition read_scope (d : bytes) : scope :=
  {| sc_type := u64_at 112 d mod U8; sc_limit := u128_at 16 d; sc_window := u64_at 32 d;
     sc_last := u64_at 40 d; sc_spent := u128_at 0 d |}.
Definition scope_bytes (d : bytes) (amount slot : Z) : res bytes :=
  let* s := scope_run (read_scope d) amount slot in
  Ok (splice 0 (le_enc 16 (sc_spent s)) (set_u64 40 (sc_last s) d)).
