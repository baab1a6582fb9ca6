(** * Vocabulary for what a role takes over a whole history *)
From Verif Require Export SpecHistory SpecSign.

(** Event [e] neither edits the permissions of role [i] of the wallet [k]
    (UpdateAuthorityV1 with that role as target) nor is given the wallet program
    itself as an account, which is what a call needs to run wallet instructions
    inside of a signing instruction *)
Definition quiet (k : key) (i : Z) (e : event) : Prop :=
  match e with
  | Call cx => ~ (acct cx 0 = k /\ tag (c_data cx) = 3 /\ u32_at 12 (c_data cx) = i)
               /\ ~ In SELF (map m_key (c_metas cx))
  | Other _ => True
  end.

(** The event is admissible; slots and balances are 64-bit *)
Definition proper_event (E : env) (w : world) (e : event) : Prop :=
  admissible E w e
  /\ match e with
     | Call cx => 0 <= c_slot cx < U64 /\ sane cx w /\ sane cx (step E w e)
     | Other _ => True
     end.
(** [P] holds of every event of a history *)
Fixpoint along (E : env) (P : world -> event -> Prop) (w : world) (es : list event) : Prop :=
  match es with
  | [] => True
  | e :: t => P w e /\ along E P (step E w e) t
  end.

(** The sum of [f] over the events of a history *)
Fixpoint total (E : env) (f : world -> event -> Z) (w : world) (es : list event) : Z :=
  match es with
  | [] => 0
  | e :: t => f w e + total E f (step E w e) t
  end.

(** The event is a successful SignV2 of role [i] of wallet [k] *)
Definition signs_as (k : key) (i : Z) (cx : ctx) : bool :=
  beq (acct cx 0) k && (tag (c_data cx) =? 11) && (actor_of (c_data cx) =? i).
(** What a SignV2 of role [i] takes out of the wallet's account (account 1 of the
    instruction); nothing if the event is something else *)
Definition sol_taken (E : env) (k : key) (i : Z) (w : world) (e : event) : Z :=
  match e with
  | Call cx => if signs_as k i cx
               then Z.max 0 (a_lamports (w (acct cx 1)) - a_lamports (step E w e (acct cx 1))) else 0
  | Other _ => 0
  end.
(** What a SignV2 of role [i] takes out of the wallet's token accounts with this
    mint, of those it is given that still exist afterwards *)
Definition tokens_taken (E : env) (k : key) (i : Z) (mint : bytes) (w : world) (e : event) : Z :=
  match e with
  | Call cx => let w' := step E w e in
      if signs_as k i cx
      then sum (map (fun m => let a := w (m_key m) in let a' := w' (m_key m) in
                 if own_token cx w m && alive a' && beq (mint_of a) mint then Z.max 0 (amount a - amount a') else 0)
               (rest_of cx))
      else 0
  | Other _ => 0
  end.
(** What a SignV2 of role [i] takes out of the wallet's stake accounts *)
Definition stakes_taken (E : env) (k : key) (i : Z) (w : world) (e : event) : Z :=
  match e with
  | Call cx => let w' := step E w e in
      if signs_as k i cx
      then sum (map (fun m => let a := w (m_key m) in let a' := w' (m_key m) in
                 if own_stake cx w m then Z.max 0 (a_lamports a - a_lamports a') else 0)
               (rest_of cx))
      else 0
  | Other _ => 0
  end.
(** ... and no collision of SHA-256 on a token or stake account shows up *)
Definition clean_event (E : env) (w : world) (e : event) : Prop :=
  proper_event E w e /\ match e with Call cx => ~ collides E cx w (step E w e) | Other _ => True end.

(** ** Limits that are renewed: the most a permission with these fields can still
    give until slot [M], namely what is left of the current window and the full
    amount for each multiple of the window length from its last renewal to [M] *)
Definition until (M : Z) (L : layout) (p : bytes) : Z :=
  let W := u64_at (lay_window L) p in
  u64_at (lay_left L) p + u64_at (lay_limit L) p * Z.max 0 (M / W - u64_at (lay_last L) p / W).
(** The event is not later than [M] *)
Definition by_slot (M : Z) (e : event) : Prop :=
  match e with Call cx => c_slot cx <= M | Other _ => True end.

(** ** Limits per destination: the sum of the one-time limits on what may be sent
    to single destinations *)
Definition dest_limits (acts : list action) : Z :=
  sum (map (fun a => if ac_ty a =? 16 then u64_at 32 (ac_data a) else 0) acts).
(* of one mint *)
Definition token_dest_limits (mint : bytes) (acts : list action) : Z :=
  sum (map (fun a => if (ac_ty a =? 18) && beq (firstn 32 (ac_data a)) mint then u64_at 64 (ac_data a) else 0) acts).

(** ** Destination limits that are renewed at a payment once the window is over:
    what is left, and the full amount for each time the window, and a slot more,
    fits between its start and slot [M] *)
Definition rolls (M : Z) (L : layout) (p : bytes) : Z :=
  u64_at (lay_left L) p + u64_at (lay_limit L) p * (Z.max 0 (M - u64_at (lay_last L) p) / (u64_at (lay_window L) p + 1)).
(** The sum over all SOL destination limits, and over all of a mint *)
Definition dest_total (M : Z) (acts : list action) : Z :=
  sum (map (fun a => if ac_ty a =? 16 then u64_at 32 (ac_data a)
                     else if ac_ty a =? 17 then rolls M SolRecDest (ac_data a) else 0) acts).
Definition token_dest_total (M : Z) (mint : bytes) (acts : list action) : Z :=
  sum (map (fun a => if beq (firstn 32 (ac_data a)) mint
                     then if ac_ty a =? 18 then u64_at 64 (ac_data a)
                          else if ac_ty a =? 19 then rolls M TokRecDest (ac_data a) else 0
                     else 0) acts).
(** No window of these limits starts after slot [S] *)
Definition begun (S : Z) (acts : list action) : Prop :=
  forall a, In a acts -> (ac_ty a = 17 -> u64_at (lay_last SolRecDest) (ac_data a) <= S)
                         /\ (ac_ty a = 19 -> u64_at (lay_last TokRecDest) (ac_data a) <= S).
(** The slots of the calls do not decrease, from [S] on *)
Fixpoint in_order (S : Z) (es : list event) : Prop :=
  match es with
  | [] => True
  | Call cx :: t => S <= c_slot cx /\ in_order (c_slot cx) t
  | Other _ :: t => in_order S t
  end.
