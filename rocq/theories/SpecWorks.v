(** * Using a wallet.

    Vocabulary for the theorems that say that what is asked for is done. *)
From Verif Require Export SpecAvail SpecClient SpecSign SpecRent.

(** The role [r] asks for [o], with a credential that the program accepts *)
Definition asks (E : env) (cx : ctx) (r : role) (o : order) : Prop :=
  actor_of (c_data cx) = r_id r /\ order_of (c_data cx) = Some o /\ exists a, passes E cx r a.

(** The accounts of a call: the writable configuration, then at least [n - 1] that
    no role watches and that are no stake accounts *)
Definition usual_accounts (n : nat) (cx : ctx) (w : world) (s : config) : Prop :=
  (n <= length (c_metas cx) <= 254)%nat /\ writable (c_metas cx) (acct cx 0) = true
  /\ forall m, In m (tl (c_metas cx)) -> ordinary w s (m_key m).
(** Somebody pays what the account [k] lacks to hold [n] bytes *)
Definition funded (E : env) (cx : ctx) (w : world) (k payer : key) (n : nat) : Prop :=
  0 <= a_lamports (w k) /\ rent E n < U64
  /\ (a_lamports (w k) < rent E n -> can_pay w payer (rent E n - a_lamports (w k))
        /\ signer (c_metas cx) payer = true /\ writable (c_metas cx) payer = true).

(** What can be the new key of a role with a credential of type [ty] *)
Definition key_fits (ty : Z) (c : bytes) : Prop :=
  (ty = 1 \/ ty = 2) /\ length c = 32%nat
  \/ (ty = 3 \/ ty = 4) /\ (length c = 33%nat \/ length c = 64%nat)
  \/ (ty = 5 \/ ty = 6) /\ length c = 33%nat.

(** The instruction [x], of another program and with some account, succeeds from
    [v] to [v'], while the account [sk] is a plain one of the system program *)
Definition by_others (E : env) (sk : key) (v : world) (x : ix) (v' : world) : Prop :=
  a_owner (v sk) = SYSTEM /\ ix_prog x <> SELF /\ ix_metas x <> [] /\ foreign E v x = Ok v'.

(** ** Spending within limits *)

(** The allowance [p] of kind [ty] has room for [amt] at [slot]: a one-shot one has
    that much left; a recurring one has that much left, or its window is over and
    the full amount is enough *)
Definition renewed (L : layout) (over : Z -> Prop) (p : bytes) (amt : Z) : Prop :=
  amt <= u64_at (lay_left L) p \/ over (u64_at (lay_window L) p) /\ amt <= u64_at (lay_limit L) p.
Definition has_room (ty slot : Z) (p : bytes) (amt : Z) : Prop :=
  let tumbling L := u64_at (lay_window L) p <> 0 /\ renewed L (fun W => u64_at (lay_last L) p + W < slot) p amt in
  let rolling L := renewed L (fun W => W < (slot - u64_at (lay_last L) p) mod U64) p amt in
  match ty with
  | 1 => amt <= u64_at 0 p
  | 5 | 16 => amt <= u64_at 32 p
  | 18 => amt <= u64_at 64 p
  | 2 => tumbling SolRec
  | 6 => tumbling TokRec
  | 17 => rolling SolRecDest
  | 19 => rolling TokRecDest
  | _ => False
  end.
(** The role [r] may spend [amt].  [t1] and [t2] are the kinds of the one-shot and of
    the recurring allowance about [q]; the first of them that there is counts.  If
    destinations are [limited], all goes to one place - [ts] are the transfers - and
    the limit for that place counts as well; otherwise there must be an allowance. *)
Definition covered (t1 t2 : Z) (q : bytes) (d1 d2 : Z) (dq : key -> bytes) (limited : Prop) (slot : Z) (r : role)
  (ts : list (key * Z)) (amt : Z) : Prop :=
  let spare ty x p := perm ty x (r_acts r) = Some p -> has_room ty slot p amt in
  (forall p, spare t1 q p) /\ (perm t1 q (r_acts r) = None -> forall p, spare t2 q p)
  /\ (limited -> exists k, ts = [(k, amt)] /\ (forall p, spare d2 (dq k) p)
        /\ (perm d2 (dq k) (r_acts r) = None -> perm d1 (dq k) (r_acts r) <> None /\ forall p, spare d1 (dq k) p))
  /\ (~ limited -> perm t1 q (r_acts r) <> None \/ perm t2 q (r_acts r) <> None).
Definition sol_covered (cx : ctx) (r : role) (xs : list ix) (amt : Z) : Prop :=
  amt = 0 \/ covered 1 2 [] 16 17 (fun k => k) (holds 16 r \/ holds 17 r) (c_slot cx) r (outs (sol_out (acct cx 1)) xs) amt.
Definition tokens_covered (cx : ctx) (r : role) (xs : list ix) (mint : bytes) (from : key) (amt : Z) : Prop :=
  covered 5 6 mint 18 19 (fun k => mint ++ k) (token_dests mint r) (c_slot cx) r (outs (token_out from) xs) amt.

(** The account [k] is a token account of the wallet *)
Definition ours (cx : ctx) (w : world) (k : key) : Prop :=
  is_token_program (a_owner (w k)) = true /\ (165 <= length (a_data (w k)))%nat /\ held cx (sub 32 32 (a_data (w k))) = true.
(** It is initialised (byte 108) and has the wallet as authority *)
Definition in_use (cx : ctx) (w : world) (k : key) : Prop :=
  sub 32 32 (a_data (w k)) = acct cx 1 /\ byte_at 108 (a_data (w k)) = 1.
(** From [v] to [v'] the account stays, and nothing changes in it but its amount *)
Definition intact (v v' : world) (k : key) : Prop :=
  a_lamports (v' k) <> 0 /\ a_owner (v' k) = a_owner (v k)
  /\ firstn 64 (a_data (v' k)) = firstn 64 (a_data (v k)) /\ skipn 72 (a_data (v' k)) = skipn 72 (a_data (v k)).
(** The tokens that leave the account in the course [ws], if it is writable *)
Definition outflow (w : world) (ws : list world) (m : meta) : Z :=
  if m_writable m then falls (tokens_of (m_key m)) (amount (w (m_key m))) ws else 0.
(** All token accounts of the wallet are in order; at most one of them loses tokens,
    and the role [r] may spend these *)
Definition tokens_fine (cx : ctx) (r : role) (xs : list ix) (w : world) (ws : list world) : Prop :=
  (forall m, In m (rest_of cx) -> ours cx w (m_key m) -> in_use cx w (m_key m) /\ intact w (last ws w) (m_key m))
  /\ ((forall m, In m (rest_of cx) -> ours cx w (m_key m) -> outflow w ws m = 0)
      \/ exists a m b, rest_of cx = a ++ m :: b
           /\ (forall m', In m' (a ++ b) -> ours cx w (m_key m') -> outflow w ws m' = 0)
           /\ tokens_covered cx r xs (mint_of (w (m_key m))) (m_key m) (outflow w ws m)).

(** ** A payment by the system program *)
Definition payment (from to : key) (n : Z) : ix :=
  mk_ix SYSTEM [mk_meta from true true; mk_meta to false true] (le_enc 4 2 ++ le_enc 8 n).
(** [n] lamports have moved, and nothing else has changed *)
Definition handed (from to : key) (n : Z) (w w' : world) : Prop :=
  a_lamports (w' from) = a_lamports (w from) - n /\ a_lamports (w' to) = a_lamports (w to) + n
  /\ (forall k, k <> from -> k <> to -> a_lamports (w' k) = a_lamports (w k))
  /\ forall k, a_owner (w' k) = a_owner (w k) /\ a_data (w' k) = a_data (w k).
(** The system program does what a payment asks for, if the payer can pay and signs *)
Definition system_pays (E : env) : Prop :=
  forall w x from to n, same_call (payment from to n) x -> Forall2 (granted []) (ix_metas (payment from to n)) (ix_metas x) ->
    is_u64 n -> from <> to -> can_pay w from n -> a_lamports (w to) + n < U64 ->
    exists w', foreign E w x = Ok w' /\ handed from to n w w'.
(** The first two accounts, the wallet's, are in order *)
Definition wallet_is (E : env) (w : world) (s : config) (swig wal : key) : Prop :=
  is_cfg (w swig) s /\ pda E (seeds_wallet swig (s_wbump s)) = Some wal.
