(** * Vocabulary for the signing instructions: allowances, inner instructions,
    protected accounts *)
From Verif Require Export SpecActs SpecLimits.

(** ** The chain.  Balances are u64, data are bytes, owners are addresses *)
Definition sane_acct (a : account) : Prop :=
  0 <= a_lamports a < U64 /\ all_bytes (a_data a) /\ length (a_owner a) = 32%nat.
(* the accounts a call is given *)
Definition sane (cx : ctx) (w : world) : Prop := Forall (fun m => sane_acct (w (m_key m))) (c_metas cx).

(** ** Permissions, by number: 1 SOL, 2 SOL recurring, 3 program, 4 program
    scope, 5 token, 6 token recurring, 7 all, 10 stake, 11 stake recurring, 12
    all stake, 13 all programs, 14 curated programs, 15 all but managing, 16 SOL
    destination, 17 SOL destination recurring, 18 token destination, 19 token
    destination recurring, 20 closing *)

(** A limited role: neither All nor AllButManageAuthority *)
Definition limited (r : role) : Prop := ~ holds 7 r /\ ~ holds 15 r.

(** The first permission of kind [ty] about [q], if any *)
Fixpoint perm (ty : Z) (q : bytes) (l : list action) : option bytes :=
  match l with
  | [] => None
  | a :: t => if (ac_ty a =? ty) && beq (target_of a) q then Some (ac_data a) else perm ty q t
  end.

(** ** Taking [amt] from an allowance, at [slot] *)

(** a one-shot allowance with its balance at offset [o] *)
Definition once (o : nat) (p p' : bytes) (amt : Z) : Prop :=
  amt <= u64_at o p /\ u64_at o p' = u64_at o p - amt
  /\ length p' = length p /\ firstn o p' = firstn o p /\ skipn (o + 8) p' = skipn (o + 8) p.
(** a recurring allowance: from what is left, or - when the window is [over] -
    from the full amount, restarting the window at [start] *)
Definition recurs (L : layout) (over : Prop) (start : Z) (p p' : bytes) (amt : Z) : Prop :=
  same_terms L p p'
  /\ ((amt <= u64_at (lay_left L) p
       /\ u64_at (lay_left L) p' = u64_at (lay_left L) p - amt /\ u64_at (lay_last L) p' = u64_at (lay_last L) p)
      \/ (over /\ amt <= u64_at (lay_limit L) p
          /\ u64_at (lay_left L) p' = u64_at (lay_limit L) p - amt /\ u64_at (lay_last L) p' = start)).
(** windows at multiples of the window length *)
Definition aligned (L : layout) (slot : Z) (p p' : bytes) (amt : Z) : Prop :=
  let W := u64_at (lay_window L) p in
  recurs L (u64_at (lay_last L) p + W < slot) (slot / W * W) p p' amt.
(** windows starting at a spend; the age of the window is computed modulo 2^64 *)
Definition rolling (L : layout) (slot : Z) (p p' : bytes) (amt : Z) : Prop :=
  let W := u64_at (lay_window L) p in
  recurs L (W < (slot - u64_at (lay_last L) p) mod U64) slot p p' amt.
Definition takes (ty slot : Z) (p p' : bytes) (amt : Z) : Prop :=
  match ty with
  | 1 | 10 => once 0 p p' amt
  | 5 | 16 => once 32 p p' amt
  | 18 => once 64 p p' amt
  | 2 | 11 => aligned SolRec slot p p' amt
  | 6 => aligned TokRec slot p p' amt
  | 17 => rolling SolRecDest slot p p' amt
  | 19 => rolling TokRecDest slot p p' amt
  | _ => False
  end.
(** one after the other, all at [slot] *)
Inductive draws (ty slot : Z) : list Z -> bytes -> bytes -> Prop :=
| draws_nil p : draws ty slot [] p p
| draws_cons amt r p p1 p2 : 0 <= amt -> takes ty slot p p1 amt -> draws ty slot r p1 p2 ->
    draws ty slot (amt :: r) p p2.
Fixpoint sum (l : list Z) : Z := match l with [] => 0 | a :: t => a + sum t end.

(** The amounts [amts] come out of the first permission of kind [ty] about [q] *)
Definition pays (ty : Z) (q : bytes) (slot : Z) (amts : list Z) (r r' : role) : Prop :=
  exists p p', perm ty q (r_acts r) = Some p /\ perm ty q (r_acts r') = Some p' /\ draws ty slot amts p p'.
(** ... of the permission of kind [ty1], or else [ty2] *)
Definition pays_either (ty1 ty2 : Z) (q : bytes) (slot : Z) (amts : list Z) (r r' : role) : Prop :=
  pays ty1 q slot amts r r' \/ (perm ty1 q (r_acts r) = None /\ pays ty2 q slot amts r r').
Definition lacks (tys : list Z) (q : bytes) (r : role) : Prop := forall ty, In ty tys -> perm ty q (r_acts r) = None.

(** ** Inner instructions.  In the payload an instruction is: program index,
    number of accounts, account indices, data length (two bytes), data.  The
    indices point into the accounts of the outer instruction. *)
Definition enc_inner (prog : Z) (accts : list Z) (data : bytes) : bytes :=
  [prog; Z.of_nat (length accts)] ++ accts ++ le_enc 2 (Z.of_nat (length data)) ++ data.
(** what these mean when the program signs for [sk] *)
Definition meant (ms : list meta) (sk : key) (prog : Z) (accts : list Z) (data : bytes) (x : ix) : Prop :=
  (exists pm, nth_error ms (Z.to_nat prog) = Some pm /\ ix_prog x = m_key pm)
  /\ Forall2 (fun a m => exists m0, nth_error ms (Z.to_nat a) = Some m0
                /\ m = mk_meta (m_key m0) (m_signer m0 || beq (m_key m0) sk) (m_writable m0)) accts (ix_metas x)
  /\ ix_data x = data.
Inductive listed (ms : list meta) (sk : key) : bytes -> list ix -> Prop :=
| listed_nil rest : listed ms sk rest []
| listed_cons prog accts data x rest xs : meant ms sk prog accts data x ->
    (length accts <= 254)%nat -> Z.of_nat (length data) < 65536 -> listed ms sk rest xs ->
    listed ms sk (enc_inner prog accts data ++ rest) (x :: xs).
(** a count, that many instructions, and anything after them *)
Definition inner_ixs (ms : list meta) (sk : key) (payload : bytes) (xs : list ix) : Prop :=
  (length xs <= 255)%nat /\ exists rest, payload = Z.of_nat (length xs) :: rest /\ listed ms sk rest xs.
(** the payload in the instruction data of SignV2 (11) and the two sub-account
    signing instructions (9, 20) *)
Definition inner_payload (data : bytes) : bytes :=
  sub (if tag data =? 11 then 8 else 16) (arg_len data) data.

(** the address these instructions sign for: the wallet, or the sub-account
    (third account of SubAccountSignV2) *)
Definition signs_for (cx : ctx) : key := acct cx (if tag (c_data cx) =? 20 then 2 else 1).
(** each instruction of the list succeeds, one after the other *)
Inductive in_turn (ok : world -> ix -> world -> Prop) : list ix -> world -> world -> Prop :=
| in_turn_nil w : in_turn ok [] w w
| in_turn_cons x xs w w1 w2 : ok w x w1 -> in_turn ok xs w1 w2 -> in_turn ok (x :: xs) w w2.

(** ... with the worlds after each of them *)
Inductive stages (ok : world -> ix -> world -> Prop) : list ix -> world -> list world -> Prop :=
| stages_nil w : stages ok [] w []
| stages_cons x xs w w1 ws : ok w x w1 -> stages ok xs w1 ws -> stages ok (x :: xs) w (w1 :: ws).
(** nothing but data of the account [k] differs *)
Definition only_here (k : key) (w w' : world) : Prop :=
  (forall k', k' <> k -> kept_acct (w k') (w' k')) /\ forall k', a_lamports (w' k') = a_lamports (w k').
(** The call [cx] of SignV2 goes from [w] to [w'] by the inner instructions [xs],
    with the worlds [ws] after each of them; before and after, only the
    configuration is written *)
Definition course (E : env) (cx : ctx) (w w' : world) (xs : list ix) (ws : list world) : Prop :=
  exists ps w0, only_here (acct cx 0) w w0
    /\ stages (fun v x v' => run_inner E cx (acct cx 1) ps v x = Ok v') xs w0 ws
    /\ only_here (acct cx 0) (last ws w0) w'.

(** ** Gross outflow *)

(** The total by which a reading falls from [b] along the worlds [ws].  What it
    rises in between does not count; worlds without a reading are skipped. *)
Fixpoint falls (f : world -> option Z) (b : Z) (ws : list world) : Z :=
  match ws with
  | [] => 0
  | w :: r => match f w with
              | Some c => Z.max 0 (b - c) + falls f c r
              | None => falls f b r
              end
  end.
Definition lamports_of (k : key) (w : world) : option Z := Some (a_lamports (w k)).
(* the amount field is at 64 *)
Definition tokens_of (k : key) (w : world) : option Z :=
  if (72 <=? length (a_data (w k)))%nat then Some (u64_at 64 (a_data (w k))) else None.
(** A stake account spends in each step what it loses in lamports or what its
    stake (at 156) changes, whichever is more *)
Fixpoint stirs (k : key) (lam st : Z) (ws : list world) : Z :=
  match ws with
  | [] => 0
  | w :: r => let st' := if (164 <=? length (a_data (w k)))%nat then u64_at 156 (a_data (w k)) else st in
              Z.max (Z.max 0 (lam - a_lamports (w k))) (Z.abs (st' - st)) + stirs k (a_lamports (w k)) st' r
  end.
(** The program counts up to 2^64 - 1 *)
Definition capped (n : Z) : Z := Z.min (U64 - 1) n.

(** The instructions [x] and [y] call the same program with the same accounts
    and data; what may differ are the privileges of the accounts. *)
Definition same_call (x y : ix) : Prop :=
  ix_prog y = ix_prog x /\ map m_key (ix_metas y) = map m_key (ix_metas x) /\ ix_data y = ix_data x.
(** the sizes the encoding can express *)
Definition fits (x : ix) : Prop := (length (ix_metas x) <= 254)%nat /\ Z.of_nat (length (ix_data x)) < 65536.

(** [x] carries the signature of [k] *)
Definition carries (k : key) (x : ix) : Prop := exists m, In m (ix_metas x) /\ m_key m = k /\ m_signer m = true.

(** ** System and token transfers out of an account: destination and amount *)
Definition sol_out (k : key) (x : ix) : option (key * Z) :=
  match ix_metas x with
  | m0 :: m1 :: _ =>
    if beq (ix_prog x) SYSTEM && (12 <=? length (ix_data x))%nat && (u32_at 0 (ix_data x) =? 2) && beq (m_key m0) k
    then Some (m_key m1, u64_at 4 (ix_data x)) else None
  | _ => None
  end.
(* Transfer (3) and TransferChecked (12), which names the mint in between *)
Definition token_out (k : key) (x : ix) : option (key * Z) :=
  let d := ix_data x in
  match ix_metas x with
  | m0 :: m1 :: r =>
    if negb (is_token_program (ix_prog x) && beq (m_key m0) k) then None
    else if (byte_at 0 d =? 3) && (9 <=? length d)%nat then Some (m_key m1, u64_at 1 d)
    else match r with
         | m2 :: _ => if (byte_at 0 d =? 12) && (10 <=? length d)%nat then Some (m_key m2, u64_at 1 d) else None
         | [] => None
         end
  | _ => None
  end.
Fixpoint outs (f : ix -> option (key * Z)) (xs : list ix) : list (key * Z) :=
  match xs with
  | [] => []
  | x :: r => match f x with Some t => t :: outs f r | None => outs f r end
  end.
(** the amounts among [ts] that go to [k] *)
Definition to (k : key) (ts : list (key * Z)) : list Z := map snd (filter (fun t => beq (fst t) k) ts).

(** ** Protected accounts *)
Definition wallet_of (cx : ctx) : key := acct cx 1.
(** the accounts after configuration and wallet *)
Definition rest_of (cx : ctx) : list meta := skipn 2 (c_metas cx).
Definition held (cx : ctx) (k : bytes) : bool := beq k (acct cx 0) || beq k (acct cx 1).
(** a writable token account of the wallet: authority at 32 *)
Definition own_token (cx : ctx) (w : world) (m : meta) : bool :=
  let a := w (m_key m) in
  m_writable m && is_token_program (a_owner a) && (165 <=? length (a_data a))%nat && held cx (sub 32 32 (a_data a)).
(** a writable stake account of the wallet: withdraw authority at 44 *)
Definition own_stake (cx : ctx) (w : world) (m : meta) : bool :=
  let a := w (m_key m) in
  m_writable m && beq (a_owner a) STAKING && (200 <=? length (a_data a))%nat && held cx (sub 44 32 (a_data a)).
Definition mint_of (a : account) : bytes := sub 0 32 (a_data a).
Definition amount (a : account) : Z := u64_at 64 (a_data a).
Definition stake_of (a : account) : Z := u64_at 156 (a_data a).
(** the account still exists *)
Definition alive (a : account) : bool := negb ((length (a_data a) =? 0)%nat || (a_lamports a =? 0)).

(** Two different inputs of SHA-256 with the same digest *)
Definition collision (E : env) (x y : bytes) : Prop := x <> y /\ sha256 E x = sha256 E y.
(** what is protected of a token and of a stake account *)
Definition token_frame (a : account) : bytes := a_owner a ++ firstn 64 (a_data a) ++ skipn 72 (a_data a).
Definition stake_frame (a : account) : bytes := a_owner a ++ sub 4 120 (a_data a) ++ skipn 200 (a_data a).

(** [t] is a token account of the wallet with this mint, still alive at the end
    of the call, together with the amount it spent *)
Definition spends (cx : ctx) (w w' : world) (mint : bytes) (t : meta * Z) : bool :=
  let m := fst t in
  own_token cx w m && alive (w' (m_key m)) && beq (mint_of (w (m_key m))) mint && (0 <? snd t).
(** The amounts in [sp] (one per account after the first two) spent in this mint *)
Definition on_mint (cx : ctx) (w w' : world) (mint : bytes) (sp : list Z) : list Z :=
  map snd (filter (spends cx w w' mint) (combine (rest_of cx) sp)).
(** The amounts of the transfers to [k] from the accounts that spent in this mint *)
Definition on_dest (cx : ctx) (w w' : world) (mint : bytes) (k : key) (xs : list ix) (sp : list Z) : list Z :=
  flat_map (fun t => if spends cx w w' mint t then to k (outs (token_out (m_key (fst t))) xs) else [])
    (combine (rest_of cx) sp).
(** The role has a destination limit for this mint *)
Definition token_dests (mint : bytes) (r : role) : Prop :=
  exists a, In a (r_acts r) /\ (ac_ty a = 18 \/ ac_ty a = 19) /\ firstn 32 (ac_data a) = mint.
(** The amounts spent by stake accounts of the wallet *)
Definition on_stake (cx : ctx) (w : world) (sp : list Z) : list Z :=
  map snd (filter (fun t => own_stake cx w (fst t) && (0 <? snd t)) (combine (rest_of cx) sp)).
(** The call exhibits a SHA-256 collision on the protected part of an account *)
Definition collides (E : env) (cx : ctx) (w w' : world) : Prop :=
  exists m, In m (rest_of cx)
    /\ ((own_token cx w m = true /\ collision E (token_frame (w (m_key m))) (token_frame (w' (m_key m))))
        \/ (own_stake cx w m = true /\ collision E (stake_frame (w (m_key m))) (stake_frame (w' (m_key m))))).

(** ** What may change in a permission when it is used: the counter bytes *)
Definition counter (ty : Z) (i : nat) : Prop :=
  match ty with
  | 1 | 10 => (i < 8)%nat                                  (* what is left *)
  | 2 | 11 => (16 <= i < 32)%nat                           (* last reset, what is left *)
  | 4 => (i < 16)%nat \/ (40 <= i < 48)%nat                (* spent, last reset *)
  | 5 | 16 => (32 <= i < 40)%nat
  | 6 | 17 => (48 <= i < 64)%nat
  | 18 => (64 <= i < 72)%nat
  | 19 => (80 <= i < 96)%nat
  | _ => False
  end.
Definition only_counters (a a' : action) : Prop :=
  ac_ty a' = ac_ty a /\ length (ac_data a') = length (ac_data a)
  /\ forall i, ~ counter (ac_ty a) i -> nth i (ac_data a') 0 = nth i (ac_data a) 0.

(** ** Programs.  The curated list as written in the source: the system program,
    the token program, and two more addresses *)
Definition allowed (r : role) (prog : key) : Prop :=
  perm 3 prog (r_acts r) <> None \/ holds 14 r /\ In prog CURATED.
