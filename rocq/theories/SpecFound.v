(** * Founding a wallet.

    Vocabulary for the theorems that say when a wallet can be created. *)
From Verif Require Export SpecWorks.

(** The wallet right after its creation: one role, number 0 *)
Definition founded (id : bytes) (bump wbump ty : Z) (c : bytes) (l : list action) : config :=
  mk_config bump id 1 wbump (zeros 3) 0 [mk_role 0 ty (zeros 2) (new_credential ty c) l] None.

(** An address nobody has used yet, or at most sent lamports to *)
Definition vacant (w : world) (k : key) : Prop := a_owner (w k) = SYSTEM /\ a_data (w k) = [].

(** The accounts of the creation: configuration, payer and wallet address, all
    writable, and one more; the payer signs, and no account belongs to the wallet
    program or the stake program *)
Definition founding_accounts (cx : ctx) (w : world) : Prop :=
  (4 <= length (c_metas cx) <= 254)%nat
  /\ NoDup [acct cx 0; acct cx 1; acct cx 2]
  /\ writable (c_metas cx) (acct cx 0) = true /\ writable (c_metas cx) (acct cx 1) = true
  /\ writable (c_metas cx) (acct cx 2) = true /\ signer (c_metas cx) (acct cx 1) = true
  /\ forall m, In m (c_metas cx) -> a_owner (w (m_key m)) <> SELF /\ a_owner (w (m_key m)) <> STAKING.

(** What [k] lacks to hold [n] bytes free of rent *)
Definition missing (E : env) (w : world) (k : key) (n : nat) : Z := Z.max 0 (rent E n - a_lamports (w k)).
(** The wallet [s] is at [k], which holds its rent; the payer has paid this and what
    the wallet address lacked, and nothing else has changed *)
Definition settled (E : env) (w w' : world) (k payer wal : key) (s : config) : Prop :=
  let n := length (enc_config s) in let m := missing E w wal 0 in
  is_cfg (w' k) s /\ a_lamports (w' k) = rent E n /\ a_lamports (w' wal) = a_lamports (w wal) + m
  /\ a_lamports (w' payer) = a_lamports (w payer) - rent E n - m
  /\ forall k', k' <> k -> a_owner (w' k') = a_owner (w k') /\ a_data (w' k') = a_data (w k')
       /\ (k' <> payer -> k' <> wal -> a_lamports (w' k') = a_lamports (w k')).

(** ** Bystanders *)
(** An account of the system program that holds lamports and no data remains one,
    and its balance does not fall *)
Definition stays (w w' : world) (k : key) : Prop :=
  vacant w k -> 0 < a_lamports (w k) -> vacant w' k /\ a_lamports (w k) <= a_lamports (w' k).
Definition unsigned (k : key) (ms : list meta) : Prop := forall m, In m ms -> m_key m = k -> m_signer m = false.
(** No program but the wallet program can sign for [k]: calls of other programs that
    [k] did not sign leave it alone *)
Definition guarded (E : env) (k : key) : Prop :=
  forall w x w', foreign E w x = Ok w' -> unsigned k (ix_metas x) -> stays w w' k.
(** [k] is none of the addresses the wallet program signs for - those of wallets
    and sub-accounts - nor one of the records of sub-accounts *)
Definition no_asset (E : env) (k : key) : Prop :=
  (forall sd, asset_seeds sd -> pda E sd <> Some k) /\ forall id i b, pda E (seeds_v2_state id i b) <> Some k.

(** A history none of whose events [k] signs *)
Definition unsigned_event (k : key) (e : event) : Prop :=
  match e with Call cx => unsigned k (c_metas cx) | Other x => unsigned k (ix_metas x) end.
Inductive unsigned_history (E : env) (k : key) (w : world) : world -> Prop :=
| unsigned_nil : unsigned_history E k w w
| unsigned_next w1 e : unsigned_history E k w w1 -> admissible E w1 e -> unsigned_event k e -> unsigned_history E k w (step E w1 e).
