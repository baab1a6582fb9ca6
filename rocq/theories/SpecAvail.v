(** * What it takes to use a wallet.

    Vocabulary for the theorems that say which instructions succeed. *)
From Verif Require Export SpecActs.

(** The permission [a] watches the account [k]: kind 4, ProgramScope, with the
    account at byte 80 *)
Definition watches (k : key) (a : action) : Prop := ac_ty a = 4 /\ sub 80 32 (ac_data a) = k.
(** an account no role of [s] watches, and that is not a stake account *)
Definition ordinary (w : world) (s : config) (k : key) : Prop :=
  a_owner (w k) <> STAKING
  /\ forall r a, In r (s_roles s) -> In a (r_acts r) -> ~ watches k a.

(** The transaction is signed by the key of the role [r] - for a credential with
    sessions: by the key of the running session - and the account with that key
    is the [i]-th of the instruction *)
Definition shows (cx : ctx) (r : role) (i : Z) : Prop :=
  is_byte i /\ exists m, nth_error (c_metas cx) (Z.to_nat i) = Some m /\ m_signer m = true
  /\ (r_aty r = 1 /\ m_key m = r_auth r
      \/ is_session (r_aty r) = true /\ m_key m = session_key (r_aty r) (r_auth r)
         /\ c_slot cx <= session_end (r_aty r) (r_auth r)).

(** the configuration [s] once the role [r] has shown its credential, which is then [a] *)
Definition shown (r : role) (a : bytes) (s : config) : config := on_role (r_id r) (fun r0 => with_auth r0 a) s.

(** What a client sends as the credential of a new role, see [new_credential] *)
Definition credential_ok (ty : Z) (c : bytes) : Prop :=
  (ty = 1 /\ length c = 32%nat) \/ (ty = 2 /\ length c = 72%nat)
  \/ (ty = 3 /\ (length c = 33%nat \/ length c = 64%nat)) \/ (ty = 4 /\ length c = 104%nat)
  \/ (ty = 5 /\ length c = 33%nat) \/ (ty = 6 /\ length c = 80%nat)
  \/ (ty = 7 /\ length c = 80%nat \/ ty = 8 /\ length c = 128%nat) /\ firstn 32 c <> SELF /\ nth 32 c 0 <= 40.
(** ... and the role it gets *)
Definition new_role (s : config) (ty : Z) (c : bytes) (l : list action) : role :=
  mk_role (s_counter s) ty (zeros 2) (new_credential ty c) l.

(** The data of an instruction as clients build it.
    AddAuthority: tag 1, lengths of credential and permissions, credential type,
    number of permissions (not read), acting role, credential, permissions, place
    of the signer among the accounts *)
Definition add_data (rid ty : Z) (c : bytes) (l : list action) (i : Z) : bytes :=
  le_enc 2 1 ++ le_enc 2 (Z.of_nat (length c)) ++ le_enc 2 (Z.of_nat (acts_len l)) ++ le_enc 2 ty
  ++ le_enc 4 (Z.of_nat (length l)) ++ le_enc 4 rid ++ c ++ enc_actions 0 l ++ [i].
(** RemoveAuthority: tag 2, six unused bytes, acting role, role to remove, place of the signer *)
Definition remove_data (rid target : Z) (i : Z) : bytes :=
  le_enc 2 2 ++ zeros 6 ++ le_enc 4 rid ++ le_enc 4 target ++ [i].

(** The accounts of AddAuthority and RemoveAuthority: configuration, payer and
    system program; the first two writable, the payer signing *)
Definition admin_accounts (cx : ctx) (w : world) (s : config) : Prop :=
  (3 <= length (c_metas cx) <= 254)%nat /\ acct cx 2 = SYSTEM
  /\ writable (c_metas cx) (acct cx 0) = true /\ writable (c_metas cx) (acct cx 1) = true
  /\ signer (c_metas cx) (acct cx 1) = true
  /\ forall m, In m (tl (c_metas cx)) -> ordinary w s (m_key m).
(** An account that can pay [n] lamports by a transfer *)
Definition can_pay (w : world) (k : key) (n : Z) : Prop :=
  a_owner (w k) = SYSTEM /\ a_data (w k) = [] /\ n <= a_lamports (w k).

(** ** A wallet that cannot be managed any more *)
(** The permission [a] asks for a balance - its kind of scope, at byte 112, is not
    the basic one - that lies, by its end at byte 136, beyond the account data [d] *)
Definition unreadable (d : bytes) (a : action) : Prop :=
  u64_at 112 (ac_data a) <> 0 /\ Z.of_nat (length d) < u64_at 136 (ac_data a).
(** Some role watches the system program, and no such permission can be read *)
Definition locked (w : world) (s : config) : Prop :=
  (exists r a, In r (s_roles s) /\ In a (r_acts r) /\ watches SYSTEM a)
  /\ forall r a, In r (s_roles s) -> In a (r_acts r) -> watches SYSTEM a -> unreadable (a_data (w SYSTEM)) a.
(** The system program's own account belongs to none of these programs - on chain
    its owner is the native loader *)
Definition native (w : world) : Prop :=
  ~ In (a_owner (w SYSTEM)) [SELF; SYSTEM; STAKING; SPL_TOKEN; SPL_TOKEN_2022].
(** ... and calls of other programs leave it alone *)
Definition system_kept (E : env) : Prop :=
  forall w x w', foreign E w x = Ok w' -> native w -> kept_acct (w SYSTEM) (w' SYSTEM).
