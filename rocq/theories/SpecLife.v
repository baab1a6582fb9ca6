(** * Vocabulary for the life of a wallet and its sub-accounts *)
From Verif Require Export SpecActs SpecHistory.

(** ** Payments: [amt] lamports go from one account to another, and nothing else
    changes but these two balances *)
Definition paid (w w' : world) (from to : key) (amt : Z) : Prop :=
  (forall k, kept_acct (w k) (w' k))
  /\ (from <> to -> a_lamports (w' from) = a_lamports (w from) - amt
                    /\ a_lamports (w' to) = a_lamports (w to) + amt)
  /\ (forall k, (k <> from /\ k <> to) \/ from = to -> a_lamports (w' k) = a_lamports (w k)).

(** Using a credential may move its signature counter: only the contents of the
    configuration account [k] change, and no balance *)
Definition only_counter (w w1 : world) (k : key) : Prop :=
  others_kept w w1 k /\ a_owner (w1 k) = a_owner (w k) /\ forall k', a_lamports (w1 k') = a_lamports (w k').

(** ** Instructions for a token program: move [amt] units from [src] to [dst] by
    authority of [auth]; close [t], its rent going to [dst] *)
Definition tells_transfer (x : ix) (prog src dst auth : key) (amt : Z) : Prop :=
  x = mk_ix prog [mk_meta src false true; mk_meta dst false true; mk_meta auth true false] (3 :: le_enc 8 amt).
Definition tells_close (x : ix) (prog t dst auth : key) : Prop :=
  x = mk_ix prog [mk_meta t false true; mk_meta dst false true; mk_meta auth true false] [9].
(** mint and owner recorded in a token account, and its amount *)
Definition tok_mint (a : account) : bytes := sub 0 32 (a_data a).
Definition tok_owner (a : account) : bytes := sub 32 32 (a_data a).
Definition tok_amount (a : account) : Z := le (sub 64 8 (a_data a)).

(** Calls of other programs, one after the other, each satisfying [P] in the
    world where it is made *)
Inductive made (E : env) (P : world -> ix -> Prop) : world -> world -> Prop :=
| made_none w : made E P w w
| made_one w x w1 w2 : P w x -> foreign E w x = Ok w1 -> made E P w1 w2 -> made E P w w2.

(** ** V1 sub-accounts.  The permission (number 9) of a role for its sub-account:
    address, bump, enabled flag, two unused bytes, role id, wallet id *)
Definition sub_v1 (address : key) (bump en : Z) (pad : bytes) (role : Z) (wallet_id : bytes) : bytes :=
  address ++ [bump; en] ++ pad ++ le_enc 4 role ++ wallet_id.
(** role [r] of [s] has an enabled sub-account permission for [sa] with [bump] *)
Definition owns_sub (s : config) (r : role) (sa : key) (bump : Z) : Prop :=
  exists p, In p (r_acts r) /\ ac_ty p = 9 /\ sub 0 32 (ac_data p) = sa /\ nth 32 (ac_data p) 0 = bump
    /\ nth 33 (ac_data p) 0 <> 0 /\ le (sub 36 4 (ac_data p)) = r_id r /\ sub 40 32 (ac_data p) = s_id s.

(** ** V2 sub-accounts.  The state record: 2, state bump, address bump, enabled
    flag, number, wallet id, address *)
Definition state_record (bump abump en n : Z) (wallet_id sa : bytes) : bytes :=
  [2; bump; abump; en] ++ le_enc 4 n ++ wallet_id ++ sa.
(** the account [st] is the state record of the enabled sub-account [n] of the
    wallet [s], with address [sa] *)
Definition enabled_sub (E : env) (w : world) (s : config) (st sa : key) (n : Z) : Prop :=
  exists bump abump, a_owner (w st) = SELF /\ a_data (w st) = state_record bump abump 1 n (s_id s) sa
    /\ pda E (seeds_v2_state (s_id s) n bump) = Some st /\ pda E (seeds_v2_asset (s_id s) n abump) = Some sa.
(** how often role [r] holds All powers (23) over sub-account [n] *)
Definition grants (n : Z) (r : role) : nat :=
  length (filter (fun a => (ac_ty a =? 23) && (le (firstn 4 (ac_data a)) =? n)) (r_acts r)).
