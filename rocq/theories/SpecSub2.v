(** * Using sub-accounts, and closing a wallet.

    Vocabulary for the theorems that say that what is asked for is done. *)
From Verif Require Export SpecWorks SpecLife.

(** What the account [k] lacks to hold [n] bytes *)
Definition lack (E : env) (w : world) (k : key) (n : nat) : Z := Z.max 0 (rent E n - a_lamports (w k)).
(** The account [st] is the record of sub-account [n], with address [sa], of the
    wallet [s]; [on] is 1 if the sub-account may be used and 0 otherwise *)
Definition sub_record (E : env) (w : world) (s : config) (st sa : key) (n on : Z) : Prop :=
  exists bump abump, a_owner (w st) = SELF /\ a_data (w st) = state_record bump abump on n (s_id s) sa
    /\ pda E (seeds_v2_state (s_id s) n bump) = Some st /\ pda E (seeds_v2_asset (s_id s) n abump) = Some sa
    /\ is_byte bump /\ is_byte abump.
(** A plain account of the system program *)
Definition plain_acct (a : account) : Prop := a_owner a = SYSTEM /\ a_data a = [].
(** The wallet [s] has a wallet account (wallets of the first version had none) *)
Definition second_version (s : config) : Prop := s_wbump s <> 0 /\ s_pad s = zeros 3.
(** The role with all powers over sub-account [n] in addition *)
Definition put_in_charge (n : Z) (r : role) : role := with_acts r (r_acts r ++ [mk_action 23 (le_enc 4 n ++ zeros 4)]).
(** The next sub-account number is [n] *)
Definition next_sub (n : Z) (s : config) : config := set_subctr s n.
(** Lamports given to the account [k] *)
Definition gift (w : world) (k : key) (n : Z) : world := upd w k (mk_account (a_lamports (w k) + n) (a_owner (w k)) (a_data (w k))).
