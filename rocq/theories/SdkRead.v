(** * The Rust SDK: what it says of sub-accounts and of the balance.

    rust-sdk/src/wallet.rs.  A request to the node is not modelled to fail; the
    node knows an account if and only if it holds lamports (the chain removes
    accounts that hold none).  [Err PInvalidAccountData] stands for
    SwigError::InvalidSwigData. *)
From Coq Require Import String.
From Verif Require Export SubAccounts.

(** The account exists for the node: [get_account(..).is_ok()], wallet.rs:1525, and
    [get_account_with_commitment(..).value], wallet.rs:767-774 *)
Definition on_chain (a : account) : bool := negb (a_lamports a =? 0).

(** state/src/swig.rs:104-109, 136-142: the seeds without bump *)
Definition seeds_v2_state0 (id : bytes) (n : Z) : list bytes := [ascii_bytes "sub-account-v2-state"%string; id; le_enc 4 n].
Definition seeds_v2_asset0 (id : bytes) (n : Z) : list bytes := [ascii_bytes "sub-account-v2"%string; id; le_enc 4 n].

(** wallet.rs:1515-1536 [SwigWallet::get_sub_account]; [role] is the current role *)
Definition sdk_sub_account (E : env) (w : world) (id : bytes) (role : Z) : option key :=
  let k := fst (find_pda E (seeds_sub0 id role)) in
  if on_chain (w k) then Some k else None.

(** wallet.rs:756-806 [SwigWallet::get_sub_account_v2] *)
Definition sdk_sub_account_v2 (E : env) (w : world) (id : bytes) (n : Z) : res (option key) :=
  let ' (st, sb) := find_pda E (seeds_v2_state0 id n) in
  let ' (asset, ab) := find_pda E (seeds_v2_asset0 id n) in
  if negb (on_chain (w st)) then Ok None
  else
    let d := a_data (w st) in
    check (beq (a_owner (w st)) SELF && (List.length d =? V2_LEN)%nat) PInvalidAccountData ;;
    check (byte_at 0 d =? D_SubV2) PInvalidAccountData ;;
    check ((v2_enabled d =? 0) || (v2_enabled d =? 1)) PInvalidAccountData ;;
    check ((v2_bump d =? sb) && (v2_asset_bump d =? ab) && (v2_id d =? n) && beq (v2_swig_id d) id && beq (sub 40 32 d) asset)
      PInvalidAccountData ;;
    Ok (Some asset).

(** wallet.rs:1568-1576 [SwigWallet::get_balance]: the lamports of the configuration account *)
Definition sdk_balance (E : env) (w : world) (id : bytes) : Z :=
  a_lamports (w (fst (find_pda E [ascii_bytes "swig"%string; id]))).
