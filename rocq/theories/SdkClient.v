(** * Model of the Rust SDK's clients: how they keep the signature counter, which
    keys sign a transaction (rust-sdk/src/client_role.rs, rust-sdk/src/wallet.rs).

    Simplifications: the RPC connection is not modelled; a client is its odometer,
    and a function of it gives what it would send. *)
From Verif Require Export Client SpecClient Sdk.

(** client_role.rs:718 and all other builders: [self.odometer.wrapping_add(1)] *)
Definition next_odometer (n : Z) : Z := (n + 1) mod U32.
(** wallet.rs:148-165, 1379-1385 [SwigWallet::new], [switch_authority]: the odometer of a new
    client is the one of the role, if it has one, otherwise 0 *)
Definition load_odometer (v : rview) : Z := match signature_odometer v with Some n => n | None => 0 end.
(** wallet.rs:225-250 [add_authority] and 1451-1475 [create_session] leave the odometer as it
    is; 261-298 [remove_authority], 311-337 [sign_v2], 351-381, 391-411, 424-453, 464-492,
    507-541, 552-584, 600-635, 638-663, 665-690, 693-726, 728-753, 1486-1508 count up *)
Definition odometer_after (o : order) (n : Z) : Z :=
  match o with AddRole _ _ _ | OpenSession _ _ => n | _ => next_odometer n end.
(** client_role.rs:1167-1195 [Secp256k1ClientRole::sign_v2_instruction]: one instruction for
    each inner instruction *)
Definition sdk_sign_k1 E sign slot odo (swig wallet : key) (rid : Z) (signers : list key) (inners : list ix) : list ix :=
  map (fun i => sign_k1 E sign slot (next_odometer odo) swig wallet i rid signers) inners.
(** client_role.rs:1689-1720 [Secp256r1ClientRole::sign_v2_instruction] *)
Definition sdk_sign_r1 E sign pk slot odo (swig wallet : key) (rid : Z) (signers : list key) (inners : list ix) : list (list ix) :=
  map (fun i => sign_r1 E sign pk slot (next_odometer odo) swig wallet i rid signers) inners.
(** client_role.rs:705-735 [Secp256k1ClientRole::add_authority_instruction]: the new credential
    without its first byte ([&new_authority[1..]]) *)
Definition sdk_add_k1 E sign slot odo (swig payer : key) (rid ty : Z) (c : bytes) (gs : list grant) : res ix :=
  match c with
  | [] => Panic
  | _ :: c' => Ok (add_k1 E sign slot (next_odometer odo) swig payer rid ty c' (to_client_actions gs))
  end.
(** client_role.rs:269-294 [Ed25519ClientRole::add_authority_instruction]: as it is *)
Definition sdk_add_ed (swig payer auth : key) (rid ty : Z) (c : bytes) (gs : list grant) : ix :=
  add_ed swig payer auth rid ty c (to_client_actions gs).
(** wallet.rs:244-247, 284-287, 1467-1470, 1498-1501: signed by the fee payer alone; elsewhere
    1583-1594 [get_keypairs] *)
Definition signing_keys (o : order) (fee : key) (auth : option key) : list key :=
  match o with
  | AddRole _ _ _ | RemoveRole _ | OpenSession _ _ | NameClaimer _ => [fee]
  | _ => fee :: match auth with Some k => if beq k fee then [] else [k] | None => [] end
  end.
(** [VersionedTransaction::try_new]: fails unless the keys are exactly those that must sign *)
Definition can_sign (keys : list key) (fee : key) (xs : list ix) : bool :=
  let need := fee :: flat_map (fun x => map m_key (filter m_signer (ix_metas x))) xs in
  forallb (fun k => existsb (beq k) keys) need && forallb (fun k => existsb (beq k) need) keys.
