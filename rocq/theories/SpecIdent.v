(** * Vocabulary for the identity of a wallet *)
From Verif Require Export SpecLife.

(** A call by somebody who has nothing to do with the wallet [s] at [k]: the
    account [k] is not among the accounts of the call, every role of the wallet
    has an Ed25519 credential, and none of these keys signs the call. *)
Definition stranger (cx : ctx) (k : key) (s : config) : Prop :=
  ~ In k (map m_key (c_metas cx))
  /\ forall r, In r (s_roles s) -> r_aty r = 1 /\ signer (c_metas cx) (r_auth r) = false.
