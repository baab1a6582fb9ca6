(** * The identity of a wallet.

    Vocabulary: [exec_outside] (a program-execution credential names a program
    other than the wallet program and a prefix of at most 40 bytes), from
    SpecConfig; [stranger] (SpecIdent).  [seeds_swig id bump] are the seeds of the
    address of the configuration account. *)
From Verif Require Import SpecConfig SpecSteps ConfigProps LifeProps SpecIdent IdentProps DemoTwin.

(** ** C62: whatever happened before, a wallet lives at the address derived from
    the id and the bump it records, and each of its program-execution credentials
    names a program other than the wallet program itself (which could otherwise
    vouch for itself) and compares at most 40 bytes. *)
Theorem C62_address : forall E w w' k s, foreign_ok E -> fresh w -> reach E w w' -> is_cfg (w' k) s ->
  pda E (seeds_swig (s_id s) (s_bump s)) = Some k.
Proof. exact (fun E w w' k s F Fr R S => proj1 (reach_placed E w w' F Fr R k s S)). Qed.
Print Assumptions C62_address.
Theorem C62_vouchers : forall E w w' k s r, foreign_ok E -> fresh w -> reach E w w' -> is_cfg (w' k) s ->
  In r (s_roles s) -> r_aty r = 7 \/ r_aty r = 8 ->
  firstn 32 (r_auth r) <> SELF /\ nth 32 (r_auth r) 0 <= 40.
Proof. exact vouchers. Qed.
Print Assumptions C62_vouchers.

Example C62_address_case : let w := den [Call c_sub1] in
  foreign_ok toy /\ fresh genesis /\ reach toy genesis w /\ is_cfg (w SWIG2) (s_den 0 [p_v2create; p_sub1] None).
Proof. cbv zeta. life; try exact genesis_fresh; calc. Qed.
(** a program-execution credential is added; one naming the wallet program is refused *)
Example C62_vouchers_case : let w := den [Call (c_vouch (K 60) 3)] in
  foreign_ok toy /\ fresh genesis /\ reach toy genesis w
  /\ is_cfg (w SWIG2) (mk_config 255 ID2 3 255 (zeros 3) 0 [m0; m1 lm; r_vouch (K 60) 3] None)
  /\ okb (process toy (c_vouch SELF 3) (den [])) = false /\ okb (process toy (c_vouch (K 60) 41) (den [])) = false.
Proof. cbv zeta. life; try exact genesis_fresh; calc. Qed.

(** ** C63: what a user of sub-accounts relies on, namely that the id of a wallet
    belongs to that wallet alone, and that only its roles reach what its
    sub-accounts hold.  The first holds for id and bump together. *)
Theorem C63_id_and_bump : forall E w w' k1 k2 s1 s2, foreign_ok E -> fresh w -> reach E w w' ->
  is_cfg (w' k1) s1 -> is_cfg (w' k2) s2 -> s_id s1 = s_id s2 -> s_bump s1 = s_bump s2 -> k1 = k2.
Proof. exact id_and_bump. Qed.
Print Assumptions C63_id_and_bump.
(** It does not hold for the id alone: creation accepts every bump for which there
    is an address (in the example every bump; on the chain about half of them). *)
Theorem C63_one_wallet_per_id_refuted : exists E w w' k1 k2 s1 s2, foreign_ok E /\ fresh w /\ reach E w w'
  /\ is_cfg (w' k1) s1 /\ is_cfg (w' k2) s2 /\ s_id s1 = s_id s2 /\ k1 <> k2.
Proof. exact twin_exists. Qed.
Print Assumptions C63_one_wallet_per_id_refuted.
(** The addresses of sub-accounts derive from the id alone.  A stranger who opens a
    wallet with the id of another one withdraws (7) from a V1 sub-account of the
    other wallet, here one that role [r] opened ([sa] is in its permission). *)
Theorem C63_sub_v1_refuted : exists E w0 w cx w' k s r a sa, foreign_ok E /\ fresh w0 /\ reach E w0 w
  /\ is_cfg (w k) s /\ In r (s_roles s) /\ In a (r_acts r) /\ ac_ty a = 9 /\ firstn 32 (ac_data a) = sa
  /\ stranger cx k s /\ tag (c_data cx) = 7 /\ succeeds E cx w w'
  /\ a_lamports (w' sa) < a_lamports (w sa).
Proof. exact twin_v1. Qed.
Print Assumptions C63_sub_v1_refuted.
(** The same for a V2 sub-account: the stranger signs (20) for sub-account [n],
    over which role [r] has every permission.  [sa] is its address, recorded in the
    state account [st]. *)
Theorem C63_sub_v2_refuted : exists E w0 w cx w' k s r st sa n bump abump, foreign_ok E /\ fresh w0 /\ reach E w0 w
  /\ is_cfg (w k) s /\ In r (s_roles s) /\ holds_for 23 n r
  /\ a_owner (w st) = SELF /\ a_data (w st) = state_record bump abump 1 n (s_id s) sa
  /\ stranger cx k s /\ tag (c_data cx) = 20 /\ succeeds E cx w w'
  /\ a_lamports (w' sa) < a_lamports (w sa).
Proof. exact twin_v2. Qed.
Print Assumptions C63_sub_v2_refuted.

Example C63_id_and_bump_case : let w := den [Call (c_twin [p_all])] in
  foreign_ok toy /\ fresh genesis /\ reach toy genesis w
  /\ is_cfg (w SWIG2) (s_den 0 lm None) /\ is_cfg (w TWIN) (s_twin [p_all])
  /\ s_id (s_den 0 lm None) = s_id (s_twin [p_all]) /\ s_bump (s_den 0 lm None) <> s_bump (s_twin [p_all]).
Proof. cbv zeta. life; try exact genesis_fresh; try discriminate; calc. Qed.
