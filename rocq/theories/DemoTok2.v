(** * Cases for the theorems of PropertiesTok2 *)
From Verif Require Import BaseFacts Parse SpecWorks SpecSub2 SpecSub1 SpecTok2 Avail8 Avail9 Avail10 Avail11 Avail12 Avail.
From Verif Require Export DemoSub1.

(** the second wallet after role 1 opened a sub-account of the first or second
    version, with token accounts of it and of the wallet *)
Definition den_subtok1 : world := put (den opened1) [(K 90, tok_acct WALLET2 5); (K 92, tok_acct SUB1 40)].
Definition den_subtok2 : world := put (den opened) [(K 90, tok_acct WALLET2 5); (K 93, tok_acct (ASSET 0 255) 50)].
Definition c_wdtok1 (n : Z) : ctx :=
  call 9 [rw SWIG2; payer; rw SUB1; sg (K 11); rw WALLET2; ro SYSTEM; rw (K 92); rw (K 90); ro SPL_TOKEN]
    (le_enc 2 7 ++ zeros 2 ++ le_enc 4 1 ++ le_enc 8 n ++ ed 3).
Definition c_wdtok2 (n : Z) : ctx :=
  call 9 [rw SWIG2; payer; ro (STATE 0 255); rw (ASSET 0 255); rw WALLET2; ro SYSTEM; sg (K 11); rw (K 93); rw (K 90); ro SPL_TOKEN]
    (le_enc 2 21 ++ zeros 2 ++ le_enc 4 1 ++ le_enc 4 0 ++ zeros 4 ++ le_enc 8 n ++ ed 6).
Definition token_ofb (prog auth : key) (a : account) : bool :=
  beq (a_owner a) prog && (72 <=? length (a_data a))%nat && beq (sub 32 32 (a_data a)) auth.
Lemma token_ofb_ok prog auth a : token_ofb prog auth a = true -> token_of prog auth a.
Proof.
  unfold token_ofb. rewrite !andb_true_iff. intros ((A & B) & C). apply beq_eq in A, C. apply Nat.leb_le in B. repeat split; assumption.
Qed.
Lemma asksb_passes cx r : asksb cx r = true -> actor_of (c_data cx) = r_id r /\ exists a, passes toy cx r a.
Proof.
  intros H. apply andb_prop in H as [A B]. apply Z.eqb_eq in A. split; [exact A|]. unfold passes.
  destruct (_ toy cx _ _ _ _) as [a| |]; [exists a; reflexivity|discriminate B|discriminate B].
Qed.
