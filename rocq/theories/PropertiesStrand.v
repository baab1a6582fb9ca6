(** * Closing a wallet onto itself.

    Vocabulary: [is_closed], [reach] (SpecHistory); [succeeds], [acct] (SpecActs).
    Accounts of CloseSwig: 0 configuration, 1 wallet address, 2 destination. *)
From Verif Require Import BaseFacts SpecSign SpecLife LifeProps DemoStrand Strand.

(** ** C99: nothing prevents the destination from being the wallet itself.  If it
    is the wallet address, the money of the configuration account ends there; if
    it is the configuration account, everything stays where it was.  Either way
    the wallet is closed for good (C42_closed_for_good), so nobody can sign for
    the money any more. *)
Theorem C99_close_on_itself : forall E cx w w' s, is_cfg (w (acct cx 0)) s -> succeeds E cx w w' -> tag (c_data cx) = 15 ->
  0 <= rent E 1 <= a_lamports (w (acct cx 0)) -> 0 <= a_lamports (w (acct cx 1)) -> acct cx 1 <> acct cx 0 ->
  (acct cx 2 = acct cx 1 ->
     a_lamports (w' (acct cx 1)) = a_lamports (w (acct cx 1)) + (a_lamports (w (acct cx 0)) - rent E 1)
     /\ a_lamports (w' (acct cx 0)) = rent E 1 /\ forall k, k <> acct cx 0 -> k <> acct cx 1 -> a_lamports (w' k) = a_lamports (w k))
  /\ (acct cx 2 = acct cx 0 -> a_lamports (w (acct cx 1)) = 0 /\ forall k, a_lamports (w' k) = a_lamports (w k)).
Proof. exact close_on_self. Qed.
Print Assumptions C99_close_on_itself.

Example C99_case : let w := den [] in let cx := c_close2 WALLET2 in let w' := den [Call cx] in
  is_cfg (w (acct cx 0)) (s_den 0 lm None) /\ okb (process toy cx w) = true /\ tag (c_data cx) = 15
  /\ (0 <=? rent toy 1) && (rent toy 1 <? a_lamports (w (acct cx 0))) && (0 <=? a_lamports (w (acct cx 1))) = true
  /\ acct cx 1 <> acct cx 0 /\ acct cx 2 = acct cx 1.
Proof. cbv zeta. life; calc. Qed.

(** Refuted: closing gets the money of the wallet out of it.  Set-claimer
    refuses the wallet's own addresses (C41), closing does not: here it leaves the
    money of wallet and configuration account at an address for which nobody can
    sign any more. *)
Theorem C99_strands_itself_refuted : exists w cx w' s, good_world toy w /\ reach toy genesis w
  /\ admissible toy w (Call cx) /\ is_cfg (w (acct cx 0)) s /\ tag (c_data cx) = 15 /\ succeeds toy cx w w'
  /\ pda toy (seeds_wallet (acct cx 0) (s_wbump s)) = Some (acct cx 1)
  /\ is_closed (w' (acct cx 0)) /\ a_lamports (w (acct cx 1)) < a_lamports (w' (acct cx 1)).
Proof.
  exists (den []), (c_close2 WALLET2), (den [Call (c_close2 WALLET2)]), (s_den 0 lm None).
  life; lazymatch goal with |- is_closed _ => split; calc | |- (_ < _)%Z => apply Z.ltb_lt; calc | |- admissible _ _ _ => apply den_admissible; calc | |- _ => calc end.
Qed.
Print Assumptions C99_strands_itself_refuted.

(** With a rent claimer this does not happen, whatever is done in between: the
    destination is neither the configuration account nor the wallet address *)
Theorem C99_claimer_saves : forall E cx0 cx w0 w w1 w' s, foreign_ok E -> hashes_ok E -> good_world E w0 -> admissible E w0 (Call cx0) ->
  is_cfg (w0 (acct cx0 0)) s -> tag (c_data cx0) = 17 -> succeeds E cx0 w0 w -> reach E w w1 ->
  acct cx 0 = acct cx0 0 -> tag (c_data cx) = 15 -> succeeds E cx w1 w' ->
  acct cx 2 <> acct cx 0 /\ (pda E (seeds_wallet (acct cx0 0) (s_wbump s)) = Some (acct cx 1) -> acct cx 2 <> acct cx 1).
Proof. exact claimer_saves. Qed.
Print Assumptions C99_claimer_saves.

Example C99_claimer_case : let w0 := den [] in let cx0 := c_claim2 (K 40) in let w := den [Call cx0] in let cx := c_close2 (K 40) in
  foreign_ok toy /\ hashes_ok toy /\ good_world toy w0 /\ admissible toy w0 (Call cx0) /\ is_cfg (w0 (acct cx0 0)) (s_den 0 lm None)
  /\ tag (c_data cx0) = 17 /\ succeeds toy cx0 w0 w /\ acct cx 0 = acct cx0 0 /\ tag (c_data cx) = 15 /\ okb (process toy cx w) = true
  /\ pda toy (seeds_wallet (acct cx0 0) (s_wbump (s_den 0 lm None))) = Some (acct cx 1)
  /\ okb (process toy (c_close2 WALLET2) w) = false.
Proof. cbv zeta. life; lazymatch goal with |- admissible _ _ _ => apply den_admissible; calc | |- _ => calc end. Qed.
