(** * Examples for closing a wallet onto itself *)
From Verif Require Import BaseFacts.
From Verif Require Export DemoLife.

Lemma den_admissible es e : (length es <=? 40)%nat = true -> playable toy genesis (open2 ++ es) = true ->
  eventb toy (den es) e = true -> admissible toy (den es) e.
Proof.
  intros L P. apply Nat.leb_le in L. apply eventb_ok. eapply roomy_le; [|eapply (fresh_plays toy (open2 ++ es) genesis)].
  - lia.
  - exact toy_foreign_ok.
  - exact genesis_fresh.
  - rewrite app_length. cbn. lia.
  - exact P.
Qed.
