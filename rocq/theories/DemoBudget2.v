(** * Concrete cases for limits per destination that are renewed *)
From Verif Require Import BaseFacts SpecSign SpecBudget.
From Verif Require Export DemoBudget.

(** 60 lamports per 10 slots for account 40, 30 lamports once for account 41, 300
    tokens per 10 slots for account 71 *)
Definition every_dest (d : key) (n : Z) : bytes := d ++ le_enc 8 n ++ le_enc 8 10 ++ le_enc 8 0 ++ le_enc 8 n.
Definition l9 : list action := [mk_action 17 (every_dest (K 40) 60); p_sol_dest (K 41) 30; mk_action 19 (MINT ++ every_dest (K 71) 300);
  p_program SYSTEM; p_program SPL_TOKEN].
Definition e_rent30 : event := Call (at_slot 30 [x_sol 60; x_token 300]).
Definition e_rent55 : event := Call (at_slot 55 [x_sol 20; x_token 200]).
Definition rents : list event := [e_rent30; e_rent55].
Lemma rents_clean : along toy (clean_event toy) (hired l9) rents.
Proof.
  change (along toy (clean_event toy) (run toy home [Call (c_plus 1 (K 13) l9)]) [e_rent30; e_rent55]).
  apply along_cons; [split; [apply call_proper; calc|apply framesb_ok; calc]|cbn [app]].
  apply along_cons; [split; [apply call_proper; calc|apply framesb_ok; calc]|exact I].
Qed.
Lemma rents_proper : along toy (proper_event toy) (hired l9) rents.
Proof. destruct rents_clean as ((P1 & _) & (P2 & _) & _). split; [exact P1|]. split; [exact P2|exact I]. Qed.
Lemma l9_dests : token_dests MINT (r6 l9).
Proof. exists (mk_action 19 (MINT ++ every_dest (K 71) 300)). split; [right; right; left; reflexivity|]. split; [right; reflexivity|calc]. Qed.
Definition begunb (S : Z) (l : list action) : bool :=
  forallb (fun a => (negb (ac_ty a =? 17) || (u64_at (lay_last SolRecDest) (ac_data a) <=? S))
                    && (negb (ac_ty a =? 19) || (u64_at (lay_last TokRecDest) (ac_data a) <=? S))) l.
Lemma begunb_ok S l : begunb S l = true -> begun S l.
Proof.
  intros H a I. unfold begunb in H. rewrite forallb_forall in H. specialize (H a I). apply andb_prop in H as (H1 & H2).
  split; intros T; rewrite T in *; [apply orb_prop in H1 as [H|H]|apply orb_prop in H2 as [H|H]]; try discriminate H; apply Z.leb_le, H.
Qed.
