(** * Examples for what a role takes over a history *)
From Verif Require Import BaseFacts SpecSign SpecBudget.
From Verif Require Export DemoSign.

(* role 6 takes 100 tokens, 5 lamports and 500 of the stake; role 0 replaces the
   key of role 2; role 6 takes 200 tokens and 7 lamports *)
Definition e_first : event := Call (by6 [x_token 100; x_sol 5; x_stake 4500]).
Definition e_between : event := Call (c_rotate 2 ([2] ++ K 60)).
Definition e_second : event := Call (by6 [x_token 200; x_sol 7]).
Definition days : list event := [e_first; e_between; e_second].
Definition e_hire : event := Call (c_plus 1 (K 13) l6).

Lemma along_cons E (P : world -> event -> Prop) w0 es0 e t : P (run E w0 es0) e -> along E P (run E w0 (es0 ++ [e])) t -> along E P (run E w0 es0) (e :: t).
Proof. unfold run. rewrite fold_left_app. cbn [fold_left]. intros H1 H2. split; assumption. Qed.
Lemma call_proper es cx : (length es <=? 50)%nat = true -> playable toy home es = true -> eventb toy (run toy home es) (Call cx) = true ->
  (0 <=? c_slot cx) && (c_slot cx <? U64) && saneb cx (run toy home es) && saneb cx (step toy (run toy home es) (Call cx)) = true ->
  proper_event toy (run toy home es) (Call cx).
Proof.
  intros L P V H. apply andb_prop in H as (H & H3). apply andb_prop in H as (H & H2). split; [apply later_admissible; assumption|].
  split; [lia|]. split; apply saneb_ok; assumption.
Qed.
Lemma days_clean : along toy (clean_event toy) (hired l6) days.
Proof.
  change (along toy (clean_event toy) (run toy home [e_hire]) [e_first; e_between; e_second]).
  apply along_cons; [split; [apply call_proper; calc|apply framesb_ok; calc]|cbn [app]].
  apply along_cons; [split; [apply call_proper; calc|apply framesb_ok; calc]|cbn [app]].
  apply along_cons; [split; [apply call_proper; calc|apply framesb_ok; calc]|exact I].
Qed.
Lemma days_proper : along toy (proper_event toy) (hired l6) days.
Proof. destruct days_clean as ((P1 & _) & (P2 & _) & (P3 & _) & _). split; [exact P1|]. split; [exact P2|]. split; [exact P3|exact I]. Qed.
Definition quietb (k : key) (i : Z) (e : event) : bool :=
  match e with
  | Call cx => negb (beq (acct cx 0) k && (tag (c_data cx) =? 3) && (u32_at 12 (c_data cx) =? i))
               && negb (existsb (beq SELF) (map m_key (c_metas cx)))
  | Other _ => true
  end.
Lemma quietb_ok k i es : forallb (quietb k i) es = true -> Forall (quiet k i) es.
Proof.
  intros H. apply Forall_forall. intros e I. rewrite forallb_forall in H. specialize (H e I). destruct e as [cx|x]; [|exact Logic.I].
  unfold quietb in H. apply andb_prop in H as (H1 & H2). apply Bool.negb_true_iff in H1, H2. split.
  - intros (A & B & C). rewrite A, B, C, beq_refl, !Z.eqb_refl in H1. discriminate.
  - intros N. assert (existsb (beq SELF) (map m_key (c_metas cx)) = true); [|congruence].
    apply existsb_exists. exists SELF. split; [exact N|apply beq_refl].
Qed.

(** ** Limits that are renewed every 10 slots: 100 lamports, 300 tokens, 1000 of the stake *)
Definition every (n : Z) : bytes := le_enc 8 n ++ le_enc 8 10 ++ le_enc 8 0 ++ le_enc 8 n.
Definition every_tok (n : Z) : bytes := MINT ++ le_enc 8 10 ++ le_enc 8 n ++ le_enc 8 n ++ le_enc 8 0.
Definition l7 : list action := [mk_action 2 (every 100); mk_action 6 (every_tok 300); mk_action 11 (every 1000);
  p_program SYSTEM; p_program SPL_TOKEN; p_program STAKING].
Definition at_slot (n : Z) (xs : list cix) : ctx := call n ms6 (d_sign 6 (into_bytes xs) ++ ed 2).
Definition e_slot30 : event := Call (at_slot 30 [x_sol 60; x_token 300; x_stake 4500]).
Definition e_slot55 : event := Call (at_slot 55 [x_sol 100; x_token 200]).
Definition weeks : list event := [e_slot30; e_slot55].
Lemma weeks_clean : along toy (clean_event toy) (hired l7) weeks.
Proof.
  change (along toy (clean_event toy) (run toy home [Call (c_plus 1 (K 13) l7)]) [e_slot30; e_slot55]).
  apply along_cons; [split; [apply call_proper; calc|apply framesb_ok; calc]|cbn [app]].
  apply along_cons; [split; [apply call_proper; calc|apply framesb_ok; calc]|exact I].
Qed.
Lemma weeks_proper : along toy (proper_event toy) (hired l7) weeks.
Proof. destruct weeks_clean as ((P1 & _) & (P2 & _) & _). split; [exact P1|]. split; [exact P2|exact I]. Qed.

(** ** Limits per destination: 60 lamports for account 40, 30 for account 41, 300
    tokens for account 71 *)
Definition l8 : list action := [p_sol_dest (K 40) 60; p_sol_dest (K 41) 30; mk_action 18 (MINT ++ K 71 ++ le_enc 8 300);
  p_program SYSTEM; p_program SPL_TOKEN].
Definition e_gift : event := Call (by6 [x_sol 5; x_token 100]).
Definition e_gift2 : event := Call (by6 [x_token 200; x_sol 55]).
Definition gifts : list event := [e_gift; e_gift2].
Lemma gifts_clean : along toy (clean_event toy) (hired l8) gifts.
Proof.
  change (along toy (clean_event toy) (run toy home [Call (c_plus 1 (K 13) l8)]) [e_gift; e_gift2]).
  apply along_cons; [split; [apply call_proper; calc|apply framesb_ok; calc]|cbn [app]].
  apply along_cons; [split; [apply call_proper; calc|apply framesb_ok; calc]|exact I].
Qed.
Lemma gifts_proper : along toy (proper_event toy) (hired l8) gifts.
Proof. destruct gifts_clean as ((P1 & _) & (P2 & _) & _). split; [exact P1|]. split; [exact P2|exact I]. Qed.
Lemma l8_dests : token_dests MINT (r6 l8).
Proof. exists (mk_action 18 (MINT ++ K 71 ++ le_enc 8 300)). split; [right; right; left; reflexivity|]. split; [left; reflexivity|calc]. Qed.
