(** * Properties C25-C29: spending limits.
    Vocabulary ([history], [replay], [spent_in], [one_shot], [aligned_windows],
    [rolling_windows], [scope_spec]) is in SpecLimits.v. *)
From Verif Require Import BaseFacts Limits SpecLimits LimitsFacts.

(** C25: one-shot limits bound lifetime spend. *)
Theorem C25_one_shot_limits :
  one_shot (fun d _ a => sol_limit_bytes d a) 8 0        (* SolLimit, StakeLimit *)
  /\ one_shot (fun d _ a => token_limit_bytes d a) 40 32   (* TokenLimit *)
  /\ one_shot (fun d _ a => sol_dest_bytes d a) 40 32      (* SolDestinationLimit *)
  /\ one_shot (fun d _ a => token_dest_bytes d a) 72 64.   (* TokenDestinationLimit *)
Proof. exact (conj one_shot_sol (conj one_shot_token (conj one_shot_sol_dest one_shot_token_dest))). Qed.
Print Assumptions C25_one_shot_limits.

Example C25_case :
  let h := [(5, 60); (6, 60); (9, 30); (9, 10)] in
  let d := le_enc 8 100 in
  all_bytes d /\ length d = 8%nat /\ history h
  /\ snd (replay (fun d _ a => sol_limit_bytes d a) d h) = [(5, 60); (9, 30); (9, 10)]
  /\ u64_at 0 (fst (replay (fun d _ a => sol_limit_bytes d a) d h)) = 0.
Proof. cbv zeta; concrete. Qed.

(** C26: recurring limits bound spend per window. *)
Theorem C26_recurring_limits :
  aligned_windows (accepted P_SolRecurringLimit) (fun d s a => sol_recurring_bytes d a s) SolRec
  /\ aligned_windows (accepted P_StakeRecurringLimit) (fun d s a => sol_recurring_bytes d a s) SolRec
  /\ aligned_windows (accepted P_TokenRecurringLimit) (fun d s a => token_recurring_bytes d a s) TokRec.
Proof.
  exact (conj (aligned_sol _ (or_introl eq_refl)) (conj (aligned_sol _ (or_intror eq_refl)) aligned_tok)).
Qed.
Print Assumptions C26_recurring_limits.

(** limit 100 per 50 slots, nothing spent, never refreshed *)
Definition rec_100_50 : bytes := le_enc 8 100 ++ le_enc 8 50 ++ le_enc 8 0 ++ le_enc 8 100.

Example C26_case :
  let h := [(60, 100); (99, 1); (120, 70); (130, 40); (130, 30)] in
  all_bytes rec_100_50 /\ accepted P_SolRecurringLimit rec_100_50 /\ 0 < u64_at 8 rec_100_50 /\ history h
  /\ snd (replay (fun d s a => sol_recurring_bytes d a s) rec_100_50 h) = [(60, 100); (120, 70); (130, 30)].
Proof. cbv zeta; concrete. Qed.

(** C27: the claim "at most the limit in any W consecutive slots" fails, and
    a zero window is accepted but makes every affordable charge abort. *)
Theorem C27_sliding_window_refuted :
  exists d h t, all_bytes d /\ accepted P_SolRecurringLimit d /\ 0 < u64_at 8 d /\ history h
  /\ spent_in t (t + u64_at 8 d) (snd (replay (fun d s a => sol_recurring_bytes d a s) d h))
     = 2 * u64_at 0 d
  /\ u64_at 0 d < 2 * u64_at 0 d.
Proof.
  exists rec_100_50, [(149, 100); (151, 100)], 148.
  concrete.
Qed.
Print Assumptions C27_sliding_window_refuted.

Theorem C27_zero_window_aborts : forall d slot a,
  all_bytes d -> accepted P_SolRecurringLimit d -> u64_at 8 d = 0 ->
  0 < slot -> a <= u64_at 0 d -> sol_recurring_bytes d a slot = Panic.
Proof. exact zero_window_sol. Qed.
Print Assumptions C27_zero_window_aborts.

Example C27_zero_window_case :
  let d := le_enc 8 100 ++ le_enc 8 0 ++ le_enc 8 0 ++ le_enc 8 100 in
  all_bytes d /\ accepted P_SolRecurringLimit d /\ u64_at 8 d = 0.
Proof. cbv zeta; concrete. Qed.

(** C28: recurring destination limits. *)
Theorem C28_recurring_destination_limits :
  rolling_windows (fun d s a => sol_rec_dest_bytes d a s) SolRecDest
  /\ rolling_windows (fun d s a => token_rec_dest_bytes d a s) TokRecDest.
Proof. exact (conj rolling_sol rolling_tok). Qed.
Print Assumptions C28_recurring_destination_limits.

(** destination (32 bytes), limit 100 per 50 slots, last refresh [l], all left *)
Definition dest_100_50 (l : Z) : bytes :=
  repeat 7 32 ++ le_enc 8 100 ++ le_enc 8 50 ++ le_enc 8 l ++ le_enc 8 100.

Example C28_case :
  let h := [(60, 100); (99, 1); (111, 70); (130, 40); (130, 29)] in
  all_bytes (dest_100_50 20) /\ accepted P_SolRecurringDestinationLimit (dest_100_50 20)
  /\ ordered_from 20 h
  /\ snd (replay (fun d s a => sol_rec_dest_bytes d a s) (dest_100_50 20) h)
     = [(60, 100); (99, 1); (111, 70); (130, 29)].
Proof. cbv zeta; concrete. Qed.

(** With a last refresh in the future, which validation accepts, the unsigned
    subtraction wraps and the allowance is refreshed immediately. *)
Theorem C28_future_refresh :
  future_refresh (fun d s a => sol_rec_dest_bytes d a s) SolRecDest
  /\ future_refresh (fun d s a => token_rec_dest_bytes d a s) TokRecDest.
Proof. exact (conj future_sol future_tok). Qed.
Print Assumptions C28_future_refresh.

(** So "nothing is spendable before the stored refresh slot when nothing is
    left" is false. *)
Theorem C28_not_before_refresh_refuted :
  exists d slot, all_bytes d /\ accepted P_SolRecurringDestinationLimit d
  /\ 0 <= slot < u64_at 48 d /\ u64_at 56 d = 0 /\ 0 < u64_at 32 d
  /\ is_ok (sol_rec_dest_bytes d (u64_at 32 d) slot) = true.
Proof.
  exists (repeat 7 32 ++ le_enc 8 100 ++ le_enc 8 50 ++ le_enc 8 5000 ++ le_enc 8 0), 1000. concrete.
Qed.
Print Assumptions C28_not_before_refresh_refuted.

(** C29: program-scope limits bound recorded spend. *)
Theorem C29_program_scope_limits : scope_spec (fun d s a => scope_bytes d a s).
Proof. exact scope_ok. Qed.
Print Assumptions C29_program_scope_limits.

Definition scope_payload (kind : Z) : bytes :=
  le_enc 16 0 ++ le_enc 16 100 ++ le_enc 8 50 ++ le_enc 8 0 ++ repeat 1 32 ++ repeat 2 32
  ++ le_enc 8 kind ++ le_enc 8 2 ++ le_enc 8 0 ++ le_enc 8 0.
Example C29_case :
  let h := [(60, 100); (99, 1); (120, 70)] in
  (forall k, In k [0; 1; 2] -> all_bytes (scope_payload k) /\ length (scope_payload k) = 144%nat
     /\ scope_kind (scope_payload k) = k) /\ history h
  /\ snd (replay (fun d s a => scope_bytes d a s) (scope_payload 1) h) = [(60, 100)]
  /\ snd (replay (fun d s a => scope_bytes d a s) (scope_payload 2) h) = [(60, 100); (120, 70)].
Proof.
  split; [|vm_compute; repeat split; discriminate].
  intros k [<-|[<-|[<-|[]]]]; concrete.
Qed.
