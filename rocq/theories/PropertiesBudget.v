(** * What a role can take over a whole history.

    Vocabulary: [quiet], [along], [proper_event], [clean_event], [total],
    [sol_taken], [tokens_taken], [stakes_taken] (SpecBudget); [limited], [perm]
    (SpecSign); [holds] (SpecActs); [step], [run] and [admissible]
    (SpecHistory).  [foreign E] is any behaviour of the called programs. *)
From Verif Require Import SpecBudget Budget2 Budget3 DemoBudget.

(** ** C96: over any history, of any length and with any other calls in
    between, the calls signed as a role take no more out of the wallet than the
    one-time limit the role had at the beginning; what they took and what is left
    of the limit never add up to more than there was.  Only an UpdateAuthority
    of the role can raise the limit; the role may be removed and the wallet closed. *)
Theorem C96_lifetime_sol : forall E w es k i s r p, foreign_ok E -> hashes_ok E -> good_world E w -> along E (proper_event E) w es ->
  Forall (quiet k i) es -> is_cfg (w k) s -> find_role i s = Some r -> limited r -> perm 1 [] (r_acts r) = Some p ->
  total E (sol_taken E k i) w es <= u64_at 0 p
  /\ forall s' r', is_cfg (run E w es k) s' -> find_role i s' = Some r' ->
       exists p', perm 1 [] (r_acts r') = Some p' /\ total E (sol_taken E k i) w es + u64_at 0 p' <= u64_at 0 p.
Proof. exact sol_lifetime. Qed.
Print Assumptions C96_lifetime_sol.

(** the same for the tokens of one mint *)
Theorem C96_lifetime_tokens : forall E w es k i mint s r p, foreign_ok E -> hashes_ok E -> good_world E w -> along E (clean_event E) w es ->
  Forall (quiet k i) es -> is_cfg (w k) s -> find_role i s = Some r -> limited r -> length mint = 32%nat ->
  perm 5 mint (r_acts r) = Some p ->
  total E (tokens_taken E k i mint) w es <= u64_at 32 p
  /\ forall s' r', is_cfg (run E w es k) s' -> find_role i s' = Some r' ->
       exists p', perm 5 mint (r_acts r') = Some p' /\ total E (tokens_taken E k i mint) w es + u64_at 32 p' <= u64_at 32 p.
Proof. exact token_lifetime. Qed.
Print Assumptions C96_lifetime_tokens.

(** ... and for stake, for a role without permission for all stake *)
Theorem C96_lifetime_stake : forall E w es k i s r p, foreign_ok E -> hashes_ok E -> good_world E w -> along E (clean_event E) w es ->
  Forall (quiet k i) es -> is_cfg (w k) s -> find_role i s = Some r -> limited r -> ~ holds 12 r ->
  perm 10 [] (r_acts r) = Some p ->
  total E (stakes_taken E k i) w es <= u64_at 0 p
  /\ forall s' r', is_cfg (run E w es k) s' -> find_role i s' = Some r' ->
       exists p', perm 10 [] (r_acts r') = Some p' /\ total E (stakes_taken E k i) w es + u64_at 0 p' <= u64_at 0 p.
Proof. exact stake_lifetime. Qed.
Print Assumptions C96_lifetime_stake.

Example C96_case : let w := hired l6 in
  foreign_ok toy /\ hashes_ok toy /\ good_world toy w /\ along toy (proper_event toy) w days /\ along toy (clean_event toy) w days
  /\ Forall (quiet SWIG 6) days /\ is_cfg (w SWIG) (s_hired l6) /\ find_role 6 (s_hired l6) = Some (r6 l6)
  /\ limited (r6 l6) /\ ~ holds 12 (r6 l6) /\ length MINT = 32%nat
  /\ perm 1 [] (r_acts (r6 l6)) = Some (le_enc 8 100) /\ perm 5 MINT (r_acts (r6 l6)) = Some (MINT ++ le_enc 8 300)
  /\ perm 10 [] (r_acts (r6 l6)) = Some (le_enc 8 1000)
  /\ total toy (sol_taken toy SWIG 6) w days = 12 /\ total toy (tokens_taken toy SWIG 6 MINT) w days = 300
  /\ okb (process toy (by6 [x_token 1]) (run toy w days)) = false.
Proof.
  cbv zeta. split; [exact toy_foreign_ok|]. split; [exact toy_hashes|]. split; [unfold hired; signing|].
  split; [exact days_proper|]. split; [exact days_clean|]. split; [apply quietb_ok; calc|].
  unfold hired. signing; calc.
Qed.

(** ** C97: a limit that is renewed every window gives, over any history up to a
    slot [M], at most what is left of the current window plus the full amount for
    each window that begins until then *)
Theorem C97_windows_sol : forall E w es k i M s r p, foreign_ok E -> hashes_ok E -> good_world E w -> along E (proper_event E) w es ->
  Forall (quiet k i) es -> Forall (by_slot M) es -> is_cfg (w k) s -> find_role i s = Some r -> limited r ->
  perm 1 [] (r_acts r) = None -> perm 2 [] (r_acts r) = Some p -> 0 < u64_at (lay_window SolRec) p ->
  total E (sol_taken E k i) w es <= until M SolRec p
  /\ forall s' r', is_cfg (run E w es k) s' -> find_role i s' = Some r' ->
       exists p', perm 2 [] (r_acts r') = Some p' /\ total E (sol_taken E k i) w es + until M SolRec p' <= until M SolRec p.
Proof. exact sol_windows. Qed.
Print Assumptions C97_windows_sol.

Theorem C97_windows_tokens : forall E w es k i mint M s r p, foreign_ok E -> hashes_ok E -> good_world E w -> along E (clean_event E) w es ->
  Forall (quiet k i) es -> Forall (by_slot M) es -> is_cfg (w k) s -> find_role i s = Some r -> limited r -> length mint = 32%nat ->
  perm 5 mint (r_acts r) = None -> perm 6 mint (r_acts r) = Some p -> 0 < u64_at (lay_window TokRec) p ->
  total E (tokens_taken E k i mint) w es <= until M TokRec p
  /\ forall s' r', is_cfg (run E w es k) s' -> find_role i s' = Some r' ->
       exists p', perm 6 mint (r_acts r') = Some p' /\ total E (tokens_taken E k i mint) w es + until M TokRec p' <= until M TokRec p.
Proof. exact token_windows. Qed.
Print Assumptions C97_windows_tokens.

Theorem C97_windows_stake : forall E w es k i M s r p, foreign_ok E -> hashes_ok E -> good_world E w -> along E (clean_event E) w es ->
  Forall (quiet k i) es -> Forall (by_slot M) es -> is_cfg (w k) s -> find_role i s = Some r -> limited r -> ~ holds 12 r ->
  perm 10 [] (r_acts r) = None -> perm 11 [] (r_acts r) = Some p -> 0 < u64_at (lay_window SolRec) p ->
  total E (stakes_taken E k i) w es <= until M SolRec p
  /\ forall s' r', is_cfg (run E w es k) s' -> find_role i s' = Some r' ->
       exists p', perm 11 [] (r_acts r') = Some p' /\ total E (stakes_taken E k i) w es + until M SolRec p' <= until M SolRec p.
Proof. exact stake_windows. Qed.
Print Assumptions C97_windows_stake.

Example C97_case : let w := hired l7 in
  foreign_ok toy /\ hashes_ok toy /\ good_world toy w /\ along toy (proper_event toy) w weeks /\ along toy (clean_event toy) w weeks
  /\ Forall (quiet SWIG 6) weeks /\ Forall (by_slot 60) weeks /\ is_cfg (w SWIG) (s_hired l7) /\ find_role 6 (s_hired l7) = Some (r6 l7)
  /\ limited (r6 l7) /\ ~ holds 12 (r6 l7) /\ length MINT = 32%nat
  /\ perm 1 [] (r_acts (r6 l7)) = None /\ perm 2 [] (r_acts (r6 l7)) = Some (every 100)
  /\ perm 5 MINT (r_acts (r6 l7)) = None /\ perm 6 MINT (r_acts (r6 l7)) = Some (every_tok 300)
  /\ perm 10 [] (r_acts (r6 l7)) = None /\ perm 11 [] (r_acts (r6 l7)) = Some (every 1000)
  /\ u64_at (lay_window SolRec) (every 100) = 10 /\ u64_at (lay_window TokRec) (every_tok 300) = 10
  /\ until 60 SolRec (every 100) = 700 /\ total toy (sol_taken toy SWIG 6) w weeks = 160
  /\ total toy (tokens_taken toy SWIG 6 MINT) w weeks = 500
  /\ okb (process toy (at_slot 59 [x_sol 1]) (run toy w weeks)) = false /\ okb (process toy (at_slot 61 [x_sol 1]) (run toy w weeks)) = true.
Proof.
  cbv zeta. split; [exact toy_foreign_ok|]. split; [exact toy_hashes|]. split; [unfold hired; signing|].
  split; [exact weeks_proper|]. split; [exact weeks_clean|]. split; [apply quietb_ok; calc|].
  split; [repeat constructor; discriminate|]. unfold hired. signing; calc.
Qed.

(** ** C98: a role whose payments are limited per destination, each once, takes
    over any history no more than these limits add up to, whatever other
    allowances it has; what it took and what is left of them never add up to more
    than there was *)
Theorem C98_destinations_sol : forall E w es k i s r, foreign_ok E -> hashes_ok E -> good_world E w -> along E (proper_event E) w es ->
  Forall (quiet k i) es -> is_cfg (w k) s -> find_role i s = Some r -> limited r -> holds 16 r -> ~ holds 17 r ->
  total E (sol_taken E k i) w es <= dest_limits (r_acts r)
  /\ forall s' r', is_cfg (run E w es k) s' -> find_role i s' = Some r' ->
       total E (sol_taken E k i) w es + dest_limits (r_acts r') <= dest_limits (r_acts r).
Proof. exact sol_dest_lifetime. Qed.
Print Assumptions C98_destinations_sol.

Theorem C98_destinations_tokens : forall E w es k i mint s r, foreign_ok E -> hashes_ok E -> good_world E w -> along E (clean_event E) w es ->
  Forall (quiet k i) es -> is_cfg (w k) s -> find_role i s = Some r -> limited r -> length mint = 32%nat ->
  token_dests mint r -> ~ holds 19 r ->
  total E (tokens_taken E k i mint) w es <= token_dest_limits mint (r_acts r)
  /\ forall s' r', is_cfg (run E w es k) s' -> find_role i s' = Some r' ->
       total E (tokens_taken E k i mint) w es + token_dest_limits mint (r_acts r') <= token_dest_limits mint (r_acts r).
Proof. exact token_dest_lifetime. Qed.
Print Assumptions C98_destinations_tokens.

Example C98_case : let w := hired l8 in
  foreign_ok toy /\ hashes_ok toy /\ good_world toy w /\ along toy (proper_event toy) w gifts /\ along toy (clean_event toy) w gifts
  /\ token_dests MINT (r6 l8)
  /\ Forall (quiet SWIG 6) gifts /\ is_cfg (w SWIG) (s_hired l8) /\ find_role 6 (s_hired l8) = Some (r6 l8)
  /\ limited (r6 l8) /\ holds 16 (r6 l8) /\ ~ holds 17 (r6 l8) /\ ~ holds 19 (r6 l8) /\ length MINT = 32%nat
  /\ dest_limits (r_acts (r6 l8)) = 90 /\ token_dest_limits MINT (r_acts (r6 l8)) = 300
  /\ total toy (sol_taken toy SWIG 6) w gifts = 60 /\ total toy (tokens_taken toy SWIG 6 MINT) w gifts = 300
  /\ okb (process toy (by6 [x_token 1]) (run toy w gifts)) = false /\ okb (process toy (by6 [x_sol 1]) (run toy w gifts)) = false.
Proof.
  cbv zeta. split; [exact toy_foreign_ok|]. split; [exact toy_hashes|]. split; [unfold hired; signing|].
  split; [exact gifts_proper|]. split; [exact gifts_clean|]. split; [exact l8_dests|]. split; [apply quietb_ok; calc|].
  unfold hired. signing; calc.
Qed.
