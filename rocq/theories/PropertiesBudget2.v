(** * What a role can take over a whole history: all limits per destination.

    Vocabulary: [quiet], [by_slot], [in_order], [begun], [dest_total],
    [token_dest_total], [rolls], [along], [total], [sol_taken], [tokens_taken]
    (SpecBudget); [limited], [token_dests] (SpecSign); [holds] (SpecActs).
    [foreign E] is any behaviour of the called programs. *)
From Verif Require Import SpecBudget Budget5 DemoBudget2.

(** ** C100: a role whose payments are limited per destination, by one-time limits
    and by limits that are renewed, takes over any history of calls with
    non-decreasing slots up to [M] no more than the one-time limits, what is left
    of the renewed ones, and the full amount of each of these for each time its
    window (and a slot more) fits until [M].  What it took and what may still come
    never add up to more than there was. *)
Theorem C100_destinations_sol : forall E w es k i M S s r, foreign_ok E -> hashes_ok E -> good_world E w -> along E (proper_event E) w es ->
  Forall (quiet k i) es -> Forall (by_slot M) es -> in_order S es -> is_cfg (w k) s -> find_role i s = Some r -> limited r ->
  holds 16 r \/ holds 17 r -> begun S (r_acts r) ->
  total E (sol_taken E k i) w es <= dest_total M (r_acts r)
  /\ forall s' r', is_cfg (run E w es k) s' -> find_role i s' = Some r' ->
       total E (sol_taken E k i) w es + dest_total M (r_acts r') <= dest_total M (r_acts r).
Proof. exact sol_dest_rates. Qed.
Print Assumptions C100_destinations_sol.

Theorem C100_destinations_tokens : forall E w es k i M S mint s r, foreign_ok E -> hashes_ok E -> good_world E w -> along E (clean_event E) w es ->
  Forall (quiet k i) es -> Forall (by_slot M) es -> in_order S es -> is_cfg (w k) s -> find_role i s = Some r -> limited r ->
  length mint = 32%nat -> token_dests mint r -> begun S (r_acts r) ->
  total E (tokens_taken E k i mint) w es <= token_dest_total M mint (r_acts r)
  /\ forall s' r', is_cfg (run E w es k) s' -> find_role i s' = Some r' ->
       total E (tokens_taken E k i mint) w es + token_dest_total M mint (r_acts r') <= token_dest_total M mint (r_acts r).
Proof. exact token_dest_rates. Qed.
Print Assumptions C100_destinations_tokens.

Example C100_case : let w := hired l9 in
  foreign_ok toy /\ hashes_ok toy /\ good_world toy w /\ along toy (proper_event toy) w rents /\ along toy (clean_event toy) w rents
  /\ token_dests MINT (r6 l9) /\ begun 0 (r_acts (r6 l9)) /\ in_order 0 rents
  /\ Forall (quiet SWIG 6) rents /\ Forall (by_slot 60) rents /\ is_cfg (w SWIG) (s_hired l9) /\ find_role 6 (s_hired l9) = Some (r6 l9)
  /\ limited (r6 l9) /\ holds 17 (r6 l9) /\ length MINT = 32%nat
  /\ dest_total 60 (r_acts (r6 l9)) = 390 /\ token_dest_total 60 MINT (r_acts (r6 l9)) = 1800
  /\ total toy (sol_taken toy SWIG 6) w rents = 80 /\ total toy (tokens_taken toy SWIG 6 MINT) w rents = 500
  /\ okb (process toy (at_slot 59 [x_sol 41]) (run toy w rents)) = false /\ okb (process toy (at_slot 66 [x_sol 41]) (run toy w rents)) = true.
Proof.
  cbv zeta. split; [exact toy_foreign_ok|]. split; [exact toy_hashes|]. split; [unfold hired; signing|].
  split; [exact rents_proper|]. split; [exact rents_clean|]. split; [exact l9_dests|]. split; [apply begunb_ok; calc|].
  split; [repeat split; discriminate|]. split; [apply quietb_ok; calc|].
  split; [repeat constructor; discriminate|]. unfold hired. signing; calc.
Qed.
