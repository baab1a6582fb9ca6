(** * Property theorem: limits on a field of another program's account (C37)

    Vocabulary (SpecScope): [scope_reads p k] reads the number that the program
    scope [p] is about in the account [k]; [scope_charged]: an amount was charged
    to the scope; [listed_once]: the account is given once.  [falls], [course],
    [perm], [limited] as in SpecSign. *)
From Verif Require Import Scope DemoScope.

(** The role's scope on an account is charged with everything by which the number
    falls in the inner instructions, if no other role of the wallet has a scope on
    the account and the call gives no way to call the wallet program itself.  Nothing
    else in the account changes. *)
Theorem C37_own_scope : forall E cx w w' s r m p, foreign_ok E -> good_world E w -> admissible E w (Call cx) ->
  is_cfg (w (acct cx 0)) s -> tag (c_data cx) = 11 -> succeeds E cx w w' ->
  find_role (actor_of (c_data cx)) s = Some r -> limited r ->
  0 <= c_slot cx < U64 -> sane cx w -> sane cx w' -> listed_once cx m -> m_writable m = true -> let k := m_key m in
  a_owner (w k) <> SELF -> a_owner (w k) <> STAKING -> is_token_program (a_owner (w k)) = false ->
  perm 4 k (r_acts r) = Some p -> u64_at 112 p = 1 \/ u64_at 112 p = 2 ->
  (forall r', In r' (s_roles s) -> r_id r' <> r_id r -> perm 4 k (r_acts r') = None) ->
  ~ In SELF (map m_key (c_metas cx)) -> ~ collision E (scope_frame p (w k)) (scope_frame p (w' k)) ->
  exists s' r' p' xs ws b b',
  is_cfg (w' (acct cx 0)) s' /\ find_role (r_id r) s' = Some r' /\ inner_ixs (c_metas cx) (acct cx 1) (inner_payload (c_data cx)) xs
  /\ course E cx w w' xs ws
  /\ scope_reads p k w = Some b /\ scope_reads p k w' = Some b'
  /\ (let x := capped128 (falls (scope_reads p k) b ws) in
      b - b' <= x /\ perm 4 k (r_acts r') = Some p' /\ ((x = 0 /\ p' = p) \/ (0 < x /\ scope_charged (c_slot cx) p p' x)))
  /\ a_owner (w' k) = a_owner (w k)
  /\ firstn (scope_from p) (a_data (w' k)) = firstn (scope_from p) (a_data (w k))
  /\ skipn (scope_to p) (a_data (w' k)) = skipn (scope_to p) (a_data (w k)).
Proof. exact scope_spend. Qed.
Print Assumptions C37_own_scope.

(** the number goes from 777 to 740, to 760, and to 697: 100 are charged to the limit
    of 100; one more is refused *)
Example C37_case : let w := run toy home [Call c_scoped] in
  let cx := scoped_by 6 [740; 760; 697] in let w' := run toy w [Call cx] in let m := rw (K 85) in
  let r := mk_role 6 1 (zeros 2) (K 14) [p_program (K 86); p_scope 1 100] in let p := ac_data (p_scope 1 100) in
  let s := mk_config 255 WID 7 254 (zeros 3) 0 [r0; r1; r2; r3; r4; r5; r] None in
  foreign_ok toy /\ good_world toy w /\ admissible toy w (Call cx) /\ is_cfg (w (acct cx 0)) s
  /\ tag (c_data cx) = 11 /\ succeeds toy cx w w' /\ find_role (actor_of (c_data cx)) s = Some r /\ limited r
  /\ 0 <= c_slot cx < U64 /\ sane cx w /\ sane cx w' /\ listed_once cx m /\ m_writable m = true
  /\ a_owner (w (m_key m)) <> SELF /\ a_owner (w (m_key m)) <> STAKING /\ is_token_program (a_owner (w (m_key m))) = false
  /\ perm 4 (m_key m) (r_acts r) = Some p /\ u64_at 112 p = 1
  /\ (forall r', In r' (s_roles s) -> r_id r' <> r_id r -> perm 4 (m_key m) (r_acts r') = None)
  /\ ~ In SELF (map m_key (c_metas cx))
  /\ ~ collision toy (scope_frame p (w (m_key m))) (scope_frame p (w' (m_key m)))
  /\ scope_reads p (m_key m) w = Some 777 /\ scope_reads p (m_key m) w' = Some 697
  /\ okb (process toy (scoped_by 6 [740; 760; 696]) w) = false.
Proof.
  cbv zeta. signing; try match goal with
  | |- listed_once _ _ => eapply once_fifth; [reflexivity|calc]
  | |- forall _, _ => apply others_none; calc
  | |- ~ In _ _ => apply not_listed; calc
  | |- ~ collision _ _ _ => apply same_frame; calc
  | |- _ <> _ => apply beq_neq; calc
  end; calc.
Qed.
