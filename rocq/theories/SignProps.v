(** * Consequences of the spending theorems, in the form of the properties *)
From Verif Require Import BaseFacts SpecSign Settle History Ledger SignLimited Spend SignRules Roundtrip Parse AllRun.

Section SignProps.
Variables (E : env) (cx : ctx) (w w' : world) (s : config) (r : role).
Hypothesis (F : foreign_ok E) (G : good_world E w) (Ad : admissible E w (Call cx)) (S : is_cfg (w (acct cx 0)) s)
  (T : tag (c_data cx) = 11) (H : succeeds E cx w w') (Fr : find_role (actor_of (c_data cx)) s = Some r) (Lim : limited r)
  (Sl : 0 <= c_slot cx < U64) (Sw : sane cx w) (Sw' : sane cx w').
Notation wal := (wallet_of cx).

Lemma perm_holds ty q l d : perm ty q l = Some d -> exists a, In a l /\ ac_ty a = ty.
Proof.
  induction l as [|a t IH]; cbn [perm]; [discriminate|]. destruct ((ac_ty a =? ty) && beq (target_of a) q) eqn:Q.
  - intros _. exists a. apply andb_prop in Q as [Q _]. split; [left; reflexivity|lia].
  - intros X. destruct (IH X) as (b & I & Y). exists b. split; [right; exact I|exact Y].
Qed.
Lemma pays_holds ty q slot l r' : pays ty q slot l r r' -> holds ty r.
Proof. intros (p & p' & P & _). apply perm_holds in P. exact P. Qed.

Theorem sol_bound : exists s' r' xs ws, is_cfg (w' (acct cx 0)) s' /\ find_role (r_id r) s' = Some r'
  /\ inner_ixs (c_metas cx) wal (inner_payload (c_data cx)) xs /\ course E cx w w' xs ws
  /\ let spent := capped (falls (lamports_of wal) (a_lamports (w wal)) ws) in
  0 <= spent /\ a_lamports (w wal) - a_lamports (w' wal) <= spent
  /\ rent E (length (a_data (w' wal))) <= a_lamports (w' wal)
  /\ (spent = 0 \/ pays_either 1 2 [] (c_slot cx) [spent] r r' \/ lacks [1; 2] [] r /\ (holds 16 r \/ holds 17 r)).
Proof.
  destruct (sol_spend E cx w w' s r F G Ad S T H Fr Lim Sl Sw Sw') as (s' & r' & xs & ws & sp & A1 & A2 & A3 & (A & ->) & A4 & A5 & A6 & A7 & A8).
  exists s', r', xs, ws. exact (conj A1 (conj A2 (conj A3 (conj A (conj A4 (conj A5 (conj A6 A7))))))).
Qed.
Theorem sol_none : ~ holds 1 r -> ~ holds 2 r -> ~ holds 16 r -> ~ holds 17 r -> a_lamports (w wal) <= a_lamports (w' wal).
Proof.
  intros N1 N2 N16 N17. destruct sol_bound as (s' & r' & xs & ws & _ & _ & _ & _ & _ & D & _ & [Q|[[P|[_ P]]|[_ [P|P]]]]); try contradiction; [cbv zeta in D; lia|..];
    apply pays_holds in P; contradiction.
Qed.
(** the largest amount the role can take at the moment of the call *)
Theorem sol_once : forall p, perm 1 [] (r_acts r) = Some p -> exists s' r' p' xs ws,
  is_cfg (w' (acct cx 0)) s' /\ find_role (r_id r) s' = Some r' /\ perm 1 [] (r_acts r') = Some p'
  /\ inner_ixs (c_metas cx) wal (inner_payload (c_data cx)) xs /\ course E cx w w' xs ws
  /\ let spent := capped (falls (lamports_of wal) (a_lamports (w wal)) ws) in
  a_lamports (w wal) - a_lamports (w' wal) <= spent /\ spent <= u64_at 0 p
  /\ (0 < spent -> u64_at 0 p' = u64_at 0 p - spent).
Proof.
  intros p P. destruct sol_bound as (s' & r' & xs & ws & A1 & A2 & Ix & Crs & A3 & A4 & _ & A5). cbv zeta.
  set (sp := capped _) in *.
  destruct (wf_find _ _ _ (proj2 (proj2 S)) Fr) as (_ & _ & _ & _ & _ & (_ & Wa & _)).
  assert (U : 0 <= u64_at 0 p).
  { clear - P Wa. induction (r_acts r) as [|a t IH]; cbn [perm] in P; [discriminate|]. inversion Wa; subst.
    destruct (_ && _); [|exact (IH P H2)]. injection P as <-. apply u64_range. apply H1. }
  assert (X : sp = 0 \/ exists p', perm 1 [] (r_acts r') = Some p' /\ sp <= u64_at 0 p /\ u64_at 0 p' = u64_at 0 p - sp).
  { destruct A5 as [A5|[A5|(A5 & _)]]; [left; exact A5| |].
    - right. destruct A5 as [(q & q' & Q & Q' & D)|(Q & _)]; [|congruence]. assert (q = p) by congruence. subst q.
      inversion D as [|am rr x p1 y _ Tk Dr]; subst. inversion Dr; subst. cbn in Tk. destruct Tk as (T1 & T2 & _).
      exists q'. auto.
    - specialize (A5 1 ltac:(left; reflexivity)). congruence. }
  destruct X as [X|(p' & X1 & X2 & X3)].
  - destruct (config_kept E cx w w' s r F G Ad S T H Fr Lim Sl) as (l' & C' & O).
    assert (Q : exists p', perm 1 [] l' = Some p').
    { clear - O P. revert P. induction O as [|a b ta tb (B1 & B2 & B3) _ IH]; cbn [perm]; [discriminate|].
      rewrite B1. unfold target_of. rewrite B1. destruct (ac_ty a =? 1) eqn:Ty; cbn [andb]; [|exact IH].
      apply Z.eqb_eq in Ty. rewrite Ty. cbn. intros _. eexists; reflexivity. }
    destruct Q as (p' & Q). assert (s' = on_role (r_id r) (fun r0 => with_acts r0 l') (used (r_id r) s)) as -> by (eapply is_cfg_inj; eassumption).
    exists (on_role (r_id r) (fun r0 => with_acts r0 l') (used (r_id r) s)), r', p', xs, ws.
    split; [exact A1|]. split; [exact A2|]. split; [|split; [exact Ix|]; split; [exact Crs|]; lia].
    rewrite find_role_on in A2 by reflexivity.
    destruct (find_role (r_id r) (used (r_id r) s)) as [ru|] eqn:Fu; [|discriminate]. cbn [option_map] in A2. injection A2 as <-. destruct (r_id ru =? r_id r) eqn:Z0; [exact Q|].
    apply find_some in Fu as [_ Fu]. cbv beta in Fu. congruence.
  - exists s', r', p', xs, ws. split; [exact A1|]. split; [exact A2|]. split; [exact X1|]. split; [exact Ix|]. split; [exact Crs|]. lia.
Qed.
Theorem sol_destinations : holds 16 r \/ holds 17 r -> exists s' r' xs ws,
  is_cfg (w' (acct cx 0)) s' /\ find_role (r_id r) s' = Some r' /\ inner_ixs (c_metas cx) wal (inner_payload (c_data cx)) xs
  /\ course E cx w w' xs ws
  /\ let spent := capped (falls (lamports_of wal) (a_lamports (w wal)) ws) in
  0 <= spent /\ a_lamports (w wal) - a_lamports (w' wal) <= spent
  /\ (spent = 0
      \/ let ts := outs (sol_out wal) xs in
         ts <> [] /\ sum (map snd ts) = spent /\ forall k, In k (map fst ts) -> pays_either 17 16 k (c_slot cx) (to k ts) r r').
Proof.
  intros D. destruct (sol_spend E cx w w' s r F G Ad S T H Fr Lim Sl Sw Sw') as (s' & r' & xs & ws & sp & A1 & A2 & A3 & (A & ->) & A4 & A5 & A6 & A7 & A8).
  exists s', r', xs, ws. split; [exact A1|]. split; [exact A2|]. split; [exact A3|]. split; [exact A|]. split; [exact A4|]. split; [exact A5|].
  destruct A8 as [A8|[(X & Y)|A8]]; [left; exact A8| |right; exact A8]. destruct D; contradiction.
Qed.
End SignProps.

Lemma failed_nothing E cx w : (forall w', ~ succeeds E cx w w') -> run E w [Call cx] = w.
Proof. intros H. cbn [run fold_left step]. destruct (process E cx w) as [w'| |] eqn:P; try reflexivity. destruct (H w' P). Qed.
