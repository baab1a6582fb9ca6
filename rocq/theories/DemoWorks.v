(** * Cases for the theorems of PropertiesWorks *)
From Verif Require Import BaseFacts Parse SpecWorks ClientAuth Avail4 Avail5 Avail7 ClientWorks.
From Verif Require Export DemoClient DemoAvail DemoRent DemoSign.

Definition usualb (n : nat) (cx : ctx) (w : world) (s : config) : bool :=
  (n <=? length (c_metas cx))%nat && (length (c_metas cx) <=? 254)%nat && writable (c_metas cx) (acct cx 0)
  && forallb (fun m => ordinaryb w s (m_key m)) (tl (c_metas cx)).
Lemma usualb_ok n cx w s : usualb n cx w s = true -> usual_accounts n cx w s.
Proof.
  unfold usualb. rewrite !andb_true_iff. intros (((A & B) & C) & D). apply Nat.leb_le in A, B.
  split; [auto|]. split; [exact C|]. intros m I. rewrite forallb_forall in D. apply ordinaryb_ok, D, I.
Qed.
Definition fundedb (E : env) (cx : ctx) (w : world) (k p : key) (n : nat) : bool :=
  (0 <=? a_lamports (w k)) && (rent E n <? U64) && beq (a_owner (w p)) SYSTEM && (length (a_data (w p)) =? 0)%nat
  && (rent E n - a_lamports (w k) <=? a_lamports (w p)) && signer (c_metas cx) p && writable (c_metas cx) p.
Lemma fundedb_ok E cx w k p n : fundedb E cx w k p n = true -> funded E cx w k p n.
Proof.
  unfold fundedb. rewrite !andb_true_iff. intros ((((((A & B) & C) & D) & F) & G) & H). apply beq_eq in C. apply Nat.eqb_eq in D.
  apply Z.leb_le in A, F. apply Z.ltb_lt in B. split; [exact A|]. split; [exact B|]. intros _. split; [|auto].
  split; [exact C|]. split; [|exact F]. destruct (a_data (w p)); [reflexivity|discriminate D].
Qed.
Definition asksb (cx : ctx) (r : role) : bool :=
  (actor_of (c_data cx) =? r_id r)
  && okb ((if tag (c_data cx) =? 5 then authenticate else role_authenticate) toy cx (r_aty r) (r_auth r)
       (payload_of (c_data cx)) (signed_of (c_data cx))).
Lemma asksb_ok cx r o : asksb cx r = true -> order_of (c_data cx) = Some o -> asks toy cx r o.
Proof.
  intros H O. apply andb_prop in H as [A B]. apply Z.eqb_eq in A. split; [exact A|]. split; [exact O|]. unfold passes.
  destruct (_ toy cx _ _ _ _) as [a| |]; [exists a; reflexivity|discriminate B|discriminate B].
Qed.

(** The system program of the example pays *)
Lemma toy_pays : system_pays toy.
Proof.
  intros w x from to n (P1 & P2 & P3) G Un Nd (C1 & C2 & C3) Ub. cbn [payment ix_prog ix_metas ix_data map m_key] in P1, P2, P3, G.
  destruct x as [prog ms d]. cbn [ix_prog ix_metas ix_data] in *. subst prog d.
  inversion G as [|? m0 ? ? G0 G']; subst. inversion G' as [|? m1 ? ? G1 G'']; subst. inversion G''; subst.
  destruct G0 as (K0 & W0 & S0). destruct G1 as (K1 & W1 & _). cbn [m_key m_writable m_signer] in *.
  specialize (W0 eq_refl). specialize (W1 eq_refl). destruct (S0 eq_refl) as [[]|S0']. destruct (pay_data n Un) as (_ & D1 & D2).
  exists (put w (pay w from to n)). split.
  - cbn [foreign toy]. unfold sandboxed, toy_foreign. cbv zeta. cbn [meta_at ix_metas nth ix_prog ix_data].
    change (beq SYSTEM SYSTEM) with true. cbv iota. unfold meta_at. cbn [ix_metas nth]. rewrite S0', W0, W1, K0, K1, C1, C2, D1, D2, beq_refl. cbn [negb andb length Nat.eqb Z.eqb Pos.eqb].
    replace (n <=? a_lamports (w from)) with true by lia. cbn [ok_or bind].
    replace (forallb (permitted w) (pay w from to n)) with true; [reflexivity|]. symmetry. unfold pay.
    apply beq_neq in Nd. rewrite Nd. cbn [forallb permitted with_lamports a_owner a_data a_lamports]. rewrite C1. change (beq SYSTEM SELF) with false.
    cbn [negb andb]. destruct (beq (a_owner (w to)) SELF) eqn:Q; [|cbn; reflexivity]. rewrite beq_refl. unfold is_u64 in Un. cbn [andb].
    replace (_ <=? _) with true by lia. reflexivity.
  - unfold pay. pose proof (proj2 (beq_neq from to) Nd) as Nb. rewrite Nb. unfold put. cbn [fold_left fst snd].
    assert (F : forall k, upd (upd w from (with_lamports (w from) (a_lamports (w from) - n))) to (with_lamports (w to) (a_lamports (w to) + n)) k
       = if beq k to then with_lamports (w to) (a_lamports (w to) + n) else if beq k from then with_lamports (w from) (a_lamports (w from) - n) else w k) by reflexivity.
    split; [|split; [|split]].
    + rewrite F, Nb, beq_refl. reflexivity.
    + rewrite F, beq_refl. reflexivity.
    + intros k N1 N2. rewrite F. apply beq_neq in N1, N2. rewrite N1, N2. reflexivity.
    + intros k. rewrite F. destruct (beq k to) eqn:Q; [apply beq_eq in Q; subst; auto|]. destruct (beq k from) eqn:Q2; [apply beq_eq in Q2; subst; auto|auto].
Qed.

(** role 0 removes role 2; role 2 replaces the key of role 1 *)
Definition x_drop : ix := remove_ed SWIG (K 10) (K 10) 0 2.
Definition x_swap : ix := by_k1 toy k1_sign 20 1 [w_ SWIG] (replace_head 2 1 (K 33)) (replace_head 2 1 (K 33)).
Lemma x_swap_built : replace_k1 toy k1_sign 20 1 SWIG 2 1 (K 33) = Some x_swap.
Proof. reflexivity. Qed.
(** role 3 has opened a session for key 50, which pays *)
Definition sitting : world := run toy home [Call (post 30 x_open)].
Definition r3' := mk_role 3 2 (zeros 2) (K 12 ++ K 50 ++ le_enc 8 100 ++ le_enc 8 80) l3.
Definition s_sitting : config := mk_config 255 WID 6 254 (zeros 3) 0 [r0; r1; r2; r3'; r4; r5] None.
Lemma sitting_cfg : is_cfg (sitting SWIG) s_sitting.
Proof. unfold sitting, s_sitting. demo. Qed.
Lemma sitting_reach : reach toy genesis sitting.
Proof. unfold sitting. later; calc. Qed.
Lemma exempt_home : exempt toy (home SWIG).
Proof. apply Z.leb_le. calc. Qed.

Lemma inner_of ms sk payload (ys : list inner) xs : all_bytes payload -> parse_all ms sk payload = Ok ys -> map in_ix ys = xs -> inner_ixs ms sk payload xs.
Proof. intros B P <-. apply parse_all_inner; assumption. Qed.
Lemma full_inner : inner_ixs (c_metas (post 40 x_pay)) (acct (post 40 x_pay) 1)
  (packed [SWIG] [w_ SWIG; w_ WALLET; ros (K 50)] [pay_ix (K 40) 5]) [payment WALLET (K 40) 5].
Proof. eapply inner_of; [apply bytesb_ok; calc|calc|calc]. Qed.
Lemma limited_inner : inner_ixs (c_metas (post 30 x_k1)) (acct (post 30 x_k1) 1)
  (packed [SWIG] [w_ SWIG; w_ WALLET; SYS] [pay_ix (K 40) 5]) [payment WALLET (K 40) 5].
Proof. eapply inner_of; [apply bytesb_ok; calc|calc|calc]. Qed.
Lemma r2_limited : limited r2.
Proof. split; intros (a & I & T); cbn in I; repeat destruct I as [<-|I]; try contradiction; discriminate T. Qed.
Lemma r2_covered : sol_covered (post 30 x_k1) r2 [payment WALLET (K 40) 5] 5.
Proof.
  right. split; [intros p H; change (perm 1 [] (r_acts r2)) with (Some (le_enc 8 500)) in H; injection H as <-; apply Z.leb_le; calc|].
  split; [intros H; discriminate H|]. split.
  - intros [(a & I & T)|(a & I & T)]; cbn in I; repeat destruct I as [<-|I]; try contradiction; discriminate T.
  - intros _. left. discriminate.
Qed.
Lemma not_inb (k : key) l : existsb (beq k) l = false -> ~ In k l.
Proof.
  intros H I. assert (X : existsb (beq k) l = true) by (apply existsb_exists; exists k; split; [exact I|apply beq_refl]). congruence.
Qed.
Lemma no_tokens cx w : forallb (fun m => negb (is_token_program (a_owner (w (m_key m))))) (rest_of cx) = true ->
  forall m, In m (rest_of cx) -> ~ ours cx w (m_key m).
Proof. intros H m I (T & _). rewrite forallb_forall in H. specialize (H m I). rewrite T in H. discriminate H. Qed.
