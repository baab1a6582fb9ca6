(** * What a limited role may call, and what its call may change in the
    configuration *)
From Verif Require Import BaseFacts SpecConfig ConfigFacts ConfigEdit ConfigEdit2 ConfigEdit3 LimitsFacts.
From Verif Require Export Spend FrameRO.

(** ** Counters *)
Lemma nth_skipn' {A} (d : A) n l i : nth i (skipn n l) d = nth (n + i) l d.
Proof. revert l. induction n as [|n IH]; intros [|x l]; cbn; try reflexivity; [destruct i; reflexivity|apply IH]. Qed.
Lemma perm_program q l : length q = 32%nat -> Forall wf_action l -> perm 3 q l = first_of 3 q l.
Proof.
  intros Q W. induction W as [|a t Wa Wt IH]; [reflexivity|]. cbn [perm first_of]. rewrite IH.
  destruct (ac_ty a =? 3) eqn:Ea; [|reflexivity]. cbn [andb]. apply Z.eqb_eq in Ea.
  assert (X : beq (target_of a) q = action_matches 3 q (ac_data a)); [|rewrite X; reflexivity].
  unfold target_of. rewrite Ea. cbn [Z.eqb Pos.eqb orb]. change (action_matches 3 q (ac_data a)) with ((32 <=? length q)%nat && beq (sub 0 32 q) (sub 0 32 (ac_data a))).
  replace (32 <=? length q)%nat with true by lia. cbn [andb]. unfold sub. cbn [skipn]. rewrite (firstn_all2 q) by lia. apply beq_sym.
Qed.
Lemma skipn_nth_eq {A} (d : A) n l l' : skipn n l' = skipn n l -> forall i, (n <= i)%nat -> nth i l' d = nth i l d.
Proof.
  intros Q i Hi. replace i with (n + (i - n))%nat by lia. rewrite <- !nth_skipn', Q. reflexivity.
Qed.
Lemma firstn_nth_eq {A} (d : A) n l l' : firstn n l' = firstn n l -> length l' = length l -> forall i, (i < n)%nat -> nth i l' d = nth i l d.
Proof.
  intros Q L i Hi.
  assert (K : forall (l0 : list A) n0 i0, (i0 < n0)%nat -> nth i0 (firstn n0 l0) d = nth i0 l0 d).
  { induction l0 as [|x l0 IH]; intros [|n0] [|i0] Hl; try lia; try reflexivity. cbn. apply IH. lia. }
  rewrite <- (K l' n i Hi), <- (K l n i Hi), Q. reflexivity.
Qed.
Lemma once_frame o p p' amt i : once o p p' amt -> ~ (o <= i < o + 8)%nat -> nth i p' 0 = nth i p 0.
Proof.
  intros (_ & _ & L & F & S) N. destruct (le_lt_dec o i) as [Hi|Hi].
  - eapply skipn_nth_eq; [exact S|lia].
  - eapply firstn_nth_eq; [exact F|exact L|exact Hi].
Qed.
Lemma terms_frame L p p' i : same_terms L p p' -> ~ (lay_last L <= i < lay_last L + 8)%nat -> ~ (lay_left L <= i < lay_left L + 8)%nat ->
  nth i p' 0 = nth i p 0.
Proof.
  intros (Ln & H) N1 N2. destruct (le_lt_dec (length p) i) as [Hi|Hi]; [rewrite !nth_overflow by lia; reflexivity|]. apply H; assumption.
Qed.
Lemma run_counters ty p amt slot p' : action_len ty = Some (length p) -> all_bytes p -> 0 <= amt -> 0 <= slot < U64 ->
  limit_run ty p amt slot = Ok p' -> forall i, ~ counter ty i -> nth i p' 0 = nth i p 0.
Proof.
  intros L B A S H i N. pose proof (limit_run_type _ _ _ _ _ H) as T. destruct (Z.eq_dec ty 4) as [->|N4].
  - change (limit_run 4 p amt slot) with (scope_bytes p amt slot) in H. unfold scope_bytes in H. bind_inv H. apply ok_inj in K. subst p'.
    change (action_len 4) with (Some 144%nat) in L. injection L as L. cbn [counter] in N.
    unfold set_u64. rewrite nth_splice; rewrite ?le_enc_length; try lia.
    + apply nth_splice; rewrite le_enc_length; lia.
    + rewrite splice_length; rewrite ?le_enc_length; lia.
  - pose proof (limit_takes ty p amt slot p' L B A S N4 H) as Tk. clear H. unfold limit_type in T. cbn [existsb] in T.
    split_types T;
    cbv [P_SolLimit P_SolRecurringLimit P_ProgramScope P_TokenLimit P_TokenRecurringLimit
      P_StakeLimit P_StakeRecurringLimit P_SolDestinationLimit P_SolRecurringDestinationLimit
      P_TokenDestinationLimit P_TokenRecurringDestinationLimit] in Tk, N, N4; cbn [takes counter] in Tk, N;
    try (eapply once_frame; [exact Tk|lia]); try (exfalso; apply N4; reflexivity).
    all: destruct Tk as [Tk _]; eapply terms_frame; [exact Tk| |]; cbn [lay_last lay_left SolRec TokRec SolRecDest TokRecDest]; lia.
Qed.
Lemma only_counters_refl l : Forall2 only_counters l l.
Proof. induction l; constructor; [repeat split|assumption]. Qed.
Lemma set_first_counters ty q p p' amt slot l0 l : Forall wf_action l -> Forall2 only_counters l0 l -> 0 <= amt -> 0 <= slot < U64 ->
  first_of ty q l = Some p -> limit_run ty p amt slot = Ok p' -> Forall2 only_counters l0 (set_first ty q p' l).
Proof.
  intros W H A S. revert W. induction H as [|a b t u H1 H2 IH]; cbn [first_of set_first]; [discriminate|].
  intros W. inversion W as [|? ? Wb Wu]; subst.
  destruct ((ac_ty b =? ty) && action_matches ty q (ac_data b)) eqn:E; intros Hf Hr.
  - constructor; [|exact H2]. injection Hf as <-. apply andb_prop in E as [E _]. apply Z.eqb_eq in E. subst ty.
    destruct H1 as (T & Ln & C). destruct Wb as (Wl & Wb).
    destruct (run_fixed _ _ _ _ _ Wl Wb Hr) as (L' & _).
    split; cbn [ac_ty ac_data]; [exact T|]. split; [congruence|]. intros i N.
    transitivity (nth i (ac_data b) 0); [|apply C; exact N].
    eapply run_counters; try eassumption. rewrite T. exact N.
  - constructor; [exact H1|]. apply IH; assumption.
Qed.
Lemma charges_counters slot l l' : charges slot l l' -> okl l -> 0 <= slot < U64 -> Forall2 only_counters l l'.
Proof.
  induction 1 as [l|l l1 l2 ty q amt H IH A C]; intros O S; [apply only_counters_refl|].
  destruct (charges_okl _ _ _ H O) as (O1 & _). specialize (IH O S). destruct O1 as ((_ & W & _) & _).
  unfold charge_a in C. destruct (first_of ty q l1) as [p|] eqn:Ef; [|discriminate].
  bind_inv C. apply ok_inj in K. injection K as <-. eapply set_first_counters; eassumption.
Qed.

(** ** Programs *)
Lemma run_inner_config E cx sk ps w x w' k : foreign_ok E -> a_owner (w k) = SELF -> ix_prog x <> SELF ->
  run_inner E cx sk ps w x = Ok w' -> kept w w' k.
Proof.
  intros F O N H. unfold run_inner in H. cbv zeta in H. peel H. destruct (_ && _ && _) in H.
  - peel H. apply move_lamports_keeps in H. apply H.
  - unfold invoke in H. peel H. apply beq_neq in N. rewrite N in H. destruct (F _ _ _ H k) as [F1 _]. apply F1. exact O.
Qed.
Lemma loop_allowed E cx swig wallet ps off n cur : foreign_ok E -> forall pre x post w sol cs w' sol' cs',
  limited_loop E cx swig wallet ps off n false cur (pre ++ x :: post) w sol cs = Ok (w', sol', cs') ->
  a_owner (w swig) = SELF -> Forall (fun y => ix_prog (in_ix y) <> SELF) pre -> in_uses x = true ->
  program_allowed cur (acts_now w swig off n) (ix_prog (in_ix x)) = Ok true.
Proof.
  intros F. induction pre as [|y pre IH]; intros x post w sol cs w' sol' cs' H O P U; cbn [app limited_loop] in H; cbv zeta in H.
  - rewrite U in H. cbn [negb andb] in H. bind_inv H. bind_inv B. apply check_ok in K0. subst v0. exact B0.
  - apply bind_ok in H as (u & _ & H). apply bind_ok in H as (w1 & R & H). apply bind_ok in H as (cs1 & _ & H).
    inversion P as [|? ? P1 P2]; subst. destruct (run_inner_config _ _ _ _ _ _ _ swig F O P1 R) as [D1 O1].
    apply IH in H; [|congruence|exact P2|exact U]. unfold acts_now in *. rewrite D1 in H. exact H.
Qed.

Section Rules.
Variables (E : env) (cx : ctx) (w w' : world) (s : config) (r : role).
Hypothesis (F : foreign_ok E) (G : good_world E w) (Ad : admissible E w (Call cx)).
Hypothesis (S : is_cfg (w (acct cx 0)) s) (T : tag (c_data cx) = 11) (H : succeeds E cx w w').
Hypothesis (Fr : find_role (actor_of (c_data cx)) s = Some r) (Lim : limited r).
Notation k0 := (acct cx 0).
Notation wal := (wallet_of cx).
Notation ms := (c_metas cx).

Theorem config_kept : 0 <= c_slot cx < U64 -> exists l',
  is_cfg (w' k0) (on_role (r_id r) (fun r0 => with_acts r0 l') (used (r_id r) s)) /\ Forall2 only_counters (r_acts r) l'.
Proof.
  intros Sl. destruct (whole E cx w w' s r F G Ad S T H Fr Lim) as (w0 & xs & cs & snaps & w1 & sol & cs1 & l' & O & Lr & C' & _).
  exists l'. split; [exact C'|]. destruct O as (_ & Wr & _). destruct Lr. eapply charges_counters; [eassumption|apply role_okl; exact Wr|exact Sl].
Qed.

Theorem programs_allowed : ~ holds 13 r -> exists xs,
  inner_ixs ms wal (inner_payload (c_data cx)) xs
  /\ forall pre x post, xs = pre ++ x :: post -> carries wal x ->
     allowed r (ix_prog x) \/ exists y, In y pre /\ ix_prog y = SELF.
Proof.
  intros N13. destruct (whole E cx w w' s r F G Ad S T H Fr Lim) as (w0 & xs & cs & snaps & w1 & sol & cs1 & l' & O & Lr & C' & _ & Ix).
  exists (map in_ix xs). split; [exact Ix|]. destruct O as (A & Wr & W1 & D0 & Lam0 & Hh & C0 & G0 & R0 & Px & Fx & Lx).
  destruct Lr as [Cs N0 N1 Sn (p & r1 & Hp & Ra & Lo) _ _ _ _ _ _ _ _ _ _].
  assert (Pa : has P_ProgramAll [] r = false).
  { apply Bool.not_true_is_false. intros Q. apply N13. apply has_holds in Q; [exact Q|]. intros q d. reflexivity. }
  rewrite Pa in Lo. cbn [negb andb] in Lo. intros pre x post Q (m & Im & Km & _).
  destruct (existsb (fun y => beq (ix_prog y) SELF) pre) eqn:Es.
  { right. apply existsb_exists in Es as (y & Iy & Qy). exists y. split; [exact Iy|apply beq_eq; exact Qy]. }
  left. apply map_eq_app in Q as (xs1 & xs2 & -> & Q1 & Q2). apply map_eq_cons in Q2 as (x0 & post0 & -> & Q2 & Q3).
  assert (Np : Forall (fun y => ix_prog (in_ix y) <> SELF) xs1).
  { apply Forall_forall. intros y Iy Qy. assert (X : existsb (fun y => beq (ix_prog y) SELF) pre = true); [|congruence].
    apply existsb_exists. exists (in_ix y). split; [rewrite <- Q1; apply in_map; exact Iy|apply beq_eq; exact Qy]. }
  assert (Us : in_uses x0 = true).
  { rewrite Forall_forall in Fx. destruct (Fx x0) as (_ & _ & U & _); [apply in_or_app; right; left; reflexivity|]. apply U.
    exists m. rewrite Q2. split; [exact Im|exact Km]. }
  pose proof C0 as (Ow & D & W). pose proof (loop_allowed _ _ _ _ _ _ _ _ F _ _ _ _ _ _ _ _ _ Lo Ow Np Us) as Al.
  assert (Acts : acts_now w0 (mkey ms 0) (HDR + p + POS + length (r_auth r1)) (acts_len (r_acts r)) = enc_actions 0 (r_acts r)).
  { unfold acts_now. rewrite D. rewrite <- Ra.
    apply (acts_in_config (used (r_id r) s) (r_id r) p r1 (r_acts r1) W Hp eq_refl eq_refl). rewrite Ra. apply Wr. }
  rewrite Acts in Al. unfold program_allowed in Al. rewrite Q2 in Al.
  destruct (has P_ProgramCurated [] r && is_curated (ix_prog x)) eqn:Cu.
  - right. apply andb_prop in Cu as [Cu1 Cu2]. split; [apply has_holds in Cu1; [exact Cu1|intros q d; reflexivity]|].
    unfold is_curated in Cu2. apply existsb_exists in Cu2 as (c & Ic & Qc). apply beq_eq in Qc. subst c. exact Ic.
  - left. rewrite has_mut_enc in Al by (apply role_okl; exact Wr). apply ok_inj in Al.
    assert (Lp : length (ix_prog x) = 32%nat).
    { rewrite Forall_forall in Fx. destruct (Fx x0) as (_ & (m0 & I0 & K0) & _); [apply in_or_app; right; left; reflexivity|].
      rewrite <- Q2, K0. pose proof Ad as ((_ & Hm) & _). rewrite Forall_forall in Hm. apply (Hm m0 I0). }
    destruct (role_okl _ Wr) as ((_ & Wa & _) & _).
    intros X. rewrite (perm_program _ _ Lp Wa) in X. change P_Program with 3 in Al. rewrite X in Al. discriminate.
Qed.
End Rules.
