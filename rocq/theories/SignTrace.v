(** * The signing instructions are sequences of specified changes *)
From Verif Require Import BaseFacts SpecConfig ConfigFacts ConfigEdit ConfigEdit2 ConfigEdit3.
From Verif Require Export World3.

(** ** Parsed inner instructions *)
Definition from_outer (ms : list meta) (sk : key) (m' : meta) : Prop :=
  exists m, In m ms /\ m_key m' = m_key m /\ m_writable m' = m_writable m
            /\ m_signer m' = beq (m_key m) sk || m_signer m.
Lemma parse_accts_ok ms sk n l ims u r : parse_accts ms sk n l = Ok (ims, u, r) ->
  Forall (from_outer ms sk) ims /\ length ims = n
  /\ (u = true <-> exists m, In m ims /\ m_key m = sk)
  /\ (exists idx, length idx = n /\ l = idx ++ r).
Proof.
  revert l ims u r; induction n as [|n IH]; intros l ims u r H; cbn [parse_accts] in H.
  - apply ok_inj in H. injection H as <- <- <-. split; [constructor|]. split; [reflexivity|].
    split; [split; [discriminate|intros (m & [] & _)]|]. exists []. split; reflexivity.
  - destruct l as [|i l]; [discriminate|]. bind_inv H. apply ok_or_ok in B. bind_inv K.
    destruct v0 as [[ims' u'] r']. apply ok_inj in K0. injection K0 as <- <- <-.
    apply IH in B0 as (F & L & U & (idx & Li & E)). apply nth_error_In in B.
    split; [constructor; [|exact F]; exists v; auto|]. split; [cbn; lia|].
    split.
    + rewrite orb_true_iff, U. split.
      * intros [H|(m & H1 & H2)]; [|exists m; split; [right; exact H1|exact H2]].
        apply andb_prop in H as [_ H]. apply beq_eq in H. eexists. split; [left; reflexivity|exact H].
      * intros (m & [<-|H1] & H2); [left|right; exists m; auto]. cbn in H2. rewrite H2, beq_refl. reflexivity.
    + exists (i :: idx). cbn. split; [lia|]. rewrite E. reflexivity.
Qed.
Definition from_outer_ix (ms : list meta) (sk : key) (x : inner) : Prop :=
  Forall (from_outer ms sk) (ix_metas (in_ix x)) /\ (exists m, In m ms /\ ix_prog (in_ix x) = m_key m)
  /\ (in_uses x = true <-> exists m, In m (ix_metas (in_ix x)) /\ m_key m = sk) /\ inner_ok x.
Lemma parse_one_ok ms sk l x r : all_bytes l -> parse_one ms sk l = Ok (x, r) -> from_outer_ix ms sk x /\ all_bytes r.
Proof.
  intros Hb H. unfold parse_one in H. destruct l as [|p l]; [discriminate|]. bind_inv H. apply ok_or_ok in B.
  destruct l as [|n l]; [discriminate|]. bind_inv K. destruct v0 as [[ims u] r2]. peel K0. apply ok_inj in K0.
  apply pair_equal_spec in K0 as [<- <-]. apply parse_accts_ok in B0 as (F & L & U & (idx & Li & E)). apply nth_error_In in B.
  assert (Hr : all_bytes r2). { inversion Hb as [|? ? _ H1]; subst. inversion H1 as [|? ? _ H2]; subst. apply all_bytes_app in H2. apply H2. }
  split; [|apply all_bytes_skipn, all_bytes_skipn; exact Hr].
  split; [exact F|]. split; [exists v; auto|]. split; [exact U|]. unfold inner_ok. cbn [in_ix ix_data]. apply all_bytes_firstn, all_bytes_skipn, Hr.
Qed.
Lemma parse_n_ok ms sk n l xs : all_bytes l -> parse_n ms sk n l = Ok xs -> Forall (from_outer_ix ms sk) xs /\ length xs = n.
Proof.
  revert l xs; induction n as [|n IH]; intros l xs Hb H; cbn [parse_n] in H.
  - apply ok_inj in H. subst. split; [constructor|reflexivity].
  - bind_inv H. destruct v as [x r]. bind_inv K. apply ok_inj in K0. subst xs.
    apply parse_one_ok in B as [B1 B2]; [|exact Hb]. apply IH in B0 as [F L]; [|exact B2].
    split; [constructor; assumption|cbn; lia].
Qed.
Lemma parse_all_ok ms sk l xs : all_bytes l -> parse_all ms sk l = Ok xs ->
  Forall (from_outer_ix ms sk) xs /\ (length xs <= 255)%nat.
Proof.
  intros Hb H. unfold parse_all in H. destruct l as [|n l]; [discriminate|]. inversion Hb as [|? ? Hn Hl]; subst.
  apply parse_n_ok in H as [F L]; [|exact Hl]. split; [exact F|]. unfold nat_of in L. unfold is_byte in Hn. lia.
Qed.
Lemma from_outer_inner ms sk xs : Forall (from_outer_ix ms sk) xs -> Forall inner_ok xs.
Proof. apply Forall_impl. intros x (_ & _ & _ & H). exact H. Qed.

(** ** Running them *)
Section Run.
Variables (E : env) (cx : ctx) (sk : key) (sd : list bytes).
Hypothesis (F : foreign_ok E) (Hc : wf_ctx cx) (Hsd : asset_seeds sd) (Hh : c_height cx = 1%nat).

Lemma nested_of x : from_outer_ix (c_metas cx) sk x -> privileges_ok (c_metas cx) (pda_list E sd) (in_ix x) = true ->
  beq (ix_prog (in_ix x)) SELF = true ->
  nested E cx (mk_ctx (c_slot cx) (S (c_height cx)) (c_ixs cx) (c_cur cx) (ix_metas (in_ix x)) (ix_data (in_ix x))).
Proof.
  intros (X1 & X2 & X3 & X4) P Q. apply beq_eq in Q. unfold nested. cbn. rewrite Hh. repeat (split; [reflexivity|]). split; [split|split].
  - exact X4.
  - cbn. rewrite Forall_forall in *. intros m Hm. destruct (X1 m Hm) as (m0 & I & K & _). destruct Hc as [_ Hm0].
    rewrite Forall_forall in Hm0. specialize (Hm0 m0 I). unfold wf_meta in *. rewrite K. exact Hm0.
  - destruct X2 as (m & I & X2). rewrite <- Q, X2. apply in_map. exact I.
  - intros k S. unfold signer in S. apply existsb_exists in S as (m & Hm & S). apply andb_prop in S as [S1 S2].
    apply beq_eq in S1. unfold privileges_ok in P. rewrite forallb_forall in P. specialize (P m Hm).
    apply andb_prop in P as [P _]. rewrite S2 in P. cbn [negb orb] in P. rewrite S1 in P. apply orb_prop in P as [P|P]; [left; exact P|right].
    apply existsb_exists in P as (y & Hy & P). apply beq_eq in P. exists sd. split; [exact Hsd|].
    unfold pda_list in Hy. destruct (pda E sd) as [z|]; [|destruct Hy]. destruct Hy as [<-|[]]. rewrite P. reflexivity.
Qed.
Lemma run_inner_trace w w' x : good_world E w -> roomy 1 w -> from_outer_ix (c_metas cx) sk x ->
  run_inner E cx sk (pda_list E sd) w (in_ix x) = Ok w' -> trace E cx 1 w w'.
Proof.
  intros G R X H. unfold run_inner in H. bind_inv H.
  match type of K with (if ?b then _ else _) = _ => destruct b end.
  - peel K. apply move_lamports_keeps in K. apply trace_one. apply keeps_changes. exact K.
  - unfold invoke in K. bind_inv K. apply check_ok in B0. destruct (beq (ix_prog (in_ix x)) SELF) eqn:Qs.
    + unfold process_inner in K0. bind_inv K0. pose proof (nested_of x X B0 Qs) as N.
      eapply tr_inner; [apply tr_nil|exact N|]. eapply dispatch_changes; try eassumption. apply N.
    + apply trace_one. apply outside_changes. eapply foreign_outside; eassumption.
Qed.
Lemma run_all_trace xs : Forall (from_outer_ix (c_metas cx) sk) xs -> (length xs <= 255)%nat -> forall w w', good_world E w ->
  roomy (Z.of_nat (length xs)) w -> run_all E cx sk (pda_list E sd) xs w = Ok w' -> trace E cx (length xs) w w'.
Proof.
  induction 1 as [|x r X Xs IH]; intros Hn w w' G R H; cbn [run_all] in H.
  - apply ok_inj in H. subst. constructor.
  - bind_inv H. cbn [length] in *.
    assert (T : trace E cx 1 w v) by (eapply run_inner_trace; try eassumption; eapply roomy_le; [|exact R]; lia).
    change (S (length r)) with (1 + length r)%nat. eapply trace_app; [exact T|]. apply IH; [lia| | |exact K].
    + eapply trace_good; eassumption.
    + eapply trace_roomy; [exact T|cbn; lia|]. eapply roomy_le; [|exact R]. lia.
Qed.

(** ** The limited loop *)
Definition same_kind (c c' : cls) : Prop :=
  match c, c' with
  | CNone, CNone | CThisSwig, CThisSwig | CWallet, CWallet => True
  | CToken _ _, CToken _ _ | CStake _ _ _, CStake _ _ _ | CScope _ _, CScope _ _ => True
  | _, _ => False
  end.
Lemma track1_ok w acts m c c' : spent_ok c -> track1 w acts m c = Ok c' -> spent_ok c' /\ same_kind c c'.
Proof.
  intros S H. unfold track1 in H. destruct (negb (m_writable m)).
  { apply ok_inj in H. subst. split; [exact S|]. destruct c'; exact I. }
  destruct c as [| | |bal sp|bal lam sp|bal sp]; try (apply ok_inj in H; subst; split; exact I); cbn in S.
  - destruct (_ <? _)%nat; apply ok_inj in H; subst; split; try exact I; [exact S|]. cbn.
    destruct (_ <? bal) eqn:Q; [|exact S]. unfold sat_add, U64; lia.
  - apply ok_inj in H; subst; split; try exact I. cbn. unfold sat_add. 
    match goal with |- context [Z.max ?a ?b] => assert (0 <= Z.max a b) by (destruct (_ <? lam) eqn:?; lia) end.
    unfold U64; lia.
  - bind_inv H. destruct v; [|apply ok_inj in K; subst; split; [exact S|exact I]].
    destruct (scope_balance _ _); apply ok_inj in K; subst; split; try exact I; try exact S. cbn.
    destruct (_ <? bal) eqn:Q; [|exact S]. unfold sat_add, U128; lia.
Qed.
Lemma track_ok w acts ms cs cs' : Forall spent_ok cs -> track w acts ms cs = Ok cs' ->
  Forall spent_ok cs' /\ (forall c, nth_error cs' 0 = Some c -> exists c0, nth_error cs 0 = Some c0 /\ same_kind c0 c)
  /\ (length cs <= length ms -> length cs' = length cs)%nat.
Proof.
  revert cs cs'; induction ms as [|m mr IH]; intros [|c cr] cs' S H; cbn [track] in H;
    try (apply ok_inj in H; subst; split; [constructor|]; split; [discriminate|cbn; lia]).
  bind_inv H. bind_inv K. apply ok_inj in K0. subst cs'. inversion S as [|? ? S1 S2]; subst.
  apply track1_ok in B as [T1 T2]; [|exact S1]. apply IH in B0 as (T3 & _ & T4); [|exact S2].
  split; [constructor; assumption|]. split; [|cbn; lia]. cbn. intros c0 H. injection H as <-. exists c. auto.
Qed.
Lemma same_kind_trans a b c : same_kind a b -> same_kind b c -> same_kind a c.
Proof. destruct a, b, c; cbn; tauto. Qed.

Lemma limited_trace swig off len pall cur xs : Forall (from_outer_ix (c_metas cx) sk) xs -> (length xs <= 255)%nat ->
  forall w w' sol sol' cs cs', good_world E w -> roomy (Z.of_nat (length xs)) w -> 0 <= sol -> Forall spent_ok cs ->
  length cs = length (c_metas cx) ->
  limited_loop E cx swig sk (pda_list E sd) off len pall cur xs w sol cs = Ok (w', sol', cs') ->
  trace E cx (length xs) w w' /\ 0 <= sol' /\ Forall spent_ok cs' /\ length cs' = length (c_metas cx)
  /\ (forall c, nth_error cs' 0 = Some c -> exists c0, nth_error cs 0 = Some c0 /\ same_kind c0 c).
Proof.
  induction 1 as [|x r X Xs IH]; intros Hn w w' sol sol' cs cs' G R Hs Hcs Hl H; cbn [limited_loop] in H.
  - apply ok_inj in H. injection H as <- <- <-. split; [constructor|]. split; [exact Hs|]. split; [exact Hcs|]. split; [exact Hl|].
    intros c Q. exists c. split; [exact Q|]. destruct c; exact I.
  - bind_inv H. bind_inv K. bind_inv K0. cbn [length] in *.
    assert (T : trace E cx 1 w v0) by (eapply run_inner_trace; try eassumption; eapply roomy_le; [|exact R]; lia).
    apply track_ok in B1 as (T1 & T2 & T3); [|exact Hcs].
    apply IH in K as (U1 & U2 & U3 & U4 & U5); try assumption.
    + change (S (length r)) with (1 + length r)%nat. split; [eapply trace_app; eassumption|]. split; [exact U2|]. split; [exact U3|].
      split; [exact U4|]. intros c Q. destruct (U5 c Q) as (c1 & Q1 & Q2). destruct (T2 c1 Q1) as (c2 & Q3 & Q4).
      exists c2. split; [exact Q3|]. eapply same_kind_trans; eassumption.
    + lia.
    + eapply trace_good; eassumption.
    + eapply trace_roomy; [exact T|cbn; lia|]. eapply roomy_le; [|exact R]. lia.
    + destruct (_ <? a_lamports (w sk)) eqn:Q; [|exact Hs]. unfold sat_add, U64; lia.
    + rewrite T3; lia.
Qed.
End Run.

(** ** Classification *)
Lemma classify_from_ok w cache k0 k1 wal i ms cs : classify_from w cache k0 k1 wal i ms = Ok cs ->
  Forall spent_ok cs /\ length cs = length ms.
Proof.
  revert wal i cs; induction ms as [|m r IH]; intros wal i cs H; cbn [classify_from] in H.
  - apply ok_inj in H. subst. split; [constructor|reflexivity].
  - bind_inv H. bind_inv K. apply ok_inj in K0. subst cs. apply IH in B0 as [A1 A2]. split; [|cbn; lia].
    constructor; [|exact A1]. unfold classify in B. cbv zeta in B.
    repeat match type of B with
    | (if ?b then _ else _) = _ => destruct b
    | match ?o with _ => _ end = _ => destruct o
    | bind _ _ = Ok _ => let h := fresh in apply bind_ok in B as (? & h & B)
    | Ok _ = Ok _ => apply ok_inj in B; subst v; cbn; try exact I; lia
    | Err _ = Ok _ => discriminate B
    end. apply ok_inj in B. subst v. destruct (is_config w k0); exact I.
Qed.
Lemma classify_all_ok w ms cs : classify_all w ms = Ok cs -> Forall spent_ok cs /\ length cs = length ms
  /\ (is_this (nth_error cs 0) = true -> is_config w (mkey ms 0) = true).
Proof.
  unfold classify_all. intros H. peel H. split; [eapply classify_from_ok; exact H|]. split; [eapply classify_from_ok; exact H|].
  destruct ms as [|m r]; [discriminate|]. cbn [classify_from] in H. bind_inv H. bind_inv K. apply ok_inj in K0. subst cs. cbn [nth_error is_this].
  intros T. destruct v; try discriminate T. change (mkey (m :: r) 0) with (m_key m) in *. unfold classify in B1. cbv zeta in B1.
  cbn [Nat.eqb andb] in B1. rewrite andb_false_r in B1.
  repeat match type of B1 with
  | (if beq _ SELF then _ else _) = _ => destruct (beq _ SELF)
  | (if negb ?b then _ else _) = _ => destruct b eqn:?; cbn [negb] in B1
  | (if ?b then _ else _) = _ => destruct b
  | bind _ _ = Ok _ => let h := fresh in apply bind_ok in B1 as (? & h & B1)
  | Ok _ = Ok _ => discriminate B1
  end; try discriminate B1; try reflexivity; try assumption.
Qed.
