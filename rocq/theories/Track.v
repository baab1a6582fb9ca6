(** * Classification of the accounts and tracking of what is spent *)
From Verif Require Import BaseFacts SpecConfig ConfigFacts ConfigEdit ConfigEdit2 ConfigEdit3 LimitsFacts.
From Verif Require Export SpecSign SignTrace.

(** ** Classification *)
Lemma token_owner k : is_token_program k = true -> beq k SELF = false /\ beq k SYSTEM = false /\ beq k STAKING = false.
Proof.
  unfold is_token_program. intros H. apply orb_prop in H as [H|H]; apply beq_eq in H; subst k; repeat split; reflexivity.
Qed.
Lemma staking_owner k : beq k STAKING = true -> beq k SELF = false /\ beq k SYSTEM = false /\ is_token_program k = false.
Proof. intros H. apply beq_eq in H; subst k; repeat split; reflexivity. Qed.

Lemma classify_from_nth w cache k0 k1 ms : forall wal i cs j m, classify_from w cache k0 k1 wal i ms = Ok cs ->
  nth_error ms j = Some m -> exists c wal', nth_error cs j = Some c
    /\ classify w cache k0 k1 wal' (i + j) (m_key m) = Ok c /\ ((2 <= i)%nat -> wal' = wal).
Proof.
  induction ms as [|m0 r IH]; intros wal i cs j m H Hj; cbn [classify_from] in H; [destruct j; discriminate|].
  bind_inv H. bind_inv K. apply ok_inj in K0. subst cs. destruct j as [|j]; cbn [nth_error] in *.
  - injection Hj as <-. exists v, wal. rewrite Nat.add_0_r. auto.
  - destruct (IH _ _ _ _ _ B0 Hj) as (c & wal' & C1 & C2 & C3). exists c, wal'. split; [exact C1|].
    split; [rewrite <- C2; f_equal; lia|]. intros Hi. rewrite C3 by lia. replace (i =? 1)%nat with false by lia. reflexivity.
Qed.
Lemma classify_rest w ms cs j m : classify_all w ms = Ok cs -> nth_error cs 1 = Some CWallet -> nth_error ms (2 + j) = Some m ->
  exists cache c, nth_error cs (2 + j) = Some c /\ classify w cache (mkey ms 0) (mkey ms 1) true (2 + j) (m_key m) = Ok c.
Proof.
  intros H Hw Hm. unfold classify_all in H. peel H. destruct ms as [|m0 [|m1 r]]; [destruct j; discriminate|destruct j; discriminate|].
  cbn [classify_from] in H. bind_inv H. bind_inv K. apply ok_inj in K0. subst cs. bind_inv B2. bind_inv K. apply ok_inj in K0. subst v0.
  cbn [nth_error] in Hw. injection Hw as ->. cbn [Nat.add nth_error] in Hm. cbn [Nat.eqb is_wallet] in B2.
  destruct (classify_from_nth _ _ _ _ _ _ _ _ _ _ B2 Hm) as (c & wal' & C1 & C2 & C3). rewrite C3 in C2 by lia.
  eexists. exists c. split; [exact C1|]. exact C2.
Qed.
Lemma classify_token w cache k0 k1 i k : (2 <= i)%nat -> let a := w k in
  is_token_program (a_owner a) && (165 <=? length (a_data a))%nat && (beq (sub 32 32 (a_data a)) k0 || beq (sub 32 32 (a_data a)) k1) = true ->
  classify w cache k0 k1 true i k = Ok (CToken (amount a) 0).
Proof.
  intros Hi a H. apply andb_prop in H as [H H3]. apply andb_prop in H as [H1 H2]. destruct (token_owner _ H1) as (O1 & O2 & O3).
  unfold classify. fold a. rewrite O1, O2, O3. cbn [andb]. replace (i =? 0)%nat with false by lia. rewrite H1, H2. cbn [negb andb].
  replace (1 <? i)%nat with true by lia. cbn [andb]. rewrite (beq_sym k0), (beq_sym k1), H3. reflexivity.
Qed.
Lemma classify_stake w cache k0 k1 i k c : (2 <= i)%nat -> let a := w k in
  beq (a_owner a) STAKING && (200 <=? length (a_data a))%nat && (beq (sub 44 32 (a_data a)) k0 || beq (sub 44 32 (a_data a)) k1) = true ->
  classify w cache k0 k1 true i k = Ok c -> c = CStake (stake_of a) (a_lamports a) 0.
Proof.
  intros Hi a H Hc. apply andb_prop in H as [H H3]. apply andb_prop in H as [H1 H2]. destruct (staking_owner _ H1) as (O1 & O2 & O3).
  unfold classify in Hc. cbv zeta in Hc. fold a in Hc. rewrite O1, O2, H1 in Hc. cbn [andb] in Hc. replace (i =? 0)%nat with false in Hc by lia.
  replace (length (a_data a) <? 200)%nat with false in Hc by lia.
  replace (1 <? i)%nat with true in Hc by lia. cbn [andb] in Hc. rewrite (beq_sym k0), (beq_sym k1), H3 in Hc. cbn [negb] in Hc.
  bind_inv Hc. apply ok_inj in K. unfold stake_of; congruence.
Qed.
Ltac walk B :=
  repeat match type of B with
  | (if ?b then _ else _) = _ => destruct b eqn:?
  | match ?o with _ => _ end = _ => destruct o eqn:?
  | bind _ _ = Ok _ => let h := fresh in apply bind_ok in B as (? & h & B)
  | Ok _ = Ok _ => apply ok_inj in B
  | Err _ = Ok _ => discriminate B
  end.
(** what the classes of the accounts after the first two say *)
Lemma classify_inv w cache k0 k1 i k c : (2 <= i)%nat -> let a := w k in let d := a_data a in
  classify w cache k0 k1 true i k = Ok c ->
  match c with
  | CThisSwig | CWallet => False
  | CToken b sp => b = amount a /\ sp = 0 /\ is_token_program (a_owner a) = true /\ (165 <= length d)%nat
      /\ (beq (sub 32 32 d) k0 || beq (sub 32 32 d) k1) = true
  | CStake b l sp => b = stake_of a /\ l = a_lamports a /\ sp = 0 /\ a_owner a = STAKING /\ (200 <= length d)%nat
      /\ (beq (sub 44 32 d) k0 || beq (sub 44 32 d) k1) = true
  | CScope _ sp => sp = 0
  | CNone => True
  end.
Proof.
  intros Hi a d H. unfold classify in H. cbv zeta in H. fold a in H. fold d in H.
  assert (I0 : (i =? 0)%nat = false) by lia. assert (I1 : (i =? 1)%nat = false) by lia. assert (I2 : (1 <? i)%nat = true) by lia.
  rewrite I0, I1, I2 in H. rewrite andb_false_r in H. cbn [andb negb] in H.
  walk H; subst c; try exact I; try lia; try (apply beq_eq in Heqb0; repeat split; try reflexivity; try assumption; try lia).
  all: try (rewrite (beq_sym _ k0), (beq_sym _ k1); first [assumption|apply negb_false_iff; assumption]).
  all: repeat match goal with H : _ && _ = true |- _ => apply andb_prop in H as [? ?] end; repeat split; try assumption; try reflexivity; try lia.
  all: rewrite (beq_sym _ k0), (beq_sym _ k1); first [assumption|apply negb_false_iff; assumption].
Qed.

(** ** Tracking *)
Lemma track_nth w acts ms : forall cs cs' i m c, track w acts ms cs = Ok cs' -> nth_error ms i = Some m -> nth_error cs i = Some c ->
  exists c', nth_error cs' i = Some c' /\ track1 w acts m c = Ok c'.
Proof.
  induction ms as [|m0 r IH]; intros cs cs' i m c H Hm Hc; [destruct i; discriminate|].
  destruct cs as [|c0 cr]; [destruct i; discriminate|]. cbn [track] in H. bind_inv H. bind_inv K. apply ok_inj in K0. subst cs'.
  destruct i as [|i]; cbn [nth_error] in *; [|eapply IH; eassumption].
  injection Hm as <-. injection Hc as <-. exists v. auto.
Qed.
(** [c] is what tracking made of class [c0], the world now being [w] *)
Definition tracked (c0 : cls) (m : meta) (w : world) (c : cls) : Prop :=
  let a := w (m_key m) in
  match c0, c with
  | CToken b0 _, CToken b sp => 0 <= sp /\ (b0 - b <= sp \/ sp = U64 - 1)
      /\ (m_writable m = true -> (72 <= length (a_data a))%nat -> b = amount a) /\ (m_writable m = false -> sp = 0)
  | CStake b0 l0 _, CStake b l sp => 0 <= sp /\ (l0 - l <= sp \/ sp = U64 - 1) /\ (Z.abs (b0 - b) <= sp \/ sp = U64 - 1)
      /\ (m_writable m = true -> l = a_lamports a)
      /\ (m_writable m = true -> (164 <= length (a_data a))%nat -> b = stake_of a) /\ (m_writable m = false -> sp = 0)
  | CScope _ _, CScope _ sp => 0 <= sp
  | CNone, CNone | CThisSwig, CThisSwig | CWallet, CWallet => True
  | _, _ => False
  end.
Definition fresh_cls (m : meta) (w : world) (c : cls) : Prop :=
  match c with
  | CToken b sp => b = amount (w (m_key m)) /\ sp = 0
  | CStake b l sp => b = stake_of (w (m_key m)) /\ l = a_lamports (w (m_key m)) /\ sp = 0
  | CScope _ sp => sp = 0
  | _ => True
  end.
Lemma tracked_start m w c : fresh_cls m w c -> tracked c m w c.
Proof.
  intros F. unfold tracked. destruct c as [| | |b sp|b l sp|b sp]; cbn in F; try exact I.
  - destruct F as [-> ->]. repeat split; lia.
  - destruct F as (-> & -> & ->). repeat split; lia.
  - lia.
Qed.
Lemma tracked_step w acts c0 m w0 c c' : tracked c0 m w0 c -> track1 w acts m c = Ok c' -> tracked c0 m w c'.
Proof.
  intros T H. unfold track1 in H.
  destruct (m_writable m) eqn:Wm; cbn [negb] in H.
  - destruct c0 as [| | |b0 s0|b0 l0 s0|b0 s0], c as [| | |b sp|b l sp|b sp]; cbn [tracked] in T; try contradiction;
      try (apply ok_inj in H; subst c'; exact I).
    + destruct T as (T1 & T2 & T4 & T5). destruct (length _ <? 72)%nat eqn:Q.
      * apply ok_inj in H. subst c'. cbn [tracked]. repeat split; try lia; try assumption.
      * apply ok_inj in H. subst c'. cbn [tracked]. unfold amount. unfold sat_add.
        destruct (u64_at 64 (a_data (w (m_key m))) <? b) eqn:Q2; repeat split; intros; try congruence; unfold U64 in *; try lia.
    + destruct T as (T1 & T2 & T3 & T4 & T7 & T8). apply ok_inj in H. subst c'. cbn [tracked]. unfold stake_of in *. unfold sat_add.
      destruct (length _ <? 164)%nat eqn:Q; destruct (a_lamports (w (m_key m)) <? l) eqn:Q2;
      repeat split; intros; try congruence; unfold U64 in *; try lia.
    + bind_inv H. destruct v; [|apply ok_inj in K; subst c'; exact T].
      destruct (scope_balance _ _); apply ok_inj in K; subst c'; cbn [tracked]; [|exact T].
      unfold sat_add, U128. destruct (_ <? b) eqn:Q; lia.
  - apply ok_inj in H. subst c'. unfold tracked in *.
    destruct c0 as [| | |b0 s0|b0 l0 s0|b0 s0], c as [| | |b sp|b l sp|b sp]; try contradiction; try exact I; try exact T.
    + destruct T as (T1 & T2 & T4 & T5). rewrite Wm in *. repeat split; try assumption; try congruence; try lia.
    + destruct T as (T1 & T2 & T3 & T4 & T7 & T8). rewrite Wm in *. repeat split; try assumption; try congruence; try lia.
Qed.
Lemma limited_tracked E cx swig wallet pdas off n pall cur cs0 xs : forall w w' sol sol' cs cs' lam,
  length cs0 = length (c_metas cx) ->
  (forall i m c0, nth_error (c_metas cx) i = Some m -> nth_error cs0 i = Some c0 ->
     exists c, nth_error cs i = Some c /\ tracked c0 m w c) ->
  (lam - a_lamports (w wallet) <= sol \/ sol = U64 - 1) -> 0 <= sol ->
  limited_loop E cx swig wallet pdas off n pall cur xs w sol cs = Ok (w', sol', cs') ->
  (forall i m c0, nth_error (c_metas cx) i = Some m -> nth_error cs0 i = Some c0 ->
     exists c, nth_error cs' i = Some c /\ tracked c0 m w' c)
  /\ (lam - a_lamports (w' wallet) <= sol' \/ sol' = U64 - 1) /\ 0 <= sol'.
Proof.
  induction xs as [|x r IH]; intros w w' sol sol' cs cs' lam Ln T S S0 H; cbn [limited_loop] in H.
  - apply ok_inj in H. injection H as <- <- <-. auto.
  - bind_inv H. bind_inv K. bind_inv K0. eapply IH; [exact Ln| | | |exact K].
    + intros i m c0 Hm Hc. destruct (T i m c0 Hm Hc) as (c & C1 & C2).
      destruct (track_nth _ _ _ _ _ _ _ _ B1 Hm C1) as (c' & D1 & D2). exists c'. split; [exact D1|]. eapply tracked_step; eassumption.
    + unfold sat_add. destruct (_ <? a_lamports (w wallet)) eqn:Q; unfold U64 in *; lia.
    + unfold sat_add. destruct (_ <? a_lamports (w wallet)) eqn:Q; unfold U64 in *; lia.
Qed.
(** *** Gross accounting *)
Definition gross (m : meta) (ws : list world) (c c' : cls) : Prop :=
  match c, c' with
  | CToken b sp, CToken _ sp' => sp <= U64 - 1 -> m_writable m = true -> sp' = capped (sp + falls (tokens_of (m_key m)) b ws)
  | CStake b l sp, CStake _ _ sp' => sp <= U64 - 1 -> m_writable m = true -> sp' = capped (sp + stirs (m_key m) l b ws)
  | _, _ => True
  end.
Lemma gross_nil m c : gross m [] c c.
Proof. destruct c; cbn; try exact I; intros; unfold capped; rewrite Z.add_0_r, Z.min_r; lia. Qed.
Lemma falls_nonneg f ws : forall b, 0 <= falls f b ws.
Proof. induction ws as [|w r IH]; intros b; cbn [falls]; [lia|]. destruct (f w) as [c|]; [|apply IH]. pose proof (IH c). lia. Qed.
Lemma stirs_nonneg k ws : forall l b, 0 <= stirs k l b ws.
Proof. induction ws as [|w r IH]; intros l b; cbn [stirs]; [lia|]. cbv zeta. match goal with |- 0 <= _ + stirs ?k ?x ?y ?z => pose proof (IH x y) end. lia. Qed.
Lemma capped_capped x y : 0 <= y -> capped (capped x + y) = capped (x + y).
Proof. unfold capped. lia. Qed.
Lemma gross_step w acts m ws c c1 c' : track1 w acts m c = Ok c1 -> gross m ws c1 c' -> gross m (w :: ws) c c'.
Proof.
  intros H G. unfold track1 in H.
  destruct (m_writable m) eqn:Wm; cbn [negb] in H.
  - destruct c as [| | |b sp|b l sp|b sp]; cbn [gross]; try exact I; destruct c' as [| | |b' sp'|b' l' sp'|b' sp']; try exact I; intros L _.
    + cbn [falls]. unfold tokens_of at 1. destruct (length (a_data (w (m_key m))) <? 72)%nat eqn:Q.
      * apply ok_inj in H. subst c1. replace (72 <=? length (a_data (w (m_key m))))%nat with false by lia. apply G; [exact L|exact Wm].
      * apply ok_inj in H. subst c1. replace (72 <=? length (a_data (w (m_key m))))%nat with true by lia. cbn [gross] in G.
        rewrite G; [|unfold sat_add; destruct (_ <? b); unfold U64 in *; lia|exact Wm].
        pose proof (falls_nonneg (tokens_of (m_key m)) ws (u64_at 64 (a_data (w (m_key m))))).
        unfold sat_add, capped. destruct (u64_at 64 (a_data (w (m_key m))) <? b) eqn:Q2; unfold U64 in *; lia.
    + apply ok_inj in H. subst c1. cbn [gross stirs] in G |- *. cbv zeta.
      rewrite G; [|unfold sat_add, U64 in *; lia|exact Wm].
      replace (164 <=? length (a_data (w (m_key m))))%nat with (negb (length (a_data (w (m_key m))) <? 164)%nat) by lia.
      destruct (length (a_data (w (m_key m))) <? 164)%nat; cbn [negb];
        match goal with |- context [stirs ?k ?x ?y ?z] => pose proof (stirs_nonneg k z x y) end;
        unfold sat_add, capped; destruct (_ <? l) eqn:Q2; unfold U64 in *; lia.
  - destruct c; cbn [gross]; try exact I; destruct c'; try exact I; intros; congruence.
Qed.
Lemma limited_gross E cx swig wallet pdas off n pall cur xs : forall w w' sol sol' cs cs', sol <= U64 - 1 ->
  limited_loop E cx swig wallet pdas off n pall cur xs w sol cs = Ok (w', sol', cs') ->
  exists ws, stages (fun v x v' => run_inner E cx wallet pdas v x = Ok v') (map in_ix xs) w ws /\ last ws w = w'
    /\ sol' = capped (sol + falls (lamports_of wallet) (a_lamports (w wallet)) ws)
    /\ forall i m c c', nth_error (c_metas cx) i = Some m -> nth_error cs i = Some c -> nth_error cs' i = Some c' -> gross m ws c c'.
Proof.
  induction xs as [|x r IH]; intros w w' sol sol' cs cs' L H; cbn [limited_loop] in H.
  - apply ok_inj in H. injection H as <- <- <-. exists []. split; [constructor|]. split; [reflexivity|].
    split; [cbn [falls]; unfold capped; rewrite Z.add_0_r, Z.min_r; lia|].
    intros i m c c' _ C1 C2. rewrite C1 in C2. injection C2 as <-. apply gross_nil.
  - bind_inv H. bind_inv K. bind_inv K0. rename v0 into w1. rename v1 into cs1.
    assert (L1 : (if a_lamports (w1 wallet) <? a_lamports (w wallet) then sat_add U64 sol (a_lamports (w wallet) - a_lamports (w1 wallet)) else sol) <= U64 - 1).
    { unfold sat_add. destruct (_ <? _); unfold U64 in *; lia. }
    destruct (IH _ _ _ _ _ _ L1 K) as (ws & W1 & W2 & W3 & W4).
    exists (w1 :: ws). split; [cbn [map]; econstructor; eassumption|].
    split. { rewrite <- W2. destruct ws as [|a ws]; [reflexivity|]. change (last (w1 :: a :: ws) w) with (last (a :: ws) w). clear. revert a.
             induction ws as [|b t IHt]; intros a; [reflexivity|]. exact (IHt b). }
    split. { rewrite W3. cbn [falls lamports_of]. pose proof (falls_nonneg (lamports_of wallet) ws (a_lamports (w1 wallet))).
             unfold sat_add, capped. destruct (a_lamports (w1 wallet) <? a_lamports (w wallet)) eqn:Q; unfold U64 in *; lia. }
    intros i m c c' Hm Hc Hc'. destruct (track_nth _ _ _ _ _ _ _ _ B1 Hm Hc) as (c1 & D1 & D2).
    eapply gross_step; [exact D2|]. eapply W4; eassumption.
Qed.
Lemma snapshots_nth E w acts ms : forall k cs sn i m c, snapshots E w acts k ms cs = Ok sn ->
  nth_error ms i = Some m -> nth_error cs i = Some c ->
  exists s, nth_error sn i = Some s /\ snapshot E w acts (k + i) m c = Ok s.
Proof.
  induction ms as [|m0 r IH]; intros k cs sn i m c H Hm Hc; [destruct i; discriminate|].
  destruct cs as [|c0 cr]; [destruct i; discriminate|]. cbn [snapshots] in H. bind_inv H. bind_inv K. apply ok_inj in K0. subst sn.
  destruct i as [|i]; cbn [nth_error] in *.
  - injection Hm as <-. injection Hc as <-. exists v. rewrite Nat.add_0_r. auto.
  - destruct (IH _ _ _ _ _ _ B0 Hm Hc) as (s & S1 & S2). exists s. split; [exact S1|]. rewrite <- S2. f_equal. lia.
Qed.
Lemma snapshot_some E w acts i m c h : m_writable m = true -> snapshot E w acts i m c = Ok (Some h) ->
  match c with
  | CThisSwig => h = hash_full E (w (m_key m))
  | CToken _ _ => h = hash_skip E (w (m_key m)) 64 72
  | CStake _ _ _ => h = hash_stake E (w (m_key m))
  | _ => True
  end.
Proof.
  intros W H. unfold snapshot in H. rewrite W in H. cbn [negb] in H. destruct c; try exact I; cbn [bind] in H; bind_inv H;
  apply ok_inj in K; congruence.
Qed.
