(** * From the client to the effect: an instruction wrapped by the library *)
From Verif Require Import BaseFacts SpecConfig ConfigFacts AuthFacts SpecAvail Avail SpecRent Parse SpecSign SpecClient ClientFacts ClientAuth ClientInner.
From Verif Require Import SignTrace SignRules SpecWorks Avail4 AllRun Avail5 Avail7.

(** What a wrapped instruction asks for *)
Lemma wraps_says swig rid i ms wal x : is_u32 rid -> short (packed [swig] ms [i]) -> wraps swig rid [i] [swig] ms wal x ->
  says swig rid (Sign (packed [swig] ms [i])) [wal] x /\ exists t, ms = w_ swig :: w_ wal :: t.
Proof.
  intros R K W. inversion W; subst.
  - split; [|eauto]. apply (says_ed _ _ auth); [exact R|exact K|apply e_sign].
  - split; [|eauto]. apply (says_k1 _ _ E sign slot counter); [exact R|exact K|apply k_sign].
  - split; [|eauto]. assert (B : built_r1 swig rid E sign pk slot counter (Sign (packed [swig] [w_ swig; w_ wal; SYS; IXS] [i])) [wal] [v; x])
      by (match goal with Q : _ = [v; x] |- _ => rewrite <- Q end; apply r1_sign).
    apply says_r1 in B as (v' & x' & X & S); [|exact R|exact K]. injection X as <- <-. exact S.
  - split; [|eauto]. assert (B : built_exec swig rid pre tix (Sign (packed [swig] [w_ swig; w_ wal; ws payer] [i])) [wal] [v; x])
      by (match goal with Q : _ = [v; x] |- _ => rewrite <- Q end; apply x_sign).
    apply says_exec in B as (x' & X & S); [|exact R|exact K]. injection X as <- <-. exact S.
Qed.

Lemma Forall2_len {A B} {R : A -> B -> Prop} {l l2} : Forall2 R l l2 -> length l = length l2.
Proof. induction 1; cbn; congruence. Qed.

Section Works.
Variables (E : env) (cx : ctx) (w : world) (s : config) (r : role) (swig wal : key) (i x : ix) (ms : list meta) (a : bytes).
Hypothesis (Wc : wf_ctx cx) (Wo : wallet_is E w s swig wal) (Hw : a_owner (w wal) = SYSTEM).
Hypothesis (I : In r (s_roles s)) (K : short (packed [swig] ms [i])) (Wx : wraps swig (r_id r) [i] [swig] ms wal x) (Sx : sent cx x).
Hypothesis (Ag : agree [wal; swig] (ms ++ ix_metas i)) (Fi : fits i) (P : passes E cx r a).
Hypothesis (Hh : c_height cx = 1%nat) (L : (length (c_metas cx) <= 100)%nat) (Or : forall m, In m (tl (c_metas cx)) -> ordinary w s (m_key m)).

Lemma wrapped_asks : acct cx 0 = swig /\ acct cx 1 = wal /\ usual_accounts 3 cx w s
  /\ exists payload y, asks E cx r (Sign payload) /\ inner_ixs (c_metas cx) wal payload [y] /\ same_call i y
     /\ Forall2 (granted [swig]) (ix_metas i) (ix_metas y).
Proof.
  destruct Wo as ((O & Dd & W) & Pw).
  assert (R : is_u32 (r_id r)). { destruct W as (_ & _ & _ & _ & _ & _ & _ & W8 & _). rewrite Forall_forall in W8. apply (W8 r I). }
  destruct (wraps_says _ _ _ _ _ _ R K Wx) as ((S1 & S2 & S3 & S4 & S5) & t & Em). pose proof Sx as (Sd & Sm).
  assert (L3 : (3 <= length ms)%nat) by (destruct Wx; cbn; lia).
  destruct (wraps_reads _ _ _ _ _ _ _ R K Wx) as (_ & X). destruct (compact_more [swig] ms [i]) as (u & Cu). rewrite Cu, Em in X.
  pose proof (extends_trans _ _ _ X (wider_extends _ _ Sm)) as X2.
  assert (Nl : (3 <= length (c_metas cx))%nat).
  { pose proof (extends_length _ _ X2) as Y. rewrite <- Em, app_length in Y. lia. }
  destruct (X2 0%nat (w_ swig) eq_refl) as (m0 & N0 & V1 & _ & V2). destruct (X2 1%nat (w_ wal) eq_refl) as (m1 & N1 & V3 & _).
  assert (A0 : acct cx 0 = swig). { unfold acct, mkey. rewrite (nth_error_nth _ _ _ N0). exact V1. }
  assert (A1 : acct cx 1 = wal). { unfold acct, mkey. rewrite (nth_error_nth _ _ _ N1). exact V3. }
  split; [exact A0|]. split; [exact A1|]. split.
  { split; [lia|]. split; [|exact Or]. unfold writable. apply existsb_exists. exists m0. split; [eapply nth_error_In; exact N0|].
    rewrite A0. cbn [w_ m_key m_writable] in V1, V2. apply andb_true_iff. split; [apply beq_eq; congruence|]. auto. }
  assert (Lx : (length (ix_metas x) <= 256)%nat). { rewrite (Forall2_len Sm). lia. }
  destruct (wraps_carries _ _ _ _ _ _ _ _ R K Wx Sx Lx ltac:(cbn; lia) ltac:(constructor; [exact Fi|constructor])) as (o & ixs & xs & C1 & C2 & C3 & C4 & C5).
  rewrite Sd, S4 in C1. injection C1 as <-. cbn [ixs_of] in C2. injection C2 as <-.
  cbn [flat_map] in C5. rewrite app_nil_r in C5. specialize (C5 Ag).
  destruct xs as [|z [|z' xs]]; cbn [map] in C4, C5; inversion_clear C4 as [|? ? ? ? C6 C7]; [|inversion C7].
  inversion_clear C5 as [|? ? ? ? C8 _]. rewrite Em in *.
  exists (packed [swig] (w_ swig :: w_ wal :: t) [i]), (in_ix z). split; [|split; [|auto]].
  - split; [rewrite Sd; exact S3|]. split; [rewrite Sd; exact S4|]. exists a. exact P.
  - apply (parse_all_inner _ _ _ [z]); [|exact C3].
    assert (Hb : order_of (c_data cx) = Some (Sign (packed [swig] (w_ swig :: w_ wal :: t) [i]))) by (rewrite Sd; exact S4).
    apply order_sign in Hb as (_ & ->). apply all_bytes_sub. apply Wc.
Qed.
End Works.

Lemma pay_data n : is_u64 n -> (12 <=? length (le_enc 4 2 ++ le_enc 8 n))%nat = true /\ u32_at 0 (le_enc 4 2 ++ le_enc 8 n) = 2
  /\ u64_at 4 (le_enc 4 2 ++ le_enc 8 n) = n.
Proof.
  intros U. split; [rewrite app_length, !le_enc_length; reflexivity|]. split; [reflexivity|].
  unfold u64_at. unfold sub. rewrite skipn_app, skipn_all2, le_enc_length, Nat.sub_diag by (rewrite le_enc_length; lia). cbn [skipn app].
  rewrite firstn_all2 by (rewrite le_enc_length; lia). apply le8. exact U.
Qed.
Lemma granted_one swig wal to n l : wal <> swig -> Forall2 (granted [swig]) (ix_metas (payment wal to n)) l -> Forall2 (granted []) (ix_metas (payment wal to n)) l.
Proof.
  intros N H. inversion H as [|m0 m0' ? ? G0 H1]; subst. inversion H1 as [|m1 m1' ? ? G1 H2]; subst. inversion H2; subst.
  constructor; [|constructor; [|constructor]].
  - destruct G0 as (A & B & C). split; [exact A|]. split; [exact B|]. intros Q. destruct (C Q) as [[X|[]]|X]; [|right; exact X].
    cbn in X. congruence.
  - destruct G1 as (A & B & C). split; [exact A|]. split; [exact B|]. intros Q. discriminate Q.
Qed.

Lemma payment_size ns ms wal to n : length (packed ns ms [payment wal to n]) = 19%nat
  /\ (length (fst (compact_instructions ns ms [payment wal to n])) <= length ms + 3)%nat.
Proof.
  unfold packed, compact_instructions, payment. cbn [compact_loop ix_metas ix_prog ix_data compact_accts m_key].
  repeat match goal with |- context [lookup ?k ?m] => destruct (lookup k m) end; cbn [fst snd]; rewrite !app_length;
  cbn [into_bytes flat_map cix_bytes ci_accts ci_data length app]; rewrite ?app_length, ?le_enc_length; cbn [length]; lia.
Qed.
Lemma payment_short ns ms wal to n : short (packed ns ms [payment wal to n]).
Proof. unfold short. rewrite (proj1 (payment_size _ _ _ _ _)). reflexivity. Qed.

Section Pay.
Variables (E : env) (cx : ctx) (w : world) (s : config) (r : role) (swig wal to : key) (n : Z) (x : ix) (ms : list meta) (a : bytes).
Hypothesis (Wc : wf_ctx cx) (Sp : system_pays E) (Wo : wallet_is E w s swig wal).
Hypothesis (I : In r (s_roles s)).
Hypothesis (Wx : wraps swig (r_id r) [payment wal to n] [swig] ms wal x) (Sx : sent cx x).
Hypothesis (Ag : agree [wal; swig] (ms ++ ix_metas (payment wal to n))) (P : passes E cx r a).
Hypothesis (Hh : c_height cx = 1%nat) (L : (length (c_metas cx) <= 100)%nat) (Or : forall m, In m (tl (c_metas cx)) -> ordinary w s (m_key m)).
Hypothesis (Un : is_u64 n) (Nd : to <> wal) (Cp : can_pay w wal n) (Ub : a_lamports (w to) + n < U64).

Lemma pay_step w0 y : only_here swig w w0 -> same_call (payment wal to n) y -> Forall2 (granted [swig]) (ix_metas (payment wal to n)) (ix_metas y) ->
  exists w1, by_others E wal w0 y w1 /\ handed wal to n w0 w1.
Proof.
  intros (H1 & H2) Sc G. destruct Cp as (C1 & C2 & C3). destruct Wo as ((O & _) & _).
  assert (Nw : wal <> swig) by (intros Q; rewrite Q, O in C1; discriminate C1).
  destruct (H1 wal Nw) as [K1 K2].
  destruct (Sp w0 y wal to n Sc) as (w1 & F1 & F2); try assumption.
  - apply (granted_one swig); assumption.
  - congruence.
  - split; [congruence|]. split; [congruence|]. rewrite H2. exact C3.
  - rewrite H2. exact Ub.
  - exists w1. split; [|exact F2]. split; [congruence|]. destruct Sc as (S1 & S2 & _). split; [rewrite S1; discriminate|]. split; [|exact F1].
    intros Q. rewrite Q in S2. discriminate S2.
Qed.
Lemma pay_fits : fits (payment wal to n).
Proof.
  split; [cbn; lia|]. cbn [payment ix_data]. rewrite app_length, !le_enc_length. reflexivity.
Qed.

Theorem payment_full : holds 7 r \/ holds 15 r ->
  exists w', succeeds E cx w w' /\ is_cfg (w' swig) (used (r_id r) s)
    /\ a_lamports (w' wal) = a_lamports (w wal) - n /\ a_lamports (w' to) = a_lamports (w to) + n
    /\ (forall k, k <> wal -> k <> to -> a_lamports (w' k) = a_lamports (w k))
    /\ forall k, k <> swig -> kept_acct (w k) (w' k).
Proof.
  intros H. destruct Cp as (C1 & C2 & C3). pose proof Wo as (C & Pw).
  destruct (wrapped_asks E cx w s r swig wal _ x ms a Wc Wo C1 I (payment_short _ _ _ _ _) Wx Sx Ag pay_fits P Hh L Or) as (A0 & A1 & A2 & payload & y & A3 & A4 & A5 & A6).
  destruct (sign_asked E cx w s r payload [y]) as (w0 & B1 & B2 & B3); rewrite ?A0, ?A1; try assumption.
  rewrite A0, A1 in *. destruct (pay_step w0 y B2 A5 A6) as (w1 & D1 & (D2 & D3 & D4 & D5)). destruct B2 as (B2 & B4).
  exists w1. split; [apply B3; econstructor; [exact D1|constructor]|]. destruct B1 as (Q1 & Q2 & Q3).
  split; [split; [rewrite (proj1 (D5 swig)); exact Q1|split; [rewrite (proj2 (D5 swig)); exact Q2|exact Q3]]|].
  rewrite D2, D3, !B4. split; [reflexivity|]. split; [reflexivity|]. split; [intros k N1 N2; rewrite D4, B4 by assumption; reflexivity|].
  intros k Nk. destruct (B2 k Nk) as [X1 X2]. destruct (D5 k) as [Y1 Y2]. split; congruence.
Qed.

Theorem payment_limited : foreign_ok E -> 0 <= c_slot cx -> limited r -> holds 13 r \/ allowed r SYSTEM ->
  sol_covered cx r [payment wal to n] n -> rent E 0 <= a_lamports (w wal) - n ->
  (forall m, In m (rest_of cx) -> ~ ours cx w (m_key m)) ->
  exists w', succeeds E cx w w'
    /\ a_lamports (w' wal) = a_lamports (w wal) - n /\ a_lamports (w' to) = a_lamports (w to) + n
    /\ (forall k, k <> wal -> k <> to -> a_lamports (w' k) = a_lamports (w k))
    /\ forall k, k <> swig -> kept_acct (w k) (w' k).
Proof.
  intros F Sl Lim Al Cov Rn No. destruct Cp as (C1 & C2 & C3). pose proof Wo as (C & Pw).
  destruct (wrapped_asks E cx w s r swig wal _ x ms a Wc Wo C1 I (payment_short _ _ _ _ _) Wx Sx Ag pay_fits P Hh L Or) as (A0 & A1 & A2 & payload & y & A3 & A4 & A5 & A6).
  destruct (limited_asked E cx w s r payload [y]) as (w0 & B1 & B2 & B3); rewrite ?A0, ?A1; try assumption.
  { intros z [<-|[]] _. destruct A5 as (-> & _). exact Al. }
  rewrite A0, A1 in *. destruct (pay_step w0 y B2 A5 A6) as (w1 & D1 & (D2 & D3 & D4 & D5)). destruct B2 as (B2 & B4).
  destruct (B3 [w1]) as (w' & S1 & S2 & S3).
  - constructor; [exact D1|constructor].
  - cbn [last]. assert (Nw : wal <> swig). { intros Q. destruct C as (O & _). rewrite Q, O in C1. discriminate C1. }
    rewrite D2, B4, (proj2 (D5 wal)). destruct (B2 wal Nw) as [-> _]. rewrite C2. exact Rn.
  - cbn [falls]. unfold lamports_of. rewrite D2, B4. replace (Z.max 0 _ + 0) with n by (unfold is_u64 in Un; lia).
    destruct Cov as [Q|Cov]; [left; exact Q|right]. replace (outs (sol_out (acct cx 1)) [y]) with (outs (sol_out (acct cx 1)) [payment wal to n]); [exact Cov|].
    destruct A5 as (E1 & E2 & E3). cbn [outs]. unfold sol_out. rewrite E1, E3. destruct (ix_metas y) as [|m0 [|m1 [|]]]; try discriminate E2.
    cbn [payment ix_metas map m_key] in *. injection E2 as -> ->. reflexivity.
  - split; [intros m Im Ho; destruct (No m Im Ho)|]. left. intros m Im Ho. destruct (No m Im Ho).
  - exists w'. cbn [last] in *. split; [exact S1|]. rewrite !S3, D2, D3, !B4. split; [reflexivity|]. split; [reflexivity|].
    split; [intros k N1 N2; rewrite S3, D4, B4 by assumption; reflexivity|].
    intros k Nk. destruct (B2 k Nk) as [X1 X2]. destruct (D5 k) as [Y1 Y2]. destruct (S2 k Nk) as [Z1 Z2]. split; congruence.
Qed.
End Pay.

(** ** The Ed25519 case in full *)
Lemma payment_agrees swig wal auth to n : ~ In auth [swig; wal; to] -> wal <> swig ->
  agree [wal; swig] ([w_ swig; w_ wal; ros auth] ++ ix_metas (payment wal to n)).
Proof.
  intros N Nw m m' I I' Q. cbn [payment ix_metas app] in I, I'. cbn [In] in N.
  repeat destruct I as [<-|I]; try contradiction; repeat destruct I' as [<-|I']; try contradiction; cbn [w_ ros m_key m_signer m_writable] in *;
    try (exfalso; apply N; auto; congruence); try (exfalso; apply N; rewrite Q; auto; fail); try (exfalso; apply N; rewrite <- Q; auto; fail);
    split; auto; try (intros _; left; cbn; auto; fail); try discriminate.
Qed.
Theorem payment_ed E cx w s r swig wal to n auth signers : wf_ctx cx -> system_pays E -> wallet_is E w s swig wal ->
  In r (s_roles s) -> holds 7 r \/ holds 15 r ->
  sent cx (sign_ed swig wal auth (payment wal to n) (r_id r) signers) -> ed_key (Sign []) (c_slot cx) r auth -> ~ In auth [swig; wal; to] ->
  c_height cx = 1%nat -> (forall m, In m (tl (c_metas cx)) -> ordinary w s (m_key m)) ->
  is_u64 n -> to <> wal -> can_pay w wal n -> a_lamports (w to) + n < U64 ->
  exists w', succeeds E cx w w' /\ is_cfg (w' swig) (used (r_id r) s)
    /\ a_lamports (w' wal) = a_lamports (w wal) - n /\ a_lamports (w' to) = a_lamports (w to) + n
    /\ (forall k, k <> wal -> k <> to -> a_lamports (w' k) = a_lamports (w k))
    /\ forall k, k <> swig -> kept_acct (w k) (w' k).
Proof.
  intros Wc Sp Wo I M Sx Ek Na Hh Or Un Nd Cp Ub.
  assert (R : is_u32 (r_id r)).
  { destruct Wo as ((_ & _ & W) & _). destruct W as (_ & _ & _ & _ & _ & _ & _ & W8 & _). rewrite Forall_forall in W8. apply (W8 r I). }
  assert (Nw : wal <> swig). { intros Q. destruct Wo as ((O & _) & _). destruct Cp as (C1 & _). rewrite Q, O in C1. discriminate C1. }
  eapply payment_full; try eassumption.
  - apply wr_sign_ed.
  - apply payment_agrees; assumption.
  - eapply (passes_ed E swig (r_id r) auth); [exact R| |apply e_sign|exact Sx|exact Ek]. apply payment_short.
  - destruct Sx as (_ & Sm). rewrite <- (Forall2_len Sm). unfold sign_ed.
    pose proof (proj2 (payment_size [swig] [w_ swig; w_ wal; ros auth] wal to n)) as X.
    destruct (compact_instructions _ _ _) as [ms cs]. cbn [fst length] in X. unfold by_ed, build. cbn [ix_metas]. rewrite map_length. lia.
Qed.
