(** * Inner instructions on their way from the client to the program *)
From Verif Require Import BaseFacts SpecClient ClientFacts ClientAuth Roundtrip.

(** ** The places of accounts and programs depend on the keys alone *)
Definition extends (ms ms2 : list meta) : Prop :=
  forall i m, nth_error ms i = Some m -> exists m', nth_error ms2 i = Some m' /\ wider m m'.
Lemma points_extends ms ms2 a k : extends ms ms2 -> points ms a k -> points ms2 a k.
Proof. intros X (m & N & K). destruct (X _ _ N) as (m' & N' & W & _). exists m'. split; [exact N'|congruence]. Qed.
Lemma coded_extends ms ms2 x c : extends ms ms2 -> coded ms x c -> coded ms2 x c.
Proof.
  intros X (A & B & C). split; [eapply points_extends; eassumption|]. split; [|exact C].
  clear - X B. induction B; constructor; [eapply points_extends; eassumption|assumption].
Qed.

(** ** Privileges *)
Section Grant.
Variables (ns : list key) (sk : key) (M : list meta).
Hypothesis (A : agree (sk :: ns) M).

Definition serves (m m0 : meta) : Prop :=
  m_key m0 = m_key m /\ (m_writable m = true -> m_writable m0 = true)
  /\ (m_signer m = true -> In (m_key m) (sk :: ns) \/ m_signer m0 = true).
Definition placed (mp : list (key * nat)) (ms : list meta) : Prop :=
  forall k i, lookup k mp = Some i -> exists m m0, nth_error ms i = Some m0 /\ In m M /\ m_key m = k /\ serves m m0.
Definition held (ms : list meta) (a : Z) (m : meta) : Prop := exists m0, nth_error ms (Z.to_nat a) = Some m0 /\ serves m m0.

Lemma serves_agree m m' m0 : In m M -> In m' M -> m_key m' = m_key m -> serves m m0 -> serves m' m0.
Proof.
  intros I I' K (S1 & S2 & S3). destruct (A m' m I' I K) as [A1 A2]. split; [congruence|]. split; [auto|].
  intro Sg. destruct (A2 Sg) as [F|F]; [left; exact F|]. destruct (S3 F) as [Q|Q]; [left; rewrite K; exact Q|right; exact Q].
Qed.
Lemma serves_refl m : serves m m.
Proof. split; [reflexivity|]. auto. Qed.
Lemma serves_clear m : serves m (clear_signer ns m).
Proof.
  unfold clear_signer. destruct (existsb _ _) eqn:Q; [|apply serves_refl].
  split; [reflexivity|]. split; [auto|]. intros _. left. right.
  apply existsb_exists in Q as (k & I & Q). apply beq_eq in Q. rewrite Q. exact I.
Qed.
Lemma placed_grow mp ms ext : placed mp ms -> placed mp (ms ++ ext).
Proof.
  intros H k i L. destruct (H k i L) as (m & m0 & N & R). exists m, m0. split; [|exact R].
  rewrite nth_error_app1; [exact N|]. apply nth_error_Some. congruence.
Qed.
Lemma placed_add mp ms m m0 : placed mp ms -> In m M -> serves m m0 -> placed ((m_key m, length ms) :: mp) (ms ++ [m0]).
Proof.
  intros H I S k i L. cbn [lookup] in L. destruct (beq k (m_key m)) eqn:Q.
  - apply beq_eq in Q. injection L as <-. exists m, m0. rewrite nth_error_app2 by lia. rewrite Nat.sub_diag. auto.
  - apply (placed_grow mp ms [m0] H). exact L.
Qed.
Lemma placed_keys ms : forall pre acc, (forall m, In m ms -> In m M) -> placed acc pre -> placed (index_keys ms (length pre) acc) (pre ++ ms).
Proof.
  induction ms as [|m t IH]; intros pre acc I H; cbn [index_keys]; [rewrite app_nil_r; exact H|].
  replace (pre ++ m :: t) with ((pre ++ [m]) ++ t) by (rewrite <- app_assoc; reflexivity).
  replace (S (length pre)) with (length (pre ++ [m])) by (rewrite app_length; cbn; lia). apply IH; [intros; apply I; now right|].
  apply placed_add; [exact H|apply I; now left|apply serves_refl].
Qed.
Lemma held_grow ms ext a m : held ms a m -> held (ms ++ ext) a m.
Proof. intros (m0 & N & S). exists m0. split; [|exact S]. rewrite nth_error_app1; [exact N|]. apply nth_error_Some. congruence. Qed.

Lemma accts_held ims : forall mp ms l mp' ms', (forall m, In m ims -> In m M) -> placed mp ms ->
  compact_accts ns ims mp ms = (l, mp', ms') ->
  (exists ext, ms' = ms ++ ext) /\ placed mp' ms' /\ ((length ms' <= 256)%nat -> Forall2 (held ms') l ims).
Proof.
  induction ims as [|m0 t IH]; intros mp ms l mp' ms' J I H; cbn [compact_accts] in H; cbv zeta in H.
  - injection H as <- <- <-. split; [exists []; rewrite app_nil_r; reflexivity|]. split; [exact I|]. intros _. constructor.
  - rewrite clear_key in H. assert (Jt : forall m, In m t -> In m M) by (intros; apply J; now right).
    assert (J0 : In m0 M) by (apply J; now left).
    destruct (lookup (m_key m0) mp) as [i|] eqn:L.
    + destruct (compact_accts ns t mp ms) as [[l1 mp1] ms1] eqn:C. injection H as <- <- <-.
      destruct (IH _ _ _ _ _ Jt I C) as ((ext & X) & I1 & P). split; [exists ext; exact X|]. split; [exact I1|].
      intros B. destruct (I _ _ L) as (m & m' & N & Im & K & S).
      assert (Hi : (i < length ms)%nat) by (apply nth_error_Some; congruence).
      assert (Hs : (length ms <= length ms1)%nat) by (rewrite X, app_length; lia).
      unfold U8. rewrite Z.mod_small by lia. constructor; [|apply P; exact B].
      rewrite X. apply held_grow. exists m'. rewrite Nat2Z.id. split; [exact N|]. eapply serves_agree; [exact Im|exact J0|congruence|exact S].
    + destruct (compact_accts ns t ((m_key m0, length ms) :: mp) (ms ++ [clear_signer ns m0])) as [[l1 mp1] ms1] eqn:C.
      injection H as <- <- <-. pose proof (placed_add mp ms m0 _ I J0 (serves_clear m0)) as I2.
      destruct (IH _ _ _ _ _ Jt I2 C) as ((ext & X) & I1 & P).
      split; [exists (clear_signer ns m0 :: ext); rewrite X, <- app_assoc; reflexivity|]. split; [exact I1|].
      intros B. assert (Hs : (length ms < length ms1)%nat) by (rewrite X, !app_length; cbn; lia).
      unfold U8. rewrite Z.mod_small by lia. constructor; [|apply P; exact B].
      rewrite X. apply held_grow. exists (clear_signer ns m0). rewrite Nat2Z.id, nth_error_app2 by lia. rewrite Nat.sub_diag.
      split; [reflexivity|apply serves_clear].
Qed.
Lemma loop_held ixs : forall mp ms ms' cs, (forall m, In m (flat_map ix_metas ixs) -> In m M) -> placed mp ms ->
  compact_loop ns ixs mp ms = (ms', cs) ->
  (exists ext, ms' = ms ++ ext) /\ ((length ms' <= 256)%nat -> Forall2 (fun x c => Forall2 (held ms') (ci_accts c) (ix_metas x)) ixs cs).
Proof.
  induction ixs as [|x t IH]; intros mp ms ms' cs J I H; cbn [compact_loop] in H; cbv zeta in H.
  - injection H as <- <-. split; [exists []; rewrite app_nil_r; reflexivity|]. intros _. constructor.
  - destruct (compact_accts _ _ _ _) as [[l mp2] ms2] eqn:C. destruct (compact_loop ns t mp2 ms2) as [ms3 cs3] eqn:D.
    injection H as <- <-. set (pm := mk_meta (ix_prog x) false false) in *. cbn [flat_map] in J.
    assert (J1 : forall m, In m (ix_metas x) -> In m M) by (intros; apply J, in_or_app; now left).
    assert (J2 : forall m, In m (flat_map ix_metas t) -> In m M) by (intros; apply J, in_or_app; now right).
    destruct (accts_held _ _ _ _ _ _ J1 (placed_grow mp ms [pm] I) C) as ((e2 & X2) & I2 & P).
    destruct (IH _ _ _ _ J2 I2 D) as ((e3 & X3) & R). subst ms3 ms2.
    split; [exists (pm :: e2 ++ e3); rewrite <- !app_assoc; reflexivity|].
    intros B. assert (B2 : (length ((ms ++ [pm]) ++ e2) <= 256)%nat) by (rewrite app_length in B; lia).
    constructor; [|apply R; exact B]. cbn [ci_accts]. specialize (P B2). clear - P.
    induction P; constructor; [apply held_grow; assumption|assumption].
Qed.
End Grant.

(** ** Decoding *)
Lemma meant_granted ns sk ms ms2 prog accts data x y : extends ms ms2 ->
  Forall2 (held ns sk ms) accts (ix_metas x) -> meant ms2 sk prog accts data y -> Forall2 (granted ns) (ix_metas x) (ix_metas y).
Proof.
  intros X H (_ & Y & _). revert Y. generalize (ix_metas y). induction H as [|a m t u (m0 & N & S1 & S2 & S3) H IH]; intros l Y.
  - inversion Y; subst. constructor.
  - inversion Y as [|? m' ? l' (m1 & N1 & ->) Y']; subst. destruct (X _ _ N) as (m2 & N2 & W1 & W2 & W3).
    rewrite N2 in N1. injection N1 as <-. constructor; [|apply IH; exact Y'].
    split; [cbn; congruence|]. cbn [m_key m_signer m_writable]. split; [auto|].
    intro Sg. destruct (S3 Sg) as [[F|F]|F]; [right|left; exact F|right].
    + rewrite W1, S1, <- F, beq_refl, orb_true_r. reflexivity.
    + rewrite (W2 F). reflexivity.
Qed.

Lemma wider_extends ms ms2 : Forall2 wider ms ms2 -> extends ms ms2.
Proof. intros W i m N. exact (wider_nth _ _ _ _ W N). Qed.
Lemma wider_refl m : wider m m.
Proof. split; [reflexivity|]. auto. Qed.
Lemma wider_mark s m : wider m (mark s m).
Proof. unfold mark. destruct (existsb _ _); split; try reflexivity; auto. Qed.
Lemma extends_trans a b c : extends a b -> extends b c -> extends a c.
Proof.
  intros X Y i m N. destruct (X _ _ N) as (m' & N' & W1 & W2 & W3). destruct (Y _ _ N') as (m2 & N2 & V1 & V2 & V3).
  exists m2. split; [exact N2|]. split; [congruence|]. auto.
Qed.
Lemma extends_app ms t : extends ms (ms ++ t).
Proof. intros i m N. exists m. split; [|apply wider_refl]. rewrite nth_error_app1; [exact N|]. apply nth_error_Some. congruence. Qed.
Lemma extends_mark s ms : extends ms (map (mark s) ms).
Proof. intros i m N. exists (mark s m). split; [now apply map_nth_error|apply wider_mark]. Qed.
Lemma extends_length ms ms2 : extends ms ms2 -> (length ms <= length ms2)%nat.
Proof.
  intros X. destruct (le_lt_dec (length ms) (length ms2)) as [|L]; [assumption|exfalso].
  destruct (nth_error ms (length ms2)) as [m|] eqn:N; [|apply nth_error_None in N; lia].
  destruct (X _ _ N) as (m' & N' & _). assert (nth_error ms2 (length ms2) <> None) as Q by congruence. apply nth_error_Some in Q. lia.
Qed.

Theorem carried ns ms inner sk ms2 : let p := compact_instructions ns ms inner in
  extends (fst p) ms2 -> (length (fst p) <= 256)%nat -> (length inner <= 255)%nat -> Forall fits inner ->
  exists xs, parse_all ms2 sk (packed ns ms inner) = Ok xs /\ Forall2 same_call inner (map in_ix xs)
    /\ (agree (sk :: ns) (ms ++ flat_map ix_metas inner) -> Forall2 (fun x y => Forall2 (granted ns) (ix_metas x) (ix_metas y)) inner (map in_ix xs)).
Proof.
  unfold packed. destruct (compact_instructions ns ms inner) as [ms' cs] eqn:H. cbn [fst snd]. cbv zeta.
  intros X B L Fx. unfold compact_instructions in H.
  assert (I : index_ok (index_keys ms 0 []) ms) by (apply (index_keys_ok ms [] []); intros k i Q; discriminate Q).
  destruct (compact_loop_ok ns inner _ _ _ _ I H) as (_ & R). specialize (R B).
  assert (G : agree (sk :: ns) (ms ++ flat_map ix_metas inner) ->
    Forall2 (fun x c => Forall2 (held ns sk ms') (ci_accts c) (ix_metas x)) inner cs).
  { intro A. destruct (loop_held ns sk _ A inner (index_keys ms 0 []) ms ms' cs) as (_ & Q); [intros; apply in_or_app; now right| |exact H|exact (Q B)].
    apply (placed_keys ns sk _ ms [] []); [intros; apply in_or_app; now left|]. intros k i Q. discriminate Q. }
  clear H I.
  assert (Z : exists ys, listed ms2 sk (flat_map cix_bytes cs) ys /\ Forall2 same_call inner ys /\ length ys = length cs
    /\ (Forall2 (fun x c => Forall2 (held ns sk ms') (ci_accts c) (ix_metas x)) inner cs ->
        Forall2 (fun x y => Forall2 (granted ns) (ix_metas x) (ix_metas y)) inner ys)).
  { revert Fx. clear L G. induction R as [|x c t u C R IH]; intros Fx.
    - exists []. split; [constructor|]. split; [constructor|]. split; [reflexivity|constructor].
    - inversion Fx as [|? ? [F1 F2] F3]; subst. destruct (IH F3) as (ys & Y1 & Y2 & Y3 & Y4).
      pose proof (coded_extends _ _ _ _ X C) as C2.
      destruct (coded_meant ms2 sk x c C2) as (y & M & Sy). exists (y :: ys). destruct C as (_ & _ & D & _ & _ & La).
      split; [|split; [constructor; assumption|split; [cbn; congruence|]]].
      + cbn [flat_map]. rewrite cix_enc by (rewrite ?La, ?D; assumption).
        constructor; [exact M|rewrite La; exact F1|rewrite D; exact F2|exact Y1].
      + intro G. inversion G as [|? ? ? ? G1 G2]; subst. constructor; [|apply Y4; exact G2].
        eapply meant_granted; [exact X|exact G1|exact M]. }
  destruct Z as (ys & Y1 & Y2 & Y3 & Y4). destruct (inner_parse_all ms2 sk (into_bytes cs) ys) as (xs & P & Q).
  - assert (Le : length ys = length inner) by (clear - Y2; induction Y2; cbn; congruence).
    split; [lia|]. exists (flat_map cix_bytes cs). split; [|exact Y1]. unfold into_bytes, U8. cbn [app]. f_equal. rewrite Z.mod_small by lia. congruence.
  - exists xs. split; [exact P|]. rewrite Q. auto.
Qed.

Lemma wraps_reads swig rid inner ns ms sk x : is_u32 rid -> short (packed ns ms inner) -> wraps swig rid inner ns ms sk x ->
  (exists o, order_of (ix_data x) = Some o /\ ixs_of o = Some (packed ns ms inner))
  /\ extends (fst (compact_instructions ns ms inner)) (ix_metas x).
Proof.
  intros R K W. destruct W as [wallet auth i signers|E sign slot counter wallet i signers|E sign pk slot counter wallet i signers v x Hx
    |wallet payer pre i tix v x Hx|sa auth inner|state sa auth id inner U|E sign slot counter state sa id inner U|E sign pk slot counter state sa id inner v x U Hx];
  [unfold sign_ed|unfold sign_k1|unfold sign_r1 in Hx|unfold sign_exec in Hx|unfold sub_sign_ed|unfold sub_sign2_ed|unfold sub_sign2_k1|unfold sub_sign2_r1 in Hx];
  unfold packed in *; destruct (compact_instructions _ _ _) as [ms' cs]; cbn [fst snd] in *;
  try (unfold by_r1, by_exec in Hx; injection Hx as _ <-);
  (split; [eexists; split; [cbn [by_ed by_k1 build ix_data]|]|cbn [by_ed by_k1 build ix_metas]]);
  try (apply (reads_sign rid (into_bytes cs) R K)); try (apply (reads_sub_sign rid (into_bytes cs) R K));
  try (apply (reads_sub_sign2 rid id (into_bytes cs) R U K)); try reflexivity;
  try apply extends_mark; try apply extends_app; intros j m N; exists m; (split; [exact N|apply wider_refl]).
Qed.
Theorem wraps_carries swig rid inner ns ms sk x cx : is_u32 rid -> short (packed ns ms inner) ->
  wraps swig rid inner ns ms sk x -> sent cx x ->
  (length (ix_metas x) <= 256)%nat -> (length inner <= 255)%nat -> Forall fits inner ->
  exists o ixs xs, order_of (c_data cx) = Some o /\ ixs_of o = Some ixs /\ parse_all (c_metas cx) sk ixs = Ok xs
    /\ Forall2 same_call inner (map in_ix xs)
    /\ (agree (sk :: ns) (ms ++ flat_map ix_metas inner) ->
        Forall2 (fun x y => Forall2 (granted ns) (ix_metas x) (ix_metas y)) inner (map in_ix xs)).
Proof.
  intros R K W [Sd Sm] L Li Fx. destruct (wraps_reads _ _ _ _ _ _ _ R K W) as ((o & O1 & O2) & X).
  destruct (carried ns ms inner sk (c_metas cx)) as (xs & P & Q & G); try assumption.
  - eapply extends_trans; [exact X|]. apply wider_extends. exact Sm.
  - pose proof (extends_length _ _ X). lia.
  - exists o, (packed ns ms inner), xs. rewrite Sd. auto.
Qed.
