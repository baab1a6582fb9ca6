(** * What a role takes over a whole history: all limits per destination.  Proofs *)
From Verif Require Import BaseFacts SpecConfig ConfigFacts ConfigEdit ConfigEdit2 ConfigEdit3 LimitsFacts.
From Verif Require Import ConfigProps HistoryProps Creds LifeProps AuthProps Ledger SignProps Actors Spend.
From Verif Require Export Budget3.

Section Slow.
Variable M : Z.
Definition rated (ty : Z) : bool := existsb (Z.eqb ty) [16; 17; 18; 19].
Definition rpot (ty : Z) (p : bytes) : Z :=
  match ty with 16 => u64_at 32 p | 18 => u64_at 64 p | 17 => rolls M SolRecDest p | 19 => rolls M TokRecDest p | _ => 0 end.
Definition fits (S ty : Z) (p : bytes) : Prop :=
  match ty with 17 => u64_at (lay_last SolRecDest) p <= S | 19 => u64_at (lay_last TokRecDest) p <= S | _ => True end.
Definition slow_act (S : Z) (a a' : action) : Prop :=
  ac_ty a' = ac_ty a /\ (rated (ac_ty a) = true -> target_of a' = target_of a
    /\ (fits S (ac_ty a) (ac_data a) -> fits S (ac_ty a) (ac_data a') /\ rpot (ac_ty a) (ac_data a') <= rpot (ac_ty a) (ac_data a))).
Definition slow (S : Z) (l l' : list action) : Prop :=
  exists l0 t, l' = l0 ++ t /\ Forall2 (slow_act S) l l0 /\ Forall (fun a => ac_ty a = 23) t.
Lemma slow_act_refl S a : slow_act S a a.
Proof. split; [reflexivity|]. intros _. split; [reflexivity|]. intros H. split; [exact H|lia]. Qed.
Lemma slow_act_trans S a b c : slow_act S a b -> slow_act S b c -> slow_act S a c.
Proof.
  intros (T1 & H1) (T2 & H2). split; [congruence|]. intros O. destruct (H1 O) as (A1 & A2).
  rewrite T1 in H2. destruct (H2 O) as (B1 & B2). split; [congruence|]. intros Q. destruct (A2 Q) as (A3 & A4). destruct (B2 A3) as (B3 & B4). split; [exact B3|lia].
Qed.
Lemma slow_acts_refl S l : Forall2 (slow_act S) l l.
Proof. induction l; constructor; [apply slow_act_refl|assumption]. Qed.
Lemma slow_of S l l' : Forall2 (slow_act S) l l' -> slow S l l'.
Proof. intros H. exists l', []. rewrite app_nil_r. auto. Qed.
Lemma slow_refl S l : slow S l l.
Proof. apply slow_of, slow_acts_refl. Qed.
Lemma slow_trans S a b c : slow S a b -> slow S b c -> slow S a c.
Proof.
  intros (b0 & t & -> & H1 & H2) (c0 & t' & -> & H3 & H4). apply Forall2_app_inv_l in H3 as (c1 & c2 & H5 & H6 & ->).
  exists c1, (c2 ++ t'). rewrite app_assoc. split; [reflexivity|]. split.
  - clear - H1 H5. revert c1 H5. induction H1 as [|x y tx ty A _ IH]; intros c1 H; inversion H; subst; constructor; [|auto].
    eapply slow_act_trans; eassumption.
  - apply Forall_app. split; [|exact H4]. clear - H2 H6. induction H6 as [|x y tx ty (A & _) _ IH]; constructor.
    + inversion H2. congruence.
    + inversion H2. auto.
Qed.
Lemma slow_set_first S q p l : Forall2 (slow_act S) l (set_first 9 q p l).
Proof.
  induction l as [|a t IH]; cbn [set_first]; [constructor|]. destruct (ac_ty a =? 9) eqn:Q; cbn [andb].
  - apply Z.eqb_eq in Q. destruct (action_matches 9 q (ac_data a)); constructor; try apply slow_acts_refl; try exact IH; [|apply slow_act_refl].
    split; [cbn; congruence|]. rewrite Q. discriminate.
  - constructor; [apply slow_act_refl|exact IH].
Qed.

(** ** Charges *)
Definition sound (L : layout) (p : bytes) : Prop := nn L p /\ 0 <= u64_at (lay_last L) p /\ 0 <= u64_at (lay_window L) p.
Lemma sound_bytes L p : all_bytes p -> sound L p.
Proof.
  intros B. split; [apply nn_bytes, B|]. pose proof (u64_bound (lay_last L) _ B). pose proof (u64_bound (lay_window L) _ B). unfold is_u64 in *. lia.
Qed.
Lemma rolling_rolls L slot p p' amt : lay_ok L -> length p = lay_len L -> sound L p -> 0 <= amt -> 0 <= slot < U64 -> slot <= M ->
  rolling L slot p p' amt ->
  sound L p' /\ length p' = length p
  /\ (u64_at (lay_last L) p <= slot -> u64_at (lay_last L) p' <= slot /\ rolls M L p' + amt <= rolls M L p).
Proof.
  intros Lo Ln ((N1 & N2) & N3 & N4) A Sl Sm (St & X).
  pose proof (same_terms_u64 L p p' (lay_window L) Lo Ln St (or_intror eq_refl)) as Ew.
  pose proof (same_terms_u64 L p p' (lay_limit L) Lo Ln St (or_introl eq_refl)) as El.
  destruct St as (Len & _). unfold rolls, sound, nn. rewrite Ew, El.
  set (W := u64_at (lay_window L) p) in *. set (lim := u64_at (lay_limit L) p) in *. set (la := u64_at (lay_last L) p) in *.
  set (le := u64_at (lay_left L) p) in *. destruct X as [(X1 & X2 & X3)|(X0 & X1 & X2 & X3)]; rewrite X2, X3.
  - split; [lia|]. split; [exact Len|]. intros H. split; [exact H|lia].
  - split; [lia|]. split; [exact Len|]. intros H. split; [lia|]. rewrite Z.mod_small in X0 by lia. rewrite !Z.max_r by lia.
    assert (D : (M - slot) / (W + 1) + 1 <= (M - la) / (W + 1)) by (rewrite <- Z.div_add with (b := 1) by lia; apply Z.div_le_mono; lia).
    nia.
Qed.
Definition sound_by (ty : Z) (p : bytes) : Prop := match ty with 17 => sound SolRecDest p | 19 => sound TokRecDest p | _ => True end.
Lemma sound_by_bytes ty p : all_bytes p -> sound_by ty p.
Proof.
  intros B. unfold sound_by. destruct ty as [|x|x]; try exact I. repeat match goal with x : positive |- _ => destruct x; try exact I end; apply sound_bytes, B.
Qed.
Lemma takes_rpot ty slot p p' amt : rated ty = true -> action_len ty = Some (length p) -> sound_by ty p -> 0 <= amt -> 0 <= slot < U64 -> slot <= M ->
  takes ty slot p p' amt ->
  sound_by ty p' /\ length p' = length p /\ about ty p' = about ty p
  /\ (fits slot ty p -> fits slot ty p' /\ rpot ty p' + amt <= rpot ty p).
Proof.
  intros C L N A Sl Sm T.
  assert (L1 : lay_ok SolRecDest) by (cbv; lia). assert (L2 : lay_ok TokRecDest) by (cbv; lia).
  unfold rated in C. cbn [existsb] in C. repeat (apply orb_prop in C as [C|C]); try discriminate C; apply Z.eqb_eq in C; subst ty;
    cbn [takes sound_by fits rpot] in *; unfold about, target_of; cbn [ac_ty ac_data];
    try (destruct T as (T1 & T2 & T3 & T4 & _); split; [exact I|]; split; [exact T3|]; split; [first [reflexivity|exact T4]|]; intros _; split; [exact I|lia]).
  - injection L as L. destruct (rolling_rolls SolRecDest slot p p' amt L1 (eq_sym L) N A Sl Sm T) as (X1 & X2 & X3).
    split; [exact X1|]. split; [exact X2|]. split; [|exact X3]. apply (same_terms_front SolRecDest); [exact (proj1 T)|cbn; lia|cbn; lia].
  - injection L as L. destruct (rolling_rolls TokRecDest slot p p' amt L2 (eq_sym L) N A Sl Sm T) as (X1 & X2 & X3).
    split; [exact X1|]. split; [exact X2|]. split; [|exact X3]. apply (same_terms_front TokRecDest); [exact (proj1 T)|cbn; lia|cbn; lia].
Qed.
Lemma draws_rpot ty slot amts p p' : rated ty = true -> action_len ty = Some (length p) -> sound_by ty p -> 0 <= slot < U64 -> slot <= M ->
  draws ty slot amts p p' -> fits slot ty p -> rpot ty p' + sum amts <= rpot ty p.
Proof.
  intros C L N Sl Sm D. induction D as [p|amt t p p1 p2 A Tk _ IH]; cbn [sum]; [lia|]. intros W.
  destruct (takes_rpot ty slot p p1 amt C L N A Sl Sm Tk) as (X1 & X2 & _ & X3). rewrite <- X2 in L. destruct (X3 W) as (X4 & X5).
  specialize (IH L X1 X4). lia.
Qed.
Lemma limit_bytes' ty p amt slot p' : rated ty = true -> all_bytes p -> limit_run ty p amt slot = Ok p' -> all_bytes p'.
Proof.
  intros C B H. unfold rated in C. cbn [existsb] in C. repeat (apply orb_prop in C as [C|C]); try discriminate C; apply Z.eqb_eq in C; subst ty;
    cbn in H; unfold sol_dest_bytes, token_dest_bytes, sol_rec_dest_bytes, token_rec_dest_bytes in H;
    bind_inv H; apply ok_inj in K; subst p'; unfold write_recurring; repeat apply set_u64_bytes; exact B.
Qed.
Lemma charged_slow ty slot p p' : rated ty = true -> charged ty slot p p' -> action_len ty = Some (length p) -> all_bytes p ->
  0 <= slot < U64 -> slot <= M ->
  all_bytes p' /\ length p' = length p /\ about ty p' = about ty p /\ (fits slot ty p -> fits slot ty p' /\ rpot ty p' <= rpot ty p).
Proof.
  intros C H L B S Sm. induction H as [p|p p1 p2 amt H IH A R]; [split; [exact B|]; repeat (split; [reflexivity|]); intros W; split; [exact W|lia]|].
  destruct (IH L B) as (I1 & I2 & I3 & I4). rewrite <- I2 in L.
  assert (T : takes ty slot p1 p2 amt) by (apply limit_takes; try assumption; intros ->; discriminate C).
  destruct (takes_rpot ty slot p1 p2 amt C L (sound_by_bytes ty p1 I1) A S Sm T) as (X1 & X2 & X3 & X4).
  split; [eapply limit_bytes'; eassumption|]. split; [congruence|]. split; [congruence|].
  intros W. destruct (I4 W) as (W1 & W2). destruct (X4 W1). split; [assumption|lia].
Qed.
Lemma charged_acts_slow slot l l' : Forall wf_action l -> 0 <= slot < U64 -> slot <= M -> Forall2 (charged_act slot) l l' -> Forall2 (slow_act slot) l l'.
Proof.
  intros W S Sm H. induction H as [|a b ta tb (T & C) _ IH]; constructor.
  - split; [exact T|]. intros O. inversion W as [|? ? (L & B) _]; subst. rewrite !about_act, T.
    destruct (charged_slow _ _ _ _ O C L B S Sm) as (_ & _ & X). exact X.
  - apply IH. exact (Forall_inv_tail W).
Qed.

(** ** Steps of a configuration *)
Section Role.
Variables i S : Z.
Definition slows (s s' : config) : Prop :=
  id_order s s' /\ forall r r', find_role i s = Some r -> find_role i s' = Some r' -> slow S (r_acts r) (r_acts r').
Lemma slows_refl s : slows s s.
Proof. split; [split; [lia|auto]|]. intros r r' H1 H2. rewrite H1 in H2. injection H2 as <-. apply slow_refl. Qed.
Lemma slows_trans a b c : wf_config a -> slows a b -> slows b c -> slows a c.
Proof.
  intros W [O1 H1] [O2 H2]. split; [eapply id_order_trans; eassumption|]. intros r r' F1 F2.
  assert (Ib : In i (ids b)).
  { destruct O2 as [_ O2]. destruct (O2 i (find_ids _ _ _ F2)) as [I|I]; [exact I|].
    pose proof (wf_ids_below _ _ W (find_ids _ _ _ F1)). destruct O1. lia. }
  apply ids_find in Ib as (x & Fx). eapply slow_trans; [eapply H1; eassumption|eapply H2; eassumption].
Qed.
Lemma slows_on j f s : (forall r, r_id (f r) = r_id r) ->
  (forall r, j = i -> find_role j s = Some r -> slow S (r_acts r) (r_acts (f r))) -> slows s (on_role j f s).
Proof.
  intros Hf Hr. split; [split; [cbn; lia|rewrite ids_on_role by exact Hf; auto]|]. intros r r' F1 F2.
  rewrite find_role_on, F1 in F2 by exact Hf. cbn in F2. injection F2 as <-. apply find_role_in in F1 as X. destruct X as [_ X].
  destruct (r_id r =? j) eqn:Q; [|apply slow_refl]. apply Hr; [lia|]. rewrite <- F1. f_equal. lia.
Qed.
Lemma slows_roles s s' : s_roles s' = s_roles s -> s_counter s' = s_counter s -> slows s s'.
Proof.
  intros R C. split; [split; [lia|unfold ids; rewrite R; auto]|]. intros r r' F1 F2. unfold find_role in *. rewrite R in F2.
  rewrite F1 in F2. injection F2 as <-. apply slow_refl.
Qed.
Lemma slows_edit E cx k w s r s1 s' : ids s1 = ids s -> s_counter s1 = s_counter s -> edit E cx k w s r s1 s' -> wf_config s1 ->
  (forall x, find_role (r_id r) s1 = Some x -> r_acts x = r_acts r) ->
  ~ (tag (c_data cx) = 3 /\ u32_at 12 (c_data cx) = i) -> slows s1 s'.
Proof.
  intros I Cn Ed W Ra N. pose proof (edit_ids _ _ _ _ _ _ _ _ I Cn Ed) as Io. destruct Ed.
  - apply slows_refl.
  - split; [exact Io|]. intros r1 r2 F1 F2. rewrite find_add, F1 in F2 by (eapply find_ids; exact F1). injection F2 as <-. apply slow_refl.
  - split; [exact Io|]. intros r1 r2 F1 F2. apply find_drop in F2. rewrite F1 in F2. injection F2 as <-. apply slow_refl.
  - apply slows_on; [reflexivity|]. intros x Q _. exfalso. apply N. split; assumption.
  - apply slows_on; [reflexivity|]. intros x _ _. apply slow_refl.
  - apply slows_roles; reflexivity.
  - apply slows_roles; reflexivity.
  - apply slows_on; [reflexivity|]. intros x _ F. cbn [with_acts r_acts]. rewrite (Ra x F). apply slow_of, slow_set_first.
  - apply slows_on; [reflexivity|]. intros x _ F. cbn [with_acts r_acts].
    match goal with T : find_role rid s1 = Some tr |- _ => rewrite T in F; injection F as <- end. apply slow_of, slow_set_first.
  - cbv zeta. destruct (has P_SubAccountV2All _ _); [apply slows_roles; reflexivity|].
    apply slows_trans with (b := set_subctr s1 (id + 1)); [exact W|apply slows_roles; reflexivity|].
    apply slows_on; [reflexivity|]. intros x _ _. cbn [with_acts r_acts]. exists (r_acts x), [all_powers id].
    split; [reflexivity|]. split; [apply slow_acts_refl|]. repeat constructor.
Qed.
Lemma slows_used j s : slows s (used j s).
Proof.
  split; [split; [cbn; lia|rewrite ids_used; auto]|]. intros r r' F1 F2. rewrite find_used, F1 in F2. cbn in F2. injection F2 as <-.
  destruct (_ =? _); [|apply slow_refl]. unfold after_use. destruct (_ || _); apply slow_refl.
Qed.
Lemma slows_step E cx k w s s' : wf_config s -> config_step E cx k w s s' -> 0 <= c_slot cx < U64 -> c_slot cx <= M -> c_slot cx = S ->
  ~ (acct cx 0 = k /\ tag (c_data cx) = 3 /\ u32_at 12 (c_data cx) = i) -> slows s s'.
Proof.
  intros W St Sl Sm Se N. destruct St as [r s1 s' K A Ed|r a a' _ T5 Fr Ss Au St L48|r s0 l _ _ _ A C].
  - destruct (acted_wf _ _ _ _ _ W A) as [U W1]. destruct (ids_acted _ _ _ _ _ A) as [I Cn].
    apply slows_trans with (b := s1); [exact W|rewrite U; apply slows_used|].
    eapply slows_edit; [exact I|exact Cn|exact Ed|exact W1|intros x; eapply acted_acts_same; exact A|].
    intros T. apply N. split; [symmetry; exact K|exact T].
  - apply slows_on; [reflexivity|]. intros x _ _. apply slow_refl.
  - apply slows_on; [reflexivity|]. intros x _ F. cbn [with_acts r_acts]. pose proof (acted_acts_same _ _ _ _ _ _ A F) as Q.
    rewrite Q. destruct (wf_find _ _ _ W F) as (_ & _ & _ & _ & _ & (_ & Wa & _)). rewrite Q in Wa.
    apply slow_of. rewrite <- Se. eapply charged_acts_slow; eassumption.
Qed.

Section Event.
Variables (E : env) (k : key).
Hypothesis F : foreign_ok E.
Definition slowly (w w' : world) : Prop :=
  (is_closed (w k) -> is_closed (w' k))
  /\ forall s, is_cfg (w k) s -> is_closed (w' k) \/ exists s', is_cfg (w' k) s' /\ slows s s'.
Lemma slowly_refl w : slowly w w.
Proof. split; [auto|]. intros s0 S0. right. exists s0. split; [exact S0|apply slows_refl]. Qed.
Lemma slowly_trans a b c : slowly a b -> slowly b c -> slowly a c.
Proof.
  intros (A1 & A2) (B1 & B2). split; [auto|]. intros s0 S0. destruct (A2 s0 S0) as [C|(s1 & S1 & L1)]; [left; auto|].
  destruct (B2 s1 S1) as [C|(s2 & S2 & L2)]; [left; exact C|right]. exists s2. split; [exact S2|].
  eapply slows_trans; [apply S0|exact L1|exact L2].
Qed.
Lemma slowly_change cx w w' : ~ (acct cx 0 = k /\ tag (c_data cx) = 3 /\ u32_at 12 (c_data cx) = i) ->
  0 <= c_slot cx < U64 -> c_slot cx <= M -> c_slot cx = S -> (forall x, change E cx x w w') -> slowly w w'.
Proof.
  intros N Sl Sm Se C. split; [apply closed_stays with (1 := C k)|]. intros s0 S0.
  destruct (config_goes _ _ _ _ _ _ (C k) S0) as [Cl|(s' & S' & [->|St])]; [left; exact Cl| |];
    right; [exists s0|exists s']; (split; [exact S'|]); [apply slows_refl|]. eapply slows_step; [apply S0|exact St|exact Sl|exact Sm|exact Se|exact N].
Qed.
Lemma slowly_trace cx n w w' : ~ (acct cx 0 = k /\ tag (c_data cx) = 3 /\ u32_at 12 (c_data cx) = i) ->
  ~ In SELF (map m_key (c_metas cx)) -> 0 <= c_slot cx < U64 -> c_slot cx <= M -> c_slot cx = S -> trace E cx n w w' -> slowly w w'.
Proof.
  intros N A Sl Sm Se T. induction T as [w|n w w1 w2 T IH C|n w w1 w2 cx' T IH Ne C].
  - apply slowly_refl.
  - eapply slowly_trans; [exact IH|]. eapply slowly_change; eassumption.
  - exfalso. apply A. destruct Ne as (_ & _ & _ & _ & _ & _ & Ne & _). exact Ne.
Qed.
Lemma slowly_event w e : good_world E w -> admissible E w e -> quiet k i e -> timely M e ->
  match e with Call cx => c_slot cx = S | Other _ => True end -> slowly w (step E w e).
Proof.
  intros G A Q Ti Se. destruct e as [cx|x]; cbn [step].
  - destruct A as (A1 & A2 & A3 & A4). destruct Q as (Q1 & Q2). destruct Ti as (Ti1 & Ti2). destruct (process E cx w) as [w'| |] eqn:P; try apply slowly_refl.
    destruct (process_trace E cx w w' A1 A2 G F A3 P) as [(n & _ & T)|C]; [|contradiction]. eapply slowly_trace; eassumption.
  - destruct (foreign E w x) as [w'| |] eqn:P; try apply slowly_refl.
    assert (O : outside w w') by (eapply foreign_outside; eassumption). destruct (O k) as (O1 & _). split.
    + intros (Q1 & Q2). destruct (O1 Q1) as (X1 & X2). split; congruence.
    + intros s0 (Q1 & Q2 & Q3). destruct (O1 Q1) as (X1 & X2). right. exists s0. split; [split; [congruence|]; split; [congruence|exact Q3]|apply slows_refl].
Qed.
End Event.
End Role.
End Slow.
