(** * What a role takes over a whole history.  Proofs *)
From Verif Require Import BaseFacts SpecConfig ConfigFacts ConfigEdit ConfigEdit2 ConfigEdit3 LimitsFacts.
From Verif Require Import ConfigProps HistoryProps Creds LifeProps AuthProps Ledger SignProps Actors.
From Verif Require Import Spend Spend.
From Verif Require Export Budget.

Section Quiet.
Variables (E : env) (k : key) (i M : Z).
Definition timely (e : event) : Prop := match e with Call cx => 0 <= c_slot cx < U64 /\ c_slot cx <= M | Other _ => True end.
Hypothesis (F : foreign_ok E) (He : hashes_ok E).
Definition quietly (w w' : world) : Prop :=
  (is_closed (w k) -> is_closed (w' k))
  /\ forall s, is_cfg (w k) s -> is_closed (w' k) \/ exists s', is_cfg (w' k) s' /\ lowers M i s s'.
Lemma quietly_refl w : quietly w w.
Proof. split; [auto|]. intros s S. right. exists s. split; [exact S|apply lowers_refl]. Qed.
Lemma quietly_trans a b c : quietly a b -> quietly b c -> quietly a c.
Proof.
  intros (A1 & A2) (B1 & B2). split; [auto|]. intros s S. destruct (A2 s S) as [C|(s1 & S1 & L1)]; [left; auto|].
  destruct (B2 s1 S1) as [C|(s2 & S2 & L2)]; [left; exact C|right]. exists s2. split; [exact S2|].
  eapply lowers_trans; [apply S|exact L1|exact L2].
Qed.
Lemma quietly_change cx w w' : ~ (acct cx 0 = k /\ tag (c_data cx) = 3 /\ u32_at 12 (c_data cx) = i) ->
  0 <= c_slot cx < U64 -> c_slot cx <= M -> (forall x, change E cx x w w') -> quietly w w'.
Proof.
  intros N Sl Sm C. split; [apply closed_stays with (1 := C k)|]. intros s S.
  destruct (config_goes _ _ _ _ _ _ (C k) S) as [Cl|(s' & S' & [->|St])]; [left; exact Cl| |];
    right; [exists s|exists s']; (split; [exact S'|]); [apply lowers_refl|]. eapply lowers_step; [apply S|exact St|exact Sl|exact Sm|exact N].
Qed.
Lemma quietly_trace cx n w w' : ~ (acct cx 0 = k /\ tag (c_data cx) = 3 /\ u32_at 12 (c_data cx) = i) ->
  ~ In SELF (map m_key (c_metas cx)) -> 0 <= c_slot cx < U64 -> c_slot cx <= M -> trace E cx n w w' -> quietly w w'.
Proof.
  intros N A Sl Sm T. induction T as [w|n w w1 w2 T IH C|n w w1 w2 cx' T IH Ne C].
  - apply quietly_refl.
  - eapply quietly_trans; [exact IH|]. eapply quietly_change; eassumption.
  - exfalso. apply A. destruct Ne as (_ & _ & _ & _ & _ & _ & Ne & _). exact Ne.
Qed.
Lemma quietly_event w e : good_world E w -> admissible E w e -> quiet k i e -> timely e -> quietly w (step E w e).
Proof.
  intros G A Q Ti. destruct e as [cx|x]; cbn [step].
  - destruct A as (A1 & A2 & A3 & A4). destruct Q as (Q1 & Q2). destruct Ti as (Ti1 & Ti2). destruct (process E cx w) as [w'| |] eqn:P; try apply quietly_refl.
    destruct (process_trace E cx w w' A1 A2 G F A3 P) as [(n & _ & T)|C]; [|contradiction]. eapply quietly_trace; eassumption.
  - destruct (foreign E w x) as [w'| |] eqn:P; try apply quietly_refl.
    assert (O : outside w w') by (eapply foreign_outside; eassumption). destruct (O k) as (O1 & _). split.
    + intros (Q1 & Q2). destruct (O1 Q1) as (X1 & X2). split; congruence.
    + intros s (Q1 & Q2 & Q3). destruct (O1 Q1) as (X1 & X2). right. exists s. split; [split; [congruence|]; split; [congruence|exact Q3]|apply lowers_refl].
Qed.

(** ** The role is gone *)
Definition dead (w : world) : Prop :=
  is_closed (w k) \/ exists s, is_cfg (w k) s /\ find_role i s = None /\ i < s_counter s.
Lemma dead_event w e : good_world E w -> admissible E w e -> quiet k i e -> timely e -> dead w -> dead (step E w e).
Proof.
  intros G A Q Ti D. destruct (quietly_event w e G A Q Ti) as (Q1 & Q2). destruct D as [D|(s & S & N & L)]; [left; auto|].
  destruct (Q2 s S) as [C|(s' & S' & ((O1 & O2) & _))]; [left; exact C|right]. exists s'. split; [exact S'|].
  split; [|lia]. destruct (find_role i s') as [r|] eqn:Fr; [|reflexivity]. exfalso.
  destruct (O2 i (find_ids _ _ _ Fr)) as [I|I]; [|lia]. apply ids_find in I as (x & I). congruence.
Qed.
Lemma dead_silent w cx w' : good_world E w -> admissible E w (Call cx) -> dead w -> signs_as k i cx = true -> succeeds E cx w w' -> False.
Proof.
  intros G A D Sg H. unfold signs_as in Sg. apply andb_prop in Sg as (Sg & Sa). apply andb_prop in Sg as (Sk & St).
  apply beq_eq in Sk. apply Z.eqb_eq in St, Sa. destruct D as [D|(s & S & N & _)].
  - rewrite <- Sk in D. exact (closed_fails _ _ _ _ G D H).
  - rewrite <- Sk in S. destruct A as (A1 & _ & A3 & _). assert (R : room 1 s) by (destruct (A3 _ _ S); split; lia).
    destruct (process_acts E cx w w' s He A1 S R H) as (r & Fr & _); [unfold auth_layout; rewrite St; discriminate|]. congruence.
Qed.

(** ** The role is there *)
Section Once.
Variables (ty : Z) (q : bytes).
Hypothesis Ho : counted ty = true.
Variable Lim : role -> Prop.
Hypothesis Lim_lower : forall r r', lower M (r_acts r) (r_acts r') -> Lim r -> Lim r'.
Variable Pe : world -> event -> Prop.
Hypothesis Pe_ok : forall w e, Pe w e -> admissible E w e.
Hypothesis Pe_slot : forall w e, Pe w e -> timely e.
Variable taken : world -> event -> Z.
Hypothesis taken_other : forall w x, taken w (Other x) = 0.
Hypothesis taken_call : forall w cx, signs_as k i cx = false \/ (forall w', ~ succeeds E cx w w') -> taken w (Call cx) = 0.
Hypothesis taken_once : forall w cx w' s r p, good_world E w -> Pe w (Call cx) -> quiet k i (Call cx) ->
  signs_as k i cx = true -> succeeds E cx w w' ->
  is_cfg (w k) s -> find_role i s = Some r -> Lim r -> perm ty q (r_acts r) = Some p -> 0 < wnd ty p ->
  taken w (Call cx) = 0 \/ exists s' r' p', is_cfg (w' k) s' /\ find_role i s' = Some r' /\ perm ty q (r_acts r') = Some p'
    /\ taken w (Call cx) + pot M ty p' <= pot M ty p.

Definition there (w : world) (n : Z) : Prop :=
  exists s r p, is_cfg (w k) s /\ find_role i s = Some r /\ Lim r /\ perm ty q (r_acts r) = Some p /\ 0 < wnd ty p /\ pot M ty p = n.
Lemma perm_in p l : perm ty q l = Some p -> exists a, In a l /\ ac_data a = p.
Proof.
  induction l as [|a t IH]; cbn [perm]; [discriminate|]. destruct (_ && _).
  - intros [= <-]. exists a. split; [left|]; reflexivity.
  - intros H. destruct (IH H) as (b & I & D). exists b. split; [right; exact I|exact D].
Qed.
Lemma pot_nonneg p : all_bytes p -> 0 <= pot M ty p.
Proof.
  intros B. assert (U : forall o, 0 <= u64_at o p) by (intros o; pose proof (u64_bound o _ B); unfold is_u64 in *; lia).
  assert (V : forall L, 0 <= until M L p).
  { intros L. unfold until. cbv zeta. pose proof (U (lay_left L)). pose proof (U (lay_limit L)). nia. }
  unfold pot. destruct ty as [|x|x]; try lia. repeat match goal with x : positive |- _ => destruct x; try lia end; first [apply U|apply V].
Qed.
Lemma there_nonneg w n : there w n -> 0 <= n.
Proof.
  intros (s & r & p & S & Fr & _ & P & _ & <-). destruct (wf_find _ _ _ (proj2 (proj2 S)) Fr) as (_ & _ & _ & _ & _ & (_ & Wa & _)).
  apply perm_in in P as (a & I & <-). rewrite Forall_forall in Wa. destruct (Wa a I) as (_ & B). apply pot_nonneg, B.
Qed.
Lemma dead_taken w e : good_world E w -> admissible E w e -> dead w -> taken w e = 0.
Proof.
  intros G A D. destruct e as [cx|x]; [|apply taken_other]. apply taken_call.
  destruct (signs_as k i cx) eqn:Sg; [right|left; reflexivity]. intros w' H. eapply dead_silent; eassumption.
Qed.
Lemma there_event w e n : good_world E w -> Pe w e -> quiet k i e -> there w n ->
  (exists n', there (step E w e) n' /\ taken w e + n' <= n) \/ (dead (step E w e) /\ taken w e <= n).
Proof.
  intros G P Q Al. pose proof (there_nonneg _ _ Al) as Nn. destruct Al as (s & r & p & S & Fr & L & Pm & Wp & <-).
  destruct (quietly_event w e G (Pe_ok _ _ P) Q (Pe_slot _ _ P)) as (_ & Q2).
  assert (X : taken w e = 0 \/ exists s' r' p', is_cfg (step E w e k) s' /\ find_role i s' = Some r' /\ perm ty q (r_acts r') = Some p'
    /\ taken w e + pot M ty p' <= pot M ty p).
  { destruct e as [cx|x]; [|left; apply taken_other].
    destruct (signs_as k i cx) eqn:Sg; [|left; apply taken_call; left; exact Sg].
    cbn [step]. destruct (process E cx w) as [w'| |] eqn:Pr.
    - eapply taken_once; eassumption.
    - left. apply taken_call. right. unfold succeeds. intros w' H. congruence.
    - left. apply taken_call. right. unfold succeeds. intros w' H. congruence. }
  destruct (Q2 s S) as [C|(s' & S' & (O1 & O2) & Lw)].
  { right. split; [left; exact C|]. destruct X as [X|(s2 & r2 & p2 & S2 & _)]; [rewrite X; exact Nn|]. exfalso. eapply closed_no; eassumption. }
  destruct (find_role i s') as [r'|] eqn:Fr'.
  - left. specialize (Lw r r' Fr eq_refl). destruct (lower_perm M ty q _ _ p Ho Lw Pm) as (p' & P' & Wq & U). specialize (U Wp).
    exists (pot M ty p'). split; [exists s', r', p'; split; [exact S'|]; split; [exact Fr'|]; split; [eapply Lim_lower; eassumption|]; split; [exact P'|]; split; [lia|reflexivity]|].
    destruct X as [X|(s2 & r2 & p2 & S2 & F2 & P2 & X)]; [rewrite X; lia|].
    pose proof (is_cfg_inj _ _ _ S' S2). subst s2. assert (r2 = r') by congruence. subst r2. assert (p2 = p') by congruence. subst p2. lia.
  - right. split; [right; exists s'; split; [exact S'|]; split; [exact Fr'|];
      pose proof (wf_ids_below _ _ (proj2 (proj2 S)) (find_ids _ _ _ Fr)); lia|].
    destruct X as [X|(s2 & r2 & p2 & S2 & F2 & _)]; [rewrite X; exact Nn|]. pose proof (is_cfg_inj _ _ _ S' S2). subst s2. congruence.
Qed.
Lemma dead_total es : forall w, good_world E w -> along E Pe w es -> Forall (quiet k i) es -> dead w ->
  total E taken w es = 0 /\ dead (run E w es).
Proof.
  induction es as [|e t IH]; intros w G P Q D; [split; [reflexivity|exact D]|]. cbn [total]. destruct P as (P1 & P2).
  inversion Q as [|? ? Q1 Q2]; subst. change (run E w (e :: t)) with (run E (step E w e) t).
  destruct (IH (step E w e)) as (T & D'); [apply event_good; [exact F|exact G|apply Pe_ok, P1]|exact P2|exact Q2|apply dead_event; [exact G|apply Pe_ok, P1|exact Q1|eapply Pe_slot, P1|exact D]|].
  rewrite T, (dead_taken w e G (Pe_ok _ _ P1) D). auto.
Qed.
Lemma there_total es : forall w n, good_world E w -> along E Pe w es -> Forall (quiet k i) es -> there w n ->
  total E taken w es <= n
  /\ ((exists n', there (run E w es) n' /\ total E taken w es + n' <= n) \/ dead (run E w es)).
Proof.
  induction es as [|e t IH]; intros w n G P Q Al.
  - pose proof (there_nonneg _ _ Al). cbn. split; [assumption|]. left. exists n. split; [exact Al|lia].
  - destruct P as (P1 & P2). inversion Q as [|? ? Q1 Q2]; subst. cbn [total]. change (run E w (e :: t)) with (run E (step E w e) t).
    assert (G1 : good_world E (step E w e)) by (apply event_good; [exact F|exact G|apply Pe_ok, P1]).
    destruct (there_event w e n G P1 Q1 Al) as [(n' & Al' & T)|(D & T)].
    + destruct (IH _ _ G1 P2 Q2 Al') as (T1 & [(n2 & A2 & T2)|D2]); (split; [lia|]); [left|right; exact D2]. exists n2. split; [exact A2|lia].
    + destruct (dead_total t _ G1 P2 Q2 D) as (T2 & D2). rewrite T2. split; [lia|right; exact D2].
Qed.
Theorem once_total w es s r p : good_world E w -> along E Pe w es -> Forall (quiet k i) es ->
  is_cfg (w k) s -> find_role i s = Some r -> Lim r -> perm ty q (r_acts r) = Some p -> 0 < wnd ty p ->
  total E taken w es <= pot M ty p
  /\ forall s' r', is_cfg (run E w es k) s' -> find_role i s' = Some r' ->
       exists p', perm ty q (r_acts r') = Some p' /\ total E taken w es + pot M ty p' <= pot M ty p.
Proof.
  intros G P Q S Fr L Pm Wp. destruct (there_total es w (pot M ty p) G P Q) as (T & X); [exists s, r, p; auto 6|]. split; [exact T|].
  intros s' r' S' Fr'. destruct X as [(n' & (s2 & r2 & p2 & S2 & F2 & _ & P2 & _ & <-) & Tn)|[D|(s2 & S2 & N & _)]].
  - pose proof (is_cfg_inj _ _ _ S' S2). subst s2. assert (r2 = r') by congruence. subst r2. exists p2. auto.
  - exfalso. eapply closed_no; eassumption.
  - pose proof (is_cfg_inj _ _ _ S' S2). subst s2. congruence.
Qed.
End Once.
End Quiet.


(** ** The role pays from the permission of kind [ty], which is the one looked at first *)
Lemma signs_as_ok k i cx : signs_as k i cx = true -> acct cx 0 = k /\ tag (c_data cx) = 11 /\ actor_of (c_data cx) = i.
Proof.
  unfold signs_as. intros H. apply andb_prop in H as (H & Sa). apply andb_prop in H as (Sk & St).
  apply beq_eq in Sk. apply Z.eqb_eq in St, Sa. auto.
Qed.
Lemma step_ok E cx w w' : succeeds E cx w w' -> step E w (Call cx) = w'.
Proof. unfold succeeds. intros H. cbn [step]. rewrite H. reflexivity. Qed.
Lemma step_not E cx w : (forall w', ~ succeeds E cx w w') -> step E w (Call cx) = w.
Proof. unfold succeeds. intros H. cbn [step]. destruct (process E cx w) as [w'| |]; [|reflexivity|reflexivity]. destruct (H w' eq_refl). Qed.
Definition first_kind (a ty : Z) (q : bytes) (r : role) : Prop := ty = a \/ perm a q (r_acts r) = None.
Lemma first_lower M a ty q r r' : counted a = true -> lower M (r_acts r) (r_acts r') -> first_kind a ty q r -> first_kind a ty q r'.
Proof. intros C L [H|H]; [left; exact H|right]. eapply lower_none; eassumption. Qed.
Lemma either_draws a b ty q slot amts r r' p : pays_either a b q slot amts r r' -> first_kind a ty q r -> ty = a \/ ty = b ->
  perm ty q (r_acts r) = Some p -> exists p', perm ty q (r_acts r') = Some p' /\ draws ty slot amts p p'.
Proof.
  intros Pe Fk T P. destruct Pe as [(p0 & p1 & A1 & A2 & D)|(N & (p0 & p1 & A1 & A2 & D))].
  - assert (ty = a) by (destruct Fk as [X|X]; congruence). subst ty. exists p1. assert (p0 = p) by congruence. subst p0. auto.
  - assert (ty = b) by (destruct T as [X|X]; congruence). subst ty. exists p1. assert (p0 = p) by congruence. subst p0. auto.
Qed.
Lemma find_perm_wf (k : key) (w : world) s i r ty q p : is_cfg (w k) s -> find_role i s = Some r -> perm ty q (r_acts r) = Some p ->
  all_bytes p /\ action_len ty = Some (length p).
Proof.
  intros S F P. destruct (wf_find _ _ _ (proj2 (proj2 S)) F) as (_ & _ & _ & _ & _ & (_ & Wa & _)). clear - Wa P.
  induction (r_acts r) as [|a t IH]; cbn [perm] in P; [discriminate|]. destruct ((ac_ty a =? ty) && beq (target_of a) q) eqn:Q.
  - injection P as <-. apply andb_prop in Q as (Q & _). apply Z.eqb_eq in Q. subst ty. destruct (Forall_inv Wa) as (L & B). auto.
  - apply IH; [exact P|exact (Forall_inv_tail Wa)].
Qed.
Lemma along_and E (P Q : world -> event -> Prop) es : forall w, along E P w es -> Forall (fun e => forall w, Q w e) es -> along E (fun w e => P w e /\ Q w e) w es.
Proof.
  induction es as [|e t IH]; intros w H F; [exact I|]. destruct H as (H1 & H2). split; [split; [exact H1|apply (Forall_inv F)]|].
  apply IH; [exact H2|exact (Forall_inv_tail F)].
Qed.

(** ** SOL *)
Theorem sol_life E w es k i M ty s r p : foreign_ok E -> hashes_ok E -> good_world E w -> along E (proper_event E) w es ->
  Forall (quiet k i) es -> Forall (by_slot M) es -> is_cfg (w k) s -> find_role i s = Some r -> limited r -> ty = 1 \/ ty = 2 ->
  first_kind 1 ty [] r -> perm ty [] (r_acts r) = Some p -> 0 < wnd ty p ->
  total E (sol_taken E k i) w es <= pot M ty p
  /\ forall s' r', is_cfg (run E w es k) s' -> find_role i s' = Some r' ->
       exists p', perm ty [] (r_acts r') = Some p' /\ total E (sol_taken E k i) w es + pot M ty p' <= pot M ty p.
Proof.
  intros F He G P Q Sm S Fr L Ty Fk Pm Wp.
  assert (Ct : counted ty = true) by (destruct Ty; subst ty; reflexivity).
  assert (LL : forall r r', lower M (r_acts r) (r_acts r') -> limited r /\ first_kind 1 ty [] r -> limited r' /\ first_kind 1 ty [] r').
  { intros a b Lw (A & B). split; [eapply lower_limited; eassumption|eapply first_lower; [reflexivity|eassumption..]]. }
  eapply (once_total E k i M F He ty [] Ct (fun r => limited r /\ first_kind 1 ty [] r) LL (fun w e => proper_event E w e /\ by_slot M e)); try eassumption.
  - intros v e ((A & _) & _). exact A.
  - intros v [cx|x] ((_ & A) & B); [|exact I]. split; [apply A|exact B].
  - reflexivity.
  - intros v cx [X|X]; unfold sol_taken; [rewrite X; reflexivity|]. rewrite step_not by exact X. destruct (signs_as _ _ _); lia.
  - intros v cx v' s0 r0 p0 G0 ((Ad & Sl & Sw & Sw') & Sb) _ Sg H S0 F0 (L0 & Fk0) P0 W0.
    unfold sol_taken. rewrite Sg. rewrite (step_ok _ _ _ _ H) in *. apply signs_as_ok in Sg as (<- & T & <-).
    destruct (sol_bound E cx v v' s0 r0 F G0 Ad S0 T H F0 L0 Sl Sw Sw') as (s' & r' & xs & ws & C' & F' & _ & _ & X).
    cbv zeta in X. unfold wallet_of in X. set (sp := capped _) in X. destruct X as (X0 & X1 & _ & X2).
    destruct (find_role_in _ _ _ F0) as (I0 & Id). rewrite Id in F'.
    destruct (Z.eq_dec (Z.max 0 (a_lamports (v (acct cx 1)) - a_lamports (v' (acct cx 1)))) 0) as [Z0|Z0]; [left; exact Z0|right].
    destruct X2 as [X2|[X2|(X2 & _)]]; [lia| |].
    + destruct (either_draws _ _ ty _ _ _ _ _ _ X2 Fk0 Ty P0) as (p' & P' & D). exists s', r', p'.
      split; [exact C'|]. split; [exact F'|]. split; [exact P'|].
      destruct (find_perm_wf _ _ _ _ _ _ _ _ S0 F0 P0) as (B0 & B1).
      pose proof (draws_pot M ty _ _ _ _ Ct B1 (held_bytes ty _ B0) Sb D W0) as Dp. cbn [sum] in Dp. lia.
    + exfalso. specialize (X2 ty ltac:(cbn; destruct Ty; auto)). congruence.
  - apply (along_and E (proper_event E) (fun _ e => by_slot M e)); [exact P|]. apply Forall_forall. intros e I _. rewrite Forall_forall in Sm. apply Sm, I.
  - auto.
Qed.

(** ** Tokens and stake *)
Lemma sum_filter {A} (f : A -> bool) (g : A -> Z) (h : A -> Z) (l : list (A * Z)) :
  (forall m x, In (m, x) l -> f m = true -> g m <= Z.max 0 x) -> (forall m, f m = false -> g m = 0) ->
  sum (map g (map fst l)) <= sum (map snd (filter (fun t => f (fst t) && (0 <? snd t)) l)).
Proof.
  intros H N. induction l as [|(m, x) t IH]; cbn [map filter fst snd sum]; [lia|].
  assert (I : sum (map g (map fst t)) <= sum (map snd (filter (fun t => f (fst t) && (0 <? snd t)) t))) by (apply IH; intros; apply H; [right|]; assumption).
  destruct (f m) eqn:Q; cbn [andb].
  - pose proof (H m x (or_introl eq_refl) Q). destruct (Z.ltb_spec 0 x); cbn [map snd sum]; lia.
  - rewrite (N m Q). lia.
Qed.
Lemma map_fst_combine {A B} (l : list A) : forall (l' : list B), length l' = length l -> map fst (combine l l') = l.
Proof. induction l as [|a t IH]; intros [|b u] L; cbn in *; try discriminate; [reflexivity|]. f_equal. apply IH. lia. Qed.
Lemma sum_zero {A} (g : A -> Z) (l : list A) : (forall x, g x = 0) -> sum (map g l) = 0.
Proof. intros H. induction l as [|a t IH]; cbn [map sum]; [reflexivity|]. rewrite H, IH. reflexivity. Qed.


Theorem token_life E w es k i mint M ty s r p : foreign_ok E -> hashes_ok E -> good_world E w -> along E (clean_event E) w es ->
  Forall (quiet k i) es -> Forall (by_slot M) es -> is_cfg (w k) s -> find_role i s = Some r -> limited r -> length mint = 32%nat ->
  ty = 5 \/ ty = 6 -> first_kind 5 ty mint r -> perm ty mint (r_acts r) = Some p -> 0 < wnd ty p ->
  total E (tokens_taken E k i mint) w es <= pot M ty p
  /\ forall s' r', is_cfg (run E w es k) s' -> find_role i s' = Some r' ->
       exists p', perm ty mint (r_acts r') = Some p' /\ total E (tokens_taken E k i mint) w es + pot M ty p' <= pot M ty p.
Proof.
  intros F He G P Q Sm S Fr L Lm Ty Fk Pm Wp.
  assert (Ct : counted ty = true) by (destruct Ty; subst ty; reflexivity).
  assert (LL : forall r r', lower M (r_acts r) (r_acts r') -> limited r /\ first_kind 5 ty mint r -> limited r' /\ first_kind 5 ty mint r').
  { intros a b Lw (A & B). split; [eapply lower_limited; eassumption|eapply first_lower; [reflexivity|eassumption..]]. }
  eapply (once_total E k i M F He ty mint Ct (fun r => limited r /\ first_kind 5 ty mint r) LL (fun w e => clean_event E w e /\ by_slot M e)); try eassumption.
  - intros v e (((A & _) & _) & _). exact A.
  - intros v [cx|x] (((_ & A) & _) & B); [|exact I]. split; [apply A|exact B].
  - reflexivity.
  - intros v cx [X|X]; unfold tokens_taken; cbv zeta; [rewrite X; reflexivity|]. rewrite step_not by exact X. destruct (signs_as _ _ _); [|reflexivity].
    apply sum_zero. intros m. destruct (_ && _); [|reflexivity]. lia.
  - intros v cx v' s0 r0 p0 G0 (((Ad & Sl & Sw & Sw') & Nc) & Sb) _ Sg H S0 F0 (L0 & Fk0) P0 W0.
    unfold tokens_taken. cbv zeta. rewrite Sg. rewrite (step_ok _ _ _ _ H) in *. apply signs_as_ok in Sg as (<- & T & <-).
    destruct (token_spend E cx v v' s0 r0 F G0 Ad S0 T H F0 L0 Sl Sw Sw' Nc) as (s' & r' & xs & ws & sp & C' & F' & _ & _ & Ln & Ac & Mi & _).
    destruct (find_role_in _ _ _ F0) as (I0 & Id). rewrite Id in F'.
    set (g := fun m => _). set (f := fun m => own_token cx v m && alive (v' (m_key m)) && beq (mint_of (v (m_key m))) mint).
    assert (Le : sum (map g (rest_of cx)) <= sum (on_mint cx v v' mint sp)).
    { rewrite <- (map_fst_combine (rest_of cx) sp Ln) at 1. unfold on_mint. change (spends cx v v' mint) with (fun t : meta * Z => f (fst t) && (0 <? snd t)).
      apply (sum_filter f g g).
      - intros m x I Y. unfold g. fold (f m). rewrite Y. unfold f in Y. apply andb_prop in Y as (Y & _). apply andb_prop in Y as (Y1 & Y2).
        destruct (Ac m x I Y1) as (_ & B). rewrite Y2 in B. destruct B as (_ & _ & _ & _ & _ & B). lia.
      - intros m Y. unfold g. fold (f m). rewrite Y. reflexivity. }
    assert (Ng : 0 <= sum (map g (rest_of cx))).
    { clear. induction (rest_of cx) as [|m t IH]; cbn [map sum]; [lia|]. assert (0 <= g m) by (unfold g; destruct (_ && _); lia). lia. }
    destruct (Mi mint Lm) as [X|[X|(X & _)]].
    + left. rewrite X in Le. cbn [sum] in Le. lia.
    + right. destruct (either_draws _ _ ty _ _ _ _ _ _ X Fk0 Ty P0) as (p' & P' & D). exists s', r', p'.
      split; [exact C'|]. split; [exact F'|]. split; [exact P'|].
      destruct (find_perm_wf _ _ _ _ _ _ _ _ S0 F0 P0) as (B0 & B1).
      pose proof (draws_pot M ty _ _ _ _ Ct B1 (held_bytes ty _ B0) Sb D W0) as Dp. lia.
    + exfalso. specialize (X ty ltac:(cbn; destruct Ty; auto)). congruence.
  - apply (along_and E (clean_event E) (fun _ e => by_slot M e)); [exact P|]. apply Forall_forall. intros e I _. rewrite Forall_forall in Sm. apply Sm, I.
  - auto.
Qed.

Theorem stake_life E w es k i M ty s r p : foreign_ok E -> hashes_ok E -> good_world E w -> along E (clean_event E) w es ->
  Forall (quiet k i) es -> Forall (by_slot M) es -> is_cfg (w k) s -> find_role i s = Some r -> limited r -> ~ holds 12 r ->
  ty = 10 \/ ty = 11 -> first_kind 10 ty [] r -> perm ty [] (r_acts r) = Some p -> 0 < wnd ty p ->
  total E (stakes_taken E k i) w es <= pot M ty p
  /\ forall s' r', is_cfg (run E w es k) s' -> find_role i s' = Some r' ->
       exists p', perm ty [] (r_acts r') = Some p' /\ total E (stakes_taken E k i) w es + pot M ty p' <= pot M ty p.
Proof.
  intros F He G P Q Sm S Fr L Lh Ty Fk Pm Wp.
  assert (Ct : counted ty = true) by (destruct Ty; subst ty; reflexivity).
  assert (LL : forall r r', lower M (r_acts r) (r_acts r') -> (limited r /\ ~ holds 12 r) /\ first_kind 10 ty [] r -> (limited r' /\ ~ holds 12 r') /\ first_kind 10 ty [] r').
  { intros a b Lw ((A & A') & B). split; [split; [eapply lower_limited; eassumption|]|eapply first_lower; [reflexivity|eassumption..]].
    intros H. apply A'. eapply lower_holds; [exact Lw|discriminate|exact H]. }
  eapply (once_total E k i M F He ty [] Ct (fun r => (limited r /\ ~ holds 12 r) /\ first_kind 10 ty [] r) LL (fun w e => clean_event E w e /\ by_slot M e)); try eassumption.
  - intros v e (((A & _) & _) & _). exact A.
  - intros v [cx|x] (((_ & A) & _) & B); [|exact I]. split; [apply A|exact B].
  - reflexivity.
  - intros v cx [X|X]; unfold stakes_taken; cbv zeta; [rewrite X; reflexivity|]. rewrite step_not by exact X. destruct (signs_as _ _ _); [|reflexivity].
    apply sum_zero. intros m. destruct (own_stake _ _ _); [|reflexivity]. lia.
  - intros v cx v' s0 r0 p0 G0 (((Ad & Sl & Sw & Sw') & Nc) & Sb) _ Sg H S0 F0 ((L0 & L1) & Fk0) P0 W0.
    unfold stakes_taken. cbv zeta. rewrite Sg. rewrite (step_ok _ _ _ _ H) in *. apply signs_as_ok in Sg as (<- & T & <-).
    destruct (stake_spend E cx v v' s0 r0 F G0 Ad S0 T H F0 L0 Sl Sw Sw' Nc) as (s' & r' & xs & ws & sp & C' & F' & _ & _ & Ln & Ac & Mi).
    destruct (find_role_in _ _ _ F0) as (I0 & Id). rewrite Id in F'.
    set (g := fun m => _).
    assert (Le : sum (map g (rest_of cx)) <= sum (on_stake cx v sp)).
    { rewrite <- (map_fst_combine (rest_of cx) sp Ln) at 1. unfold on_stake.
      apply (sum_filter (own_stake cx v) g g).
      - intros m x I Y. unfold g. rewrite Y. destruct (Ac m x I Y) as (_ & _ & _ & _ & B & _). lia.
      - intros m Y. unfold g. rewrite Y. reflexivity. }
    assert (Ng : 0 <= sum (map g (rest_of cx))).
    { clear. induction (rest_of cx) as [|m t IH]; cbn [map sum]; [lia|]. assert (0 <= g m) by (unfold g; destruct (own_stake _ _ _); lia). lia. }
    destruct Mi as [X|[X|X]].
    + left. rewrite X in Le. cbn [sum] in Le. lia.
    + contradiction.
    + right. destruct (either_draws _ _ ty _ _ _ _ _ _ X Fk0 Ty P0) as (p' & P' & D). exists s', r', p'.
      split; [exact C'|]. split; [exact F'|]. split; [exact P'|].
      destruct (find_perm_wf _ _ _ _ _ _ _ _ S0 F0 P0) as (B0 & B1).
      pose proof (draws_pot M ty _ _ _ _ Ct B1 (held_bytes ty _ B0) Sb D W0) as Dp. lia.
  - apply (along_and E (clean_event E) (fun _ e => by_slot M e)); [exact P|]. apply Forall_forall. intros e I _. rewrite Forall_forall in Sm. apply Sm, I.
  - auto.
Qed.

(** ** The one-time limits *)
Lemma proper_slots E (P : world -> event -> Prop) es : (forall w e, P w e -> proper_event E w e) -> forall w, along E P w es -> Forall (by_slot U64) es.
Proof.
  intros H. induction es as [|e t IH]; intros w A; [constructor|]. destruct A as (A1 & A2). constructor; [|eapply IH; exact A2].
  destruct e as [cx|x]; [|exact I]. destruct (H _ _ A1) as (_ & B). cbn. lia.
Qed.
Theorem sol_lifetime E w es k i s r p : foreign_ok E -> hashes_ok E -> good_world E w -> along E (proper_event E) w es ->
  Forall (quiet k i) es -> is_cfg (w k) s -> find_role i s = Some r -> limited r -> perm 1 [] (r_acts r) = Some p ->
  total E (sol_taken E k i) w es <= u64_at 0 p
  /\ forall s' r', is_cfg (run E w es k) s' -> find_role i s' = Some r' ->
       exists p', perm 1 [] (r_acts r') = Some p' /\ total E (sol_taken E k i) w es + u64_at 0 p' <= u64_at 0 p.
Proof.
  intros F He G P Q S Fr L Pm. apply (sol_life E w es k i U64 1 s r p); try assumption; try (left; reflexivity); [|reflexivity].
  eapply proper_slots; [|exact P]. auto.
Qed.
Theorem token_lifetime E w es k i mint s r p : foreign_ok E -> hashes_ok E -> good_world E w -> along E (clean_event E) w es ->
  Forall (quiet k i) es -> is_cfg (w k) s -> find_role i s = Some r -> limited r -> length mint = 32%nat ->
  perm 5 mint (r_acts r) = Some p ->
  total E (tokens_taken E k i mint) w es <= u64_at 32 p
  /\ forall s' r', is_cfg (run E w es k) s' -> find_role i s' = Some r' ->
       exists p', perm 5 mint (r_acts r') = Some p' /\ total E (tokens_taken E k i mint) w es + u64_at 32 p' <= u64_at 32 p.
Proof.
  intros F He G P Q S Fr L Lm Pm. apply (token_life E w es k i mint U64 5 s r p); try assumption; try (left; reflexivity); [|reflexivity].
  eapply proper_slots; [|exact P]. intros v e (H & _). exact H.
Qed.
Theorem stake_lifetime E w es k i s r p : foreign_ok E -> hashes_ok E -> good_world E w -> along E (clean_event E) w es ->
  Forall (quiet k i) es -> is_cfg (w k) s -> find_role i s = Some r -> limited r -> ~ holds 12 r ->
  perm 10 [] (r_acts r) = Some p ->
  total E (stakes_taken E k i) w es <= u64_at 0 p
  /\ forall s' r', is_cfg (run E w es k) s' -> find_role i s' = Some r' ->
       exists p', perm 10 [] (r_acts r') = Some p' /\ total E (stakes_taken E k i) w es + u64_at 0 p' <= u64_at 0 p.
Proof.
  intros F He G P Q S Fr L Lh Pm. apply (stake_life E w es k i U64 10 s r p); try assumption; try (left; reflexivity); [|reflexivity].
  eapply proper_slots; [|exact P]. intros v e (H & _). exact H.
Qed.

(** ** The limits that are renewed *)
Theorem sol_windows E w es k i M s r p : foreign_ok E -> hashes_ok E -> good_world E w -> along E (proper_event E) w es ->
  Forall (quiet k i) es -> Forall (by_slot M) es -> is_cfg (w k) s -> find_role i s = Some r -> limited r ->
  perm 1 [] (r_acts r) = None -> perm 2 [] (r_acts r) = Some p -> 0 < u64_at (lay_window SolRec) p ->
  total E (sol_taken E k i) w es <= until M SolRec p
  /\ forall s' r', is_cfg (run E w es k) s' -> find_role i s' = Some r' ->
       exists p', perm 2 [] (r_acts r') = Some p' /\ total E (sol_taken E k i) w es + until M SolRec p' <= until M SolRec p.
Proof.
  intros F He G P Q Sm S Fr L N Pm Wp. apply (sol_life E w es k i M 2 s r p); try assumption; right; [reflexivity|exact N].
Qed.
Theorem token_windows E w es k i mint M s r p : foreign_ok E -> hashes_ok E -> good_world E w -> along E (clean_event E) w es ->
  Forall (quiet k i) es -> Forall (by_slot M) es -> is_cfg (w k) s -> find_role i s = Some r -> limited r -> length mint = 32%nat ->
  perm 5 mint (r_acts r) = None -> perm 6 mint (r_acts r) = Some p -> 0 < u64_at (lay_window TokRec) p ->
  total E (tokens_taken E k i mint) w es <= until M TokRec p
  /\ forall s' r', is_cfg (run E w es k) s' -> find_role i s' = Some r' ->
       exists p', perm 6 mint (r_acts r') = Some p' /\ total E (tokens_taken E k i mint) w es + until M TokRec p' <= until M TokRec p.
Proof.
  intros F He G P Q Sm S Fr L Lm N Pm Wp. apply (token_life E w es k i mint M 6 s r p); try assumption; right; [reflexivity|exact N].
Qed.
Theorem stake_windows E w es k i M s r p : foreign_ok E -> hashes_ok E -> good_world E w -> along E (clean_event E) w es ->
  Forall (quiet k i) es -> Forall (by_slot M) es -> is_cfg (w k) s -> find_role i s = Some r -> limited r -> ~ holds 12 r ->
  perm 10 [] (r_acts r) = None -> perm 11 [] (r_acts r) = Some p -> 0 < u64_at (lay_window SolRec) p ->
  total E (stakes_taken E k i) w es <= until M SolRec p
  /\ forall s' r', is_cfg (run E w es k) s' -> find_role i s' = Some r' ->
       exists p', perm 11 [] (r_acts r') = Some p' /\ total E (stakes_taken E k i) w es + until M SolRec p' <= until M SolRec p.
Proof.
  intros F He G P Q Sm S Fr L Lh N Pm Wp. apply (stake_life E w es k i M 11 s r p); try assumption; right; [reflexivity|exact N].
Qed.
