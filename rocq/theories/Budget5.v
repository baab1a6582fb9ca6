(** * What a role takes over a whole history: all limits per destination.  Sums *)
From Verif Require Import BaseFacts SpecConfig ConfigFacts ConfigEdit ConfigEdit2 ConfigEdit3 LimitsFacts.
From Verif Require Import ConfigProps HistoryProps Creds LifeProps AuthProps Ledger SignProps Actors Spend.
From Verif Require Export Budget4.

Definition allfit (S : Z) (l : list action) : Prop := Forall (fun a => fits S (ac_ty a) (ac_data a)) l.
Lemma fits_later S S' ty p : S <= S' -> fits S ty p -> fits S' ty p.
Proof.
  intros H. unfold fits. destruct ty as [|x|x]; auto. repeat match goal with x : positive |- _ => destruct x; auto end; lia.
Qed.
Lemma allfit_slow M S l l' : slow M S l l' -> allfit S l -> allfit S l'.
Proof.
  intros (l0 & t & -> & H1 & H2) A. apply Forall_app. split.
  - induction H1 as [|a b ta tb (T & H) _ IH]; constructor; [|apply IH; exact (Forall_inv_tail A)].
    pose proof (Forall_inv A) as X. cbv beta in X. rewrite T. destruct (rated (ac_ty a)) eqn:R; [apply H; auto|].
    unfold fits, rated in *. destruct (ac_ty a) as [|x|x]; try exact I.
    repeat match goal with x : positive |- _ => destruct x; try exact I; try discriminate R end.
  - eapply Forall_impl; [|exact H2]. cbv beta. intros a ->. exact I.
Qed.

Section Sums.
Variables (E : env) (k : key) (i M : Z).
Hypothesis (F : foreign_ok E) (He : hashes_ok E).
Variable Phi : list action -> Z.
Hypothesis Phi_slow : forall S l l', slow M S l l' -> allfit S l -> Phi l' <= Phi l.
Hypothesis Phi_nonneg : forall l, Forall wf_action l -> 0 <= Phi l.
Variable Lim : role -> Prop.
Hypothesis Lim_lower : forall S r r', lower M (r_acts r) (r_acts r') -> slow M S (r_acts r) (r_acts r') -> Lim r -> Lim r'.
Variable Pe : world -> event -> Prop.
Hypothesis Pe_ok : forall w e, Pe w e -> admissible E w e.
Hypothesis Pe_slot : forall w e, Pe w e -> timely M e.
Variable taken : world -> event -> Z.
Hypothesis taken_other : forall w x, taken w (Other x) = 0.
Hypothesis taken_call : forall w cx, signs_as k i cx = false \/ (forall w', ~ succeeds E cx w w') -> taken w (Call cx) = 0.
Hypothesis taken_once : forall w cx w' s r, good_world E w -> Pe w (Call cx) -> signs_as k i cx = true -> succeeds E cx w w' ->
  is_cfg (w k) s -> find_role i s = Some r -> Lim r ->
  exists s' r', is_cfg (w' k) s' /\ find_role i s' = Some r'
    /\ (slow M (c_slot cx) (r_acts r) (r_acts r') -> allfit (c_slot cx) (r_acts r) -> taken w (Call cx) + Phi (r_acts r') <= Phi (r_acts r)).

Definition stays_by (S : Z) (w : world) (n : Z) : Prop :=
  exists s r, is_cfg (w k) s /\ find_role i s = Some r /\ Lim r /\ allfit S (r_acts r) /\ Phi (r_acts r) = n.
Definition after (S : Z) (e : event) : Z := match e with Call cx => c_slot cx | Other _ => S end.
Lemma stays_by_nonneg S w n : stays_by S w n -> 0 <= n.
Proof. intros (s & r & Sc & Fr & _ & _ & <-). apply Phi_nonneg. destruct (wf_find _ _ _ (proj2 (proj2 Sc)) Fr) as (_ & _ & _ & _ & _ & (_ & Wa & _)). exact Wa. Qed.
Lemma stays_by_event S w e n : good_world E w -> Pe w e -> quiet k i e -> S <= after S e -> stays_by S w n ->
  (exists n', stays_by (after S e) (step E w e) n' /\ taken w e + n' <= n) \/ (dead k i (step E w e) /\ taken w e <= n).
Proof.
  intros G P Q Ta Al. pose proof (stays_by_nonneg _ _ _ Al) as Nn. destruct Al as (s & r & Sc & Fr & L & Ft & <-).
  destruct (quietly_event E k i M F w e G (Pe_ok _ _ P) Q (Pe_slot _ _ P)) as (_ & Q2).
  assert (Se : match e with Call cx => c_slot cx = after S e | Other _ => True end) by (destruct e; reflexivity || exact I).
  destruct (slowly_event M i (after S e) E k F w e G (Pe_ok _ _ P) Q (Pe_slot _ _ P) Se) as (_ & Q3).
  assert (Ft' : allfit (after S e) (r_acts r)) by (eapply Forall_impl; [|exact Ft]; intros a; apply fits_later, Ta).
  assert (X : taken w e = 0 \/ exists s' r', is_cfg (step E w e k) s' /\ find_role i s' = Some r'
    /\ (slow M (after S e) (r_acts r) (r_acts r') -> taken w e + Phi (r_acts r') <= Phi (r_acts r))).
  { destruct e as [cx|x]; [|left; apply taken_other].
    destruct (signs_as k i cx) eqn:Sg; [|left; apply taken_call; left; exact Sg].
    cbn [step]. destruct (process E cx w) as [w'| |] eqn:Pr.
    - right. destruct (taken_once w cx w' s r G P Sg Pr Sc Fr L) as (s' & r' & A1 & A2 & A3). exists s', r'. auto.
    - left. apply taken_call. right. unfold succeeds. intros w' H. congruence.
    - left. apply taken_call. right. unfold succeeds. intros w' H. congruence. }
  destruct (Q2 s Sc) as [C|(s' & S' & (O1 & O2) & Lw)].
  { right. split; [left; exact C|]. destruct X as [X|(s2 & r2 & S2 & _)]; [rewrite X; exact Nn|]. exfalso. eapply closed_no; eassumption. }
  destruct (find_role i s') as [r'|] eqn:Fr'.
  - left. specialize (Lw r r' Fr eq_refl).
    destruct (Q3 s Sc) as [C|(s3 & S3 & _ & Sl)]; [exfalso; eapply closed_no; eassumption|].
    pose proof (is_cfg_inj _ _ _ S' S3). subst s3. specialize (Sl r r' Fr Fr'). pose proof (Phi_slow _ _ _ Sl Ft') as U.
    exists (Phi (r_acts r')). split.
    { exists s', r'. split; [exact S'|]. split; [exact Fr'|]. split; [eapply Lim_lower; eassumption|]. split; [eapply allfit_slow; eassumption|reflexivity]. }
    destruct X as [X|(s2 & r2 & S2 & F2 & X)]; [rewrite X; lia|].
    pose proof (is_cfg_inj _ _ _ S' S2). subst s2. assert (r2 = r') by congruence. subst r2. apply X, Sl.
  - right. split; [right; exists s'; split; [exact S'|]; split; [exact Fr'|];
      pose proof (wf_ids_below _ _ (proj2 (proj2 Sc)) (find_ids _ _ _ Fr)); lia|].
    destruct X as [X|(s2 & r2 & S2 & F2 & _)]; [rewrite X; exact Nn|]. pose proof (is_cfg_inj _ _ _ S' S2). subst s2. congruence.
Qed.
Lemma in_time_cons S e t : in_order S (e :: t) -> S <= after S e /\ in_order (after S e) t.
Proof. destruct e; cbn; [auto|]. intros H. split; [lia|exact H]. Qed.
Lemma stays_by_total es : forall S w n, good_world E w -> along E Pe w es -> Forall (quiet k i) es -> in_order S es -> stays_by S w n ->
  total E taken w es <= n
  /\ ((exists S' n', stays_by S' (run E w es) n' /\ total E taken w es + n' <= n) \/ dead k i (run E w es)).
Proof.
  induction es as [|e t IH]; intros S w n G P Q Ti Al.
  - pose proof (stays_by_nonneg _ _ _ Al). cbn. split; [assumption|]. left. exists S, n. split; [exact Al|lia].
  - destruct P as (P1 & P2). inversion Q as [|? ? Q1 Q2]; subst. cbn [total]. change (run E w (e :: t)) with (run E (step E w e) t).
    apply in_time_cons in Ti as (Ti1 & Ti2).
    assert (G1 : good_world E (step E w e)) by (apply event_good; [exact F|exact G|apply Pe_ok, P1]).
    destruct (stays_by_event S w e n G P1 Q1 Ti1 Al) as [(n' & Al' & T)|(D & T)].
    + destruct (IH _ _ _ G1 P2 Q2 Ti2 Al') as (T1 & [(S2 & n2 & A2 & T2)|D2]); (split; [lia|]); [left|right; exact D2]. exists S2, n2. split; [exact A2|lia].
    + destruct (dead_total E k i M F He Pe Pe_ok Pe_slot taken taken_other taken_call t _ G1 P2 Q2 D) as (T2 & D2). rewrite T2. split; [lia|right; exact D2].
Qed.
Theorem rates_total S w es s r : good_world E w -> along E Pe w es -> Forall (quiet k i) es -> in_order S es ->
  is_cfg (w k) s -> find_role i s = Some r -> Lim r -> allfit S (r_acts r) ->
  total E taken w es <= Phi (r_acts r)
  /\ forall s' r', is_cfg (run E w es k) s' -> find_role i s' = Some r' -> total E taken w es + Phi (r_acts r') <= Phi (r_acts r).
Proof.
  intros G P Q Ti Sc Fr L Ft. destruct (stays_by_total es S w (Phi (r_acts r)) G P Q Ti) as (T & X); [exists s, r; auto|]. split; [exact T|].
  intros s' r' S' Fr'. destruct X as [(S0 & n' & (s2 & r2 & S2 & F2 & _ & _ & <-) & Tn)|[D|(s2 & S2 & N & _)]].
  - pose proof (is_cfg_inj _ _ _ S' S2). subst s2. assert (r2 = r') by congruence. subst r2. exact Tn.
  - exfalso. eapply closed_no; eassumption.
  - pose proof (is_cfg_inj _ _ _ S' S2). subst s2. congruence.
Qed.
End Sums.

(** ** Sums over destinations *)
Section Dests.
Variables (M S ty : Z) (g : bytes -> bool) (q : key -> bytes).
Hypothesis (Ct : rated ty = true).
Hypothesis (Gq : forall k, g (q k) = true) (Iq : forall a b, q a = q b -> a = b).
Definition rl (l : list action) : Z :=
  sum (map (fun a => if (ac_ty a =? ty) && g (target_of a) then rpot M ty (ac_data a) else 0) l).
Lemma rl_tail l t : Forall (fun a => ac_ty a = 23) t -> rl (l ++ t) = rl l.
Proof.
  intros H. unfold rl. induction l as [|a u IH]; cbn [app map sum].
  - induction H as [|a u Q _ IH]; cbn [map sum]; [reflexivity|]. rewrite Q. destruct (23 =? ty) eqn:X; [apply Z.eqb_eq in X; subst ty; discriminate Ct|].
    cbn [andb]. rewrite IH. reflexivity.
  - rewrite IH. reflexivity.
Qed.
Lemma perm_tail' l t k : Forall (fun a => ac_ty a = 23) t -> perm ty k (l ++ t) = perm ty k l.
Proof.
  intros H. induction l as [|a u IH]; cbn [app perm].
  - induction H as [|a u Q _ IH]; cbn [perm]; [reflexivity|]. rewrite Q. destruct (23 =? ty) eqn:X; [apply Z.eqb_eq in X; subst ty; discriminate Ct|]. exact IH.
  - destruct (_ && _); [reflexivity|exact IH].
Qed.
Lemma rl_drop (d : key -> Z) l l0 : Forall2 (slow_act M S) l l0 -> allfit S l -> forall ks, NoDup ks ->
  (forall k, In k ks -> exists p p', perm ty (q k) l = Some p /\ perm ty (q k) l0 = Some p' /\ rpot M ty p' + d k <= rpot M ty p) ->
  rl l0 + sum (map d ks) <= rl l.
Proof.
  induction 1 as [|a b ta tb (T & H) F2 IH]; intros Ft ks Nd Hk.
  - destruct ks as [|k t]; [cbn; lia|]. destruct (Hk k (or_introl eq_refl)) as (p & p' & P & _). discriminate P.
  - specialize (IH (Forall_inv_tail Ft)). pose proof (Forall_inv Ft) as Fa. cbv beta in Fa.
    unfold rl in *. cbn [map sum perm] in *. rewrite T in *. destruct (ac_ty a =? ty) eqn:Q; cbn [andb] in *; [|specialize (IH ks Nd Hk); lia].
    apply Z.eqb_eq in Q. rewrite Q in H, Fa. destruct (H Ct) as (H1 & H2). destruct (H2 Fa) as (_ & H3). clear H2 Fa. rewrite H1 in *.
    destruct (existsb (fun k => beq (target_of a) (q k)) ks) eqn:X.
    + apply existsb_exists in X as (k & I & X). apply in_split in I as (k1 & k2 & ->).
      destruct (Hk k ltac:(apply in_or_app; right; left; reflexivity)) as (p & p' & P & P' & D). rewrite X in P, P'. injection P as <-. injection P' as <-.
      apply NoDup_remove in Nd as (Nd & Ni). specialize (IH _ Nd). apply beq_eq in X. rewrite X, Gq.
      assert (Y : sum (map d (k1 ++ k :: k2)) = d k + sum (map d (k1 ++ k2))).
      { clear. induction k1 as [|x t IH]; cbn [app map sum]; [reflexivity|]. rewrite IH. lia. }
      rewrite Y. enough (sum (map (fun a0 => if (ac_ty a0 =? ty) && g (target_of a0) then rpot M ty (ac_data a0) else 0) tb) + sum (map d (k1 ++ k2))
        <= sum (map (fun a0 => if (ac_ty a0 =? ty) && g (target_of a0) then rpot M ty (ac_data a0) else 0) ta)) by lia.
      apply IH. intros k' I'. assert (N : beq (target_of a) (q k') = false).
      { apply beq_neq. rewrite X. intros Z. apply Iq in Z. subst k'. contradiction. }
      destruct (Hk k') as (p & p' & P & P' & D'); [apply in_app_or in I' as [I'|I']; apply in_or_app; [left|right; right]; exact I'|].
      rewrite N in P, P'. eauto.
    + assert (N : forall k, In k ks -> beq (target_of a) (q k) = false).
      { intros k I. destruct (beq _ _) eqn:Z; [|reflexivity]. assert (existsb (fun k => beq (target_of a) (q k)) ks = true); [|congruence].
        apply existsb_exists. exists k. auto. }
      specialize (IH ks Nd). destruct (g (target_of a)); enough (sum (map (fun a0 => if (ac_ty a0 =? ty) && g (target_of a0) then rpot M ty (ac_data a0) else 0) tb) + sum (map d ks)
        <= sum (map (fun a0 => if (ac_ty a0 =? ty) && g (target_of a0) then rpot M ty (ac_data a0) else 0) ta)) by lia;
      apply IH; intros k I; specialize (N k I); destruct (Hk k I) as (p & p' & P & P' & D); rewrite N in P, P'; eauto.
Qed.
Lemma rl_slow_drop (d : key -> Z) l l' ks : slow M S l l' -> allfit S l -> NoDup ks ->
  (forall k, In k ks -> exists p p', perm ty (q k) l = Some p /\ perm ty (q k) l' = Some p' /\ rpot M ty p' + d k <= rpot M ty p) ->
  rl l' + sum (map d ks) <= rl l.
Proof.
  intros (l0 & t & -> & H1 & H2) Ft Nd Hk. rewrite rl_tail by exact H2. apply rl_drop; [exact H1|exact Ft|exact Nd|].
  intros k I. destruct (Hk k I) as (p & p' & P & P' & D). rewrite perm_tail' in P' by exact H2. eauto.
Qed.
Lemma rl_slow l l' : slow M S l l' -> allfit S l -> rl l' <= rl l.
Proof. intros H Ft. pose proof (rl_slow_drop (fun _ => 0) l l' [] H Ft (NoDup_nil _) ltac:(intros k [])) as X. cbn [map sum] in X. lia. Qed.
End Dests.
Lemma rpot_pos M ty p : all_bytes p -> 0 <= rpot M ty p.
Proof.
  intros B. assert (U : forall o, 0 <= u64_at o p) by (intros o; pose proof (u64_bound o _ B); unfold is_u64 in *; lia).
  assert (V : forall L, 0 <= rolls M L p).
  { intros L. unfold rolls. pose proof (U (lay_left L)). pose proof (U (lay_limit L)). pose proof (U (lay_window L)).
    assert (0 <= Z.max 0 (M - u64_at (lay_last L) p) / (u64_at (lay_window L) p + 1)) by (apply Z.div_pos; lia). nia. }
  clear - U V. unfold rpot. destruct ty as [|x|x]; try lia. repeat match goal with x : positive |- _ => destruct x; try lia end; first [apply U|apply V].
Qed.
Lemma rl_nonneg M ty g l : Forall wf_action l -> 0 <= rl M ty g l.
Proof. unfold rl. induction 1 as [|a t (_ & B) _ IH]; cbn [map sum]; [lia|]. pose proof (rpot_pos M ty _ B). destruct (_ && _); lia. Qed.

Lemma pays_rate M ty q slot amts r r' : rated ty = true -> Forall wf_action (r_acts r) -> 0 <= slot < U64 -> slot <= M -> allfit slot (r_acts r) ->
  pays ty q slot amts r r' ->
  exists p p', perm ty q (r_acts r) = Some p /\ perm ty q (r_acts r') = Some p' /\ rpot M ty p' + sum amts <= rpot M ty p.
Proof.
  intros C Wa Sl Sm Ft (p & p' & P & P' & D). exists p, p'. split; [exact P|]. split; [exact P'|].
  assert (X : all_bytes p /\ action_len ty = Some (length p) /\ fits slot ty p).
  { clear - Wa Ft P. unfold allfit in Ft. induction (r_acts r) as [|a t IH]; cbn [perm] in P; [discriminate|]. destruct ((ac_ty a =? ty) && beq (target_of a) q) eqn:Q.
    - injection P as <-. apply andb_prop in Q as (Q & _). apply Z.eqb_eq in Q. subst ty. destruct (Forall_inv Wa) as (L & B). pose proof (Forall_inv Ft). auto.
    - apply IH; [exact (Forall_inv_tail Wa)|exact (Forall_inv_tail Ft)|exact P]. }
  destruct X as (B & L & Fi). eapply draws_rpot; [exact C|exact L|apply sound_by_bytes, B|exact Sl|exact Sm|exact D|exact Fi].
Qed.
Lemma sum_split {A} (f : A -> bool) (d : A -> Z) l :
  sum (map d l) = sum (map d (filter f l)) + sum (map d (filter (fun x => negb (f x)) l)).
Proof. induction l as [|x t IH]; [reflexivity|]. cbn [map sum filter]. rewrite IH. destruct (f x); cbn [negb map sum]; lia. Qed.
Definition isp (ty : Z) (q : key -> bytes) (r : role) (k : key) : bool := match perm ty (q k) (r_acts r) with Some _ => true | None => false end.

(** Two kinds of limits: the first goes before the second *)
Lemma two_kinds M slot t1 t2 g q (d : key -> list Z) r r' ks : rated t1 = true -> rated t2 = true ->
  (forall k, g (q k) = true) -> (forall a b, q a = q b -> a = b) ->
  Forall wf_action (r_acts r) -> 0 <= slot < U64 -> slot <= M -> allfit slot (r_acts r) -> slow M slot (r_acts r) (r_acts r') -> NoDup ks ->
  (forall k, In k ks -> pays_either t1 t2 (q k) slot (d k) r r') ->
  rl M t1 g (r_acts r') + rl M t2 g (r_acts r') + sum (map (fun k => sum (d k)) ks) <= rl M t1 g (r_acts r) + rl M t2 g (r_acts r).
Proof.
  intros C1 C2 Gq Iq Wa Sl Sm Ft Sw Nd Hk. rewrite (sum_split (isp t1 q r)).
  pose proof (rl_slow_drop M slot t1 g q C1 Gq Iq (fun k => sum (d k)) _ _ (filter (isp t1 q r) ks) Sw Ft (NoDup_filter _ Nd)) as X1.
  pose proof (rl_slow_drop M slot t2 g q C2 Gq Iq (fun k => sum (d k)) _ _ (filter (fun k => negb (isp t1 q r k)) ks) Sw Ft (NoDup_filter _ Nd)) as X2.
  cbv beta in X1, X2.
  enough (rl M t1 g (r_acts r') + sum (map (fun k => sum (d k)) (filter (isp t1 q r) ks)) <= rl M t1 g (r_acts r)
    /\ rl M t2 g (r_acts r') + sum (map (fun k => sum (d k)) (filter (fun k => negb (isp t1 q r k)) ks)) <= rl M t2 g (r_acts r)) by lia.
  split; [apply X1|apply X2]; intros k I; apply filter_In in I as (I & Y); unfold isp in Y; destruct (Hk k I) as [P|(N & P)].
  - eapply pays_rate; eassumption.
  - rewrite N in Y. discriminate.
  - destruct P as (p & _ & P & _). rewrite P in Y. discriminate.
  - eapply pays_rate; eassumption.
Qed.

Lemma begun_fit S l : begun S l -> allfit S l.
Proof.
  intros H. apply Forall_forall. intros a I. destruct (H a I) as (H1 & H2). unfold fits.
  destruct (ac_ty a) as [|x|x]; try exact Logic.I. repeat match goal with x : positive |- _ => destruct x; try exact Logic.I end; auto.
Qed.

(** ** SOL *)
Lemma dest_total_rl M l : dest_total M l = rl M 17 (fun _ => true) l + rl M 16 (fun _ => true) l.
Proof.
  unfold dest_total, rl. induction l as [|a t IH]; [reflexivity|]. cbn [map sum]. rewrite IH, !Bool.andb_true_r.
  destruct (ac_ty a =? 16) eqn:Q; [apply Z.eqb_eq in Q; rewrite Q; cbn; lia|]. destruct (ac_ty a =? 17); cbn; lia.
Qed.
Theorem sol_dest_rates E w es k i M S s r : foreign_ok E -> hashes_ok E -> good_world E w -> along E (proper_event E) w es ->
  Forall (quiet k i) es -> Forall (by_slot M) es -> in_order S es -> is_cfg (w k) s -> find_role i s = Some r -> limited r ->
  holds 16 r \/ holds 17 r -> begun S (r_acts r) ->
  total E (sol_taken E k i) w es <= dest_total M (r_acts r)
  /\ forall s' r', is_cfg (run E w es k) s' -> find_role i s' = Some r' ->
       total E (sol_taken E k i) w es + dest_total M (r_acts r') <= dest_total M (r_acts r).
Proof.
  intros F He G P Q Sm Ti Sc Fr L H16 Bg.
  assert (Ps : forall S l l', slow M S l l' -> allfit S l -> dest_total M l' <= dest_total M l).
  { intros S0 l l' Sw Ft. rewrite !dest_total_rl.
    pose proof (rl_slow M S0 17 (fun _ => true) (fun k => k) eq_refl ltac:(auto) ltac:(auto) l l' Sw Ft).
    pose proof (rl_slow M S0 16 (fun _ => true) (fun k => k) eq_refl ltac:(auto) ltac:(auto) l l' Sw Ft). lia. }
  eapply (rates_total E k i M F He (dest_total M)) with (Lim := fun r => limited r /\ (holds 16 r \/ holds 17 r))
    (Pe := fun w e => proper_event E w e /\ by_slot M e); try eassumption.
  - intros l Wl. rewrite dest_total_rl. pose proof (rl_nonneg M 17 (fun _ => true) l Wl). pose proof (rl_nonneg M 16 (fun _ => true) l Wl). lia.
  - intros S0 a b Lw _ (A & B). split; [eapply lower_limited; eassumption|]. destruct B as [B|B]; [left|right]; eapply lower_has; eassumption.
  - intros v e ((A & _) & _). exact A.
  - intros v [cx|x] ((_ & A) & B); [|exact I]. split; [apply A|exact B].
  - reflexivity.
  - intros v cx [X|X]; unfold sol_taken; [rewrite X; reflexivity|]. rewrite step_not by exact X. destruct (signs_as _ _ _); lia.
  - intros v cx v' s0 r0 G0 ((Ad & Sl & Sw & Sw') & Sb) Sg H S0 F0 (L0 & A16).
    unfold sol_taken. rewrite Sg. rewrite (step_ok _ _ _ _ H) in *. apply signs_as_ok in Sg as (<- & T & <-).
    destruct (sol_destinations E cx v v' s0 r0 F G0 Ad S0 T H F0 L0 Sl Sw Sw' A16) as (s' & r' & xs & ws & C' & F' & _ & _ & X).
    cbv zeta in X. unfold wallet_of in X. set (sp := capped _) in X. destruct X as (X0 & X1 & X2).
    destruct (find_role_in _ _ _ F0) as (I0 & Id). rewrite Id in F'.
    exists s', r'. split; [exact C'|]. split; [exact F'|]. intros Lw Ft.
    destruct X2 as [X2|(_ & X2 & X3)].
    + pose proof (Ps _ _ _ Lw Ft). lia.
    + set (ts := outs _ xs) in *. set (ks := nodup (list_eq_dec Z.eq_dec) (map fst ts)).
      assert (Nd : NoDup ks) by apply NoDup_nodup.
      assert (Ts := to_sum ts ks Nd ltac:(intros x Ix; apply nodup_In; exact Ix)).
      destruct (wf_find _ _ _ (proj2 (proj2 S0)) F0) as (_ & _ & _ & _ & _ & (_ & Wa & _)).
      pose proof (two_kinds M (c_slot cx) 17 16 (fun _ => true) (fun k => k) (fun k => to k ts) r0 r' ks eq_refl eq_refl
        ltac:(auto) ltac:(auto) Wa Sl Sb Ft Lw Nd) as D.
      rewrite !dest_total_rl. cbv beta in D. specialize (D ltac:(intros k Ik; apply nodup_In in Ik; exact (X3 k Ik))). lia.
  - apply (along_and E (proper_event E) (fun _ e => by_slot M e)); [exact P|].
    apply Forall_forall. intros e I _. rewrite Forall_forall in Sm. apply Sm, I.
  - auto.
  - apply begun_fit, Bg.
Qed.

(** ** Tokens *)
Lemma about19 a : ac_ty a = 19 -> target_of a = firstn 64 (ac_data a).
Proof. unfold target_of. intros ->. reflexivity. Qed.
Lemma about_tok a : ac_ty a = 18 \/ ac_ty a = 19 -> target_of a = firstn 64 (ac_data a).
Proof. intros [H|H]; [apply about18|apply about19]; exact H. Qed.
Lemma token_total_rl M mint l : token_dest_total M mint l = rl M 19 (fun t => beq (firstn 32 t) mint) l + rl M 18 (fun t => beq (firstn 32 t) mint) l.
Proof.
  unfold token_dest_total, rl. induction l as [|a t IH]; [reflexivity|]. cbn [map sum]. rewrite IH.
  destruct (ac_ty a =? 18) eqn:Q; [apply Z.eqb_eq in Q; rewrite (about18 a Q), firstn_firstn, Q; cbn [Z.eqb andb Pos.eqb]; change (Nat.min 32 64) with 32%nat; unfold rpot; destruct (beq _ _); lia|].
  destruct (ac_ty a =? 19) eqn:Q9; cbn [andb]; [apply Z.eqb_eq in Q9; rewrite (about19 a Q9), firstn_firstn; change (Nat.min 32 64) with 32%nat; unfold rpot|]; destruct (beq _ _); lia.
Qed.
Theorem token_dest_rates E w es k i M S mint s r : foreign_ok E -> hashes_ok E -> good_world E w -> along E (clean_event E) w es ->
  Forall (quiet k i) es -> Forall (by_slot M) es -> in_order S es -> is_cfg (w k) s -> find_role i s = Some r -> limited r ->
  length mint = 32%nat -> token_dests mint r -> begun S (r_acts r) ->
  total E (tokens_taken E k i mint) w es <= token_dest_total M mint (r_acts r)
  /\ forall s' r', is_cfg (run E w es k) s' -> find_role i s' = Some r' ->
       total E (tokens_taken E k i mint) w es + token_dest_total M mint (r_acts r') <= token_dest_total M mint (r_acts r).
Proof.
  intros F He G P Q Sm Ti Sc Fr L Lm H18 Bg.
  set (gm := fun t : bytes => beq (firstn 32 t) mint).
  assert (Gq : forall k : key, gm (mint ++ k) = true).
  { intros x. unfold gm. rewrite firstn_app, Lm, Nat.sub_diag, firstn_O, app_nil_r, <- Lm, firstn_all. apply beq_refl. }
  assert (Iq : forall a b : key, mint ++ a = mint ++ b -> a = b) by (intros a b; apply app_inv_head).
  assert (Ps : forall S l l', slow M S l l' -> allfit S l -> token_dest_total M mint l' <= token_dest_total M mint l).
  { intros S0 l l' Sw Ft. rewrite !token_total_rl.
    pose proof (rl_slow M S0 19 gm (fun k => mint ++ k) eq_refl Gq Iq l l' Sw Ft).
    pose proof (rl_slow M S0 18 gm (fun k => mint ++ k) eq_refl Gq Iq l l' Sw Ft). unfold gm in *. lia. }
  eapply (rates_total E k i M F He (token_dest_total M mint)) with (Lim := fun r => limited r /\ token_dests mint r)
    (Pe := fun w e => clean_event E w e /\ by_slot M e); try eassumption.
  - intros l Wl. rewrite token_total_rl. pose proof (rl_nonneg M 19 gm l Wl). pose proof (rl_nonneg M 18 gm l Wl). unfold gm in *. lia.
  - intros S0 a b Lw Sw (A & B). split; [eapply lower_limited; eassumption|].
    destruct B as (x & Ix & Tx & Mx). destruct Sw as (l0 & t & Eq & H1 & _). unfold token_dests. rewrite Eq. clear - H1 Ix Tx Mx.
    induction H1 as [|y z ly lz (Y & Z) _ IH]; [destruct Ix|]. destruct Ix as [->|Ix].
    + exists z. split; [left; reflexivity|]. rewrite Y. split; [exact Tx|].
      assert (R : rated (ac_ty x) = true) by (destruct Tx as [Tx|Tx]; rewrite Tx; reflexivity). destruct (Z R) as (W & _).
      rewrite !about_tok in W by (rewrite ?Y; exact Tx). rewrite <- Mx. apply (f_equal (firstn 32)) in W. rewrite !firstn_firstn in W. exact W.
    + destruct (IH Ix) as (u & U & V). exists u. split; [right; exact U|exact V].
  - intros v e (((A & _) & _) & _). exact A.
  - intros v [cx|x] (((_ & A) & _) & B); [|exact I]. split; [apply A|exact B].
  - reflexivity.
  - intros v cx [X|X]; unfold tokens_taken; cbv zeta; [rewrite X; reflexivity|]. rewrite step_not by exact X. destruct (signs_as _ _ _); [|reflexivity].
    apply sum_zero. intros m. destruct (_ && _); [|reflexivity]. lia.
  - intros v cx v' s0 r0 G0 (((Ad & Sl & Sw & Sw') & Nc) & Sb) Sg H S0 F0 (L0 & A18).
    unfold tokens_taken. cbv zeta. rewrite Sg. rewrite (step_ok _ _ _ _ H) in *. apply signs_as_ok in Sg as (<- & T & <-).
    destruct (token_spend E cx v v' s0 r0 F G0 Ad S0 T H F0 L0 Sl Sw Sw' Nc) as (s' & r' & xs & ws & sp & C' & F' & _ & _ & Ln & Ac & _ & Ds).
    destruct (Ds mint A18 Lm) as (D1 & D2). clear Ds.
    destruct (find_role_in _ _ _ F0) as (I0 & Id). rewrite Id in F'.
    exists s', r'. split; [exact C'|]. split; [exact F'|]. intros Lw Ft.
    set (g := fun m : meta => _). set (f := fun m => own_token cx v m && alive (v' (m_key m)) && beq (mint_of (v (m_key m))) mint).
    assert (Le : sum (map g (rest_of cx)) <= sum (on_mint cx v v' mint sp)).
    { rewrite <- (map_fst_combine (rest_of cx) sp Ln) at 1. unfold on_mint. change (spends cx v v' mint) with (fun t : meta * Z => f (fst t) && (0 <? snd t)).
      apply (sum_filter f g g).
      - intros m x I Y. unfold g. fold (f m). rewrite Y. unfold f in Y. apply andb_prop in Y as (Y & _). apply andb_prop in Y as (Y1 & Y2).
        destruct (Ac m x I Y1) as (_ & B). rewrite Y2 in B. destruct B as (_ & _ & _ & _ & _ & B). lia.
      - intros m Y. unfold g. fold (f m). rewrite Y. reflexivity. }
    set (TS := flat_map (fun t => if spends cx v v' mint t then outs (token_out (m_key (fst t))) xs else []) (combine (rest_of cx) sp)).
    assert (Eq : sum (map snd TS) = sum (on_mint cx v v' mint sp)).
    { unfold TS, on_mint. clear - D1. induction (combine (rest_of cx) sp) as [|t u IH]; [reflexivity|]. cbn [flat_map filter].
      rewrite map_app, sum_app', IH by (intros; apply D1; [right|]; assumption).
      destruct (spends cx v v' mint t) eqn:X; [|reflexivity]. cbn [map sum].
      destruct (D1 t (or_introl eq_refl) X) as (_ & Y & _). rewrite Y. reflexivity. }
    destruct (wf_find _ _ _ (proj2 (proj2 S0)) F0) as (_ & _ & _ & _ & _ & (_ & Wa & _)).
    set (ks := nodup (list_eq_dec Z.eq_dec) (map fst TS)).
    assert (Nd : NoDup ks) by apply NoDup_nodup.
    assert (Ts := to_sum TS ks Nd ltac:(intros x Ix; apply nodup_In; exact Ix)).
    pose proof (two_kinds M (c_slot cx) 19 18 gm (fun k => mint ++ k) (fun k => to k TS) r0 r' ks eq_refl eq_refl Gq Iq Wa Sl Sb Ft Lw Nd) as D.
    cbv beta in D. enough (Dk : forall k, In k ks -> pays_either 19 18 (mint ++ k) (c_slot cx) (to k TS) r0 r').
    { specialize (D Dk). rewrite !token_total_rl. fold gm. lia. }
    clear D. intros k Ik. apply nodup_In in Ik. apply in_map_iff in Ik as (kv & Ek & Ik). apply in_flat_map in Ik as (t & It & Ik).
    destruct (spends cx v v' mint t) eqn:X; [|destruct Ik].
    destruct (D1 t It X) as (_ & _ & Y). specialize (Y k ltac:(apply in_map_iff; eauto)).
    assert (Hp : exists ty p, (ty = 18 \/ ty = 19) /\ perm ty (mint ++ k) (r_acts r0) = Some p).
    { destruct (perm 18 (mint ++ k) (r_acts r0)) as [p|] eqn:Pp; [eauto|]. destruct (perm 19 (mint ++ k) (r_acts r0)) as [p|] eqn:Pq; [eauto|].
      exfalso. apply Y. intros ty [<-|[<-|[]]]; assumption. }
    assert (Lk : length k = 32%nat).
    { destruct Hp as (ty & p & Ht & Pp). clear - Wa Pp Ht Lm. induction (r_acts r0) as [|a u IH]; cbn [perm] in Pp; [discriminate|].
      destruct ((ac_ty a =? ty) && beq (target_of a) (mint ++ k)) eqn:Z; [|apply IH; [exact (Forall_inv_tail Wa)|exact Pp]].
      apply andb_prop in Z as (Z1 & Z2). apply Z.eqb_eq in Z1. apply beq_eq in Z2. destruct (Forall_inv Wa) as (La & _).
      rewrite about_tok in Z2 by (rewrite Z1; exact Ht). rewrite Z1 in La. apply (f_equal (@length Z)) in Z2. rewrite firstn_length, app_length, Lm in Z2.
      destruct Ht as [-> | ->]; injection La as La; rewrite <- La in Z2; cbn in Z2; lia. }
    specialize (D2 k Lk). unfold on_dest in D2. rewrite dest_pairs in D2. fold TS in D2.
    destruct D2 as [D2|D2]; [|exact D2].
    exfalso. assert (In (snd kv) (to k TS)); [|rewrite D2 in *; contradiction].
    unfold to. apply in_map, filter_In. split; [unfold TS; apply in_flat_map; exists t; rewrite X; auto|]. rewrite <- Ek. apply beq_refl.
  - apply (along_and E (clean_event E) (fun _ e => by_slot M e)); [exact P|].
    apply Forall_forall. intros e I _. rewrite Forall_forall in Sm. apply Sm, I.
  - auto.
  - apply begun_fit, Bg.
Qed.
