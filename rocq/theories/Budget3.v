(** * What a role takes over a whole history: limits per destination.  Proofs *)
From Verif Require Import BaseFacts SpecConfig ConfigFacts ConfigEdit ConfigEdit2 ConfigEdit3 LimitsFacts.
From Verif Require Import ConfigProps HistoryProps Creds LifeProps AuthProps Ledger SignProps Actors Spend.
From Verif Require Export Budget2.

(** ** A quantity that only goes down *)
Section Sums.
Variables (E : env) (k : key) (i M : Z).
Hypothesis (F : foreign_ok E) (He : hashes_ok E).
Variable Phi : list action -> Z.
Hypothesis Phi_lower : forall l l', lower M l l' -> Phi l' <= Phi l.
Hypothesis Phi_nonneg : forall l, Forall wf_action l -> 0 <= Phi l.
Variable Lim : role -> Prop.
Hypothesis Lim_lower : forall r r', lower M (r_acts r) (r_acts r') -> Lim r -> Lim r'.
Variable Pe : world -> event -> Prop.
Hypothesis Pe_ok : forall w e, Pe w e -> admissible E w e.
Hypothesis Pe_slot : forall w e, Pe w e -> timely M e.
Variable taken : world -> event -> Z.
Hypothesis taken_other : forall w x, taken w (Other x) = 0.
Hypothesis taken_call : forall w cx, signs_as k i cx = false \/ (forall w', ~ succeeds E cx w w') -> taken w (Call cx) = 0.
Hypothesis taken_once : forall w cx w' s r, good_world E w -> Pe w (Call cx) -> signs_as k i cx = true -> succeeds E cx w w' ->
  is_cfg (w k) s -> find_role i s = Some r -> Lim r ->
  exists s' r', is_cfg (w' k) s' /\ find_role i s' = Some r'
    /\ (lower M (r_acts r) (r_acts r') -> taken w (Call cx) + Phi (r_acts r') <= Phi (r_acts r)).

Definition stays (w : world) (n : Z) : Prop :=
  exists s r, is_cfg (w k) s /\ find_role i s = Some r /\ Lim r /\ Phi (r_acts r) = n.
Lemma stays_nonneg w n : stays w n -> 0 <= n.
Proof. intros (s & r & S & Fr & _ & <-). apply Phi_nonneg. destruct (wf_find _ _ _ (proj2 (proj2 S)) Fr) as (_ & _ & _ & _ & _ & (_ & Wa & _)). exact Wa. Qed.
Lemma stays_event w e n : good_world E w -> Pe w e -> quiet k i e -> stays w n ->
  (exists n', stays (step E w e) n' /\ taken w e + n' <= n) \/ (dead k i (step E w e) /\ taken w e <= n).
Proof.
  intros G P Q Al. pose proof (stays_nonneg _ _ Al) as Nn. destruct Al as (s & r & S & Fr & L & <-).
  destruct (quietly_event E k i M F w e G (Pe_ok _ _ P) Q (Pe_slot _ _ P)) as (_ & Q2).
  assert (X : taken w e = 0 \/ exists s' r', is_cfg (step E w e k) s' /\ find_role i s' = Some r'
    /\ (lower M (r_acts r) (r_acts r') -> taken w e + Phi (r_acts r') <= Phi (r_acts r))).
  { destruct e as [cx|x]; [|left; apply taken_other].
    destruct (signs_as k i cx) eqn:Sg; [|left; apply taken_call; left; exact Sg].
    cbn [step]. destruct (process E cx w) as [w'| |] eqn:Pr.
    - right. eapply taken_once; eassumption.
    - left. apply taken_call. right. unfold succeeds. intros w' H. congruence.
    - left. apply taken_call. right. unfold succeeds. intros w' H. congruence. }
  destruct (Q2 s S) as [C|(s' & S' & (O1 & O2) & Lw)].
  { right. split; [left; exact C|]. destruct X as [X|(s2 & r2 & S2 & _)]; [rewrite X; exact Nn|]. exfalso. eapply closed_no; eassumption. }
  destruct (find_role i s') as [r'|] eqn:Fr'.
  - left. specialize (Lw r r' Fr eq_refl). pose proof (Phi_lower _ _ Lw) as U.
    exists (Phi (r_acts r')). split; [exists s', r'; split; [exact S'|]; split; [exact Fr'|]; split; [eapply Lim_lower; eassumption|reflexivity]|].
    destruct X as [X|(s2 & r2 & S2 & F2 & X)]; [rewrite X; lia|].
    pose proof (is_cfg_inj _ _ _ S' S2). subst s2. assert (r2 = r') by congruence. subst r2. apply X, Lw.
  - right. split; [right; exists s'; split; [exact S'|]; split; [exact Fr'|];
      pose proof (wf_ids_below _ _ (proj2 (proj2 S)) (find_ids _ _ _ Fr)); lia|].
    destruct X as [X|(s2 & r2 & S2 & F2 & _)]; [rewrite X; exact Nn|]. pose proof (is_cfg_inj _ _ _ S' S2). subst s2. congruence.
Qed.
Lemma stays_total es : forall w n, good_world E w -> along E Pe w es -> Forall (quiet k i) es -> stays w n ->
  total E taken w es <= n
  /\ ((exists n', stays (run E w es) n' /\ total E taken w es + n' <= n) \/ dead k i (run E w es)).
Proof.
  induction es as [|e t IH]; intros w n G P Q Al.
  - pose proof (stays_nonneg _ _ Al). cbn. split; [assumption|]. left. exists n. split; [exact Al|lia].
  - destruct P as (P1 & P2). inversion Q as [|? ? Q1 Q2]; subst. cbn [total]. change (run E w (e :: t)) with (run E (step E w e) t).
    assert (G1 : good_world E (step E w e)) by (apply event_good; [exact F|exact G|apply Pe_ok, P1]).
    destruct (stays_event w e n G P1 Q1 Al) as [(n' & Al' & T)|(D & T)].
    + destruct (IH _ _ G1 P2 Q2 Al') as (T1 & [(n2 & A2 & T2)|D2]); (split; [lia|]); [left|right; exact D2]. exists n2. split; [exact A2|lia].
    + destruct (dead_total E k i M F He Pe Pe_ok Pe_slot taken taken_other taken_call t _ G1 P2 Q2 D) as (T2 & D2). rewrite T2. split; [lia|right; exact D2].
Qed.
Theorem sums_total w es s r : good_world E w -> along E Pe w es -> Forall (quiet k i) es ->
  is_cfg (w k) s -> find_role i s = Some r -> Lim r ->
  total E taken w es <= Phi (r_acts r)
  /\ forall s' r', is_cfg (run E w es k) s' -> find_role i s' = Some r' -> total E taken w es + Phi (r_acts r') <= Phi (r_acts r).
Proof.
  intros G P Q S Fr L. destruct (stays_total es w (Phi (r_acts r)) G P Q) as (T & X); [exists s, r; auto|]. split; [exact T|].
  intros s' r' S' Fr'. destruct X as [(n' & (s2 & r2 & S2 & F2 & _ & <-) & Tn)|[D|(s2 & S2 & N & _)]].
  - pose proof (is_cfg_inj _ _ _ S' S2). subst s2. assert (r2 = r') by congruence. subst r2. exact Tn.
  - exfalso. eapply closed_no; eassumption.
  - pose proof (is_cfg_inj _ _ _ S' S2). subst s2. congruence.
Qed.
End Sums.

(** ** Sums over destinations *)
Section Dests.
Variables (M ty : Z) (g : bytes -> bool) (q : key -> bytes).
Hypothesis (Ct : counted ty = true) (W1 : forall p, wnd ty p = 1).
Hypothesis (Gq : forall k, g (q k) = true) (Iq : forall a b, q a = q b -> a = b).
Definition dl (l : list action) : Z :=
  sum (map (fun a => if (ac_ty a =? ty) && g (target_of a) then pot M ty (ac_data a) else 0) l).
Lemma dl_tail l t : Forall (fun a => ac_ty a = 23) t -> dl (l ++ t) = dl l.
Proof.
  intros H. unfold dl. induction l as [|a u IH]; cbn [app map sum].
  - induction H as [|a u Q _ IH]; cbn [map sum]; [reflexivity|]. rewrite Q. destruct (23 =? ty) eqn:X; [apply Z.eqb_eq in X; subst ty; discriminate Ct|].
    cbn [andb]. rewrite IH. reflexivity.
  - rewrite IH. reflexivity.
Qed.
Lemma perm_tail l t k : Forall (fun a => ac_ty a = 23) t -> perm ty k (l ++ t) = perm ty k l.
Proof.
  intros H. induction l as [|a u IH]; cbn [app perm].
  - induction H as [|a u Q _ IH]; cbn [perm]; [reflexivity|]. rewrite Q. destruct (23 =? ty) eqn:X; [apply Z.eqb_eq in X; subst ty; discriminate Ct|]. exact IH.
  - destruct (_ && _); [reflexivity|exact IH].
Qed.
Lemma dl_drop (d : key -> Z) l l0 : Forall2 (lower_act M) l l0 -> forall ks, NoDup ks ->
  (forall k, In k ks -> exists p p', perm ty (q k) l = Some p /\ perm ty (q k) l0 = Some p' /\ pot M ty p' + d k <= pot M ty p) ->
  dl l0 + sum (map d ks) <= dl l.
Proof.
  induction 1 as [|a b ta tb (T & H) F2 IH]; intros ks Nd Hk.
  - destruct ks as [|k t]; [cbn; lia|]. destruct (Hk k (or_introl eq_refl)) as (p & p' & P & _). discriminate P.
  - unfold dl in *. cbn [map sum perm] in *. rewrite T in *. destruct (ac_ty a =? ty) eqn:Q; cbn [andb] in *; [|specialize (IH ks Nd Hk); lia].
    apply Z.eqb_eq in Q. rewrite Q in H. destruct (H Ct) as (H1 & _ & H2). rewrite W1 in H2. specialize (H2 ltac:(lia)). rewrite H1 in *.
    destruct (existsb (fun k => beq (target_of a) (q k)) ks) eqn:X.
    + apply existsb_exists in X as (k & I & X). apply in_split in I as (k1 & k2 & ->).
      destruct (Hk k ltac:(apply in_or_app; right; left; reflexivity)) as (p & p' & P & P' & D). rewrite X in P, P'. injection P as <-. injection P' as <-.
      apply NoDup_remove in Nd as (Nd & Ni). specialize (IH _ Nd). apply beq_eq in X. rewrite X, Gq.
      assert (Y : sum (map d (k1 ++ k :: k2)) = d k + sum (map d (k1 ++ k2))).
      { clear. induction k1 as [|x t IH]; cbn [app map sum]; [reflexivity|]. rewrite IH. lia. }
      rewrite Y. enough (sum (map (fun a0 => if (ac_ty a0 =? ty) && g (target_of a0) then pot M ty (ac_data a0) else 0) tb) + sum (map d (k1 ++ k2))
        <= sum (map (fun a0 => if (ac_ty a0 =? ty) && g (target_of a0) then pot M ty (ac_data a0) else 0) ta)) by lia.
      apply IH. intros k' I'. assert (N : beq (target_of a) (q k') = false).
      { apply beq_neq. rewrite X. intros Z. apply Iq in Z. subst k'. contradiction. }
      destruct (Hk k') as (p & p' & P & P' & D'); [apply in_app_or in I' as [I'|I']; apply in_or_app; [left|right; right]; exact I'|].
      rewrite N in P, P'. eauto.
    + assert (N : forall k, In k ks -> beq (target_of a) (q k) = false).
      { intros k I. destruct (beq _ _) eqn:Z; [|reflexivity]. assert (existsb (fun k => beq (target_of a) (q k)) ks = true); [|congruence].
        apply existsb_exists. exists k. auto. }
      specialize (IH ks Nd). destruct (g (target_of a)); enough (sum (map (fun a0 => if (ac_ty a0 =? ty) && g (target_of a0) then pot M ty (ac_data a0) else 0) tb) + sum (map d ks)
        <= sum (map (fun a0 => if (ac_ty a0 =? ty) && g (target_of a0) then pot M ty (ac_data a0) else 0) ta)) by lia;
      apply IH; intros k I; specialize (N k I); destruct (Hk k I) as (p & p' & P & P' & D); rewrite N in P, P'; eauto.
Qed.
Lemma dl_lower_drop (d : key -> Z) l l' ks : lower M l l' -> NoDup ks ->
  (forall k, In k ks -> exists p p', perm ty (q k) l = Some p /\ perm ty (q k) l' = Some p' /\ pot M ty p' + d k <= pot M ty p) ->
  dl l' + sum (map d ks) <= dl l.
Proof.
  intros (l0 & t & -> & H1 & H2) Nd Hk. rewrite dl_tail by exact H2. apply dl_drop; [exact H1|exact Nd|].
  intros k I. destruct (Hk k I) as (p & p' & P & P' & D). rewrite perm_tail in P' by exact H2. eauto.
Qed.
Lemma dl_lower l l' : lower M l l' -> dl l' <= dl l.
Proof. intros H. pose proof (dl_lower_drop (fun _ => 0) l l' [] H (NoDup_nil _) ltac:(intros k [])) as X. cbn [map sum] in X. lia. Qed.
Lemma pot_pos p : all_bytes p -> 0 <= pot M ty p.
Proof.
  clear Ct W1 Gq Iq. intros B. assert (U : forall o, 0 <= u64_at o p) by (intros o; pose proof (u64_bound o _ B); unfold is_u64 in *; lia).
  assert (V : forall L, 0 <= until M L p).
  { intros L. unfold until. cbv zeta. pose proof (U (lay_left L)). pose proof (U (lay_limit L)). nia. }
  clear - U V. unfold pot. destruct ty as [|x|x]; try lia. repeat match goal with x : positive |- _ => destruct x; try lia end; first [apply U|apply V].
Qed.
Lemma dl_nonneg l : Forall wf_action l -> 0 <= dl l.
Proof.
  clear Ct W1 Gq Iq. unfold dl. induction 1 as [|a t (_ & B) _ IH]; cbn [map sum]; [lia|]. pose proof (pot_pos _ B). destruct (_ && _); lia.
Qed.
End Dests.

Lemma to_sum (ts : list (key * Z)) : forall ks, NoDup ks -> incl (map fst ts) ks -> sum (map (fun k => sum (to k ts)) ks) = sum (map snd ts).
Proof.
  induction ts as [|(k, v) t IH]; intros ks Nd I.
  - cbn [map sum]. clear. induction ks as [|x u IH]; cbn [map sum]; [reflexivity|]. rewrite IH. reflexivity.
  - cbn [map sum fst snd] in *. rewrite <- (IH ks Nd) by (intros x X; apply I; right; exact X).
    assert (Ik : In k ks) by (apply I; left; reflexivity). clear I IH.
    induction ks as [|x u IH]; [destruct Ik|]. inversion Nd as [|? ? Nx Nu]; subst. cbn [map sum]. unfold to at 1. cbn [filter fst].
    destruct (beq k x) eqn:Q.
    + apply beq_eq in Q. subst x. cbn [map sum snd]. fold (to k t).
      assert (Z : map (fun k0 => sum (to k0 ((k, v) :: t))) u = map (fun k0 => sum (to k0 t)) u).
      { apply map_ext_in. intros y Y. unfold to. cbn [filter fst]. destruct (beq k y) eqn:R; [apply beq_eq in R; subst y; contradiction|reflexivity]. }
      rewrite Z. lia.
    + fold (to x t). destruct Ik as [->|Ik]; [rewrite beq_refl in Q; discriminate|]. specialize (IH Nu Ik). lia.
Qed.
Lemma no_perm ty q r : ~ holds ty r -> perm ty q (r_acts r) = None.
Proof.
  intros N. destruct (perm ty q (r_acts r)) as [p|] eqn:P; [|reflexivity]. exfalso. apply N. apply perm_holds in P. exact P.
Qed.
Lemma pays_once M ty q slot amts r r' : counted ty = true -> (forall p, wnd ty p = 1) -> Forall wf_action (r_acts r) -> slot <= M -> pays ty q slot amts r r' ->
  exists p p', perm ty q (r_acts r) = Some p /\ perm ty q (r_acts r') = Some p' /\ pot M ty p' + sum amts <= pot M ty p.
Proof.
  intros C W Wa Sm (p & p' & P & P' & D). exists p, p'. split; [exact P|]. split; [exact P'|].
  assert (X : all_bytes p /\ action_len ty = Some (length p)).
  { clear - Wa P. induction (r_acts r) as [|a t IH]; cbn [perm] in P; [discriminate|]. destruct ((ac_ty a =? ty) && beq (target_of a) q) eqn:Q.
    - injection P as <-. apply andb_prop in Q as (Q & _). apply Z.eqb_eq in Q. subst ty. destruct (Forall_inv Wa) as (L & B). auto.
    - apply IH; [exact (Forall_inv_tail Wa)|exact P]. }
  destruct X as (B & L). eapply draws_pot; [exact C|exact L|apply held_bytes, B|exact Sm|exact D|rewrite W; lia].
Qed.

Lemma lower_has M l l' ty : lower M l l' -> (exists a, In a l /\ ac_ty a = ty) -> exists a, In a l' /\ ac_ty a = ty.
Proof.
  intros (l0 & t & -> & H1 & _) (x & I & T). induction H1 as [|y z ly lz (Y & _) _ IH]; [destruct I|]. destruct I as [->|I].
  - exists z. split; [left; reflexivity|congruence].
  - destruct (IH I) as (u & U & V). exists u. split; [right; exact U|exact V].
Qed.

(** ** SOL *)
Lemma dest_limits_dl M l : dest_limits l = dl M 16 (fun _ => true) l.
Proof. unfold dest_limits, dl. f_equal. apply map_ext. intros a. rewrite Bool.andb_true_r. reflexivity. Qed.
Theorem sol_dest_lifetime E w es k i s r : foreign_ok E -> hashes_ok E -> good_world E w -> along E (proper_event E) w es ->
  Forall (quiet k i) es -> is_cfg (w k) s -> find_role i s = Some r -> limited r -> holds 16 r -> ~ holds 17 r ->
  total E (sol_taken E k i) w es <= dest_limits (r_acts r)
  /\ forall s' r', is_cfg (run E w es k) s' -> find_role i s' = Some r' ->
       total E (sol_taken E k i) w es + dest_limits (r_acts r') <= dest_limits (r_acts r).
Proof.
  intros F He G P Q S Fr L H16 H17.
  eapply (sums_total E k i U64 F He dest_limits) with (Lim := fun r => limited r /\ holds 16 r /\ ~ holds 17 r)
    (Pe := fun w e => proper_event E w e /\ by_slot U64 e); try eassumption.
  - intros l l' Lw. rewrite !(dest_limits_dl U64). apply (dl_lower U64 16 (fun _ => true) (fun k => k)); auto.
  - intros l Wl. rewrite (dest_limits_dl U64). apply (dl_nonneg _ _ _ (fun k => k)), Wl.
  - intros a b Lw (A & B & C). split; [eapply lower_limited; eassumption|]. split; [eapply lower_has; eassumption|].
    intros H. apply C. eapply lower_holds; [exact Lw|discriminate|exact H].
  - intros v e ((A & _) & _). exact A.
  - intros v [cx|x] ((_ & A) & B); [|exact I]. split; [apply A|exact B].
  - reflexivity.
  - intros v cx [X|X]; unfold sol_taken; [rewrite X; reflexivity|]. rewrite step_not by exact X. destruct (signs_as _ _ _); lia.
  - intros v cx v' s0 r0 G0 ((Ad & Sl & Sw & Sw') & Sb) Sg H S0 F0 (L0 & A16 & A17).
    unfold sol_taken. rewrite Sg. rewrite (step_ok _ _ _ _ H) in *. apply signs_as_ok in Sg as (<- & T & <-).
    destruct (sol_destinations E cx v v' s0 r0 F G0 Ad S0 T H F0 L0 Sl Sw Sw' (or_introl A16)) as (s' & r' & xs & ws & C' & F' & _ & _ & X).
    cbv zeta in X. unfold wallet_of in X. set (sp := capped _) in X. destruct X as (X0 & X1 & X2).
    destruct (find_role_in _ _ _ F0) as (I0 & Id). rewrite Id in F'.
    exists s', r'. split; [exact C'|]. split; [exact F'|]. intros Lw.
    destruct X2 as [X2|(_ & X2 & X3)].
    + assert (D : dest_limits (r_acts r') <= dest_limits (r_acts r0)); [|lia].
      rewrite !(dest_limits_dl U64). apply (dl_lower U64 16 (fun _ => true) (fun k => k)); auto.
    + set (ts := outs _ xs) in *. set (ks := nodup (list_eq_dec Z.eq_dec) (map fst ts)).
      assert (Nd : NoDup ks) by apply NoDup_nodup.
      assert (Ts := to_sum ts ks Nd ltac:(intros x Ix; apply nodup_In; exact Ix)).
      assert (D : dl U64 16 (fun _ => true) (r_acts r') + sum (map (fun k => sum (to k ts)) ks) <= dl U64 16 (fun _ => true) (r_acts r0)).
      { apply (dl_lower_drop U64 16 (fun _ => true) (fun k => k)); auto.
        intros k Ik. apply nodup_In in Ik. specialize (X3 k Ik).
        destruct (wf_find _ _ _ (proj2 (proj2 S0)) F0) as (_ & _ & _ & _ & _ & (_ & Wa & _)).
        eapply pays_once; [reflexivity|reflexivity|exact Wa|exact Sb|].
        destruct X3 as [(p & _ & Pp & _)|(_ & X3)]; [rewrite no_perm in Pp by exact A17; discriminate|exact X3]. }
      rewrite !(dest_limits_dl U64). lia.
  - apply (along_and E (proper_event E) (fun _ e => by_slot U64 e)); [exact P|]. 
    assert (Sm : Forall (by_slot U64) es) by (eapply proper_slots; [|exact P]; auto).
    apply Forall_forall. intros e I _. rewrite Forall_forall in Sm. apply Sm, I.
  - auto.
Qed.

(** ** Tokens *)
Lemma about18 a : ac_ty a = 18 -> target_of a = firstn 64 (ac_data a).
Proof. unfold target_of. intros ->. reflexivity. Qed.
Lemma token_dl M mint l : token_dest_limits mint l = dl M 18 (fun t => beq (firstn 32 t) mint) l.
Proof.
  unfold token_dest_limits, dl. f_equal. apply map_ext. intros a. destruct (ac_ty a =? 18) eqn:Q; cbn [andb]; [|reflexivity].
  apply Z.eqb_eq in Q. rewrite about18 by exact Q. rewrite firstn_firstn. unfold pot. reflexivity.
Qed.
Lemma dest_pairs cx w w' mint xs (l : list (meta * Z)) k :
  flat_map (fun t => if spends cx w w' mint t then to k (outs (token_out (m_key (fst t))) xs) else []) l
  = to k (flat_map (fun t => if spends cx w w' mint t then outs (token_out (m_key (fst t))) xs else []) l).
Proof.
  induction l as [|t u IH]; cbn [flat_map]; [reflexivity|]. rewrite IH. unfold to. rewrite filter_app, map_app. f_equal.
  destruct (spends cx w w' mint t); reflexivity.
Qed.
Lemma sum_app' a b : sum (a ++ b) = sum a + sum b.
Proof. induction a as [|x t IH]; cbn [app sum]; [reflexivity|]. rewrite IH. lia. Qed.
Theorem token_dest_lifetime E w es k i mint s r : foreign_ok E -> hashes_ok E -> good_world E w -> along E (clean_event E) w es ->
  Forall (quiet k i) es -> is_cfg (w k) s -> find_role i s = Some r -> limited r -> length mint = 32%nat ->
  token_dests mint r -> ~ holds 19 r ->
  total E (tokens_taken E k i mint) w es <= token_dest_limits mint (r_acts r)
  /\ forall s' r', is_cfg (run E w es k) s' -> find_role i s' = Some r' ->
       total E (tokens_taken E k i mint) w es + token_dest_limits mint (r_acts r') <= token_dest_limits mint (r_acts r).
Proof.
  intros F He G P Q S Fr L Lm H18 H19.
  set (gm := fun t : bytes => beq (firstn 32 t) mint).
  assert (Gq : forall k : key, gm (mint ++ k) = true).
  { intros x. unfold gm. rewrite firstn_app, Lm, Nat.sub_diag, firstn_O, app_nil_r, <- Lm, firstn_all. apply beq_refl. }
  assert (Iq : forall a b : key, mint ++ a = mint ++ b -> a = b) by (intros a b; apply app_inv_head).
  eapply (sums_total E k i U64 F He (token_dest_limits mint)) with (Lim := fun r => limited r /\ token_dests mint r /\ ~ holds 19 r)
    (Pe := fun w e => clean_event E w e /\ by_slot U64 e); try eassumption.
  - intros l l' Lw. rewrite !(token_dl U64). apply (dl_lower U64 18 gm (fun k => mint ++ k)); auto.
  - intros l Wl. rewrite (token_dl U64). apply (dl_nonneg _ _ _ (fun k => k)), Wl.
  - intros a b Lw (A & B & C). split; [eapply lower_limited; eassumption|]. split.
    + destruct B as (x & Ix & Tx & Mx).
      assert (T18 : ac_ty x = 18) by (destruct Tx as [Tx|Tx]; [exact Tx|destruct C; exists x; auto]).
      destruct Lw as (l0 & t & Eq & H1 & _). unfold token_dests. rewrite Eq. clear - H1 Ix T18 Mx.
      induction H1 as [|y z ly lz (Y & Z) _ IH]; [destruct Ix|]. destruct Ix as [->|Ix].
      * exists z. split; [left; reflexivity|]. split; [left; congruence|]. rewrite T18 in *. destruct (Z eq_refl) as (W & _).
        rewrite !about18 in W by congruence. rewrite <- Mx. apply (f_equal (firstn 32)) in W. rewrite !firstn_firstn in W. exact W.
      * destruct (IH Ix) as (u & U & V). exists u. split; [right; exact U|exact V].
    + intros H. apply C. eapply lower_holds; [exact Lw|discriminate|exact H].
  - intros v e (((A & _) & _) & _). exact A.
  - intros v [cx|x] (((_ & A) & _) & B); [|exact I]. split; [apply A|exact B].
  - reflexivity.
  - intros v cx [X|X]; unfold tokens_taken; cbv zeta; [rewrite X; reflexivity|]. rewrite step_not by exact X. destruct (signs_as _ _ _); [|reflexivity].
    apply sum_zero. intros m. destruct (_ && _); [|reflexivity]. lia.
  - intros v cx v' s0 r0 G0 (((Ad & Sl & Sw & Sw') & Nc) & Sb) Sg H S0 F0 (L0 & A18 & A19).
    unfold tokens_taken. cbv zeta. rewrite Sg. rewrite (step_ok _ _ _ _ H) in *. apply signs_as_ok in Sg as (<- & T & <-).
    destruct (token_spend E cx v v' s0 r0 F G0 Ad S0 T H F0 L0 Sl Sw Sw' Nc) as (s' & r' & xs & ws & sp & C' & F' & _ & _ & Ln & Ac & _ & Ds).
    destruct (Ds mint A18 Lm) as (D1 & D2). clear Ds.
    destruct (find_role_in _ _ _ F0) as (I0 & Id). rewrite Id in F'.
    exists s', r'. split; [exact C'|]. split; [exact F'|]. intros Lw.
    set (g := fun m : meta => _). set (f := fun m => own_token cx v m && alive (v' (m_key m)) && beq (mint_of (v (m_key m))) mint).
    assert (Le : sum (map g (rest_of cx)) <= sum (on_mint cx v v' mint sp)).
    { rewrite <- (map_fst_combine (rest_of cx) sp Ln) at 1. unfold on_mint. change (spends cx v v' mint) with (fun t : meta * Z => f (fst t) && (0 <? snd t)).
      apply (sum_filter f g g).
      - intros m x I Y. unfold g. fold (f m). rewrite Y. unfold f in Y. apply andb_prop in Y as (Y & _). apply andb_prop in Y as (Y1 & Y2).
        destruct (Ac m x I Y1) as (_ & B). rewrite Y2 in B. destruct B as (_ & _ & _ & _ & _ & B). lia.
      - intros m Y. unfold g. fold (f m). rewrite Y. reflexivity. }
    set (TS := flat_map (fun t => if spends cx v v' mint t then outs (token_out (m_key (fst t))) xs else []) (combine (rest_of cx) sp)).
    assert (Eq : sum (map snd TS) = sum (on_mint cx v v' mint sp)).
    { unfold TS, on_mint. clear - D1. induction (combine (rest_of cx) sp) as [|t u IH]; [reflexivity|]. cbn [flat_map filter].
      rewrite map_app, sum_app', IH by (intros; apply D1; [right|]; assumption).
      destruct (spends cx v v' mint t) eqn:X; [|reflexivity]. cbn [map sum].
      destruct (D1 t (or_introl eq_refl) X) as (_ & Y & _). rewrite Y. reflexivity. }
    destruct (wf_find _ _ _ (proj2 (proj2 S0)) F0) as (_ & _ & _ & _ & _ & (_ & Wa & _)).
    set (ks := nodup (list_eq_dec Z.eq_dec) (map fst TS)).
    assert (Nd : NoDup ks) by apply NoDup_nodup.
    assert (Ts := to_sum TS ks Nd ltac:(intros x Ix; apply nodup_In; exact Ix)).
    assert (D : dl U64 18 gm (r_acts r') + sum (map (fun k => sum (to k TS)) ks) <= dl U64 18 gm (r_acts r0)).
    { apply (dl_lower_drop U64 18 gm (fun k => mint ++ k)); auto.
      intros k Ik. apply nodup_In in Ik. apply in_map_iff in Ik as (kv & Ek & Ik). apply in_flat_map in Ik as (t & It & Ik).
      destruct (spends cx v v' mint t) eqn:X; [|destruct Ik].
      destruct (D1 t It X) as (_ & _ & Y). specialize (Y k ltac:(apply in_map_iff; eauto)).
      assert (Hp : exists p, perm 18 (mint ++ k) (r_acts r0) = Some p).
      { destruct (perm 18 (mint ++ k) (r_acts r0)) as [p|] eqn:Pp; [eauto|]. exfalso. apply Y. intros ty [<-|[<-|[]]]; [exact Pp|apply no_perm, A19]. }
      assert (Lk : length k = 32%nat).
      { destruct Hp as (p & Pp). clear - Wa Pp Lm. induction (r_acts r0) as [|a u IH]; cbn [perm] in Pp; [discriminate|].
        destruct ((ac_ty a =? 18) && beq (target_of a) (mint ++ k)) eqn:Z; [|apply IH; [exact (Forall_inv_tail Wa)|exact Pp]].
        apply andb_prop in Z as (Z1 & Z2). apply Z.eqb_eq in Z1. apply beq_eq in Z2. destruct (Forall_inv Wa) as (La & _).
        rewrite about18 in Z2 by exact Z1. rewrite Z1 in La. apply (f_equal (@length Z)) in Z2. rewrite firstn_length, app_length, Lm in Z2. injection La as La. rewrite <- La in Z2. cbn in Z2. lia. }
      specialize (D2 k Lk). unfold on_dest in D2. rewrite dest_pairs in D2. fold TS in D2.
      eapply pays_once; [reflexivity|reflexivity|exact Wa|exact Sb|].
      destruct D2 as [D2|[(p & _ & Pp & _)|(_ & X3)]]; [|rewrite no_perm in Pp by exact A19; discriminate|exact X3].
      exfalso. assert (In (snd kv) (to k TS)); [|rewrite D2 in *; contradiction].
      unfold to. apply in_map, filter_In. split; [unfold TS; apply in_flat_map; exists t; rewrite X; auto|]. rewrite <- Ek. apply beq_refl. }
    rewrite !(token_dl U64). fold gm. lia.
  - apply (along_and E (clean_event E) (fun _ e => by_slot U64 e)); [exact P|].
    assert (Sm : Forall (by_slot U64) es) by (eapply proper_slots; [|exact P]; intros v e (H & _); exact H).
    apply Forall_forall. intros e I _. rewrite Forall_forall in Sm. apply Sm, I.
  - auto.
Qed.
