(** Proofs about spending limits. *)
From Verif Require Import BaseFacts Limits SpecLimits.

Lemma ordered_weaken s s' h : s' <= s -> ordered_from s h -> ordered_from s' h.
Proof. destruct h as [|r t]; cbn; intuition lia. Qed.

Lemma ordered_ge s h r : ordered_from s h -> In r h -> s <= slot_of r < U64 /\ 0 <= amount_of r.
Proof.
  revert s; induction h as [|x t IH]; intros s H Hi; cbn in *; [contradiction|].
  destruct H as (H1 & H2 & H3). destruct Hi as [->|Hi]; [tauto|].
  specialize (IH _ H3 Hi). lia.
Qed.

Lemma replay_sub {A} (run : A -> Z -> Z -> res A) s h r : In r (snd (replay run s h)) -> In r h.
Proof.
  revert s; induction h as [|x t IH]; intros s; cbn; [tauto|].
  destruct (run s (slot_of x) (amount_of x)) as [s'|e|].
  - destruct (replay run s' t) as [e' g] eqn:E. cbn. intros [->|Hi]; [left; reflexivity|right].
    apply (IH s'). rewrite E. exact Hi.
  - intros Hi; right; exact (IH _ Hi).
  - intros Hi; right; exact (IH _ Hi).
Qed.

Definition all_pos (g : list request) : Prop := forall r, In r g -> 0 <= amount_of r.

Lemma replay_pos {A} (run : A -> Z -> Z -> res A) s0 s h :
  ordered_from s0 h -> all_pos (snd (replay run s h)).
Proof. intros H r Hi. apply replay_sub in Hi. apply (ordered_ge _ _ _ H Hi). Qed.

Lemma spent_in_pos lo hi g : all_pos g -> 0 <= spent_in lo hi g.
Proof.
  unfold spent_in. induction g as [|r t IH]; intros H; cbn; [lia|].
  assert (0 <= amount_of r) by (apply H; left; reflexivity).
  assert (0 <= total (filter (fun r => (lo <? slot_of r) && (slot_of r <=? hi)) t))
    by (apply IH; intros x Hx; apply H; right; exact Hx).
  destruct ((lo <? slot_of r) && (slot_of r <=? hi)); cbn; lia.
Qed.

Lemma spent_in_cons lo hi r g :
  spent_in lo hi (r :: g) =
  (if (lo <? slot_of r) && (slot_of r <=? hi) then amount_of r else 0) + spent_in lo hi g.
Proof. unfold spent_in; cbn. destruct ((lo <? slot_of r) && (slot_of r <=? hi)); cbn; lia. Qed.

Lemma spent_in_mono lo hi lo' hi' g :
  all_pos g -> lo' <= lo -> hi <= hi' -> spent_in lo hi g <= spent_in lo' hi' g.
Proof.
  intros Hp Hl Hh. induction g as [|r t IH]; [cbn; lia|].
  rewrite !spent_in_cons.
  assert (0 <= amount_of r) by (apply Hp; left; reflexivity).
  assert (spent_in lo hi t <= spent_in lo' hi' t) by (apply IH; intros x Hx; apply Hp; right; exact Hx).
  destruct ((lo <? slot_of r) && (slot_of r <=? hi)) eqn:E1;
  destruct ((lo' <? slot_of r) && (slot_of r <=? hi')) eqn:E2; lia.
Qed.

Lemma spent_in_split lo mid hi g : lo <= mid <= hi ->
  spent_in lo hi g = spent_in lo mid g + spent_in mid hi g.
Proof.
  intros H; induction g as [|r t IH]; [reflexivity|].
  rewrite !spent_in_cons, IH.
  destruct ((lo <? slot_of r) && (slot_of r <=? hi)) eqn:E1;
  destruct ((lo <? slot_of r) && (slot_of r <=? mid)) eqn:E2;
  destruct ((mid <? slot_of r) && (slot_of r <=? hi)) eqn:E3; lia.
Qed.

Lemma spent_in_before lo hi s g :
  (forall r, In r g -> s <= slot_of r) -> hi < s -> spent_in lo hi g = 0.
Proof.
  intros Hg Hs; induction g as [|r t IH]; [reflexivity|].
  rewrite spent_in_cons, IH by (intros x Hx; apply Hg; right; exact Hx).
  assert (s <= slot_of r) by (apply Hg; left; reflexivity).
  destruct ((lo <? slot_of r) && (slot_of r <=? hi)) eqn:E1; lia.
Qed.

(** ** One-shot limits, generically *)
Section OneShot.
  Context {A : Type} (run : A -> Z -> Z -> res A) (good : A -> Prop) (rem : A -> Z).
  Hypothesis run_spec : forall s slot a s', good s -> 0 <= a ->
    run s slot a = Ok s' -> good s' /\ a <= rem s /\ rem s' = rem s - a.

  Lemma oneshot_replay s0 s h : good s -> ordered_from s0 h ->
    good (fst (replay run s h)) /\ rem (fst (replay run s h)) + total (snd (replay run s h)) = rem s.
  Proof.
    revert s0 s; induction h as [|r t IH]; intros s0 s Hg Ho; cbn in *; [lia || (split; [exact Hg|lia])|].
    destruct Ho as (H1 & H2 & H3).
    destruct (run s (slot_of r) (amount_of r)) as [s'|e|] eqn:E.
    - destruct (run_spec _ _ _ _ Hg H2 E) as (G1 & G2 & G3).
      specialize (IH _ s' G1 H3). destruct (replay run s' t) as [e g]; cbn in *.
      split; [tauto|]. lia.
    - exact (IH _ _ Hg H3).
    - exact (IH _ _ Hg H3).
  Qed.
End OneShot.

(** ** Limits that refresh at aligned window edges *)
Section Aligned.
  Context {A : Type} (run : A -> Z -> Z -> res A) (good : A -> Prop) (last avail : A -> Z).
  Variables (limit W : Z).
  Hypothesis W_pos : 0 < W.
  Hypothesis run_spec : forall s slot a s', good s -> 0 <= slot < U64 -> 0 <= a ->
    run s slot a = Ok s' ->
    good s' /\ 0 <= a /\
    ((slot <= last s + W /\ last s' = last s /\ a <= avail s /\ avail s' = avail s - a) \/
     (last s + W < slot /\ last s' = slot / W * W /\ a <= limit /\ avail s' = limit - a)).

  Lemma aligned_replay s0 s h :
    good s -> (exists m, last s = m * W) -> avail s <= limit -> 0 <= s0 ->
    0 <= avail s -> ordered_from s0 h ->
    let g := snd (replay run s h) in
    (forall lo, spent_in lo (last s + W) g <= avail s) /\
    (forall k, spent_in (k * W) ((k + 1) * W) g <= limit).
  Proof.
    revert s0 s; induction h as [|r t IH]; intros s0 s Hg [m Hm] Hc Hs0 Ha Ho; cbn zeta.
    { cbn. split; intros; lia. }
    cbn [replay]. destruct Ho as (H1 & H2 & H3).
    assert (Hskip : forall (Hn : snd (replay run s (r :: t)) = snd (replay run s t)),
      let g := snd (replay run s (r :: t)) in
      (forall lo, spent_in lo (last s + W) g <= avail s) /\
      (forall k, spent_in (k * W) ((k + 1) * W) g <= limit)).
    { intros Hn; cbn zeta; rewrite Hn.
      apply (IH s0 s Hg (ex_intro _ m Hm) Hc Hs0 Ha).
      eapply ordered_weaken; [|exact H3]. lia. }
    destruct (run s (slot_of r) (amount_of r)) as [s'|e|] eqn:E.
    2,3: clear -Hskip E; cbn [replay] in Hskip; rewrite E in Hskip; exact (Hskip eq_refl).
    clear Hskip.
    destruct (run_spec s (slot_of r) (amount_of r) s' Hg ltac:(lia) H2 E) as (G1 & G2 & G3).
    assert (Hpos : all_pos (snd (replay run s' t))) by (eapply replay_pos; exact H3).
    assert (Hge : forall x, In x (snd (replay run s' t)) -> slot_of r <= slot_of x).
    { intros x Hx. apply replay_sub in Hx. apply (ordered_ge _ _ _ H3 Hx). }
    destruct (replay run s' t) as [e g] eqn:Er; cbn [snd] in *.
    destruct G3 as [(A1 & A2 & A3 & A4)|(A1 & A2 & A3 & A4)].
    - (* same epoch *)
      specialize (IH (slot_of r) s' G1 (ex_intro _ m (eq_trans A2 Hm)) ltac:(lia) ltac:(lia)
                     ltac:(lia) H3).
      rewrite Er in IH; cbn zeta in IH; cbn [snd] in IH. destruct IH as [IA IB].
      rewrite A2, A4 in IA.
      assert (FA : forall lo, spent_in lo (last s + W) (r :: g) <= avail s).
      { intros lo. rewrite spent_in_cons. specialize (IA lo).
        destruct ((lo <? slot_of r) && (slot_of r <=? last s + W)); lia. }
      split; [exact FA|]. intros k.
      destruct (Z_le_gt_dec k m) as [Hk|Hk].
      + transitivity (spent_in (k * W) (last s + W) (r :: g)).
        * apply spent_in_mono; [|lia|rewrite Hm; nia].
          intros x [<-|Hx]; [lia|apply Hpos; exact Hx].
        * specialize (FA (k * W)). lia.
      + rewrite spent_in_cons. specialize (IB k).
        assert (slot_of r <= k * W) by (rewrite Hm in A1; nia).
        destruct ((k * W <? slot_of r) && (slot_of r <=? (k + 1) * W)) eqn:E1; lia.
    - (* refresh *)
      assert (Hd : slot_of r / W * W <= slot_of r < slot_of r / W * W + W).
      { pose proof (Z.div_mod (slot_of r) W ltac:(lia)).
        pose proof (Z.mod_pos_bound (slot_of r) W W_pos). nia. }
      specialize (IH (slot_of r) s' G1 (ex_intro _ (slot_of r / W) A2) ltac:(lia) ltac:(lia)
                     ltac:(lia) H3).
      rewrite Er in IH; cbn zeta in IH; cbn [snd] in IH. destruct IH as [IA IB].
      rewrite A2, A4 in IA. split.
      + intros lo. rewrite (spent_in_before lo (last s + W) (slot_of r)); [lia| |lia].
        intros x [<-|Hx]; [lia|apply Hge; exact Hx].
      + intros k. destruct (Z_le_gt_dec k (slot_of r / W)) as [Hk|Hk].
        * transitivity (spent_in (k * W) (slot_of r / W * W + W) (r :: g)).
          -- apply spent_in_mono; [|lia|nia].
             intros x [<-|Hx]; [lia|apply Hpos; exact Hx].
          -- rewrite spent_in_cons. specialize (IA (k * W)).
             destruct ((k * W <? slot_of r) && (slot_of r <=? slot_of r / W * W + W)); lia.
        * rewrite spent_in_cons. specialize (IB k).
          assert (slot_of r <= k * W) by nia.
          destruct ((k * W <? slot_of r) && (slot_of r <=? (k + 1) * W)) eqn:E1; lia.
  Qed.

  Lemma aligned_sliding s0 s h t :
    good s -> (exists m, last s = m * W) -> avail s <= limit -> 0 <= s0 ->
    0 <= avail s -> ordered_from s0 h ->
    spent_in t (t + W) (snd (replay run s h)) <= 2 * limit.
  Proof.
    intros Hg Hm Hc Hs Ha Ho.
    destruct (aligned_replay s0 s h Hg Hm Hc Hs Ha Ho) as [_ HB].
    assert (Hpos : all_pos (snd (replay run s h))) by (eapply replay_pos; exact Ho).
    set (g := snd (replay run s h)) in *. set (k := t / W).
    assert (Hd : k * W <= t < k * W + W).
    { unfold k. pose proof (Z.div_mod t W ltac:(lia)).
      pose proof (Z.mod_pos_bound t W W_pos). nia. }
    rewrite (spent_in_split t ((k + 1) * W) (t + W)) by lia.
    pose proof (HB k) as B1. pose proof (HB (k + 1)) as B2.
    pose proof (spent_in_mono t ((k + 1) * W) (k * W) ((k + 1) * W) g Hpos ltac:(lia) ltac:(lia)).
    pose proof (spent_in_mono ((k + 1) * W) (t + W) ((k + 1) * W) ((k + 1 + 1) * W) g Hpos ltac:(lia) ltac:(lia)).
    lia.
  Qed.
End Aligned.

(** ** Limits that refresh at the slot of use *)
Section Rolling.
  Context {A : Type} (run : A -> Z -> Z -> res A) (good : A -> Prop) (last avail : A -> Z).
  Variables (limit W : Z).
  Hypothesis W_pos : 0 <= W.
  Hypothesis limit_pos : 0 <= limit.
  Hypothesis run_spec : forall s slot a s', good s -> last s <= slot < U64 -> 0 <= a ->
    run s slot a = Ok s' ->
    good s' /\ 0 <= a /\
    ((slot <= last s + W /\ last s' = last s /\ a <= avail s /\ avail s' = avail s - a) \/
     (last s + W < slot /\ last s' = slot /\ a <= limit /\ avail s' = limit - a)).

  Lemma rolling_replay s0 s h :
    good s -> avail s <= limit -> 0 <= avail s -> last s <= s0 -> ordered_from s0 h ->
    let g := snd (replay run s h) in
    (forall lo, spent_in lo (last s + W) g <= avail s) /\
    spent_in (last s + W) (last s + W + W + 1) g <= limit /\
    (forall t, spent_in t (t + W + 1) g <= 2 * limit) /\
    (forall t, spent_in t (t + 1) g <= limit) /\
    (forall t, last s <= t -> spent_in (last s - 1) t g <= avail s + (t - last s) / (W + 1) * limit).
  Proof.
    revert s0 s; induction h as [|r t IH]; intros s0 s Hg Hc Ha Hl Ho; cbn zeta.
    { cbn. repeat split; intros; try lia.
      assert (0 <= (t - last s) / (W + 1)) by (apply Z.div_pos; lia). nia. }
    cbn [replay]. destruct Ho as (H1 & H2 & H3).
    assert (Hskip : ordered_from s0 t) by (eapply ordered_weaken; [|exact H3]; lia).
    apply (IH s0 s Hg Hc Ha Hl) in Hskip.
    destruct (run s (slot_of r) (amount_of r)) as [s'|e|] eqn:E; [|exact Hskip|exact Hskip].
    clear Hskip.
    destruct (run_spec s (slot_of r) (amount_of r) s' Hg ltac:(lia) H2 E) as (G1 & G2 & G3).
    assert (Hpos : all_pos (snd (replay run s' t))) by (eapply replay_pos; exact H3).
    assert (Hge : forall x, In x (snd (replay run s' t)) -> slot_of r <= slot_of x).
    { intros x Hx. apply replay_sub in Hx. apply (ordered_ge _ _ _ H3 Hx). }
    assert (Hl' : last s' <= slot_of r) by (destruct G3 as [G3|G3]; lia).
    assert (Hc' : avail s' <= limit) by (destruct G3 as [G3|G3]; lia).
    assert (Ha' : 0 <= avail s') by (destruct G3 as [G3|G3]; lia).
    specialize (IH (slot_of r) s' G1 Hc' Ha' Hl' H3).
    destruct (replay run s' t) as [e g] eqn:Er; cbn zeta in IH; cbn [snd] in *.
    destruct IH as (IA & IF & IB & ID & IC).
    assert (Hposr : all_pos (r :: g)).
    { intros x [<-|Hx]; [lia|apply Hpos; exact Hx]. }
    destruct G3 as [(A1 & A2 & A3 & A4)|(A1 & A2 & A3 & A4)]; rewrite A2, A4 in *.
    - assert (FA : forall lo, spent_in lo (last s + W) (r :: g) <= avail s).
      { intros lo. rewrite spent_in_cons. specialize (IA lo).
        destruct ((lo <? slot_of r) && (slot_of r <=? last s + W)); lia. }
      assert (FF : spent_in (last s + W) (last s + W + W + 1) (r :: g) <= limit).
      { rewrite spent_in_cons.
        destruct ((last s + W <? slot_of r) && (slot_of r <=? last s + W + W + 1)) eqn:E1; lia. }
      split; [exact FA|split; [exact FF|split; [|split]]].
      + intros u. destruct (Z_le_gt_dec (last s + W) u) as [Hu|Hu].
        * rewrite spent_in_cons. specialize (IB u).
          destruct ((u <? slot_of r) && (slot_of r <=? u + W + 1)) eqn:E1; lia.
        * specialize (FA u).
          destruct (Z_le_gt_dec (u + W + 1) (last s + W)) as [Hv|Hv].
          -- pose proof (spent_in_mono u (u + W + 1) u (last s + W) (r :: g) Hposr ltac:(lia) ltac:(lia)). lia.
          -- rewrite (spent_in_split u (last s + W) (u + W + 1)) by lia.
             pose proof (spent_in_mono (last s + W) (u + W + 1) (last s + W) (last s + W + W + 1) (r :: g)
                           Hposr ltac:(lia) ltac:(lia)). lia.
      + intros u. destruct (Z_le_gt_dec (u + 1) (last s + W)) as [Hu|Hu].
        * pose proof (spent_in_mono u (u + 1) u (last s + W) (r :: g) Hposr ltac:(lia) ltac:(lia)).
          specialize (FA u). lia.
        * rewrite spent_in_cons. specialize (ID u).
          destruct ((u <? slot_of r) && (slot_of r <=? u + 1)) eqn:E1; lia.
      + intros u Hu. rewrite spent_in_cons. specialize (IC u Hu).
        destruct ((last s - 1 <? slot_of r) && (slot_of r <=? u)) eqn:E1; lia.
    - assert (FA : forall lo, spent_in lo (slot_of r + W) (r :: g) <= limit).
      { intros lo. rewrite spent_in_cons. specialize (IA lo).
        destruct ((lo <? slot_of r) && (slot_of r <=? slot_of r + W)); lia. }
      assert (Hz : forall lo hi, hi < slot_of r -> spent_in lo hi (r :: g) = 0).
      { intros lo hi Hh. apply (spent_in_before lo hi (slot_of r)); [|exact Hh].
        intros x [<-|Hx]; [lia|apply Hge; exact Hx]. }
      split; [|split; [|split; [|split]]].
      + intros lo. rewrite Hz; lia.
      + pose proof (spent_in_mono (last s + W) (last s + W + W + 1) (last s + W) (slot_of r + W) (r :: g)
                      Hposr ltac:(lia) ltac:(lia)). specialize (FA (last s + W)). lia.
      + intros u. destruct (Z_lt_ge_dec u (slot_of r)) as [Hu|Hu].
        * pose proof (spent_in_mono u (u + W + 1) u (slot_of r + W) (r :: g) Hposr ltac:(lia) ltac:(lia)).
          specialize (FA u). lia.
        * rewrite spent_in_cons. specialize (IB u).
          destruct ((u <? slot_of r) && (slot_of r <=? u + W + 1)) eqn:E1; lia.
      + intros u. destruct (Z_le_gt_dec (u + 1) (slot_of r + W)) as [Hu|Hu].
        * pose proof (spent_in_mono u (u + 1) u (slot_of r + W) (r :: g) Hposr ltac:(lia) ltac:(lia)).
          specialize (FA u). lia.
        * rewrite spent_in_cons. specialize (ID u).
          destruct ((u <? slot_of r) && (slot_of r <=? u + 1)) eqn:E1; lia.
      + intros u Hu.
        assert (0 <= (u - last s) / (W + 1)) by (apply Z.div_pos; lia).
        destruct (Z_lt_ge_dec u (slot_of r)) as [Hv|Hv]; [rewrite Hz by exact Hv; nia|].
        rewrite (spent_in_split (last s - 1) (slot_of r - 1) u) by lia.
        rewrite Hz by lia. rewrite spent_in_cons.
        replace ((slot_of r - 1 <? slot_of r) && (slot_of r <=? u)) with true by lia.
        specialize (IC u ltac:(lia)).
        assert (1 + (u - slot_of r) / (W + 1) <= (u - last s) / (W + 1)).
        { replace (u - last s) with ((u - slot_of r) + (slot_of r - last s)) by lia.
          transitivity ((u - slot_of r + 1 * (W + 1)) / (W + 1)).
          - rewrite Z.div_add by lia. lia.
          - apply Z.div_le_mono; lia. }
        nia.
  Qed.
End Rolling.

(** ** Field updates *)
Lemma set_u64_length o z d : (o + 8 <= length d)%nat -> length (set_u64 o z d) = length d.
Proof. intros H. apply splice_length. rewrite le_enc_length. exact H. Qed.
Lemma set_u64_bytes o z d : all_bytes d -> all_bytes (set_u64 o z d).
Proof. intros H. apply all_bytes_splice; [apply le_enc_bytes|exact H]. Qed.
Lemma u64_set_same o z d : (o + 8 <= length d)%nat -> is_u64 z -> u64_at o (set_u64 o z d) = z.
Proof.
  intros H Hz. unfold u64_at, set_u64.
  rewrite sub_splice_eq; [apply le8; exact Hz|apply le_enc_length|exact H].
Qed.
Lemma sub_set_other o z d o2 n2 :
  (o + 8 <= length d)%nat -> (o2 + n2 <= o \/ o + 8 <= o2)%nat -> (o2 + n2 <= length d)%nat ->
  sub o2 n2 (set_u64 o z d) = sub o2 n2 d.
Proof. intros H1 H2 H3. apply sub_splice_other; rewrite ?le_enc_length; assumption. Qed.
Lemma u64_set_other o z d o2 :
  (o + 8 <= length d)%nat -> (o2 + 8 <= o \/ o + 8 <= o2)%nat -> (o2 + 8 <= length d)%nat ->
  u64_at o2 (set_u64 o z d) = u64_at o2 d.
Proof. intros. unfold u64_at. rewrite sub_set_other by assumption. reflexivity. Qed.
Lemma nth_splice o new d i : (o + length new <= length d)%nat -> ~ (o <= i < o + length new)%nat ->
  nth i (splice o new d) 0 = nth i d 0.
Proof.
  intros H Hi. unfold splice.
  destruct (Nat.lt_ge_cases i o) as [Hl|Hl].
  - rewrite app_nth1 by (rewrite firstn_length; lia).
    rewrite <- (firstn_skipn o d) at 2. rewrite app_nth1 by (rewrite firstn_length; lia). reflexivity.
  - rewrite app_nth2 by (rewrite firstn_length; lia). rewrite firstn_length, Nat.min_l by lia.
    rewrite app_nth2 by lia.
    rewrite <- (firstn_skipn (o + length new) d) at 2.
    rewrite (app_nth2 (firstn _ d)) by (rewrite firstn_length; lia).
    rewrite firstn_length. f_equal. lia.
Qed.
Lemma nth_set_other o z d i : (o + 8 <= length d)%nat -> ~ (o <= i < o + 8)%nat ->
  nth i (set_u64 o z d) 0 = nth i d 0.
Proof. intros. apply nth_splice; rewrite le_enc_length; assumption. Qed.

(** ** One-shot limits on bytes *)
Lemma one_shot_gen e o len (f : bytes -> Z -> res bytes) :
  (o + 8 <= len)%nat ->
  (forall d a, f d a = (let* r := oneshot_run e (u64_at o d) a in Ok (set_u64 o r d))) ->
  one_shot (fun d _ a => f d a) len o.
Proof.
  intros Ho Hf d h Hb Hl Hh d' g.
  set (run := fun d (_ a : Z) => f d a).
  set (good := fun x => all_bytes x /\ length x = len /\ firstn o x = firstn o d
                        /\ skipn (o + 8) x = skipn (o + 8) d).
  assert (Hg0 : good d) by (repeat split; assumption).
  assert (Hrun : forall s slot a s', good s -> 0 <= a -> run s slot a = Ok s' ->
            good s' /\ a <= u64_at o s /\ u64_at o s' = u64_at o s - a).
  { intros s slot a s' (G1 & G2 & G3 & G4) Ha Hr. unfold run in Hr. rewrite Hf in Hr.
    unfold oneshot_run in Hr. destruct (u64_at o s <? a) eqn:E; [discriminate|].
    cbn in Hr. inv Hr. pose proof (u64_bound o s G1) as B. unfold is_u64 in B.
    assert (Hs : sat_sub (u64_at o s) a = u64_at o s - a) by (unfold sat_sub; lia).
    rewrite Hs. split; [|split; [lia|apply u64_set_same; [lia|unfold is_u64; lia]]].
    split; [apply set_u64_bytes; exact G1|].
    split; [rewrite set_u64_length; lia|].
    unfold set_u64. split.
    - rewrite firstn_splice by lia. exact G3.
    - rewrite skipn_splice by (rewrite le_enc_length; lia). exact G4. }
  destruct (oneshot_replay run good (u64_at o) Hrun 0 d h Hg0 Hh)
    as ((G1 & G2 & G3 & G4) & Hsum).
  fold run in d', g. fold d' in G1, G2, G3, G4, Hsum. fold g in Hsum.
  repeat split; try assumption.
  - apply (u64_bound o d' G1).
  - intros slot a Ha. unfold run. rewrite Hf. unfold oneshot_run.
    destruct (u64_at o d' <? a) eqn:E; cbn; symmetry; lia.
Qed.

Lemma one_shot_sol : one_shot (fun d _ a => sol_limit_bytes d a) 8 0.
Proof. eapply one_shot_gen; [lia|reflexivity]. Qed.
Lemma one_shot_token : one_shot (fun d _ a => token_limit_bytes d a) 40 32.
Proof. eapply one_shot_gen; [lia|reflexivity]. Qed.
Lemma one_shot_sol_dest : one_shot (fun d _ a => sol_dest_bytes d a) 40 32.
Proof. eapply one_shot_gen; [lia|reflexivity]. Qed.
Lemma one_shot_token_dest : one_shot (fun d _ a => token_dest_bytes d a) 72 64.
Proof. eapply one_shot_gen; [lia|reflexivity]. Qed.

(** ** Recurring limits on bytes *)
Definition lay_ok (L : layout) : Prop :=
  (lay_limit L + 8 <= lay_len L /\ lay_window L + 8 <= lay_len L /\ lay_last L + 8 <= lay_len L
   /\ lay_left L + 8 <= lay_len L
   /\ (lay_limit L + 8 <= lay_last L \/ lay_last L + 8 <= lay_limit L)
   /\ (lay_limit L + 8 <= lay_left L \/ lay_left L + 8 <= lay_limit L)
   /\ (lay_window L + 8 <= lay_last L \/ lay_last L + 8 <= lay_window L)
   /\ (lay_window L + 8 <= lay_left L \/ lay_left L + 8 <= lay_window L)
   /\ (lay_last L + 8 <= lay_left L \/ lay_left L + 8 <= lay_last L))%nat.

Lemma write_recurring_facts L r d :
  lay_ok L -> all_bytes d -> length d = lay_len L -> is_u64 (rc_last r) -> is_u64 (rc_cur r) ->
  let d' := write_recurring (lay_last L) (lay_left L) r d in
  all_bytes d' /\ length d' = lay_len L /\ u64_at (lay_limit L) d' = u64_at (lay_limit L) d
  /\ u64_at (lay_window L) d' = u64_at (lay_window L) d /\ u64_at (lay_last L) d' = rc_last r
  /\ u64_at (lay_left L) d' = rc_cur r /\ same_terms L d d'.
Proof.
  intros (L1 & L2 & L3 & L4 & L5 & L6 & L7 & L8 & L9) Hb Hl H1 H2 d'. unfold d', write_recurring.
  assert (Hl1 : length (set_u64 (lay_last L) (rc_last r) d) = length d) by (apply set_u64_length; lia).
  split; [auto using set_u64_bytes|].
  split; [rewrite set_u64_length; lia|].
  split; [rewrite !u64_set_other; try lia; reflexivity|].
  split; [rewrite !u64_set_other; try lia; reflexivity|].
  split; [rewrite u64_set_other by lia; apply u64_set_same; [lia|exact H1]|].
  split; [apply u64_set_same; [lia|exact H2]|].
  split; [rewrite set_u64_length; lia|].
  intros i Hi Hn1 Hn2. rewrite !nth_set_other; try lia; reflexivity.
Qed.

Lemma same_terms_trans L a b c : same_terms L a b -> same_terms L b c -> same_terms L a c.
Proof.
  intros [H1 H2] [H3 H4]. split; [lia|]. intros i Hi N1 N2. rewrite H4, H2 by (try lia; assumption). reflexivity.
Qed.

Lemma nth_sub_ext o n (d d' : bytes) : length d' = length d ->
  (forall i, (o <= i < o + n)%nat -> (i < length d)%nat -> nth i d' 0 = nth i d 0) -> sub o n d' = sub o n d.
Proof.
  intros Hl H. apply (nth_ext _ _ 0 0).
  - unfold sub. rewrite !firstn_length, !skipn_length. lia.
  - intros i Hi. unfold sub in *. rewrite firstn_length, skipn_length in Hi.
    assert (Hn : forall l : bytes, (i < n)%nat -> nth i (firstn n (skipn o l)) 0 = nth (o + i) l 0).
    { intros l Hin. rewrite <- (firstn_skipn o l) at 2.
      destruct (Nat.le_gt_cases (length l) o) as [Hs|Hs].
      - rewrite skipn_all2 by lia. rewrite firstn_nil. rewrite app_nil_r.
        rewrite (nth_overflow (firstn o l)) by (rewrite firstn_length; lia). destruct i; reflexivity.
      - rewrite app_nth2 by (rewrite firstn_length; lia). rewrite firstn_length.
        replace (o + i - Nat.min o (length l))%nat with i by lia.
        rewrite <- (firstn_skipn n (skipn o l)) at 2.
        destruct (Nat.lt_ge_cases i (length (firstn n (skipn o l)))) as [Hq|Hq].
        + rewrite app_nth1 by exact Hq. reflexivity.
        + rewrite (nth_overflow (firstn n (skipn o l))) by exact Hq.
          rewrite firstn_skipn. rewrite nth_overflow; [reflexivity|].
          rewrite firstn_length in Hq. lia. }
    rewrite !Hn by lia. apply H; lia.
Qed.

Lemma same_terms_u64 L d d' o : lay_ok L -> length d = lay_len L -> same_terms L d d' ->
  o = lay_limit L \/ o = lay_window L -> u64_at o d' = u64_at o d.
Proof.
  intros (L1 & L2 & L3 & L4 & L5 & L6 & L7 & L8 & L9) Hl [H1 H2] Ho. unfold u64_at. f_equal.
  apply nth_sub_ext; [exact H1|]. intros i Hi Hil. apply H2; lia.
Qed.

Section RecurringBytes.
  Variables (L : layout) (f : bytes -> Z -> Z -> res bytes).
  Hypothesis HL : lay_ok L.
  Definition rd (d : bytes) := read_recurring (lay_limit L) (lay_window L) (lay_last L) (lay_left L) d.
  Hypothesis Hf : forall d a s, f d a s =
    (let* r := recurring_run (rd d) a s in Ok (write_recurring (lay_last L) (lay_left L) r d)).
  Variable d0 : bytes.
  Hypothesis Hb0 : all_bytes d0.
  Hypothesis Hl0 : length d0 = lay_len L.
  Hypothesis HW : 0 < u64_at (lay_window L) d0.

  Definition good_rec (d : bytes) : Prop :=
    all_bytes d /\ length d = lay_len L /\ same_terms L d0 d
    /\ u64_at (lay_left L) d <= u64_at (lay_limit L) d0.

  Lemma rec_step s slot a s' : good_rec s -> 0 <= slot < U64 -> 0 <= a -> f s a slot = Ok s' ->
    let last := u64_at (lay_last L) in let avail := u64_at (lay_left L) in
    let W := u64_at (lay_window L) d0 in let limit := u64_at (lay_limit L) d0 in
    good_rec s' /\ 0 <= a /\
    ((slot <= last s + W /\ last s' = last s /\ a <= avail s /\ avail s' = avail s - a) \/
     (last s + W < slot /\ last s' = slot / W * W /\ a <= limit /\ avail s' = limit - a)).
  Proof.
    intros (G1 & G2 & G3 & G4) Hs Ha Hr last avail W limit.
    rewrite Hf in Hr. bind_inv Hr. inv K. unfold recurring_run in B.
    assert (EW : u64_at (lay_window L) s = W) by (eapply same_terms_u64; eauto).
    assert (EL : u64_at (lay_limit L) s = limit) by (eapply same_terms_u64; eauto).
    pose proof (u64_bound (lay_last L) s G1) as B1. pose proof (u64_bound (lay_left L) s G1) as B2.
    pose proof (u64_bound (lay_limit L) d0 Hb0) as B3. unfold is_u64 in *. fold limit in B3.
    unfold rd, read_recurring in B. cbn [rc_limit rc_window rc_last rc_cur] in B. rewrite EW, EL in B.
    assert (Hdiv : 0 <= slot / W * W <= slot).
    { pose proof (Z.div_mod slot W ltac:(lia)). pose proof (Z.mod_pos_bound slot W HW).
      pose proof (Z.div_pos slot W ltac:(lia) HW). nia. }
    destruct ((W <? sat_sub slot (u64_at (lay_last L) s)) && (a <=? limit)) eqn:E1.
    - assert (Hw0 : negb (W =? 0) = true) by lia.
      rewrite Hw0 in B. cbn in B. destruct (limit <? a) eqn:E2; [discriminate|]. inv B.
      assert (Hm : (slot / W * W) mod U64 = slot / W * W) by (apply Z.mod_small; lia).
      assert (Hss : sat_sub limit a = limit - a) by (unfold sat_sub; lia).
      rewrite Hm, Hss in *.
      edestruct (write_recurring_facts L {| rc_limit := limit; rc_window := W; rc_last := slot / W * W;
                   rc_cur := limit - a |} s HL G1 G2) as (F1 & F2 & F3 & F4 & F5 & F6 & F7);
        try (unfold is_u64; cbn; lia).
      cbn [rc_last rc_cur] in *.
      split; [|split; [lia|right]].
      + split; [exact F1|split; [exact F2|split]].
        * eapply same_terms_trans; eauto.
        * rewrite F6. fold limit. lia.
      + unfold last, avail. rewrite F5, F6. unfold sat_sub in E1. lia.
    - cbn in B. destruct (u64_at (lay_left L) s <? a) eqn:E2; [discriminate|]. inv B.
      assert (Hss : sat_sub (u64_at (lay_left L) s) a = u64_at (lay_left L) s - a) by (unfold sat_sub; lia).
      rewrite Hss in *.
      edestruct (write_recurring_facts L {| rc_limit := limit; rc_window := W; rc_last := u64_at (lay_last L) s;
                   rc_cur := u64_at (lay_left L) s - a |} s HL G1 G2) as (F1 & F2 & F3 & F4 & F5 & F6 & F7);
        try (unfold is_u64; cbn; lia).
      cbn [rc_last rc_cur] in *. fold limit in G4.
      split; [|split; [lia|left]].
      + split; [exact F1|split; [exact F2|split]].
        * eapply same_terms_trans; eauto.
        * rewrite F6. fold limit. lia.
      + unfold last, avail. rewrite F5, F6. unfold sat_sub in E1. lia.
  Qed.

  Lemma rec_grant d slot a : good_rec d -> 0 <= a -> 0 <= slot < U64 ->
    a <= u64_at (lay_left L) d \/
    (u64_at (lay_last L) d + u64_at (lay_window L) d0 < slot /\ a <= u64_at (lay_limit L) d0) ->
    is_ok (f d a slot) = true.
  Proof.
    intros (G1 & G2 & G3 & G4) Ha Hs Hor. rewrite Hf. unfold recurring_run, rd, read_recurring.
    cbn [rc_limit rc_window rc_last rc_cur].
    assert (EW : u64_at (lay_window L) d = u64_at (lay_window L) d0) by (eapply same_terms_u64; eauto).
    assert (EL : u64_at (lay_limit L) d = u64_at (lay_limit L) d0) by (eapply same_terms_u64; eauto).
    pose proof (u64_bound (lay_last L) d G1) as B1. unfold is_u64 in B1.
    rewrite EW, EL.
    destruct ((u64_at (lay_window L) d0 <? sat_sub slot (u64_at (lay_last L) d)) && (a <=? u64_at (lay_limit L) d0)) eqn:E1.
    - replace (negb (u64_at (lay_window L) d0 =? 0)) with true by lia. cbn.
      destruct (u64_at (lay_limit L) d0 <? a) eqn:E2; [lia|reflexivity].
    - cbn. destruct (u64_at (lay_left L) d <? a) eqn:E2; [|reflexivity].
      unfold sat_sub in E1. lia.
  Qed.
End RecurringBytes.

Lemma replay_good {A} (run : A -> Z -> Z -> res A) (good : A -> Prop) s0 s h :
  (forall x r x', good x -> 0 <= slot_of r < U64 -> 0 <= amount_of r ->
                  run x (slot_of r) (amount_of r) = Ok x' -> good x') ->
  0 <= s0 -> good s -> ordered_from s0 h -> good (fst (replay run s h)).
Proof.
  intros Hr. revert s0 s; induction h as [|r t IH]; intros s0 s H0 Hg Ho; cbn; [exact Hg|].
  destruct Ho as (H1 & H2 & H3).
  destruct (run s (slot_of r) (amount_of r)) as [s'|e|] eqn:E; try (apply (IH (slot_of r)); [lia|exact Hg|exact H3]).
  specialize (IH (slot_of r) s' ltac:(lia)). destruct (replay run s' t) as [e g]; cbn in *.
  apply IH; [|exact H3]. eapply Hr; eauto; lia.
Qed.

Lemma aligned_gen (fresh : bytes -> Prop) L f :
  lay_ok L ->
  (forall d a s, f d a s =
    (let* r := recurring_run (rd L d) a s in Ok (write_recurring (lay_last L) (lay_left L) r d))) ->
  (forall d, all_bytes d -> fresh d -> length d = lay_len L
     /\ u64_at (lay_left L) d = u64_at (lay_limit L) d /\ u64_at (lay_last L) d = 0) ->
  aligned_windows fresh (fun d s a => f d a s) L.
Proof.
  intros HL Hf Hfr d h Hb Hd Hh limit W HW d' g.
  destruct (Hfr d Hb Hd) as (F1 & F2 & F3).
  set (run := fun d s a => f d a s).
  assert (Hg0 : good_rec L d d).
  { split; [exact Hb|split; [exact F1|split; [split; [reflexivity|intros; reflexivity]|lia]]]. }
  assert (Hstep : forall s slot a s', good_rec L d s -> 0 <= slot < U64 -> 0 <= a -> run s slot a = Ok s' ->
    good_rec L d s' /\ 0 <= a /\
    ((slot <= u64_at (lay_last L) s + W /\ u64_at (lay_last L) s' = u64_at (lay_last L) s
      /\ a <= u64_at (lay_left L) s /\ u64_at (lay_left L) s' = u64_at (lay_left L) s - a) \/
     (u64_at (lay_last L) s + W < slot /\ u64_at (lay_last L) s' = slot / W * W /\ a <= limit
      /\ u64_at (lay_left L) s' = limit - a))).
  { intros s slot a s' G S A R. exact (rec_step L f HL Hf d Hb F1 HW s slot a s' G S A R). }
  assert (Hm : exists m, u64_at (lay_last L) d = m * W) by (exists 0; lia).
  pose proof (u64_bound (lay_left L) d Hb) as BL. unfold is_u64 in BL.
  assert (HA : u64_at (lay_left L) d <= limit) by (unfold limit; lia).
  destruct (aligned_replay run (good_rec L d) _ _ limit W HW Hstep 0 d h Hg0 Hm HA ltac:(lia) ltac:(lia) Hh)
    as [_ HB].
  pose proof (aligned_sliding run (good_rec L d) _ _ limit W HW Hstep 0 d h) as HS.
  assert (Hgd : good_rec L d d').
  { apply (replay_good run (good_rec L d) 0 d h); [|lia|exact Hg0|exact Hh].
    intros x r x' G S A R. apply (Hstep x (slot_of r) (amount_of r) x' G S A R). }
  split; [exact HB|].
  split; [intros t; apply HS; auto; lia|].
  split; [apply Hgd|].
  intros slot a Ha Hs Hor. exact (rec_grant L f HL Hf d F1 HW d' slot a Hgd Ha Hs Hor).
Qed.

(** ** Recurring destination limits on bytes *)
Section RollingBytes.
  Variables (L : layout) (f : bytes -> Z -> Z -> res bytes) (e : err).
  Hypothesis HL : lay_ok L.
  Hypothesis Hf : forall d a s, f d a s =
    (let* r := recurring_dest_run e (rd L d) a s in Ok (write_recurring (lay_last L) (lay_left L) r d)).
  Variable d0 : bytes.
  Hypothesis Hb0 : all_bytes d0.
  Hypothesis Hl0 : length d0 = lay_len L.

  Lemma roll_step s slot a s' : good_rec L d0 s -> u64_at (lay_last L) s <= slot < U64 -> 0 <= a ->
    f s a slot = Ok s' ->
    let last := u64_at (lay_last L) in let avail := u64_at (lay_left L) in
    let W := u64_at (lay_window L) d0 in let limit := u64_at (lay_limit L) d0 in
    good_rec L d0 s' /\ 0 <= a /\
    ((slot <= last s + W /\ last s' = last s /\ a <= avail s /\ avail s' = avail s - a) \/
     (last s + W < slot /\ last s' = slot /\ a <= limit /\ avail s' = limit - a)).
  Proof.
    intros (G1 & G2 & G3 & G4) Hs Ha Hr last avail W limit.
    rewrite Hf in Hr. bind_inv Hr. inv K. unfold recurring_dest_run in B.
    assert (EW : u64_at (lay_window L) s = W) by (eapply same_terms_u64; eauto).
    assert (EL : u64_at (lay_limit L) s = limit) by (eapply same_terms_u64; eauto).
    pose proof (u64_bound (lay_last L) s G1) as B1. pose proof (u64_bound (lay_left L) s G1) as B2.
    pose proof (u64_bound (lay_limit L) d0 Hb0) as B3. unfold is_u64 in *. fold limit in B3.
    pose proof (u64_bound (lay_window L) d0 Hb0) as B4. unfold is_u64 in *. fold W in B4.
    unfold rd, read_recurring in B. cbn [rc_limit rc_window rc_last rc_cur] in B. rewrite EW, EL in B.
    assert (Hsm : (slot - u64_at (lay_last L) s) mod U64 = slot - u64_at (lay_last L) s)
      by (apply Z.mod_small; lia).
    rewrite Hsm in B.
    destruct ((W <? slot - u64_at (lay_last L) s) && (a <=? limit)) eqn:E1;
      cbn [rc_limit rc_window rc_last rc_cur] in B.
    - destruct (limit <? a) eqn:E2; [discriminate|]. inv B.
      assert (Hss : (limit - a) mod U64 = limit - a) by (apply Z.mod_small; lia).
      rewrite Hss in *.
      edestruct (write_recurring_facts L {| rc_limit := limit; rc_window := W; rc_last := slot;
                   rc_cur := limit - a |} s HL G1 G2) as (F1 & F2 & F3 & F4 & F5 & F6 & F7);
        try (unfold is_u64; cbn; lia).
      cbn [rc_last rc_cur] in *.
      split; [|split; [lia|right]].
      + split; [exact F1|split; [exact F2|split]].
        * eapply same_terms_trans; eauto.
        * rewrite F6. fold limit. lia.
      + unfold last, avail. rewrite F5, F6. lia.
    - destruct (u64_at (lay_left L) s <? a) eqn:E2; [discriminate|]. inv B.
      assert (Hss : (u64_at (lay_left L) s - a) mod U64 = u64_at (lay_left L) s - a) by (apply Z.mod_small; lia).
      rewrite Hss in *.
      edestruct (write_recurring_facts L {| rc_limit := limit; rc_window := W; rc_last := u64_at (lay_last L) s;
                   rc_cur := u64_at (lay_left L) s - a |} s HL G1 G2) as (F1 & F2 & F3 & F4 & F5 & F6 & F7);
        try (unfold is_u64; cbn; lia).
      cbn [rc_last rc_cur] in *. fold limit in G4.
      split; [|split; [lia|left]].
      + split; [exact F1|split; [exact F2|split]].
        * eapply same_terms_trans; eauto.
        * rewrite F6. fold limit. lia.
      + unfold last, avail. rewrite F5, F6. lia.
  Qed.

  Lemma roll_grant d slot a : good_rec L d0 d -> 0 <= a -> u64_at (lay_last L) d <= slot < U64 ->
    a <= u64_at (lay_left L) d \/
    (u64_at (lay_last L) d + u64_at (lay_window L) d0 < slot /\ a <= u64_at (lay_limit L) d0) ->
    is_ok (f d a slot) = true.
  Proof.
    intros (G1 & G2 & G3 & G4) Ha Hs Hor. rewrite Hf. unfold recurring_dest_run, rd, read_recurring.
    cbn [rc_limit rc_window rc_last rc_cur].
    assert (EW : u64_at (lay_window L) d = u64_at (lay_window L) d0) by (eapply same_terms_u64; eauto).
    assert (EL : u64_at (lay_limit L) d = u64_at (lay_limit L) d0) by (eapply same_terms_u64; eauto).
    pose proof (u64_bound (lay_last L) d G1) as B1. unfold is_u64 in B1.
    rewrite EW, EL. rewrite (Z.mod_small (slot - _)) by lia.
    destruct ((u64_at (lay_window L) d0 <? slot - u64_at (lay_last L) d) && (a <=? u64_at (lay_limit L) d0)) eqn:E1;
      cbn [rc_limit rc_window rc_last rc_cur].
    - destruct (u64_at (lay_limit L) d0 <? a) eqn:E2; [lia|reflexivity].
    - destruct (u64_at (lay_left L) d <? a) eqn:E2; [|reflexivity]. lia.
  Qed.
End RollingBytes.

Lemma replay_good_last {A} (run : A -> Z -> Z -> res A) (good : A -> Prop) (last : A -> Z) s0 s h :
  (forall x r x', good x -> last x <= slot_of r < U64 -> 0 <= amount_of r ->
                  run x (slot_of r) (amount_of r) = Ok x' -> good x' /\ last x' <= slot_of r) ->
  last s <= s0 -> good s -> ordered_from s0 h -> good (fst (replay run s h)).
Proof.
  intros Hr. revert s0 s; induction h as [|r t IH]; intros s0 s H0 Hg Ho; cbn; [exact Hg|].
  destruct Ho as (H1 & H2 & H3).
  destruct (run s (slot_of r) (amount_of r)) as [s'|e|] eqn:E; try (apply (IH (slot_of r)); [lia|exact Hg|exact H3]).
  destruct (Hr s r s' Hg ltac:(lia) H2 E) as [G1 G2].
  specialize (IH (slot_of r) s' G2 G1 H3). destruct (replay run s' t) as [e g]; cbn in *. exact IH.
Qed.

Lemma rolling_gen L e f :
  lay_ok L ->
  (forall d a s, f d a s =
    (let* r := recurring_dest_run e (rd L d) a s in Ok (write_recurring (lay_last L) (lay_left L) r d))) ->
  rolling_windows (fun d s a => f d a s) L.
Proof.
  intros HL Hf d h Hb Hl limit W last left HA Ho d' g.
  set (run := fun d s a => f d a s).
  assert (Hg0 : good_rec L d d).
  { split; [exact Hb|split; [exact Hl|split; [split; [reflexivity|intros; reflexivity]|exact HA]]]. }
  pose proof (u64_bound (lay_window L) d Hb) as B1. pose proof (u64_bound (lay_limit L) d Hb) as B2.
  pose proof (u64_bound (lay_left L) d Hb) as B3. unfold is_u64 in *. fold W in B1. fold limit in B2. fold left in B3.
  pose proof (fun s slot a s' G S A R => roll_step L f e HL Hf d Hb Hl s slot a s' G S A R) as Hstep.
  cbn zeta in Hstep. fold W limit in Hstep.
  destruct (rolling_replay run (good_rec L d) (u64_at (lay_last L)) (u64_at (lay_left L)) limit W
              ltac:(lia) ltac:(lia) Hstep last d h Hg0 HA ltac:(fold left; lia) ltac:(fold last; lia) Ho)
    as (_ & _ & HB & HD & HC).
  assert (Hgd : good_rec L d d').
  { apply (replay_good_last run (good_rec L d) (u64_at (lay_last L)) last d h); [|fold last; lia|exact Hg0|exact Ho].
    intros x r x' G S A R. destruct (Hstep x (slot_of r) (amount_of r) x' G S A R) as (G1 & G2 & G3).
    split; [exact G1|lia]. }
  split; [exact HD|split; [exact HB|split; [exact HC|split; [apply Hgd|]]]].
  intros slot a Ha Hs Hor. exact (roll_grant L f e HL Hf d Hl d' slot a Hgd Ha Hs Hor).
Qed.

(** ** Program scope on bytes *)
Definition scope_write (s : scope) (d : bytes) : bytes :=
  splice 0 (le_enc 16 (sc_spent s)) (set_u64 40 (sc_last s) d).
Lemma scope_write_facts s d :
  all_bytes d -> length d = 144%nat -> is_u64 (sc_last s) -> is_u128 (sc_spent s) ->
  let d' := scope_write s d in
  all_bytes d' /\ length d' = 144%nat /\ u128_at 0 d' = sc_spent s /\ u64_at 40 d' = sc_last s
  /\ u128_at 16 d' = u128_at 16 d /\ u64_at 32 d' = u64_at 32 d /\ u64_at 112 d' = u64_at 112 d
  /\ sub 16 24 d' = sub 16 24 d /\ skipn 48 d' = skipn 48 d.
Proof.
  intros Hb Hl H1 H2 d'. unfold d', scope_write.
  assert (Hl1 : length (set_u64 40 (sc_last s) d) = 144%nat) by (rewrite set_u64_length; lia).
  assert (Hs : forall o n, (16 <= o)%nat -> (o + n <= 144)%nat ->
            sub o n (splice 0 (le_enc 16 (sc_spent s)) (set_u64 40 (sc_last s) d))
            = sub o n (set_u64 40 (sc_last s) d)).
  { intros o n Ho Hn. apply sub_splice_other; rewrite ?le_enc_length; lia. }
  split; [apply all_bytes_splice; [apply le_enc_bytes|apply set_u64_bytes; exact Hb]|].
  split; [rewrite splice_length; [exact Hl1|rewrite le_enc_length; lia]|].
  split; [unfold u128_at; rewrite sub_splice_eq; [apply le16; exact H2|apply le_enc_length|lia]|].
  split; [unfold u64_at at 1; rewrite Hs by lia; apply (u64_set_same 40); [lia|exact H1]|].
  split; [unfold u128_at; rewrite Hs, sub_set_other by lia; reflexivity|].
  split; [unfold u64_at; rewrite Hs, sub_set_other by lia; reflexivity|].
  split; [unfold u64_at; rewrite Hs, sub_set_other by lia; reflexivity|].
  split; [rewrite Hs, sub_set_other by lia; reflexivity|].
  rewrite skipn_splice by (rewrite le_enc_length; lia).
  unfold set_u64. rewrite skipn_splice by (rewrite le_enc_length; lia). reflexivity.
Qed.

Lemma splice_self o n d : (o + n <= length d)%nat -> splice o (sub o n d) d = d.
Proof.
  intros H. unfold splice. rewrite sub_length by exact H. unfold sub.
  rewrite <- skipn_skipn'. rewrite firstn_skipn. apply firstn_skipn.
Qed.
Lemma set_u64_self o d : all_bytes d -> (o + 8 <= length d)%nat -> set_u64 o (u64_at o d) d = d.
Proof.
  intros Hb H. unfold set_u64, u64_at.
  pose proof (le_enc_le (sub o 8 d) (all_bytes_sub _ _ _ Hb)) as E.
  rewrite sub_length in E by exact H. rewrite E. apply splice_self; exact H.
Qed.
Lemma scope_write_self s d : all_bytes d -> length d = 144%nat ->
  sc_last s = u64_at 40 d -> sc_spent s = u128_at 0 d -> scope_write s d = d.
Proof.
  intros Hb Hl E1 E2. unfold scope_write. rewrite E1, E2, set_u64_self by (try exact Hb; lia).
  unfold u128_at. pose proof (le_enc_le (sub 0 16 d) (all_bytes_sub _ _ _ Hb)) as E.
  rewrite sub_length in E by lia. rewrite E. apply splice_self; lia.
Qed.

Lemma scope_ok : scope_spec (fun d s a => scope_bytes d a s).
Proof.
  intros d h Hb Hl Hh spent limit W d' g.
  set (run := fun d s a => scope_bytes d a s).
  pose proof (u128_bound 0 d Hb) as B0. pose proof (u128_bound 16 d Hb) as B1.
  pose proof (u64_bound 32 d Hb) as B2. pose proof (u64_bound 40 d Hb) as B3.
  unfold is_u64, is_u128 in *. fold limit in B1. fold W in B2. fold (spent d) in B0.
  unfold scope_kind.
  split; [|split; [|split]].
  - intros HK.
    assert (Hid : forall s a, run d s a = Ok d).
    { intros s a. unfold run, scope_bytes, scope_run, read_scope. cbn [sc_type]. change U8 with 256. rewrite HK. cbn.
      f_equal. apply (scope_write_self (read_scope d)); auto. }
    clear d' g. change (replay run d h = (d, h)). unfold history in Hh. revert Hh. generalize 0 as s0. induction h as [|r t IH]; intros s0 Hh.
    + reflexivity.
    + cbn [replay]. rewrite Hid. destruct Hh as (_ & _ & Hh). rewrite (IH _ Hh). reflexivity.
  - intros HK HL HS.
    set (good := fun x => all_bytes x /\ length x = 144%nat /\ skipn 16 x = skipn 16 d /\ spent x <= limit).
    assert (Hfld : forall x o n, (16 <= o)%nat -> skipn 16 x = skipn 16 d -> sub o n x = sub o n d).
    { intros x o n Ho He. unfold sub. replace o with (16 + (o - 16))%nat by lia.
      rewrite <- !skipn_skipn', He. reflexivity. }
    assert (Hrun : forall s slot a s', good s -> 0 <= a -> run s slot a = Ok s' ->
              good s' /\ a <= limit - spent s /\ limit - spent s' = limit - spent s - a).
    { intros s slot a s' (G1 & G2 & G3 & G4) Ha Hr. unfold run, scope_bytes in Hr. bind_inv Hr. inv K.
      unfold scope_run, read_scope in B. cbn [sc_type sc_limit sc_spent sc_window sc_last] in B.
      assert (E1 : u64_at 112 s = u64_at 112 d) by (unfold u64_at; rewrite (Hfld s 112%nat 8%nat) by (try lia; exact G3); reflexivity).
      assert (E2 : u128_at 16 s = limit) by (unfold limit, u128_at; rewrite (Hfld s 16%nat 16%nat) by (try lia; exact G3); reflexivity).
      change (256) with U8 in HK. rewrite E1, HK, E2 in B. cbn in B.
      pose proof (u128_bound 0 s G1) as Bs. pose proof (u64_bound 40 s G1) as Bt. unfold is_u128, is_u64 in *.
      destruct (limit <? sat_add U128 (u128_at 0 s) a) eqn:E; [discriminate|]. inv B.
      assert (Hadd : sat_add U128 (u128_at 0 s) a = u128_at 0 s + a) by (unfold sat_add in *; lia).
      rewrite Hadd in *.
      edestruct (scope_write_facts {| sc_type := 1; sc_limit := limit; sc_window := u64_at 32 s;
         sc_last := u64_at 40 s; sc_spent := u128_at 0 s + a |} s G1 G2) as (F1 & F2 & F3 & F4 & F5 & F6 & F7 & F8 & F9);
        try (unfold is_u64, is_u128; cbn; lia).
      unfold scope_write in *. cbn [sc_last sc_spent] in *. unfold good, spent.
      split; [|lia]. repeat split; try assumption; try lia.
      rewrite skipn_splice by (rewrite ?le_enc_length, ?set_u64_length; lia).
      rewrite set_u64_self by (try exact G1; lia). exact G3. }
    assert (G0 : good d) by (repeat split; auto).
    destruct (oneshot_replay run good (fun x => limit - spent x) Hrun 0 d h G0 Hh) as [(G1 & G2 & G3 & G4) HT].
    fold run in d', g. fold d' in G1, G2, G3, G4, HT. fold g in HT.
    split; [lia|split; [exact G4|split; [exact G3|]]].
    intros slot a Ha. unfold scope_bytes, scope_run, read_scope. cbn [sc_type sc_limit sc_spent].
    assert (E1 : u64_at 112 d' = u64_at 112 d) by (unfold u64_at; rewrite (Hfld d' 112%nat 8%nat) by (try lia; exact G3); reflexivity).
    assert (E2 : u128_at 16 d' = limit) by (unfold limit, u128_at; rewrite (Hfld d' 16%nat 16%nat) by (try lia; exact G3); reflexivity).
    change (256) with U8 in HK. rewrite E1, HK, E2. cbn. fold (spent d').
    pose proof (u128_bound 0 d' G1) as Bs. unfold is_u128 in Bs. fold (spent d') in Bs.
    destruct (limit <? sat_add U128 (spent d') a) eqn:E; cbn; symmetry; unfold sat_add in E; lia.
  - intros HK HL HS HW HM.
    set (good := fun x => all_bytes x /\ length x = 144%nat /\ sub 16 24 x = sub 16 24 d
                          /\ skipn 48 x = skipn 48 d /\ spent x <= limit).
    assert (Hf1 : forall x, sub 16 24 x = sub 16 24 d -> u128_at 16 x = limit /\ u64_at 32 x = W).
    { intros x He. unfold limit, W, u128_at, u64_at. split.
      - replace (sub 16 16 x) with (sub 0 16 (sub 16 24 x)) by (rewrite sub_sub by lia; reflexivity).
        rewrite He, sub_sub by lia. reflexivity.
      - replace (sub 32 8 x) with (sub 16 8 (sub 16 24 x)) by (rewrite sub_sub by lia; reflexivity).
        rewrite He, sub_sub by lia. reflexivity. }
    assert (Hf2 : forall x, skipn 48 x = skipn 48 d -> u64_at 112 x = u64_at 112 d).
    { intros x He. unfold u64_at, sub. replace 112%nat with (48 + 64)%nat by lia.
      rewrite <- !skipn_skipn', He. reflexivity. }
    assert (Hrun : forall s slot a s', good s -> 0 <= slot < U64 -> 0 <= a -> run s slot a = Ok s' ->
      good s' /\ 0 <= a /\
      ((slot <= u64_at 40 s + W /\ u64_at 40 s' = u64_at 40 s /\ a <= limit - spent s
        /\ limit - spent s' = limit - spent s - a) \/
       (u64_at 40 s + W < slot /\ u64_at 40 s' = slot / W * W /\ a <= limit
        /\ limit - spent s' = limit - a))).
    { intros s slot a s' (G1 & G2 & G3 & G4 & G5) Hs Ha Hr. unfold run, scope_bytes in Hr. bind_inv Hr. inv K.
      unfold scope_run, read_scope in B. cbn [sc_type sc_limit sc_spent sc_window sc_last] in B.
      destruct (Hf1 s G3) as [E2 E3]. pose proof (Hf2 s G4) as E1.
      change (256) with U8 in HK. rewrite E1, HK, E2, E3 in B. cbn [Z.eqb Pos.eqb] in B.
      pose proof (u128_bound 0 s G1) as Bs. pose proof (u64_bound 40 s G1) as Bt. unfold is_u128, is_u64 in *.
      assert (Hdiv : 0 <= slot / W * W <= slot).
      { pose proof (Z.div_mod slot W ltac:(lia)). pose proof (Z.mod_pos_bound slot W HW).
        pose proof (Z.div_pos slot W ltac:(lia) HW). nia. }
      destruct (W <? sat_sub slot (u64_at 40 s)) eqn:E.
      - replace (negb (W =? 0)) with true in B by lia. cbn in B.
        destruct (limit <? sat_add U128 0 a) eqn:E5; [discriminate|]. inv B.
        rewrite (Z.mod_small (slot / W * W)) by lia.
        assert (Hadd : sat_add U128 0 a = a) by (unfold sat_add in *; lia).
        rewrite Hadd in *.
        edestruct (scope_write_facts {| sc_type := 2; sc_limit := limit; sc_window := W;
          sc_last := slot / W * W; sc_spent := a |} s G1 G2) as (F1 & F2 & F3 & F4 & F5 & F6 & F7 & F8 & F9);
          try (unfold is_u64, is_u128; cbn; lia).
        unfold scope_write in *. cbn [sc_last sc_spent] in *.
        split; [|split; [lia|right; unfold spent; unfold sat_sub in E; lia]].
        unfold good, spent. rewrite F3, F8, F9. repeat split; try assumption; lia.
      - cbn in B.
        destruct (limit <? sat_add U128 (u128_at 0 s) a) eqn:E5; [discriminate|]. inv B.
        assert (Hadd : sat_add U128 (u128_at 0 s) a = u128_at 0 s + a) by (unfold sat_add in *; lia).
        rewrite Hadd in *.
        edestruct (scope_write_facts {| sc_type := 2; sc_limit := limit; sc_window := W;
          sc_last := u64_at 40 s; sc_spent := u128_at 0 s + a |} s G1 G2) as (F1 & F2 & F3 & F4 & F5 & F6 & F7 & F8 & F9);
          try (unfold is_u64, is_u128; cbn; lia).
        unfold scope_write in *. cbn [sc_last sc_spent] in *.
        split; [|split; [lia|left; unfold spent; unfold sat_sub in E; lia]].
        unfold good, spent. rewrite F3, F8, F9. repeat split; try assumption; lia. }
    assert (G0 : good d) by (repeat split; auto).
    assert (Hm : exists m, u64_at 40 d = m * W).
    { exists (u64_at 40 d / W). pose proof (Z.div_mod (u64_at 40 d) W ltac:(cbv beta; lia)). lia. }
    pose proof (aligned_replay run good (u64_at 40) (fun x => limit - spent x) limit W HW Hrun 0 d h
      G0 Hm ltac:(cbv beta; lia) ltac:(cbv beta; lia) ltac:(cbv beta; lia) Hh) as [_ HB].
    pose proof (fun t => aligned_sliding run good (u64_at 40) (fun x => limit - spent x) limit W HW Hrun 0 d h t
      G0 Hm ltac:(cbv beta; lia) ltac:(cbv beta; lia) ltac:(cbv beta; lia) Hh) as HS2.
    assert (Hgd : good d').
    { apply (replay_good run good 0 d h); [|lia|exact G0|exact Hh].
      intros x r x' G S A R. apply (Hrun x (slot_of r) (amount_of r) x' G S A R). }
    split; [exact HB|split; [exact HS2|]]. split; apply Hgd.
  - intros HK.
    assert (Hid : forall s a, is_ok (run d s a) = false).
    { intros s a. unfold run, scope_bytes, scope_run, read_scope. cbn [sc_type].
      change U8 with 256.
      replace (u64_at 112 d mod 256 =? 0) with false by lia.
      replace (u64_at 112 d mod 256 =? 1) with false by lia.
      replace (u64_at 112 d mod 256 =? 2) with false by lia. reflexivity. }
    unfold g. clear d' g Hh. induction h as [|r t IH]; [reflexivity|].
    cbn [replay]. specialize (Hid (slot_of r) (amount_of r)). unfold run in Hid.
    destruct (scope_bytes d (amount_of r) (slot_of r)); [discriminate|exact IH|exact IH].
Qed.

(** ** Instances *)
Definition accepted (ty : Z) (d : bytes) : Prop := validate_layout ty d = Ok true.

Lemma accepted_sol_rec ty d : ty = P_SolRecurringLimit \/ ty = P_StakeRecurringLimit ->
  accepted ty d -> length d = 32%nat /\ u64_at 24 d = u64_at 0 d /\ u64_at 16 d = 0.
Proof.
  intros Hty H. unfold accepted, validate_layout in H.
  replace ((ty =? P_SolRecurringLimit) || (ty =? P_StakeRecurringLimit)) with true in H
    by (destruct Hty as [-> | ->]; reflexivity).
  bind_inv H. inv K. apply andb_prop in H0 as [H0 H3]. apply andb_prop in H0 as [H1 H2].
  apply beq_eq in H1, H2. apply Nat.eqb_eq in H3.
  split; [exact H3|]. unfold u64_at. rewrite H1, H2. split; [reflexivity|apply le_zeros].
Qed.
Lemma accepted_tok_rec d :
  accepted P_TokenRecurringLimit d -> length d = 64%nat /\ u64_at 48 d = u64_at 40 d /\ u64_at 56 d = 0.
Proof.
  intros H. unfold accepted, validate_layout in H. cbn in H.
  bind_inv H. inv K. apply andb_prop in H0 as [H0 H3]. apply andb_prop in H0 as [H1 H2].
  apply beq_eq in H1, H2. apply Nat.eqb_eq in H3.
  split; [exact H3|]. unfold u64_at. rewrite H1, H2. split; [reflexivity|apply le_zeros].
Qed.

Lemma aligned_sol ty : ty = P_SolRecurringLimit \/ ty = P_StakeRecurringLimit ->
  aligned_windows (accepted ty) (fun d s a => sol_recurring_bytes d a s) SolRec.
Proof.
  intros Hty. apply aligned_gen; [unfold lay_ok; cbn; lia|reflexivity|].
  intros d _ H. exact (accepted_sol_rec ty d Hty H).
Qed.
Lemma aligned_tok :
  aligned_windows (accepted P_TokenRecurringLimit) (fun d s a => token_recurring_bytes d a s) TokRec.
Proof.
  apply aligned_gen; [unfold lay_ok; cbn; lia|reflexivity|].
  intros d _ H. exact (accepted_tok_rec d H).
Qed.
Lemma rolling_sol : rolling_windows (fun d s a => sol_rec_dest_bytes d a s) SolRecDest.
Proof. eapply rolling_gen; [unfold lay_ok; cbn; lia|reflexivity]. Qed.
Lemma rolling_tok : rolling_windows (fun d s a => token_rec_dest_bytes d a s) TokRecDest.
Proof. eapply rolling_gen; [unfold lay_ok; cbn; lia|reflexivity]. Qed.

(** Zero window: accepted by validation, then any affordable charge aborts *)
Lemma zero_window_sol d slot a : all_bytes d -> accepted P_SolRecurringLimit d ->
  u64_at 8 d = 0 -> 0 < slot -> a <= u64_at 0 d -> sol_recurring_bytes d a slot = Panic.
Proof.
  intros Hb H HW Hs Ha. destruct (accepted_sol_rec _ d (or_introl eq_refl) H) as (H1 & H2 & H3).
  unfold sol_recurring_bytes, recurring_run, read_recurring. cbn [rc_limit rc_window rc_last rc_cur].
  rewrite HW, H3. unfold sat_sub. replace (0 <? Z.max 0 (slot - 0)) with true by lia.
  replace (a <=? u64_at 0 d) with true by lia. reflexivity.
Qed.

Lemma future_gen L e f :
  lay_ok L ->
  (forall d a s, f d a s =
    (let* r := recurring_dest_run e (rd L d) a s in Ok (write_recurring (lay_last L) (lay_left L) r d))) ->
  future_refresh (fun d s a => f d a s) L.
Proof.
  intros HL Hf d slot a Hb Hl Hs HW Ha. rewrite Hf.
  unfold recurring_dest_run, rd, read_recurring. cbn [rc_limit rc_window rc_last rc_cur].
  pose proof (u64_bound (lay_last L) d Hb). pose proof (u64_bound (lay_limit L) d Hb). unfold is_u64 in *.
  replace ((slot - u64_at (lay_last L) d) mod U64) with (slot - u64_at (lay_last L) d + U64)
    by (rewrite <- (Z.mod_small (slot - u64_at (lay_last L) d + U64) U64) by lia;
        rewrite <- (Z.mul_1_l U64) at 1; rewrite Z.mod_add by discriminate; reflexivity).
  replace (u64_at (lay_window L) d <? slot - u64_at (lay_last L) d + U64) with true by lia.
  replace (a <=? u64_at (lay_limit L) d) with true by lia. cbn [andb rc_limit rc_window rc_last rc_cur].
  replace (u64_at (lay_limit L) d <? a) with false by lia. cbn [bind].
  rewrite Z.mod_small by lia.
  edestruct (write_recurring_facts L {| rc_limit := u64_at (lay_limit L) d; rc_window := u64_at (lay_window L) d;
     rc_last := slot; rc_cur := u64_at (lay_limit L) d - a |} d HL Hb Hl) as (F1 & F2 & F3 & F4 & F5 & F6 & F7);
     try (unfold is_u64; cbn; lia).
  eexists. split; [reflexivity|]. split; [exact F5|exact F6].
Qed.
Lemma future_sol : future_refresh (fun d s a => sol_rec_dest_bytes d a s) SolRecDest.
Proof. eapply future_gen; [unfold lay_ok; cbn; lia|reflexivity]. Qed.
Lemma future_tok : future_refresh (fun d s a => token_rec_dest_bytes d a s) TokRecDest.
Proof. eapply future_gen; [unfold lay_ok; cbn; lia|reflexivity]. Qed.
