(** * The SDK's answers about a wallet *)
From Verif Require Import BaseFacts ConfigFacts ConfigEdit ConfigEdit2 AuthFacts AuthProps2 NewCredential ClientAuth Avail2.
From Verif Require Export SdkProps.

Lemma first_held ty (l : list action) : (exists a, In a l /\ ac_ty a = ty) -> exists a, in_use l a /\ ac_ty a = ty.
Proof.
  intros (a & I & T). destruct (find (fun b => ac_ty b =? ty) l) as [b|] eqn:F.
  - pose proof (find_some _ _ F) as [_ Tb]. exists b. split; [|lia].
    destruct (find_cut _ _ _ F) as (l1 & l2 & -> & N). exists l1, l2. split; [reflexivity|]. intros _ c Ic Tc.
    pose proof (N c Ic). cbn beta in *. lia.
  - exfalso. pose proof (find_none _ _ F a I). cbn beta in *. lia.
Qed.
Lemma in_use_in l a : in_use l a -> In a l.
Proof. intros (l1 & l2 & -> & _). apply in_elt. Qed.
Lemma empty_one ty a : wf_action a -> ac_ty a = ty -> action_len ty = Some O -> a = mk_action ty [].
Proof.
  intros [L _] T Z. rewrite T, Z in L. injection L as L. symmetry in L. apply length_zero_iff_nil in L.
  destruct a as [t d]. cbn in *. subst. reflexivity.
Qed.
Section Ask.
Variables (a : account) (s : config) (i : Z) (r : role) (l : list grant).
Hypothesis (C : is_cfg a s) (F : find_role i s = Some r) (G : get_role_permissions (a_data a) i = Ok l).
Lemma ask_true g : In g l -> exists p, in_use (r_acts r) p /\ tells p g.
Proof. destruct (report_fair a s i r C F) as (l' & G' & A & _). rewrite G in G'. injection G' as <-. apply A. Qed.
Lemma ask_all p g : in_use (r_acts r) p -> tells p g -> ~ left_out g -> In g l.
Proof. destruct (report_fair a s i r C F) as (l' & G' & _ & B). rewrite G in G'. injection G' as <-. apply B. Qed.
Lemma ask_wf p : in_use (r_acts r) p -> wf_action p.
Proof.
  intros U. destruct C as (_ & _ & W). pose proof (find_role_wf i s r W F) as (R & _).
  destruct R as (_ & _ & _ & _ & _ & _ & R & _). eapply Forall_forall; [exact R|]. apply in_use_in. exact U.
Qed.
Lemma says_all : has_all_permissions l = true <-> holds 7 r.
Proof.
  unfold has_all_permissions. split.
  - intros H. apply existsb_exists in H as (g & I & Q). destruct g; try discriminate. destruct (ask_true _ I) as (p & U & T).
    exists p. split; [apply in_use_in; exact U|]. inversion T. reflexivity.
  - intros H. apply first_held in H as (p & U & T). apply existsb_exists. exists GAll. split; [|reflexivity].
    apply (ask_all p); [exact U| |exact (fun x => x)]. rewrite (empty_one 7 p (ask_wf p U) T eq_refl). constructor.
Qed.
Lemma says_manage : can_manage_authority l = true <-> holds 8 r.
Proof.
  unfold can_manage_authority. split.
  - intros H. apply existsb_exists in H as (g & I & Q). destruct g; try discriminate. destruct (ask_true _ I) as (p & U & T).
    exists p. split; [apply in_use_in; exact U|]. inversion T. reflexivity.
  - intros H. apply first_held in H as (p & U & T). apply existsb_exists. exists GManage. split; [|reflexivity].
    apply (ask_all p); [exact U| |exact (fun x => x)]. rewrite (empty_one 8 p (ask_wf p U) T eq_refl). constructor.
Qed.
Lemma says_spend n : can_spend_sol l n = true <->
  holds 7 r \/ exists p lim q, in_use (r_acts r) p /\ tells p (GSol lim q)
    /\ (n <= lim \/ exists x, q = Some x /\ n <= rn_left x).
Proof.
  unfold can_spend_sol. rewrite orb_true_iff, says_all. split; (intros [H|H]; [left; exact H|right]).
  - apply existsb_exists in H as (g & I & Q). destruct g as [| | | | |lim q| | | | | | | | | | | | | | ]; try discriminate.
    destruct (ask_true _ I) as (p & U & T). exists p, lim, q. split; [exact U|]. split; [exact T|].
    apply orb_true_iff in Q as [Q|Q]; [left; lia|right]. destruct q as [x|]; [|discriminate]. exists x. split; [reflexivity|lia].
  - destruct H as (p & lim & q & U & T & N). apply existsb_exists. exists (GSol lim q).
    split; [apply (ask_all p); [exact U|exact T|exact (fun x => x)]|]. apply orb_true_iff.
    destruct N as [N|(x & -> & N)]; [left; lia|right; lia].
Qed.
End Ask.
Lemma count_says a s : is_cfg a s -> get_role_count (a_data a) = Ok (s_counter s).
Proof.
  intros (_ & -> & W). unfold get_role_count. rewrite (read_open_enc s W). cbn [bind]. rewrite (counter_enc s W). reflexivity.
Qed.
Lemma subs_says a s : is_cfg a s -> get_sub_account_v2_counter (a_data a) = Ok (s_subctr s).
Proof.
  intros (_ & -> & W). unfold get_sub_account_v2_counter. rewrite (read_open_enc s W). cbn [bind]. rewrite (subctr_enc s W). reflexivity.
Qed.

(** ** Looking a role up *)
Lemma beq_iff a b : beq a b = true <-> a = b.
Proof. split; [apply beq_eq|intros ->; apply beq_refl]. Qed.
Lemma key33_shape q : (length q = 33 \/ length q = 64)%nat -> key33 q = if (length q =? 33)%nat then q else compress q.
Proof. intros [L|L]; unfold key33; rewrite L; reflexivity. Qed.
Lemma cut33 (a b : bytes) : (33 <= length a)%nat -> (33 <= length b)%nat ->
  firstn 33 a = firstn 33 b <-> firstn 32 a = firstn 32 b /\ nth 32 a 0 = nth 32 b 0.
Proof.
  intros La Lb. assert (X : forall c : bytes, (33 <= length c)%nat -> firstn 33 c = firstn 32 c ++ [nth 32 c 0]).
  { intros c Lc. replace 33%nat with (32 + 1)%nat by lia. rewrite firstn_plus. f_equal.
    destruct (skipn 32 c) as [|x t] eqn:Q; [apply (f_equal (@length Z)) in Q; rewrite skipn_length in Q; cbn in Q; lia|].
    cbn. f_equal. rewrite <- (firstn_skipn 32 c), Q, app_nth2; rewrite firstn_length; [|lia]. replace (_ - _)%nat with O by lia. reflexivity. }
  rewrite !X by assumption. split.
  - intros H. apply app_inj_tail in H. exact H.
  - intros [-> ->]. reflexivity.
Qed.
Lemma match_named q r : wf_role r ->
  ((32 <=? length q)%nat && match_data (r_aty r) (r_auth r) q = true <-> named_by q r).
Proof.
  intros (_ & L & _). rewrite andb_true_iff, Nat.leb_le. unfold named_by. cbv zeta.
  assert (T : 1 <= r_aty r <= 8).
  { clear - L. revert L. generalize (r_aty r) (length (r_auth r)). intros ty n L. unfold authority_len in L.
    repeat match type of L with (if ?b then _ else _) = _ => let e := fresh in destruct b eqn:e; [apply Z.eqb_eq in e; vm_compute in e; lia|] end. discriminate. }
  revert L. generalize (r_auth r) as c. intros c.
  assert (D : r_aty r = 1 \/ r_aty r = 2 \/ r_aty r = 3 \/ r_aty r = 4 \/ r_aty r = 5 \/ r_aty r = 6 \/ r_aty r = 7 \/ r_aty r = 8) by lia.
  unfold match_data, nat_of, byte_at. repeat destruct D as [D|D]; rewrite D; cbn [Z.eqb Pos.eqb orb]; intros L.
  1-2: rewrite beq_iff; change (sub 0 32 c) with (firstn 32 c); change (sub 0 32 q) with (firstn 32 q); intuition congruence.
  1-2: change (sub 0 33 c) with (firstn 33 c);
       destruct (length q =? 33)%nat eqn:L1; [|destruct (length q =? 64)%nat eqn:L2];
       [rewrite beq_iff; split; [intros [A B]; split; [lia|rewrite key33_shape, L1 by lia; congruence]|intros [A B]; rewrite key33_shape, L1 in B by lia; split; [lia|congruence]]
       |rewrite beq_iff; split; [intros [A B]; split; [lia|rewrite key33_shape, L1 by lia; congruence]|intros [A B]; rewrite key33_shape, L1 in B by lia; split; [lia|congruence]]
       |split; [intros [_ X]; discriminate|intros [A _]; lia]].
  1-2: rewrite andb_true_iff, beq_iff, Nat.eqb_eq; change (sub 0 33 c) with (firstn 33 c); split; [intros (A & B & Q); auto|intros [A B]; split; [lia|auto]].
  - rewrite !andb_true_iff, !beq_iff, Nat.eqb_eq. change (sub 0 32 c) with (firstn 32 c); change (sub 0 32 q) with (firstn 32 q). split; intros H; [|split; [lia|]]; intuition congruence.
  - rewrite !andb_true_iff, !beq_iff, !Nat.eqb_eq, Nat.leb_le, Z.eqb_eq. change (sub 0 32 c) with (firstn 32 c); change (sub 0 32 q) with (firstn 32 q).
    assert (Lc : length c = 128%nat) by (change (Some 128%nat = Some (length c)) in L; congruence).
    split.
    + intros (A & ((((B1 & B2) & B3) & B4) & B5)). split; [exact B3|]. split; [apply cut33; [exact B1|lia|]; split; congruence|congruence].
    + intros (A & B & Q). assert (A' : (33 <= length q)%nat) by lia. apply cut33 in B as [B1 B2]; [|exact A'|lia].
      repeat split; try lia; congruence.
Qed.
Lemma looked_up a s q : is_cfg a s -> exists o, lookup_role_id (a_data a) q = Ok o
  /\ match o with
     | Some i => exists l1 r l2, s_roles s = l1 ++ r :: l2 /\ r_id r = i /\ named_by q r /\ forall r', In r' l1 -> ~ named_by q r'
     | None => forall r, In r (s_roles s) -> ~ named_by q r
     end.
Proof.
  intros (_ & -> & W). rewrite (lookup_enc s W q). eexists. split; [reflexivity|].
  pose proof (roles_wf s W) as R. rewrite Forall_forall in R.
  destruct (find _ (s_roles s)) as [r|] eqn:F; cbn [option_map].
  - pose proof (find_some _ _ F) as [I M]. destruct (find_cut _ _ _ F) as (l1 & l2 & E & N).
    exists l1, r, l2. split; [exact E|]. split; [reflexivity|]. split; [apply match_named; [apply R; exact I|exact M]|].
    intros r' I' H. apply match_named in H; [|apply R; rewrite E; apply in_or_app; left; exact I'].
    pose proof (N r' I') as X. cbn beta in X. congruence.
  - intros r I H. apply match_named in H; [|apply R; exact I]. pose proof (find_none _ _ F r I) as X. cbn beta in X. congruence.
Qed.
Lemma looked_role a s q i : is_cfg a s -> lookup_role_id (a_data a) q = Ok (Some i) ->
  exists r, find_role i s = Some r /\ named_by q r.
Proof.
  intros C H. destruct (looked_up a s q C) as (o & H' & Q). rewrite H in H'. injection H' as <-.
  destruct Q as (l1 & r & l2 & E & <- & N & _). exists r. split; [|exact N].
  apply find_role_mine; [apply C|]. rewrite E. apply in_elt.
Qed.
Lemma counter_says ty a s q n : is_cfg a s -> signature_counter ty (a_data a) q = Ok n ->
  exists i r, lookup_role_id (a_data a) q = Ok (Some i) /\ find_role i s = Some r /\ named_by q r /\ r_aty r = ty /\ n = cred_counter (r_auth r).
Proof.
  intros C H. unfold signature_counter in H. apply bind_ok in H as (o & L & H). destruct o as [i|]; [|discriminate].
  destruct (looked_role a s q i C L) as (r & F & N). destruct C as (_ & E & W). rewrite E in H.
  destruct (with_role_some s W i r (fun v => if rv_ty v =? ty then Ok (u32_at 36 (rv_auth v)) else Err SInvalidAuthorityType) F) as (o & Q).
  rewrite Q in H. cbn [view_of rv_ty rv_auth] in H. destruct (r_aty r =? ty) eqn:T; [|discriminate]. injection H as <-.
  exists i, r. repeat split; try assumption. lia.
Qed.
(** a client with the counter it has just read is accepted *)
Lemma fresh_client E swig rid sign slot q n o ks x cx a s r : is_cfg a s -> signature_counter 3 (a_data a) q = Ok n ->
  lookup_role_id (a_data a) q = Ok (Some rid) -> find_role rid s = Some r ->
  in_range o -> starts_session o = false -> built_k1 swig rid E sign slot (next_odometer n) o ks x ->
  sent_exactly cx x -> (length (ix_metas x) <= 64)%nat ->
  (forall m, k1_signs E (cred_key (r_auth r)) (keccak E m) (sign (keccak E m))) ->
  is_u64 slot -> in_time (c_slot cx) slot -> passes E cx r (count_up (r_auth r)).
Proof.
  intros C Q L F G O B Sx Le K U It. destruct (counter_says 3 a s q n C Q) as (i & r' & L' & F' & _ & T & ->).
  rewrite L in L'. injection L' as <-. rewrite F in F'. injection F' as <-.
  assert (R : is_u32 rid).
  { destruct C as (_ & _ & W). pose proof (find_role_wf rid s r W F) as ((R & _) & _ & <-). exact R. }
  eapply passes_k1; try eassumption. left. exact T.
Qed.

(** ** Which keys sign *)
Definition admin_order (o : order) : Prop :=
  match o with AddRole _ _ _ | RemoveRole _ | OpenSession _ _ | NameClaimer _ => True | _ => False end.
Lemma must_sign swig rid auth o ks x : built_ed swig rid auth o ks x -> admin_order o ->
  exists m, In m (ix_metas x) /\ m_key m = auth /\ m_signer m = true.
Proof.
  intros H O. destruct H; try (destruct O); try (exists (ros auth); split; [cbn; tauto|split; reflexivity]).
Qed.
Lemma fee_payer_only swig rid auth o ks x fee kp : built_ed swig rid auth o ks x -> admin_order o ->
  can_sign (signing_keys o fee kp) fee [x] = true -> auth = fee.
Proof.
  intros H O S. destruct (must_sign _ _ _ _ _ _ H O) as (m & I & K & Sg).
  assert (Q : signing_keys o fee kp = [fee]) by (destruct o; try destruct O; reflexivity). rewrite Q in S.
  unfold can_sign in S. apply andb_prop in S as [S _]. rewrite forallb_forall in S.
  assert (X : In auth (fee :: flat_map (fun x => map m_key (filter m_signer (ix_metas x))) [x])).
  { right. cbn [flat_map]. rewrite app_nil_r. apply in_map_iff. exists m. split; [exact K|]. apply filter_In. auto. }
  apply S in X. cbn in X. rewrite orb_false_r in X. apply beq_eq in X. exact X.
Qed.
