(** * Properties of histories: proofs *)
From Verif Require Import BaseFacts SpecConfig ConfigFacts ConfigEdit ConfigEdit2 ConfigEdit3 NewCredential.
From Verif Require Export ConfigProps.

Lemma ids_on_role i f s : (forall r, r_id (f r) = r_id r) -> ids (on_role i f s) = ids s.
Proof.
  intros Hf. unfold ids, on_role. cbn [s_roles with_roles]. rewrite map_map. apply map_ext. intros r.
  destruct (r_id r =? i); [apply Hf|reflexivity].
Qed.
Lemma counter_on_role i f s : s_counter (on_role i f s) = s_counter s.
Proof. reflexivity. Qed.
Lemma ids_used i s : ids (used i s) = ids s.
Proof. apply ids_on_role. exact after_use_id. Qed.
Lemma ids_acted E cx s r s1 : acted E cx s r s1 -> ids s1 = ids s /\ s_counter s1 = s_counter s.
Proof. intros (_ & a & _ & ->). split; [apply ids_on_role|]; reflexivity. Qed.

Lemma step_ids E cx k w s s' : config_step E cx k w s s' ->
  s_counter s <= s_counter s' /\ (forall i, In i (ids s') -> In i (ids s) \/ s_counter s <= i) /\ (In 0 (ids s) -> In 0 (ids s')).
Proof.
  intros H. destruct H as [r s1 s' _ A Ed|r a a' _ _ _ _ _ _|r s0 l _ _ _ _ _].
  - destruct (ids_acted _ _ _ _ _ A) as [I C].
    assert (Same : forall x, ids x = ids s1 -> s_counter x = s_counter s1 ->
      s_counter s <= s_counter x /\ (forall i, In i (ids x) -> In i (ids s) \/ s_counter s <= i) /\ (In 0 (ids s) -> In 0 (ids x))).
    { intros x Hi Hc. rewrite Hi, Hc, I, C. split; [lia|]. split; [auto|auto]. }
    destruct Ed; try (apply Same; [first [reflexivity|apply ids_on_role; reflexivity]|reflexivity]).
    + unfold ids. cbn [s_counter s_roles add_to]. rewrite map_app. fold (ids s1). rewrite I, C. cbn [map].
      split; [lia|]. split; [|intros; apply in_or_app; auto]. intros i Hi. apply in_app_or in Hi as [Hi|[<-|[]]]; [left; exact Hi|right].
      match goal with H : r_id nr = _ |- _ => rewrite H end. lia.
    + unfold drop_role. cbn [s_counter with_roles]. rewrite C. split; [lia|].
      assert (Q : forall i, In i (ids (with_roles s1 (filter (fun r0 => negb (r_id r0 =? target)) (s_roles s1)))) <-> In i (ids s) /\ i <> target).
      { intros i. rewrite <- I. unfold ids. cbn [s_roles with_roles]. rewrite !in_map_iff. split.
        - intros (x & <- & Hx). apply filter_In in Hx as [Hx N]. apply negb_true_iff, Z.eqb_neq in N. split; [exists x; auto|exact N].
        - intros [(x & <- & Hx) N]. exists x. split; [reflexivity|]. apply filter_In. split; [exact Hx|]. apply negb_true_iff, Z.eqb_neq. exact N. }
      split; [intros i Hi; apply Q in Hi; tauto|]. intros Z0. apply Q. split; [exact Z0|]. auto.
    + cbv zeta. destruct (has P_SubAccountV2All _ _); apply Same; try reflexivity. etransitivity; [apply ids_on_role|]; reflexivity.
  - split; [reflexivity|]. rewrite ids_on_role by reflexivity. auto.
  - split; [reflexivity|]. rewrite ids_on_role by reflexivity. auto.
Qed.

Definition id_order (s s' : config) : Prop :=
  s_counter s <= s_counter s' /\ forall i, In i (ids s') -> In i (ids s) \/ s_counter s <= i.
Lemma id_order_trans a b c : id_order a b -> id_order b c -> id_order a c.
Proof.
  intros [H1 H2] [H3 H4]. split; [lia|]. intros i Hi. destruct (H4 i Hi) as [Hb|Hb]; [apply H2; exact Hb|right; lia].
Qed.

Section H.
Variables (E : env) (F : foreign_ok E).
(** ids that have left never come back *)
Lemma history_ids w w' k s s' : good_world E w -> reach E w w' -> is_cfg (w k) s -> is_cfg (w' k) s' -> id_order s s'.
Proof.
  intros G R C C'. destruct (reach_path E w w' F G R k) as [_ P]. destruct (P s C) as [Cl|(s2 & ts & C2 & Pa)].
  - exfalso. destruct Cl as [_ Cl], C' as (_ & C' & _). rewrite Cl in C'. apply (f_equal (byte_at 0)) in C'.
    rewrite enc_config_byte in C'. discriminate C'.
  - rewrite (is_cfg_inj _ _ _ C' C2). eapply (path_rel E k id_order (fun _ => True)); [| | |exact Pa|].
    + intros x. split; [lia|auto].
    + exact id_order_trans.
    + intros cx wa x y _ _ St _. apply step_ids in St as (S1 & S2 & _). split; assumption.
    + apply Forall_forall. auto.
Qed.
Lemma root_stays w w' : fresh w -> reach E w w' -> forall k s, is_cfg (w' k) s -> In 0 (ids s).
Proof.
  intros Fr R. apply (reach_inv E (fun _ s => In 0 (ids s)) w w' F Fr); [| |exact R].
  - intros cx k wa s s' _ _ I St. apply step_ids in St as (_ & _ & S3). auto.
  - intros k bump id wb nr c Z0 _ _ _ _. cbn. auto.
Qed.
End H.

(** ** Nothing changes without somebody acting *)
Lemma edit_tag E cx k w s r s1 s' : edit E cx k w s r s1 s' -> tag (c_data cx) <> 5.
Proof.
  intros Ed. destruct Ed; try (rewrite ?H; try lia; congruence).
  match goal with H : In _ _ |- _ => cbn in H; lia end.
Qed.
Lemma first_change E cx n w w' k s : trace E cx n w w' -> is_cfg (w k) s -> a_data (w' k) <> a_data (w k) ->
  exists cx1 w1 w2, (cx1 = cx \/ nested E cx cx1) /\ is_cfg (w1 k) s /\ change E cx1 k w1 w2 /\ a_data (w2 k) <> a_data (w1 k).
Proof.
  intros T C. induction T as [w|n w w1 w2 T IH Ch|n w w1 w2 cx' T IH N Ch]; intros D; [congruence| |].
  - destruct (bytes_dec (a_data (w1 k)) (a_data (w k))) as [e|e]; [|apply IH; assumption].
    exists cx, w1, w2. split; [auto|]. split; [|split; [apply Ch|congruence]].
    destruct C as (C1 & C2 & C3). split; [eapply trace_self; eassumption|]. split; [congruence|exact C3].
  - destruct (bytes_dec (a_data (w1 k)) (a_data (w k))) as [e|e]; [|apply IH; assumption].
    exists cx', w1, w2. split; [auto|]. split; [|split; [apply Ch|congruence]].
    destruct C as (C1 & C2 & C3). split; [eapply trace_self; eassumption|]. split; [congruence|exact C3].
Qed.
Lemma step_acts E cx k w s s' : hashes_ok E -> wf_ctx cx -> wf_config s -> config_step E cx k w s s' ->
  k = acct cx 0 /\ ((exists r, acts E cx s r) \/ (tag (c_data cx) = 11 /\ c_height cx = 1%nat)).
Proof.
  intros He Hc W H. destruct H as [r s1 s' K A Ed|r a a' K T5 Fr _ Au _|r s0 l K T11 Hh _ _]; (split; [exact K|]).
  - left. exists r. eapply acted_acts; try eassumption. eapply edit_tag; exact Ed.
  - left. exists r. unfold acts. cbv zeta. rewrite T5. cbn [Z.eqb Pos.eqb]. split; [exact Fr|]. exists a.
    apply authenticate_ok; [exact He| |apply payload_bytes; apply Hc|exact Au]. apply (wf_find _ _ _ W Fr).
  - right. auto.
Qed.
Lemma change_acts E cx k w w' s : hashes_ok E -> wf_ctx cx -> is_cfg (w k) s -> change E cx k w w' -> a_data (w' k) <> a_data (w k) ->
  k = acct cx 0 /\ ((exists r, acts E cx s r) \/ (tag (c_data cx) = 11 /\ c_height cx = 1%nat)).
Proof.
  intros He Hc C Ch D. pose proof C as (Co & Cd & Cw).
  destruct Ch as [[Q _]|s0 s' C0 St _|nr id bump wbump s' _ _ O _ _ _ _ _ _ _ _ _
                 |swig s0 s' bump abump sa _ _ _ _ _ _ _ O _ _ _ _ _ _ _ _
                 |swig s0 r s1 en _ _ _ _ _ rd _ _ _ _ B _ _ _ _ _|s0 r s1 C0 K T A _ _ _ _|O _].
  - congruence.
  - rewrite <- (is_cfg_inj _ _ _ C C0) in St. eapply step_acts; eassumption.
  - rewrite Co in O. discriminate O.
  - rewrite Co in O. discriminate O.
  - unfold rd in B. rewrite Cd, enc_config_byte in B. discriminate B.
  - rewrite <- (is_cfg_inj _ _ _ C C0) in A. split; [exact K|]. left. exists r. eapply acted_acts; try eassumption. rewrite T. discriminate.
  - congruence.
Qed.
Lemma change_needs_actor E cx w w' k s : foreign_ok E -> hashes_ok E -> good_world E w -> admissible E w (Call cx) ->
  succeeds E cx w w' -> is_cfg (w k) s -> a_data (w' k) <> a_data (w k) ->
  exists cx1 r, (cx1 = cx \/ nested E cx cx1) /\ k = acct cx1 0 /\ acts E cx1 s r.
Proof.
  intros F He G (Hc & Hf & R & Nc) H C D.
  destruct (process_trace E cx w w' Hc Hf G F R H) as [(n & _ & T)|Cl]; [|contradiction].
  destruct (first_change _ _ _ _ _ _ _ T C D) as (cx1 & w1 & w2 & Hx & C1 & Ch & D1).
  assert (Hc1 : wf_ctx cx1) by (destruct Hx as [->|N]; [exact Hc|apply N]).
  destruct (change_acts _ _ _ _ _ _ He Hc1 C1 Ch D1) as [K [(r & A)|(T11 & Hh)]].
  - exists cx1, r. auto.
  - destruct Hx as [->|N].
    + subst k. assert (R1 : room 1 s). { destruct (R _ _ C). split; lia. }
      destruct (process_acts E cx w w' s He Hc C R1 H) as (r & A).
      * unfold auth_layout. rewrite T11. discriminate.
      * exists cx, r. auto.
    + destruct N as (_ & _ & _ & _ & N & _). congruence.
Qed.

(** ** What accounts of the wallet program contain *)
Lemma reachable_config E w w' k : foreign_ok E -> fresh w -> reach E w w' -> a_owner (w' k) = SELF -> nth 0 (a_data (w' k)) 0 = 1 ->
  exists s, a_data (w' k) = enc_config s /\ wf_config s
    /\ forall s2, a_data (w' k) = enc_config s2 -> wf_config s2 -> s2 = s.
Proof.
  intros F Fr R O B. pose proof (reach_good E w w' F (fresh_good E w Fr) R k O) as G.
  change (nth 0 (a_data (w' k)) 0) with (byte_at 0 (a_data (w' k))) in B.
  destruct G as [(n & Z)|[(s & D & W)|[Rc|Cl]]].
  - rewrite Z, zeros_byte in B. discriminate B.
  - exists s. split; [exact D|]. split; [exact W|]. intros s2 D2 W2. apply enc_config_inj; congruence.
  - destruct Rc as (bump & abump & en & id & sid & sa & D & _). rewrite D in B. discriminate B.
  - rewrite Cl in B. discriminate B.
Qed.

(** A successful instruction other than creation and migration works on a
    well-formed configuration *)
Lemma operates E cx w w' : good_world E w -> succeeds E cx w w' -> auth_layout (c_data cx) <> None -> tag (c_data cx) <> 12 ->
  exists s, is_cfg (w (acct cx 0)) s.
Proof.
  intros G H L N12.
  assert (T : In (tag (c_data cx)) [1;2;3;5;6;7;9;10;11;12;13;14;15;16;17;18;19;20;21]).
  { unfold auth_layout in L. cbv zeta in L.
    repeat match type of L with (if ?b then _ else _) <> _ => let e := fresh in destruct b eqn:e;
      [apply Z.eqb_eq in e; rewrite e; cbn; tauto|] end. congruence. }
  cbn in T. unfold acct.
  repeat destruct T as [T|T]; try contradiction; symmetry in T; try contradiction; pose proof H as P; by_tag P T.
  - eapply cfg_add; eassumption.
  - eapply cfg_remove; eassumption.
  - eapply cfg_update; eassumption.
  - eapply cfg_session; eassumption.
  - eapply cfg_sub1; eassumption.
  - eapply cfg_wd1; eassumption.
  - unfold sub_account_sign_v1 in P. has_cfg E G P.
  - eapply cfg_tog1; eassumption.
  - pose proof (classify_all_ok _ _ _ Hcs) as (_ & _ & S3).
    apply (is_config_good E); [exact G|]. apply S3. unfold sign_v2 in P. cbv zeta in P. peel P. assumption.
  - eapply cfg_xfer; eassumption.
  - eapply cfg_ctok; eassumption.
  - eapply cfg_close; eassumption.
  - eapply cfg_replace; eassumption.
  - eapply cfg_claimer; eassumption.
  - eapply cfg_sub2; eassumption.
  - eapply cfg_tog2; eassumption.
  - unfold sub_account_sign_v2 in P. has_cfg E G P.
  - eapply cfg_wd2; eassumption.
Qed.

Lemma role_permissions s r a : wf_config s -> In r (s_roles s) ->
  (1 <= length (r_acts r) <= 255)%nat
  /\ In (r_aty r, Z.of_nat (length (r_auth r))) credentials
  /\ (In a (r_acts r) -> In (ac_ty a, Z.of_nat (length (ac_data a))) kinds)
  /\ NoDup (v2_scopes (r_acts r)).
Proof.
  intros (_ & _ & _ & _ & _ & _ & _ & F & _) I. rewrite Forall_forall in F. destruct (F r I) as (_ & A & _ & _ & _ & L & Fa & N).
  split; [exact L|]. split; [apply credentials_ok; exact A|]. split; [|exact N].
  intros Ia. apply kinds_ok. rewrite Forall_forall in Fa. apply (Fa a Ia).
Qed.
Lemma reachable_permissions E w w' k : foreign_ok E -> fresh w -> reach E w w' -> a_owner (w' k) = SELF -> nth 0 (a_data (w' k)) 0 = 1 ->
  exists s, a_data (w' k) = enc_config s /\ forall r, In r (s_roles s) ->
    (1 <= length (r_acts r) <= 255)%nat
    /\ In (r_aty r, Z.of_nat (length (r_auth r))) credentials
    /\ (forall a, In a (r_acts r) -> In (ac_ty a, Z.of_nat (length (ac_data a))) kinds)
    /\ NoDup (v2_scopes (r_acts r)).
Proof.
  intros F Fr R O B. destruct (reachable_config E w w' k F Fr R O B) as (s & D & W & _). exists s. split; [exact D|].
  intros r I. destruct (role_permissions s r (mk_action 0 []) W I) as (H1 & H2 & _ & H4).
  split; [exact H1|]. split; [exact H2|]. split; [|exact H4]. intros a. apply (role_permissions s r a W I).
Qed.
