(** * Allowances along a history.  Proofs *)
From Verif Require Import BaseFacts SpecConfig ConfigFacts ConfigEdit ConfigEdit2 ConfigEdit3 LimitsFacts.
From Verif Require Import ConfigProps HistoryProps Creds LifeProps AuthProps Ledger SignProps Actors.
From Verif Require Export SpecBudget.

(** ** What a limit can still give until slot [M] *)
Section Until.
Variable M : Z.
Definition counted (ty : Z) : bool := existsb (Z.eqb ty) [1; 10; 5; 16; 18; 2; 11; 6].
Definition pot (ty : Z) (p : bytes) : Z :=
  match ty with
  | 1 | 10 => u64_at 0 p | 5 | 16 => u64_at 32 p | 18 => u64_at 64 p
  | 2 | 11 => until M SolRec p | 6 => until M TokRec p | _ => 0
  end.
Definition wnd (ty : Z) (p : bytes) : Z :=
  match ty with 2 | 11 => u64_at 8 p | 6 => u64_at 32 p | _ => 1 end.
Definition about (ty : Z) (p : bytes) : bytes := target_of (mk_action ty p).
Lemma about_act a : target_of a = about (ac_ty a) (ac_data a).
Proof. destruct a. reflexivity. Qed.

Definition lower_act (a a' : action) : Prop :=
  ac_ty a' = ac_ty a /\ (counted (ac_ty a) = true ->
    target_of a' = target_of a /\ wnd (ac_ty a) (ac_data a') = wnd (ac_ty a) (ac_data a)
    /\ (0 < wnd (ac_ty a) (ac_data a) -> pot (ac_ty a) (ac_data a') <= pot (ac_ty a) (ac_data a))).
Definition lower (l l' : list action) : Prop :=
  exists l0 t, l' = l0 ++ t /\ Forall2 lower_act l l0 /\ Forall (fun a => ac_ty a = 23) t.

Lemma lower_act_refl a : lower_act a a.
Proof. split; [reflexivity|]. intros _. split; [reflexivity|]. split; [reflexivity|lia]. Qed.
Lemma lower_act_trans a b c : lower_act a b -> lower_act b c -> lower_act a c.
Proof.
  intros (T1 & H1) (T2 & H2). split; [congruence|]. intros O. destruct (H1 O) as (A1 & A2 & A3).
  rewrite T1 in H2. destruct (H2 O) as (B1 & B2 & B3). split; [congruence|]. split; [congruence|]. intros P. specialize (A3 P). rewrite A2 in B3. specialize (B3 P). lia.
Qed.
Lemma lower_acts_refl l : Forall2 lower_act l l.
Proof. induction l; constructor; [apply lower_act_refl|assumption]. Qed.
Lemma lower_of l l' : Forall2 lower_act l l' -> lower l l'.
Proof. intros H. exists l', []. rewrite app_nil_r. auto. Qed.
Lemma lower_refl l : lower l l.
Proof. apply lower_of, lower_acts_refl. Qed.
Lemma lower_trans a b c : lower a b -> lower b c -> lower a c.
Proof.
  intros (b0 & t & -> & H1 & H2) (c0 & t' & -> & H3 & H4). apply Forall2_app_inv_l in H3 as (c1 & c2 & H5 & H6 & ->).
  exists c1, (c2 ++ t'). rewrite app_assoc. split; [reflexivity|]. split.
  - clear - H1 H5. revert c1 H5. induction H1 as [|x y tx ty A _ IH]; intros c1 H; inversion H; subst; constructor; [|auto].
    eapply lower_act_trans; eassumption.
  - apply Forall_app. split; [|exact H4]. clear - H2 H6. induction H6 as [|x y tx ty (A & _) _ IH]; constructor.
    + inversion H2. congruence.
    + inversion H2. auto.
Qed.
Lemma lower_holds l l' t : lower l l' -> t <> 23 -> (exists a, In a l' /\ ac_ty a = t) -> exists a, In a l /\ ac_ty a = t.
Proof.
  intros (l0 & x & -> & H1 & H2) N (a & I & T). apply in_app_or in I as [I|I].
  - clear - H1 I T. induction H1 as [|y z ty tz (A & _) _ IH]; [destruct I|]. destruct I as [->|I].
    + exists y. split; [left; reflexivity|congruence].
    + destruct (IH I) as (b & B & Q). exists b. split; [right; exact B|exact Q].
  - rewrite Forall_forall in H2. specialize (H2 a I). congruence.
Qed.
Lemma lower_limited r r' : lower (r_acts r) (r_acts r') -> limited r -> limited r'.
Proof.
  intros L (L1 & L2). split; intros H; [apply L1|apply L2]; (eapply lower_holds; [exact L|discriminate|exact H]).
Qed.
Lemma lower_perm ty q l l' p : counted ty = true -> lower l l' -> perm ty q l = Some p ->
  exists p', perm ty q l' = Some p' /\ wnd ty p' = wnd ty p /\ (0 < wnd ty p -> pot ty p' <= pot ty p).
Proof.
  intros O (l0 & t & -> & H1 & _). induction H1 as [|a b ta tb (T & H) _ IH]; cbn [perm app]; [discriminate|].
  rewrite T. destruct (ac_ty a =? ty) eqn:Q; cbn [andb]; [|exact IH]. apply Z.eqb_eq in Q. rewrite Q in H.
  destruct (H O) as (F & U). rewrite F. destruct (beq _ q); [|exact IH]. intros [= <-]. exists (ac_data b). auto.
Qed.
Lemma lower_none ty q l l' : counted ty = true -> lower l l' -> perm ty q l = None -> perm ty q l' = None.
Proof.
  intros O (l0 & t & -> & H1 & H2). induction H1 as [|a b ta tb (T & H) _ IH]; cbn [perm app].
  - intros _. induction H2 as [|x u X _ IH]; cbn [perm]; [reflexivity|]. rewrite X.
    destruct (23 =? ty) eqn:Q; [|exact IH]. apply Z.eqb_eq in Q. subst ty. discriminate O.
  - rewrite T. destruct (ac_ty a =? ty) eqn:Q; cbn [andb]; [|exact IH]. apply Z.eqb_eq in Q. rewrite Q in H.
    destruct (H O) as (F & _). rewrite F. destruct (beq _ q); [discriminate|exact IH].
Qed.

(** ** Charges *)
Definition nn (L : layout) (p : bytes) : Prop := 0 <= u64_at (lay_left L) p /\ 0 <= u64_at (lay_limit L) p.
Lemma nn_bytes L p : all_bytes p -> nn L p.
Proof. intros B. split; [pose proof (u64_bound (lay_left L) _ B)|pose proof (u64_bound (lay_limit L) _ B)]; unfold is_u64 in *; lia. Qed.
Lemma aligned_until L slot p p' amt : lay_ok L -> length p = lay_len L -> nn L p -> 0 <= amt -> slot <= M -> aligned L slot p p' amt ->
  nn L p' /\ length p' = length p /\ u64_at (lay_window L) p' = u64_at (lay_window L) p
  /\ (0 < u64_at (lay_window L) p -> until M L p' + amt <= until M L p).
Proof.
  intros Lo Ln (N1 & N2) A Sm (St & X).
  pose proof (same_terms_u64 L p p' (lay_window L) Lo Ln St (or_intror eq_refl)) as Ew.
  pose proof (same_terms_u64 L p p' (lay_limit L) Lo Ln St (or_introl eq_refl)) as El.
  destruct St as (Len & _). unfold until, nn. cbv zeta. rewrite Ew, El.
  set (W := u64_at (lay_window L) p) in *. set (lim := u64_at (lay_limit L) p) in *. set (la := u64_at (lay_last L) p) in *.
  set (le := u64_at (lay_left L) p) in *. destruct X as [(X1 & X2 & X3)|(X0 & X1 & X2 & X3)]; rewrite X2, X3.
  - split; [lia|]. split; [exact Len|]. split; [reflexivity|]. intros _. lia.
  - split; [lia|]. split; [exact Len|]. split; [reflexivity|]. intros HW. rewrite Z.div_mul by lia.
    assert (D1 : la / W + 1 <= slot / W) by (rewrite <- Z.div_add with (b := 1) by lia; apply Z.div_le_mono; lia).
    assert (D2 : slot / W <= M / W) by (apply Z.div_le_mono; lia).
    rewrite !Z.max_r by lia. nia.
Qed.
Lemma same_terms_front L p p' n : same_terms L p p' -> (n <= lay_last L)%nat -> (n <= lay_left L)%nat -> firstn n p' = firstn n p.
Proof.
  intros (Len & H) N1 N2. apply nth_ext with (d := 0) (d' := 0); [rewrite !firstn_length, Len; reflexivity|].
  intros i Hi. rewrite firstn_length in Hi.
  assert (Q : forall l : bytes, nth i (firstn n l) 0 = nth i l 0).
  { intros l. rewrite <- (firstn_skipn n l) at 2. destruct (Nat.le_gt_cases (length l) n); [rewrite firstn_all2, skipn_all2, app_nil_r by lia; reflexivity|].
    rewrite app_nth1; [reflexivity|]. rewrite firstn_length. lia. }
  rewrite !Q. apply H; lia.
Qed.
Definition held_by (ty : Z) (p : bytes) : Prop := match ty with 2 | 11 => nn SolRec p | 6 => nn TokRec p | _ => True end.
Lemma held_bytes ty p : all_bytes p -> held_by ty p.
Proof.
  intros B. unfold held_by. destruct ty as [|x|x]; try exact I. repeat match goal with x : positive |- _ => destruct x; try exact I end; apply nn_bytes, B.
Qed.
Lemma takes_pot ty slot p p' amt : counted ty = true -> action_len ty = Some (length p) -> held_by ty p -> 0 <= amt -> slot <= M ->
  takes ty slot p p' amt ->
  held_by ty p' /\ length p' = length p /\ about ty p' = about ty p /\ wnd ty p' = wnd ty p
  /\ (0 < wnd ty p -> pot ty p' + amt <= pot ty p).
Proof.
  intros C L N A Sm T.
  assert (L1 : lay_ok SolRec) by (cbv; lia). assert (L2 : lay_ok TokRec) by (cbv; lia).
  unfold counted in C. cbn [existsb] in C. repeat (apply orb_prop in C as [C|C]); try discriminate C; apply Z.eqb_eq in C; subst ty;
    cbn [takes held_by wnd pot] in *; unfold about, target_of; cbn [ac_ty ac_data];
    try (destruct T as (T1 & T2 & T3 & T4 & _); split; [exact I|]; split; [exact T3|]; split; [first [reflexivity|exact T4]|]; split; [reflexivity|lia]).
  - injection L as L. destruct (aligned_until SolRec slot p p' amt L1 (eq_sym L) N A Sm T) as (X1 & X2 & X3 & X4). auto 6.
  - injection L as L. destruct (aligned_until SolRec slot p p' amt L1 (eq_sym L) N A Sm T) as (X1 & X2 & X3 & X4). auto 6.
  - injection L as L. destruct (aligned_until TokRec slot p p' amt L2 (eq_sym L) N A Sm T) as (X1 & X2 & X3 & X4).
    split; [exact X1|]. split; [exact X2|]. split; [|split; [exact X3|exact X4]].
    apply (same_terms_front TokRec); [exact (proj1 T)|cbn; lia|cbn; lia].
Qed.
Lemma draws_pot ty slot amts p p' : counted ty = true -> action_len ty = Some (length p) -> held_by ty p -> slot <= M ->
  draws ty slot amts p p' -> 0 < wnd ty p -> pot ty p' + sum amts <= pot ty p.
Proof.
  intros C L N Sm D. induction D as [p|amt t p p1 p2 A Tk _ IH]; cbn [sum]; [lia|]. intros W.
  destruct (takes_pot ty slot p p1 amt C L N A Sm Tk) as (X1 & X2 & _ & X3 & X4). rewrite <- X2 in L. rewrite <- X3 in W.
  specialize (IH L X1 W). rewrite X3 in W. specialize (X4 W). lia.
Qed.
Lemma set_u64_bytes o z p : all_bytes p -> all_bytes (set_u64 o z p).
Proof. intros H. apply all_bytes_splice; [apply le_enc_bytes|exact H]. Qed.
Lemma limit_bytes ty p amt slot p' : counted ty = true -> all_bytes p -> limit_run ty p amt slot = Ok p' -> all_bytes p'.
Proof.
  intros C B H. unfold counted in C. cbn [existsb] in C. repeat (apply orb_prop in C as [C|C]); try discriminate C; apply Z.eqb_eq in C; subst ty;
    cbn in H; unfold sol_limit_bytes, token_limit_bytes, sol_dest_bytes, token_dest_bytes, sol_recurring_bytes, token_recurring_bytes in H;
    bind_inv H; apply ok_inj in K; subst p'; unfold write_recurring; repeat apply set_u64_bytes; exact B.
Qed.
Lemma charged_lower ty slot p p' : counted ty = true -> charged ty slot p p' -> action_len ty = Some (length p) -> all_bytes p ->
  0 <= slot < U64 -> slot <= M ->
  all_bytes p' /\ length p' = length p /\ about ty p' = about ty p /\ wnd ty p' = wnd ty p /\ (0 < wnd ty p -> pot ty p' <= pot ty p).
Proof.
  intros C H L B S Sm. induction H as [p|p p1 p2 amt H IH A R]; [split; [exact B|]; repeat (split; [reflexivity|]); lia|].
  destruct (IH L B) as (I1 & I2 & I3 & I4 & I5). rewrite <- I2 in L.
  assert (T : takes ty slot p1 p2 amt) by (apply limit_takes; try assumption; intros ->; discriminate C).
  destruct (takes_pot ty slot p1 p2 amt C L (held_bytes ty p1 I1) A Sm T) as (X1 & X2 & X3 & X4 & X5).
  split; [eapply limit_bytes; eassumption|]. split; [congruence|]. split; [congruence|]. split; [congruence|].
  intros W. specialize (I5 W). rewrite <- I4 in W. specialize (X5 W). lia.
Qed.
Lemma charged_acts_lower slot l l' : Forall wf_action l -> 0 <= slot < U64 -> slot <= M -> Forall2 (charged_act slot) l l' -> Forall2 lower_act l l'.
Proof.
  intros W S Sm H. induction H as [|a b ta tb (T & C) _ IH]; constructor.
  - split; [exact T|]. intros O. inversion W as [|? ? (L & B) _]; subst. rewrite !about_act, T.
    destruct (charged_lower _ _ _ _ O C L B S Sm) as (_ & _ & X). exact X.
  - apply IH. exact (Forall_inv_tail W).
Qed.
Lemma set_first_lower q p l : Forall2 lower_act l (set_first 9 q p l).
Proof.
  induction l as [|a t IH]; cbn [set_first]; [constructor|]. destruct (ac_ty a =? 9) eqn:Q; cbn [andb].
  - apply Z.eqb_eq in Q. destruct (action_matches 9 q (ac_data a)); constructor; try apply lower_acts_refl; try exact IH; [|apply lower_act_refl].
    split; [cbn; congruence|]. rewrite Q. discriminate.
  - constructor; [apply lower_act_refl|exact IH].
Qed.

(** ** Steps of a configuration *)
Section Role.
Variable i : Z.
Definition lowers (s s' : config) : Prop :=
  id_order s s' /\ forall r r', find_role i s = Some r -> find_role i s' = Some r' -> lower (r_acts r) (r_acts r').
Lemma lowers_refl s : lowers s s.
Proof. split; [split; [lia|auto]|]. intros r r' H1 H2. rewrite H1 in H2. injection H2 as <-. apply lower_refl. Qed.
Lemma lowers_trans a b c : wf_config a -> lowers a b -> lowers b c -> lowers a c.
Proof.
  intros W [O1 H1] [O2 H2]. split; [eapply id_order_trans; eassumption|]. intros r r' F1 F2.
  assert (Ib : In i (ids b)).
  { destruct O2 as [_ O2]. destruct (O2 i (find_ids _ _ _ F2)) as [I|I]; [exact I|].
    pose proof (wf_ids_below _ _ W (find_ids _ _ _ F1)). destruct O1. lia. }
  apply ids_find in Ib as (x & Fx). eapply lower_trans; [eapply H1; eassumption|eapply H2; eassumption].
Qed.
Lemma lowers_on j f s : (forall r, r_id (f r) = r_id r) ->
  (forall r, j = i -> find_role j s = Some r -> lower (r_acts r) (r_acts (f r))) -> lowers s (on_role j f s).
Proof.
  intros Hf Hr. split; [split; [cbn; lia|rewrite ids_on_role by exact Hf; auto]|]. intros r r' F1 F2.
  rewrite find_role_on, F1 in F2 by exact Hf. cbn in F2. injection F2 as <-. apply find_role_in in F1 as X. destruct X as [_ X].
  destruct (r_id r =? j) eqn:Q; [|apply lower_refl]. apply Hr; [lia|]. rewrite <- F1. f_equal. lia.
Qed.
Lemma lowers_roles s s' : s_roles s' = s_roles s -> s_counter s' = s_counter s -> lowers s s'.
Proof.
  intros R C. split; [split; [lia|unfold ids; rewrite R; auto]|]. intros r r' F1 F2. unfold find_role in *. rewrite R in F2.
  rewrite F1 in F2. injection F2 as <-. apply lower_refl.
Qed.
Lemma lowers_edit E cx k w s r s1 s' : ids s1 = ids s -> s_counter s1 = s_counter s -> edit E cx k w s r s1 s' -> wf_config s1 ->
  (forall x, find_role (r_id r) s1 = Some x -> r_acts x = r_acts r) ->
  ~ (tag (c_data cx) = 3 /\ u32_at 12 (c_data cx) = i) -> lowers s1 s'.
Proof.
  intros I Cn Ed W Ra N. pose proof (edit_ids _ _ _ _ _ _ _ _ I Cn Ed) as Io. destruct Ed.
  - apply lowers_refl.
  - split; [exact Io|]. intros r1 r2 F1 F2. rewrite find_add, F1 in F2 by (eapply find_ids; exact F1). injection F2 as <-. apply lower_refl.
  - split; [exact Io|]. intros r1 r2 F1 F2. apply find_drop in F2. rewrite F1 in F2. injection F2 as <-. apply lower_refl.
  - apply lowers_on; [reflexivity|]. intros x Q _. exfalso. apply N. split; assumption.
  - apply lowers_on; [reflexivity|]. intros x _ _. apply lower_refl.
  - apply lowers_roles; reflexivity.
  - apply lowers_roles; reflexivity.
  - apply lowers_on; [reflexivity|]. intros x _ F. cbn [with_acts r_acts]. rewrite (Ra x F). apply lower_of, set_first_lower.
  - apply lowers_on; [reflexivity|]. intros x _ F. cbn [with_acts r_acts].
    match goal with T : find_role rid s1 = Some tr |- _ => rewrite T in F; injection F as <- end. apply lower_of, set_first_lower.
  - cbv zeta. destruct (has P_SubAccountV2All _ _); [apply lowers_roles; reflexivity|].
    apply lowers_trans with (b := set_subctr s1 (id + 1)); [exact W|apply lowers_roles; reflexivity|].
    apply lowers_on; [reflexivity|]. intros x _ _. cbn [with_acts r_acts]. exists (r_acts x), [all_powers id].
    split; [reflexivity|]. split; [apply lower_acts_refl|]. repeat constructor.
Qed.
Lemma acted_acts_same E cx s r s1 x : acted E cx s r s1 -> find_role (r_id r) s1 = Some x -> r_acts x = r_acts r.
Proof.
  intros (Fr & auth & _ & ->) F. apply find_role_in in Fr as Y. destruct Y as [_ Y]. rewrite find_role_on in F by reflexivity.
  rewrite Y, Fr in F. cbn in F. injection F as <-. destruct (_ =? _); reflexivity.
Qed.
Lemma lowers_used j s : lowers s (used j s).
Proof.
  split; [split; [cbn; lia|rewrite ids_used; auto]|]. intros r r' F1 F2. rewrite find_used, F1 in F2. cbn in F2. injection F2 as <-.
  destruct (_ =? _); [|apply lower_refl]. unfold after_use. destruct (_ || _); apply lower_refl.
Qed.
Lemma lowers_step E cx k w s s' : wf_config s -> config_step E cx k w s s' -> 0 <= c_slot cx < U64 -> c_slot cx <= M ->
  ~ (acct cx 0 = k /\ tag (c_data cx) = 3 /\ u32_at 12 (c_data cx) = i) -> lowers s s'.
Proof.
  intros W St Sl Sm N. destruct St as [r s1 s' K A Ed|r a a' _ T5 Fr Ss Au St L48|r s0 l _ _ _ A C].
  - destruct (acted_wf _ _ _ _ _ W A) as [U W1]. destruct (ids_acted _ _ _ _ _ A) as [I Cn].
    apply lowers_trans with (b := s1); [exact W|rewrite U; apply lowers_used|].
    eapply lowers_edit; [exact I|exact Cn|exact Ed|exact W1|intros x; eapply acted_acts_same; exact A|].
    intros T. apply N. split; [symmetry; exact K|exact T].
  - apply lowers_on; [reflexivity|]. intros x _ _. apply lower_refl.
  - apply lowers_on; [reflexivity|]. intros x _ F. cbn [with_acts r_acts]. pose proof (acted_acts_same _ _ _ _ _ _ A F) as Q.
    rewrite Q. destruct (wf_find _ _ _ W F) as (_ & _ & _ & _ & _ & (_ & Wa & _)). rewrite Q in Wa.
    apply lower_of. eapply charged_acts_lower; eassumption.
Qed.
End Role.
End Until.
