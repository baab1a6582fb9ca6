(** * A locked wallet stays locked.  Proofs *)
From Verif Require Import BaseFacts SpecConfig ConfigFacts ConfigEdit ConfigEdit2 ConfigEdit3.
From Verif Require Import AuthProps HandlerRoles HandlerRoles2 HandlerSub HandlerLife HandlerV2 HandlerAssets SignSpec Spend.
From Verif Require Import Actors ConfigProps SpecAvail Avail Avail2 FrameNat Rent3 Lock.

(** ** Edits that leave the watched accounts alone *)
Definition swatch (a a' : action) : Prop :=
  ac_ty a' = ac_ty a /\ (ac_ty a = 4 -> skipn 80 (ac_data a') = skipn 80 (ac_data a)).
Definition rwatch (r r' : role) : Prop := Forall2 swatch (r_acts r) (r_acts r').
Definition cwatch (s s' : config) : Prop := Forall2 rwatch (s_roles s) (s_roles s').
Lemma f2_refl {A} (R : A -> A -> Prop) l : (forall a, R a a) -> Forall2 R l l.
Proof. intros H. induction l; constructor; auto. Qed.
Lemma f2_trans {A} (R : A -> A -> Prop) : (forall a b c, R a b -> R b c -> R a c) -> forall x y z, Forall2 R x y -> Forall2 R y z -> Forall2 R x z.
Proof. intros T x y z F1; revert z; induction F1 as [|a b t t' H F IH]; intros z F2; inversion F2; subst; constructor; eauto. Qed.
Lemma swatch_refl a : swatch a a.
Proof. split; auto. Qed.
Lemma swatch_trans a b c : swatch a b -> swatch b c -> swatch a c.
Proof. intros [H1 H2] [H3 H4]. split; [congruence|]. intros T. rewrite H4, H2 by congruence. reflexivity. Qed.
Lemma rwatch_refl r : rwatch r r.
Proof. apply f2_refl, swatch_refl. Qed.
Lemma rwatch_trans a b c : rwatch a b -> rwatch b c -> rwatch a c.
Proof. apply f2_trans, swatch_trans. Qed.
Lemma cwatch_refl s : cwatch s s.
Proof. apply f2_refl, rwatch_refl. Qed.
Lemma cwatch_trans a b c : cwatch a b -> cwatch b c -> cwatch a c.
Proof. apply f2_trans, rwatch_trans. Qed.
Lemma cwatch_on i f s : (forall r, In r (s_roles s) -> r_id r = i -> rwatch r (f r)) -> cwatch s (on_role i f s).
Proof.
  unfold cwatch. cbn [on_role with_roles s_roles]. induction (s_roles s) as [|r t IH]; intros H; [constructor|].
  cbn [map]. constructor.
  - destruct (r_id r =? i) eqn:Q; [|apply rwatch_refl]. apply H; [left; reflexivity|lia].
  - apply IH. intros r0 I. apply H. right. exact I.
Qed.
Lemma set_first_watch ty q p l : ty <> 4 -> Forall2 swatch l (set_first ty q p l).
Proof.
  intros T. induction l as [|a t IH]; [constructor|]. cbn [set_first]. destruct ((ac_ty a =? ty) && _) eqn:Q.
  - apply andb_prop in Q as [Q _]. apply Z.eqb_eq in Q. constructor; [|apply f2_refl, swatch_refl]. split; [cbn; congruence|]. intros X. congruence.
  - constructor; [apply swatch_refl|exact IH].
Qed.
Lemma charged_watch slot p p' : charged 4 slot p p' -> length p = 144%nat -> skipn 80 p' = skipn 80 p /\ length p' = 144%nat.
Proof.
  induction 1 as [p|p p1 p2 amt C IH A R]; intros L; [auto|]. destruct (IH L) as [Q1 Q2].
  unfold limit_run in R. cbn in R. unfold scope_bytes in R. bind_inv R. apply ok_inj in K. subst p2.
  assert (Ls : length (set_u64 40 (sc_last v) p1) = 144%nat) by (unfold set_u64; rewrite splice_length; [exact Q2|rewrite Q2, le_enc_length; lia]).
  split.
  - rewrite skipn_splice by (rewrite le_enc_length; lia). unfold set_u64. rewrite skipn_splice by (rewrite le_enc_length; lia). exact Q1.
  - rewrite splice_length; [exact Ls|rewrite Ls, le_enc_length; lia].
Qed.
Lemma charged_watches slot l l' : Forall wf_action l -> Forall2 (charged_act slot) l l' -> Forall2 swatch l l'.
Proof.
  intros W F. induction F as [|a b t t' (H & C) F IH]; [constructor|]. inversion W as [|? ? (Wa & _) Wt]; subst. constructor; [|apply IH; exact Wt].
  split; [exact H|]. intros T. rewrite T in *. apply charged_watch in C as [C _]; [exact C|]. unfold action_len in Wa. cbn in Wa. congruence.
Qed.
Lemma acted_watch E cx s r s1 : acted E cx s r s1 -> cwatch s s1.
Proof. intros (_ & auth & _ & ->). apply cwatch_on. intros r0 _ _. exact (rwatch_refl r0). Qed.
Lemma step_watch E cx k w s s' : wf_config s -> config_step E cx k w s s' -> ~ In (tag (c_data cx)) [1; 2; 3; 17; 18] -> cwatch s s'.
Proof.
  intros W H T. pose proof W as (_ & _ & _ & _ & _ & _ & _ & Wr & N & _).
  destruct H as [r s1 s' Hk A Ed|r a a' Hk Ht F _ _ _ _|r s0 l Hk Ht _ A F2].
  - eapply cwatch_trans; [eapply acted_watch; exact A|].
    pose proof (acted_ids _ _ _ _ _ A) as I1.
    destruct Ed; try (exfalso; apply T; match goal with H : tag _ = _ |- _ => rewrite H end; cbn; tauto).
    + apply cwatch_refl.
    + apply cwatch_on. intros r0 _ _. exact (rwatch_refl r0).
    + exact (cwatch_refl s1).
    + apply cwatch_on. intros r0 I Hi. unfold rwatch. cbn [with_acts r_acts].
      rewrite (acted_acts_of _ _ _ _ _ _ N A I Hi). apply set_first_watch. discriminate.
    + apply cwatch_on. intros r0 I Hi. unfold rwatch. cbn [with_acts r_acts].
      rewrite <- I1 in N. match goal with F : find_role _ s1 = Some ?t |- _ => rewrite (unique_in _ _ t r0 N F I Hi) end.
      apply set_first_watch. discriminate.
  - apply cwatch_on. intros r0 _ _. exact (rwatch_refl r0).
  - apply cwatch_on. intros r0 I Hi. unfold rwatch. cbn [with_acts r_acts].
    rewrite Forall_forall in Wr. destruct (Wr r0 I) as (_ & _ & _ & _ & _ & (_ & Wa & _)).
    rewrite (acted_ids _ _ _ _ _ A) in N. rewrite (acted_acts_of _ _ _ _ _ _ N A I Hi) in *. eapply charged_watches; eassumption.
Qed.
Lemma change_watch E cx k w w' s : change E cx k w w' -> is_cfg (w k) s ->
  (k <> mkey (c_metas cx) 0 \/ ~ In (tag (c_data cx)) [1; 2; 3; 15; 17; 18]) -> exists s', is_cfg (w' k) s' /\ cwatch s s'.
Proof.
  intros C S T. pose proof S as (O & D & W).
  destruct C as [(D1 & O1)|s0 s' S0 St S'|nr id bump wbump s' _ _ N _ _ _ _ _ _ _ _ _
    |swig s0 s' b ab sa _ _ _ _ _ _ _ N _ _ _ _ _ _ _ _|swig s0 r s1 en _ _ _ _ _ rd _ _ _ L B0 _ _ _ _ Dx
    |s0 r s1 S0 Hk Ht _ _ _ _ _|N _].
  - exists s. split; [split; [congruence|split; [congruence|exact W]]|apply cwatch_refl].
  - rewrite (is_cfg_inj _ _ _ S0 S) in *. exists s'. split; [exact S'|].
    assert (Hk : k = mkey (c_metas cx) 0) by (destruct St; assumption).
    destruct T as [T|T]; [contradiction|]. eapply step_watch; [exact W|exact St|]. intros I. apply T. cbn in *. tauto.
  - rewrite O in N. discriminate.
  - rewrite O in N. discriminate.
  - exfalso. unfold rd in B0. rewrite D, enc_config_byte in B0. discriminate B0.
  - destruct T as [T|T]; [contradiction|]. exfalso. apply T. rewrite Ht. cbn. tauto.
  - contradiction.
Qed.
Lemma f2_in_l {A} (R : A -> A -> Prop) l l' a : Forall2 R l l' -> In a l -> exists a', In a' l' /\ R a a'.
Proof. induction 1 as [|x y t t' H F IH]; intros []; [subst; exists y; split; [left; reflexivity|exact H]|]. destruct (IH H0) as (a' & I & Q). exists a'. split; [right; exact I|exact Q]. Qed.
Lemma f2_in_r {A} (R : A -> A -> Prop) l l' a' : Forall2 R l l' -> In a' l' -> exists a, In a l /\ R a a'.
Proof. induction 1 as [|x y t t' H F IH]; intros []; [subst; exists x; split; [left; reflexivity|exact H]|]. destruct (IH H0) as (a & I & Q). exists a. split; [right; exact I|exact Q]. Qed.
Lemma sub_from_80 d d' o n : skipn 80 d' = skipn 80 d -> sub (80 + o) n d' = sub (80 + o) n d.
Proof. intros H. unfold sub. rewrite <- !skipn_skipn'. rewrite H. reflexivity. Qed.
Lemma swatch_reads a a' d : swatch a a' -> ac_ty a = 4 -> (watches SYSTEM a <-> watches SYSTEM a') /\ (unreadable d a <-> unreadable d a').
Proof.
  intros (T & S) Q. specialize (S Q). pose proof (sub_from_80 _ _ 0 32 S) as S0. pose proof (sub_from_80 _ _ 32 8 S) as S1. pose proof (sub_from_80 _ _ 56 8 S) as S2.
  cbn [Nat.add] in *. unfold watches, unreadable, u64_at. rewrite S0, S1, S2, T. tauto.
Qed.
Lemma locked_watch w w' s s' : kept w w' SYSTEM -> cwatch s s' -> locked w s -> locked w' s'.
Proof.
  intros (D & _) C ((r & a & I1 & I2 & W) & L). split.
  - destruct (f2_in_l _ _ _ _ C I1) as (r' & J1 & Cr). destruct (f2_in_l _ _ _ _ Cr I2) as (a' & J2 & Ca). exists r', a'.
    split; [exact J1|]. split; [exact J2|]. pose proof W as (T & _). apply (swatch_reads _ _ [] Ca T). exact W.
  - intros r' a' J1 J2 W'. destruct (f2_in_r _ _ _ _ C J1) as (r0 & K1 & Cr). destruct (f2_in_r _ _ _ _ Cr J2) as (a0 & K2 & Ca).
    assert (T : ac_ty a0 = 4) by (destruct Ca as [Ca _], W'; congruence).
    destruct (swatch_reads _ _ (a_data (w' SYSTEM)) Ca T) as [X1 X2]. apply X2. rewrite D. apply (L r0 a0 K1 K2). apply X1. exact W'.
Qed.

(** ** Calls *)
Definition stuck (w w' : world) (k : key) : Prop :=
  native w -> forall s, is_cfg (w k) s -> locked w s -> native w' /\ exists s', is_cfg (w' k) s' /\ locked w' s'.
Lemma stuck_refl w k : stuck w w k.
Proof. intros N s S L. split; [exact N|]. exists s. auto. Qed.
Lemma stuck_trans a b c k : stuck a b k -> stuck b c k -> stuck a c k.
Proof. intros H1 H2 N s S L. destruct (H1 N s S L) as (N1 & s1 & S1 & L1). exact (H2 N1 s1 S1 L1). Qed.
Lemma fixd_stuck w w' k : fixd w w' -> (forall s, is_cfg (w k) s -> exists s', is_cfg (w' k) s' /\ cwatch s s') -> stuck w w' k.
Proof.
  intros Fx H N s S L. specialize (Fx N). split; [eapply native_kept; eassumption|].
  destruct (H s S) as (s' & S' & C). exists s'. split; [exact S'|]. eapply locked_watch; eassumption.
Qed.
Lemma kept_cfg w w' k s : kept w w' k -> is_cfg (w k) s -> exists s', is_cfg (w' k) s' /\ cwatch s s'.
Proof. intros (D & O) (A & B & C). exists s. split; [split; [congruence|split; [congruence|exact C]]|apply cwatch_refl]. Qed.

Section Stuck.
Variable (E : env).
Hypothesis (F : foreign_ok E) (Fs : system_kept E).

Lemma foreign_stuck w x w' k : foreign E w x = Ok w' -> stuck w w' k.
Proof.
  intros H. apply fixd_stuck; [intros N; eapply Fs; eassumption|]. intros s S. eapply kept_cfg; [|exact S].
  destruct (F _ _ _ H k) as [A _]. apply A. apply S.
Qed.
Lemma dispatch_stuck cx w w' k cs : wf_ctx cx -> good_world E w -> roomy 1 w -> classify_all w (c_metas cx) = Ok cs ->
  dispatch E cx w = Ok w' -> stuck w w' k.
Proof.
  intros Hc G R Cl H N s S L. pose proof (dispatch_changes E cx w w' Hc G F R H k) as C. pose proof (dispatch_fx E cx Fs w w' H) as Fx.
  assert (T : k <> mkey (c_metas cx) 0 \/ ~ In (tag (c_data cx)) [1; 2; 3; 15; 17; 18]).
  { destruct (bytes_dec k (mkey (c_metas cx) 0)) as [Q|Q]; [right|left; exact Q]. subst k. eapply locked_tags; eassumption. }
  revert N s S L. change (stuck w w' k). apply fixd_stuck; [exact Fx|]. intros s S. eapply change_watch; eassumption.
Qed.

Section Run.
Variables (cx : ctx) (sk k : key) (sd : list bytes).
Hypothesis (Hc : wf_ctx cx) (Hsd : asset_seeds sd) (Hh : c_height cx = 1%nat).
Lemma run_inner_stuck w w' x : good_world E w -> roomy 1 w -> from_outer_ix (c_metas cx) sk x ->
  run_inner E cx sk (pda_list E sd) w (in_ix x) = Ok w' -> stuck w w' k.
Proof.
  intros G R X H. unfold run_inner in H. bind_inv H.
  match type of K with (if ?b then _ else _) = _ => destruct b end.
  - peel K. apply move_lamports_keeps in K. apply fixd_stuck; [apply keeps_fixd; exact K|]. intros s. apply kept_cfg. apply K.
  - unfold invoke in K. bind_inv K. apply check_ok in B0. destruct (beq (ix_prog (in_ix x)) SELF) eqn:Qs.
    + unfold process_inner in K0. bind_inv K0. pose proof (nested_of E cx sk sd Hc Hsd Hh x X B0 Qs) as N.
      eapply dispatch_stuck; [apply N|exact G|exact R|exact B1|exact K].
    + eapply foreign_stuck; exact K0.
Qed.
Lemma run_all_stuck xs : Forall (from_outer_ix (c_metas cx) sk) xs -> (length xs <= 255)%nat -> forall w w', good_world E w ->
  roomy (Z.of_nat (length xs)) w -> run_all E cx sk (pda_list E sd) xs w = Ok w' -> stuck w w' k.
Proof.
  induction 1 as [|x r X Xs IH]; intros Hn w w' G R H; cbn [run_all] in H.
  - apply ok_inj in H. subst. apply stuck_refl.
  - bind_inv H. cbn [length] in *.
    assert (T : trace E cx 1 w v) by (eapply run_inner_trace; try eassumption; eapply roomy_le; [|exact R]; lia).
    eapply stuck_trans; [eapply run_inner_stuck; try eassumption; eapply roomy_le; [|exact R]; lia|]. apply IH; [lia| | |exact K].
    + eapply trace_good; eassumption.
    + eapply trace_roomy; [exact T|cbn; lia|]. eapply roomy_le; [|exact R]. lia.
Qed.
Lemma limited_stuck swig off len pall cur xs : Forall (from_outer_ix (c_metas cx) sk) xs -> (length xs <= 255)%nat ->
  forall w w' sol sol' cs cs', good_world E w -> roomy (Z.of_nat (length xs)) w ->
  limited_loop E cx swig sk (pda_list E sd) off len pall cur xs w sol cs = Ok (w', sol', cs') -> stuck w w' k.
Proof.
  induction 1 as [|x r X Xs IH]; intros Hn w w' sol sol' cs cs' G R H; cbn [limited_loop] in H.
  - apply ok_inj in H. injection H as <- <- <-. apply stuck_refl.
  - bind_inv H. bind_inv K. bind_inv K0. cbn [length] in *.
    assert (T : trace E cx 1 w v0) by (eapply run_inner_trace; try eassumption; eapply roomy_le; [|exact R]; lia).
    eapply stuck_trans; [eapply run_inner_stuck; try eassumption; eapply roomy_le; [|exact R]; lia|].
    eapply IH; [lia| | |exact K].
    + eapply trace_good; eassumption.
    + eapply trace_roomy; [exact T|cbn; lia|]. eapply roomy_le; [|exact R]. lia.
Qed.
End Run.

Section Call.
Variables (cx : ctx) (w w' : world) (k : key).
Hypothesis (Hc : wf_ctx cx) (Hf : flags_ok (c_metas cx)) (G : good_world E w) (R : roomy 300 w) (Ncl : ~ clash E cx w).
Notation ms := (c_metas cx).
Notation swig := (mkey (c_metas cx) 0).

Lemma data_stuck wa wb s s' : is_cfg (wa swig) s -> cwatch s s' -> wf_config s' -> only_data wa wb swig (enc_config s') -> stuck wa wb k.
Proof.
  intros C Cw W' D. apply fixd_stuck.
  - eapply only_fixd; [exact D|]. intros _. apply C.
  - intros s0 S0. destruct (bytes_dec k swig) as [->|N].
    + rewrite (is_cfg_inj _ _ _ S0 C). exists s'. split; [eapply only_data_cfg; eassumption|exact Cw].
    + destruct D as (_ & _ & D3). eapply kept_cfg; [apply D3; exact N|exact S0].
Qed.
Lemma sign_v2_stuck cs : classify_all w ms = Ok cs -> tag (c_data cx) = 11 -> sign_v2 E cx cs w = Ok w' -> stuck w w' k.
Proof.
  intros Cs Ht H. pose proof (classify_all_ok _ _ _ Cs) as (S1 & S2 & S3).
  assert (Hs : exists s, is_cfg (w swig) s).
  { apply (is_config_good E); [exact G|]. apply S3. unfold sign_v2 in H. cbv zeta in H. peel H. assumption. }
  destruct Hs as (s & C).
  destruct (sign_v2_spec _ _ _ _ _ _ Hc C Ht H) as (r & s1 & w0 & xs & A & Wr & W1 & D0 & L0 & Hh & N0 & N1 & Px & Cases). clear H.
  pose proof (parse_all_ok _ _ _ _ (sub_all_bytes_signed _ Hc) Px) as [Fx Lx].
  assert (T0 : trace E cx 1 w w0) by (eapply use_changes; [rewrite Ht; cbn; tauto|exact C|exact A|exact D0|exact W1]).
  pose proof (trace_good _ _ _ _ _ T0 G) as G0.
  assert (R0 : roomy 299 w0) by (eapply trace_roomy; [exact T0|lia|exact R]).
  assert (C0 : is_cfg (w0 swig) s1) by (eapply only_data_cfg; eassumption).
  assert (Sd : asset_seeds (seeds_wallet swig (s_wbump s))) by (left; eauto).
  eapply stuck_trans; [eapply data_stuck; [exact C|eapply acted_watch; exact A|exact W1|exact D0]|].
  destruct Cases as [(U & Hrun)|(U & p & r1 & snaps & w1 & sol & cs1 & acts' & Hp & Ra & In & Sn & Lo & St & Fin)].
  - eapply run_all_stuck; try eassumption. eapply roomy_le; [|exact R0]. lia.
  - assert (R1 : roomy (Z.of_nat (length xs)) w0) by (eapply roomy_le; [|exact R0]; lia).
    pose proof (limited_trace E cx (mkey ms 1) (seeds_wallet swig (s_wbump s)) F Hc Sd Hh swig _ _ _ _ xs Fx Lx w0 w1 0 sol cs cs1 G0 R1
      (Z.le_refl 0) S1 S2 Lo) as (T1 & Sol & Sc & Lc & Hk).
    assert (O1 : a_owner (w1 swig) = SELF) by (eapply trace_self; [exact T1|]; destruct C0 as (C1 & _); exact C1).
    eapply stuck_trans; [eapply limited_stuck; eassumption|].
    destruct (writable ms swig) eqn:Wt.
    + assert (T1c : nth_error cs1 0 = Some CThisSwig).
      { destruct (nth_error cs1 0) as [c|] eqn:Q.
        - destruct (Hk c eq_refl) as (c0 & Q1 & Q2). rewrite N0 in Q1. injection Q1 as <-. destruct c; try contradiction. reflexivity.
        - apply nth_error_None in Q. assert (length cs <> 0)%nat by (intros Z; apply length_zero_iff_nil in Z; subst cs; discriminate). lia. }
      destruct (limited_end E cx cs w w0 w1 w' s s1 r xs p r1 snaps sol cs1 acts') as [(Ne & Ha)|(C1 & l' & Es & Ch & W' & D1 & L1)]; try assumption.
      { apply from_outer_inner in Fx. exact Fx. }
      * exfalso. apply Ncl. exists cs, w0, w1. repeat split; assumption.
      * eapply data_stuck; [exact C1| |exact W'|exact D1]. apply cwatch_on. intros r0 I Hi. unfold rwatch. cbn [with_acts r_acts].
        apply charges_charged in Ch. destruct C as (_ & _ & Wc). pose proof Wc as (_ & _ & _ & _ & _ & _ & _ & _ & Nd & _).
        rewrite (acted_acts_of _ _ _ _ _ _ Nd A I Hi). eapply charged_watches; [|exact Ch]. destruct Wr as (_ & _ & _ & _ & _ & (_ & Wa & _)). exact Wa.
    + unfold set_data in Fin. fold swig in Fin.
      destruct (beq _ _); [apply ok_inj in Fin; subst; apply stuck_refl|]. rewrite Wt in Fin. discriminate.
Qed.
Lemma sub_sign_v1_stuck : tag (c_data cx) = 9 -> sub_account_sign_v1 E cx w = Ok w' -> stuck w w' k.
Proof.
  intros Ht H. assert (Hs : exists s, is_cfg (w swig) s) by (unfold sub_account_sign_v1 in H; has_cfg E G H). destruct Hs as (s & C).
  destruct (sub_sign_v1_spec _ _ _ _ _ Hc C Ht H) as (r & s1 & p & w0 & xs & A & Wr & W1 & D0 & L0 & Hh & Os & _ & _ & _ & _ & Px & Hrun & _).
  pose proof (parse_all_ok _ _ _ _ (sub_all_bytes_signed _ Hc) Px) as [Fx Lx].
  assert (T0 : trace E cx 1 w w0) by (eapply use_changes; [rewrite Ht; cbn; tauto|exact C|exact A|exact D0|exact W1]).
  pose proof (trace_good _ _ _ _ _ T0 G) as G0.
  eapply stuck_trans; [eapply data_stuck; [exact C|eapply acted_watch; exact A|exact W1|exact D0]|].
  eapply run_all_stuck; try eassumption; [right; left; eauto|].
  eapply trace_roomy; [exact T0| |]; [lia|]. eapply roomy_le; [|exact R]. lia.
Qed.
Lemma sub_sign_v2_stuck : tag (c_data cx) = 20 -> sub_account_sign_v2 E cx w = Ok w' -> stuck w w' k.
Proof.
  intros Ht H. assert (Hs : exists s, is_cfg (w swig) s) by (unfold sub_account_sign_v2 in H; has_cfg E G H). destruct Hs as (s & C).
  destruct (sub_sign_v2_spec _ _ _ _ _ Hc C Ht H) as (r & s1 & w0 & xs & A & Wr & W1 & D0 & L0 & Hh & Os & _ & _ & _ & Px & Hrun & _).
  pose proof Hc as [Hb _].
  pose proof (parse_all_ok _ _ _ _ (all_bytes_sub _ _ _ Hb) Px) as [Fx Lx].
  assert (T0 : trace E cx 1 w w0) by (eapply use_changes; [rewrite Ht; cbn; tauto|exact C|exact A|exact D0|exact W1]).
  pose proof (trace_good _ _ _ _ _ T0 G) as G0.
  eapply stuck_trans; [eapply data_stuck; [exact C|eapply acted_watch; exact A|exact W1|exact D0]|].
  eapply run_all_stuck; try eassumption; [right; right; eauto|].
  eapply trace_roomy; [exact T0| |]; [lia|]. eapply roomy_le; [|exact R]. lia.
Qed.
Lemma process_stuck : process E cx w = Ok w' -> stuck w w' k.
Proof.
  intros H. unfold process in H. bind_inv H. peel K. destruct (_ =? 11) eqn:T11.
  { apply Z.eqb_eq in T11. eapply sign_v2_stuck; eassumption. }
  destruct (_ =? 9) eqn:T9.
  { apply Z.eqb_eq in T9. eapply sub_sign_v1_stuck; eassumption. }
  destruct (_ =? 20) eqn:T20.
  { apply Z.eqb_eq in T20. eapply sub_sign_v2_stuck; eassumption. }
  eapply dispatch_stuck; try eassumption. eapply roomy_le; [|exact R]. lia.
Qed.
End Call.

Theorem locked_forever w w' k s : good_world E w -> reach E w w' -> native w -> is_cfg (w k) s -> locked w s ->
  native w' /\ exists s', is_cfg (w' k) s' /\ locked w' s'.
Proof.
  intros G Re N. revert s. enough (X : stuck w w' k) by (intros s; apply X; exact N).
  clear N. induction Re as [|w1 e Re IH A]; [apply stuck_refl|]. eapply stuck_trans; [exact IH|].
  assert (G1 : good_world E w1) by (eapply reach_good; eassumption). destruct e as [cx|x]; cbn [step].
  - destruct A as (A1 & A2 & A3 & A4). destruct (process E cx w1) as [w2| |] eqn:Q; try apply stuck_refl. eapply process_stuck; eassumption.
  - destruct (foreign E w1 x) as [w2| |] eqn:Q; try apply stuck_refl. eapply foreign_stuck; exact Q.
Qed.
End Stuck.
