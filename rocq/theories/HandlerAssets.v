(** * Handlers that move assets: withdrawals, token closing, asset transfer *)
From Verif Require Import BaseFacts SpecConfig ConfigFacts ConfigEdit ConfigEdit2 ConfigEdit3.
From Verif Require Export HandlerV2 SpecWorld.

(** [amt] lamports went from [from] to [to]; nothing else changed *)
Definition moved (w w' : world) (from to : key) (amt : Z) : Prop :=
  keeps w w'
  /\ (from = to -> forall k, a_lamports (w' k) = a_lamports (w k))
  /\ (from <> to -> a_lamports (w' from) = a_lamports (w from) - amt
       /\ a_lamports (w' to) = a_lamports (w to) + amt
       /\ forall k, k <> from -> k <> to -> a_lamports (w' k) = a_lamports (w k)).

Lemma moved_upd w f t amt : f <> t ->
  moved w (upd (upd w f (mk_account (a_lamports (w f) - amt) (a_owner (w f)) (a_data (w f)))) t
             (mk_account (a_lamports (w t) + amt) (a_owner (w t)) (a_data (w t)))) f t amt.
Proof.
  intros Hne. split; [|split].
  - eapply keeps_trans; [apply upd_keeps|]. apply upd_keeps'; rewrite upd_other by congruence; reflexivity.
  - congruence.
  - intros _. rewrite (upd_other _ t _ f) by congruence. rewrite !upd_same. split; [reflexivity|]. split; [reflexivity|].
    intros k H1 H2. rewrite !upd_other by congruence. reflexivity.
Qed.
Lemma moved_refl w f amt : moved w w f f amt.
Proof. split; [apply keeps_refl|]. split; [reflexivity|congruence]. Qed.
Lemma moved_zero w f t : moved w w f t 0.
Proof. split; [apply keeps_refl|]. split; [reflexivity|]. intros _. split; [lia|]. split; [lia|reflexivity]. Qed.

Lemma sys_transfer_moved ms pdas w f t amt w' : sys_transfer ms pdas w f t amt = Ok w' ->
  moved w w' f t amt /\ a_owner (w f) = SYSTEM /\ a_data (w f) = [] /\ amt <= a_lamports (w f)
  /\ (signer ms f = true \/ In f pdas) /\ writable ms f = true /\ writable ms t = true.
Proof.
  unfold sys_transfer. intros H. peel H.
  grab (_ && _ = true) as Bw. apply andb_prop in Bw as [Bw1 Bw2].
  grab (beq _ SYSTEM = true) as Bo. apply beq_eq in Bo.
  grab ((_ =? 0)%nat = true) as Bz. apply Nat.eqb_eq in Bz.
  grab ((amt <=? _) = true) as Ba.
  grab (_ || _ = true) as Bs.
  assert (S : signer ms f = true \/ In f pdas).
  { apply orb_true_iff in Bs as [Bs|Bs]; [left; exact Bs|right]. apply existsb_exists in Bs as (x & X1 & X2). apply beq_eq in X2. rewrite X2. exact X1. }
  assert (R : a_owner (w f) = SYSTEM /\ a_data (w f) = [] /\ amt <= a_lamports (w f)
    /\ (signer ms f = true \/ In f pdas) /\ writable ms f = true /\ writable ms t = true).
  { repeat (split; [first [assumption | lia | (destruct (a_data (w f)); [reflexivity|discriminate])]|]). exact Bw2. }
  destruct (beq f t) eqn:E.
  - apply ok_inj in H. subst w'. apply beq_eq in E. subst t. split; [apply moved_refl|exact R].
  - peel H. apply ok_inj in H. subst w'. apply beq_neq in E. split; [apply moved_upd; exact E|exact R].
Qed.
Lemma move_lamports_moved ms w f t amt w' : move_lamports ms w f t amt = Ok w' ->
  moved w w' f t amt /\ (amt <> 0 -> f <> t -> a_owner (w f) = SELF /\ amt <= a_lamports (w f)).
Proof.
  unfold move_lamports. intros H. destruct (amt =? 0) eqn:Ez.
  - apply ok_inj in H. subst w'. apply Z.eqb_eq in Ez. subst amt. split; [apply moved_zero|lia].
  - destruct (beq f t) eqn:E.
    + apply ok_inj in H. subst w'. apply beq_eq in E. subst t. split; [apply moved_refl|congruence].
    + peel H. apply ok_inj in H. subst w'. apply beq_neq in E. split; [apply moved_upd; exact E|].
      intros _ _. split; [apply beq_eq; assumption|lia].
Qed.

(** the payload at the position a lookup returns *)
Lemma act_pos_split ty q o l p : act_pos ty q o l = Some p ->
  exists pre d post, first_of ty q l = Some d /\ enc_actions o l = pre ++ d ++ post /\ (o + length pre)%nat = p.
Proof.
  revert o; induction l as [|a t IH]; intros o; cbn [act_pos first_of enc_actions]; [discriminate|].
  destruct (_ && _) eqn:E; intros H.
  - injection H as <-. exists (le_enc 2 (ac_ty a) ++ le_enc 2 (Z.of_nat (length (ac_data a)))
      ++ le_enc 4 (Z.of_nat (o + 8 + length (ac_data a)))), (ac_data a), (enc_actions (o + 8 + length (ac_data a)) t).
    split; [reflexivity|]. unfold enc_action. split; [rewrite <- !app_assoc; reflexivity|].
    rewrite !app_length, !le_enc_length. lia.
  - destruct (IH _ H) as (pre & d & post & H1 & H2 & H3).
    exists (enc_action o a ++ pre), d, post. split; [exact H1|]. split; [rewrite H2, <- app_assoc; reflexivity|].
    rewrite app_length. unfold enc_action. rewrite !app_length, !le_enc_length. lia.
Qed.
Lemma act_payload ty q l p n : Forall wf_action l -> act_pos ty q 0 l = Some p -> action_len ty = Some n ->
  exists d, first_of ty q l = Some d /\ sub p n (enc_actions 0 l) = d.
Proof.
  intros Hl H Hn. destruct (act_pos_split _ _ _ _ _ H) as (pre & d & post & H1 & H2 & H3). cbn in H3. subst p.
  exists d. split; [exact H1|]. rewrite H2. destruct (first_of_wf _ _ _ _ Hl H1) as (L & _).
  rewrite L in Hn. injection Hn as <-. apply sub_app_exact; reflexivity.
Qed.
Lemma first_of_none ty q o l : act_pos ty q o l = None -> first_of ty q l = None.
Proof. revert o; induction l as [|a t IH]; intros o; cbn; [reflexivity|]. destruct (_ && _); [discriminate|apply IH]. Qed.
Lemma get_action_role ty q r n : wf_role r -> action_len ty = Some n ->
  exists o, get_action ty q (enc_actions 0 (r_acts r)) = Ok o
  /\ match o with
     | Some p => exists d, first_of ty q (r_acts r) = Some d /\ sub p n (enc_actions 0 (r_acts r)) = d
     | None => first_of ty q (r_acts r) = None
     end.
Proof.
  intros Wr Hn. exists (act_pos ty q 0 (r_acts r)).
  pose proof Wr as (_ & _ & _ & _ & _ & ((L1 & _) & Fa & _)).
  split; [apply get_action_enc; [|exact Fa|apply wf_role_acts_small; exact Wr]|].
  { intros E0. rewrite E0 in L1. cbn in L1. lia. }
  destruct (act_pos ty q 0 (r_acts r)) eqn:Ep; [eapply act_payload; eassumption|eapply first_of_none; exact Ep].
Qed.

Lemma find_creator_ok E id sa n r r' b : find_creator E id sa n r = Some (r', b) ->
  (r <= r' < r + Z.of_nat n) /\ find_pda E (seeds_sub0 id r') = (sa, b).
Proof.
  revert r; induction n as [|n IH]; intros r; cbn [find_creator]; [discriminate|].
  destruct (beq _ _) eqn:E0; intros H.
  - injection H as <- <-. apply beq_eq in E0. split; [lia|]. destruct (find_pda E (seeds_sub0 id r)); cbn in *; congruence.
  - destruct (IH _ H). split; [lia|assumption].
Qed.

Lemma withdraw_v1_spec E cx w w' s :
  withdraw_v1 E cx w = Ok w' ->
  let ms := c_metas cx in let data := c_data cx in
  let swig := mkey ms 0 in let sa := mkey ms 2 in let wallet := mkey ms 4 in
  let rid := u32_at 4 data in let amount := u64_at 8 data in
  a_data (w swig) = enc_config s -> wf_config s ->
  exists r s1 srole sbump w1, acts_as E cx s rid 16 r s1
    /\ v1_signs E s rid r sa srole sbump
    /\ wallet = fst (find_pda E (seeds_wallet0 swig))
    /\ a_owner (w swig) = SELF /\ a_owner (w sa) = SYSTEM /\ a_owner (w wallet) = SYSTEM
    /\ only_data w w1 swig (enc_config s1) /\ wf_config s1 /\ (forall k, a_lamports (w1 k) = a_lamports (w k))
    /\ let pdas := pda_list E (seeds_sub (s_id s) srole sbump) in
       (((length ms < 7)%nat /\ amount <= a_lamports (w sa)
         /\ moved w1 w' sa wallet amount /\ (signer ms sa = true \/ In sa pdas))
        \/ ((9 <= length ms)%nat /\ let src := mkey ms 6 in let dst := mkey ms 7 in let prog := a_owner (w1 src) in
            is_token_program prog = true /\ a_owner (w1 dst) = prog
            /\ sub 32 32 (a_data (w1 dst)) = wallet
            /\ let x := token_transfer_ix prog src dst sa amount in
               privileges_ok ms pdas x = true /\ foreign E w1 x = Ok w')).
Proof.
  intros H ms data swig sa wallet rid amount Hd W.
  unfold withdraw_v1 in H. cbv zeta in H. fold ms in H. fold swig sa wallet data in H. fold rid amount in H.
  peel H. cfg s Hd W. opening W. rewrite O8 in *.
  repeat match goal with B : has_action _ _ _ = Ok _ |- _ => rewrite has_action_enc in B by exact O2; apply ok_inj in B; subst end.
  grab (get_action _ _ _ = Ok _) as Bg.
  destruct (get_action_role P_SubAccount sa r SA_LEN O2 eq_refl) as (oo & G1 & G2).
  rewrite G1 in Bg. apply ok_inj in Bg. subst oo.
  assert (Hid : h_id (o_hdr v0) = s_id s) by (rewrite O4, hdr_id by exact O3; exact F2). rewrite Hid in *.
  grab (_ || _ || _ = true) as Bperm.
  grab (beq _ wallet = true) as Bw. apply beq_eq in Bw.
  grab ((16 <=? _)%nat = true) as Bn.
  destruct v4 as [srole sbump]. grab (match v3 with Some _ => _ | None => _ end = Ok _) as Bs.
  assert (HS : v1_signs E s rid r sa srole sbump).
  { destruct v3 as [off|].
    - destruct G2 as (p & G2 & G3). rewrite G3 in Bs. peel Bs. apply ok_inj, pair_equal_spec in Bs. destruct Bs as [<- <-].
      left. exists p. split; [exact G2|]. split; [apply beq_eq; assumption|]. split; [lia|]. split; [|split; [lia|reflexivity]].
      grab (negb _ = true) as Bx. apply negb_true_iff, Z.eqb_neq in Bx. exact Bx.
    - right. apply bind_ok in Bs as (u & Bs1 & Bs2). apply check_ok in Bs1. apply ok_or_ok in Bs2.
      apply find_creator_ok in Bs2 as [Bs2 Bs3]. split; [exact G2|].
      split; [unfold can_manage; cbn in Bperm; rewrite orb_false_r in Bperm; exact Bperm|].
      split; [|split; [lia|exact Bs3]]. intros Hm. rewrite Hm in Bs1. apply beq_eq in Bs1. exact Bs1. }
  cbv beta iota in H. peel H. grab (set_data _ _ _ _ = Ok _) as Bd. apply set_data_only in Bd as (D1 & _ & D3).
  rewrite O7 in D1.
  exists r, s1, srole, sbump. eexists. split; [split; [apply Nat.leb_le; exact Bn|exact O1]|]. split; [exact HS|]. split; [congruence|].
  split; [apply beq_eq; assumption|]. split; [apply beq_eq; assumption|]. split; [apply beq_eq; assumption|].
  split; [exact D1|]. split; [exact O3|]. split; [exact D3|]. cbv zeta.
  destruct (7 <=? length ms)%nat eqn:E7.
  - right. peel H. unfold cpi in H. peel H.
    split; [apply Nat.leb_le; assumption|]. split; [assumption|]. split; [apply beq_eq; assumption|].
    split; [symmetry; apply beq_eq; assumption|]. split; assumption.
  - left. peel H. apply sys_transfer_moved in H as (M1 & M2 & M3 & M4 & M5 & _). rewrite D3 in M4.
    split; [apply Nat.leb_gt; exact E7|]. split; [exact M4|]. split; assumption.
Qed.

Lemma validate_ok E w s state sa id b : validate_v2_state E w state sa (s_id s) id = Ok b ->
  v2_enabled_for E w s state sa id /\ b = v2_asset_bump (a_data (w state)).
Proof.
  unfold validate_v2_state. intros H. peel H. apply ok_inj in H.
  grab (check_v2_record _ _ _ _ = Ok _) as Bc. apply check_v2_record_ok in Bc as (C1 & C2 & C3 & C4 & C5 & C6).
  grab (check_pda _ _ _ _ = Ok _) as Bk. apply check_pda_ok in Bk. subst.
  split; [|reflexivity]. split; [apply beq_eq; assumption|]. split; [exact C2|]. split; [exact C3|]. split; [lia|].
  split; [exact C5|]. split; [reflexivity|]. split; [apply beq_eq; assumption|exact Bk].
Qed.

Ltac unpair := repeat match goal with H : (_, _) = (_, _) |- _ =>
  apply pair_equal_spec in H; let H1 := fresh in destruct H as [H1 H]; try subst end.

Lemma hdr_wbump s : wf_config s -> h_wbump (enc_header s) = s_wbump s.
Proof. intros (_ & (W2 & _) & _ & _ & W5 & _). rewrite <- (app_nil_r (enc_header s)). apply hf_wbump; assumption. Qed.

(** the state record is not the wallet's own account *)
Lemma state_not_swig E w w1 s s1 swig state sa id :
  only_data w w1 swig (enc_config s1) -> v2_enabled_for E w1 s state sa id ->
  swig <> state /\ v2_enabled_for E w s state sa id.
Proof.
  intros (D1 & D2 & D3) V. pose proof V as (_ & _ & V3 & _).
  assert (N : swig <> state) by (intros <-; rewrite D1 in V3; discriminate V3).
  split; [exact N|]. destruct (D3 state ltac:(congruence)) as [K1 K2].
  unfold v2_enabled_for in *. cbv zeta in *. rewrite K1, K2 in V. exact V.
Qed.

Lemma withdraw_v2_spec E cx w w' s :
  withdraw_v2 E cx w = Ok w' ->
  let ms := c_metas cx in let data := c_data cx in
  let swig := mkey ms 0 in let state := mkey ms 2 in let sa := mkey ms 3 in let wallet := mkey ms 4 in
  let id := u32_at 8 data in let amount := u64_at 16 data in
  a_data (w swig) = enc_config s -> wf_config s ->
  exists r s1 w1, acts_as E cx s (u32_at 4 data) 24 r s1
    /\ scoped P_SubAccountV2Withdraw id r = true
    /\ is_v2 s /\ v2_enabled_for E w s state sa id
    /\ pda E (seeds_wallet swig (s_wbump s)) = Some wallet
    /\ a_owner (w swig) = SELF /\ a_owner (w sa) = SYSTEM /\ a_owner (w wallet) = SYSTEM
    /\ only_data w w1 swig (enc_config s1) /\ wf_config s1 /\ (forall k, a_lamports (w1 k) = a_lamports (w k))
    /\ let pdas := pda_list E (seeds_v2_asset (s_id s) id (v2_asset_bump (a_data (w state)))) in
       ((length ms = 7%nat /\ amount <= a_lamports (w sa)
         /\ moved w1 w' sa wallet amount /\ (signer ms sa = true \/ In sa pdas))
        \/ (length ms = 10%nat /\ let src := mkey ms 7 in let dst := mkey ms 8 in let prog := mkey ms 9 in
            is_token_program prog = true /\ a_owner (w1 src) = prog /\ a_owner (w1 dst) = prog
            /\ sub 0 32 (a_data (w1 src)) = sub 0 32 (a_data (w1 dst))
            /\ sub 32 32 (a_data (w1 src)) = sa /\ sub 32 32 (a_data (w1 dst)) = wallet
            /\ let x := token_transfer_ix prog src dst sa amount in
               privileges_ok ms pdas x = true /\ foreign E w1 x = Ok w')).
Proof.
  intros H ms data swig state sa wallet id amount Hd W.
  unfold withdraw_v2 in H. cbv zeta in H. fold ms in H. fold swig state sa wallet data in H. fold id amount in H.
  peels H. peel H. cfg s Hd W. unpair. opening W. rewrite O8 in *.
  grab (require_swig_v2 _ = Ok _) as Bv. apply require_v2_enc in Bv; [|exact W].
  grab (authorize_scoped_v2 _ _ _ = Ok _) as Ba. apply authorize_enc in Ba; [|unfold P_SubAccountV2Withdraw; lia|exact O2].
  grab (beq _ wallet = true) as Bw. apply beq_eq in Bw. grab (pda _ (seeds_wallet _ _) = Some _) as Bp.
  rewrite hdr_wbump in Bp by exact W. rewrite Bw in Bp.
  grab (set_data _ _ _ _ = Ok _) as Bd. apply set_data_only in Bd as (D1 & _ & D3). rewrite O7 in D1.
  grab (validate_v2_state _ _ _ _ _ _ = Ok _) as Bx.
  match type of Bx with validate_v2_state _ _ _ _ (h_id (o_hdr ?o)) _ = _ =>
    assert (Hid : h_id (o_hdr o) = s_id s) by (rewrite O4, hdr_id by exact O3; exact F2); rewrite Hid in * end.
  apply validate_ok in Bx as [Bx ->]. destruct (state_not_swig _ _ _ _ _ _ _ _ _ D1 Bx) as [Hne Bx2].
  grab ((24 <=? _)%nat = true) as Bn.
  match type of D1 with only_data _ ?w1 _ _ => exists r, s1, w1;
    assert (Hrd : a_data (w1 state) = a_data (w state)) by (destruct D1 as (_ & _ & D1); apply D1; congruence) end.
  rewrite Hrd in H.
  split; [split; [apply Nat.leb_le; exact Bn|exact O1]|]. split; [exact Ba|]. split; [exact Bv|]. split; [exact Bx2|].
  split; [exact Bp|]. split; [apply beq_eq; assumption|]. split; [apply beq_eq; assumption|]. split; [apply beq_eq; assumption|].
  split; [exact D1|]. split; [exact O3|]. split; [exact D3|]. cbv zeta.
  destruct (length ms =? 10)%nat eqn:E10.
  - right. peel H. unfold cpi in H. peel H.
    grab (beq (mkey ms 9) _ = true) as Q1. apply beq_eq in Q1.
    grab (beq _ (a_owner _) = true) as Q2. apply beq_eq in Q2.
    grab (beq (sub 0 32 _) _ = true) as Q3. apply beq_eq in Q3.
    grab (beq sa _ = true) as Q4. apply beq_eq in Q4. grab (beq wallet _ = true) as Q5. apply beq_eq in Q5.
    split; [apply Nat.eqb_eq; exact E10|]. rewrite Q1. split; [assumption|]. split; [reflexivity|]. split; [congruence|].
    split; [exact Q3|]. split; [congruence|]. split; [congruence|]. rewrite <- Q1. split; assumption.
  - destruct (length ms =? 7)%nat eqn:E7; [|discriminate]. left. peel H.
    apply sys_transfer_moved in H as (M1 & M2 & M3 & M4 & M5 & _). rewrite D3 in M4.
    split; [apply Nat.eqb_eq; exact E7|]. split; [exact M4|]. split; assumption.
Qed.

(** ** Chains of calls to other programs, each satisfying [P] when made *)
Inductive calls (E : env) (P : world -> ix -> Prop) : world -> world -> Prop :=
| calls_done w : calls E P w w
| calls_step w x w1 w2 : P w x -> foreign E w x = Ok w1 -> calls E P w1 w2 -> calls E P w w2.

(** the token program is told to close [t], held by [swig] or [wallet], to [dest] *)
Definition closing (ms : list meta) (swig wallet dest prog : key) (w : world) (x : ix) : Prop :=
  exists t auth, x = token_close_ix prog t dest auth /\ In t (map m_key ms)
    /\ (auth = swig \/ auth = wallet) /\ a_owner (w t) = prog /\ sub 32 32 (a_data (w t)) = auth.

Lemma close_all_calls E ms v2 swig wallet dest prog ws ss ts w w' :
  (forall t, In t ts -> In t ms) ->
  close_all E ms v2 swig wallet dest prog ws ss ts w = Ok w' ->
  calls E (closing ms swig wallet dest prog) w w'.
Proof.
  revert w; induction ts as [|t r IH]; intros w Hin H; cbn [close_all] in H.
  - apply ok_inj in H. subst. constructor.
  - apply bind_ok in H as (w1 & H1 & H2). unfold close_one in H1. peel H1.
    grab (_ || _ = true) as Bo. grab (beq (a_owner _) prog = true) as Bp. apply beq_eq in Bp.
    assert (Hc : exists auth, closing ms swig wallet dest prog w (token_close_ix prog (m_key t) dest auth)
      /\ foreign E w (token_close_ix prog (m_key t) dest auth) = Ok w1).
    { set (auth := sub 32 32 (a_data (w (m_key t)))) in *.
      assert (Hq : (if if v2 then beq auth wallet else negb (beq auth swig) then wallet else swig) = auth).
      { destruct v2; [destruct (beq auth wallet) eqn:X|destruct (beq auth swig) eqn:X]; cbn [negb];
          try (apply beq_eq in X; congruence); cbn [orb] in Bo; try rewrite orb_false_r in Bo;
          apply beq_eq in Bo; congruence. }
      exists auth. assert (H1' : foreign E w (token_close_ix prog (m_key t) dest auth) = Ok w1).
      { destruct (if v2 then _ else _); unfold cpi in H1; peel H1; rewrite Hq in H1; exact H1. }
      split; [|exact H1']. exists (m_key t), auth. split; [reflexivity|]. split; [apply in_map, Hin; left; reflexivity|].
      split; [|split; [exact Bp|reflexivity]].
      apply orb_true_iff in Bo as [Bo|Bo]; apply beq_eq in Bo; auto. }
    destruct Hc as (auth & C1 & C2). eapply calls_step; [exact C1|exact C2|].
    apply IH; [intros t' Ht; apply Hin; right; exact Ht|exact H2].
Qed.

Lemma close_token_spec E cx w w' s :
  close_token_account_v1 E cx w = Ok w' ->
  let ms := c_metas cx in let data := c_data cx in
  let swig := mkey ms 0 in let wallet := mkey ms 1 in let dest := mkey ms 2 in let prog := mkey ms 3 in
  a_data (w swig) = enc_config s -> wf_config s ->
  exists r s1 w1, acts_as E cx s (u32_at 4 data) 8 r s1
    /\ can_close r = true
    /\ (forall k, s_claimer s = Some k -> dest = k)
    /\ wallet = fst (find_pda E (seeds_wallet0 swig))
    /\ is_token_program prog = true /\ a_owner (w swig) = SELF
    /\ only_data w w1 swig (enc_config s1) /\ wf_config s1 /\ (forall k, a_lamports (w1 k) = a_lamports (w k))
    /\ calls E (closing ms swig wallet dest prog) w1 w'.
Proof.
  intros H ms data swig wallet dest prog Hd W.
  unfold close_token_account_v1 in H. cbv zeta in H. fold ms in H. fold swig wallet dest prog data in H.
  peel H. cfg s Hd W. opening W.
  grab (may_close _ = Ok _) as Bm. rewrite O8, (may_close_enc r O2) in Bm. apply ok_inj in Bm. subst.
  grab (can_close _ = true) as Bm. grab (check_claimer _ _ = Ok _) as Bc. rewrite O6, F7 in Bc.
  grab (beq wallet _ = true) as Bw. grab ((8 <=? _)%nat = true) as Bn.
  grab (set_data _ _ _ _ = Ok _) as Bd. apply set_data_only in Bd as (D1 & _ & D3). rewrite O7 in D1.
  apply close_all_calls in H; [|intros t Ht; rewrite <- (firstn_skipn (nat_of (u16_at 2 data)) ms); apply in_or_app; right; exact Ht].
  eexists r, s1, _. split; [split; [apply Nat.leb_le; exact Bn|exact O1]|]. split; [exact Bm|].
  split; [eapply check_claimer_enc; [apply W|exact Bc]|].
  split; [apply beq_eq; exact Bw|]. split; [assumption|]. split; [apply beq_eq; assumption|].
  split; [exact D1|]. split; [exact O3|]. split; [exact D3|exact H].
Qed.

(** the token program is told to move the whole balance of [src], held by the
    wallet's old address [swig], to an account held by [wallet] *)
Definition draining (swig wallet : key) (w : world) (x : ix) : Prop :=
  exists prog src dst, x = token_transfer_ix prog src dst swig (u64_at 64 (a_data (w src)))
    /\ is_token_program prog = true
    /\ sub 32 32 (a_data (w src)) = swig /\ sub 32 32 (a_data (w dst)) = wallet.

Lemma transfer_triples_calls E ms swig wallet sig ts w w' :
  transfer_triples E ms swig wallet sig ts w = Ok w' -> calls E (draining swig wallet) w w'.
Proof.
  assert (G : forall n ts w, (length ts <= n)%nat -> transfer_triples E ms swig wallet sig ts w = Ok w' -> calls E (draining swig wallet) w w');
    [|apply (G _ _ _ (le_n _))].
  clear ts w. induction n as [|n IH]; intros ts w Hn H.
  { destruct ts; [|cbn in Hn; lia]. cbn in H. apply ok_inj in H. subst. constructor. }
  destruct ts as [|a [|b [|c r]]]; cbn [transfer_triples] in H; try (apply ok_inj in H; subst; constructor).
  apply bind_ok in H as (w1 & H1 & H2). cbn in Hn.
  assert (Hr : calls E (draining swig wallet) w1 w') by (apply (IH r); [lia|exact H2]).
  unfold transfer_one in H1.
  destruct (is_token_program (m_key c)) eqn:E1; cbn [negb] in H1; [|apply ok_inj in H1; subst; exact Hr].
  destruct (_ <? _)%nat in H1; [apply ok_inj in H1; subst; exact Hr|].
  destruct (beq _ swig) eqn:E2 in H1; cbn [negb] in H1; [|apply ok_inj in H1; subst; exact Hr].
  destruct (_ <? _)%nat in H1; [apply ok_inj in H1; subst; exact Hr|].
  destruct (beq _ wallet) eqn:E3 in H1; cbn [negb] in H1; [|apply ok_inj in H1; subst; exact Hr].
  destruct (_ =? 0) in H1; [apply ok_inj in H1; subst; exact Hr|].
  unfold cpi in H1. peel H1. apply beq_eq in E2, E3.
  eapply calls_step; [|exact H1|exact Hr]. exists (m_key c), (m_key a), (m_key b). auto.
Qed.

Lemma transfer_assets_spec E cx w w' s :
  transfer_assets_v1 E cx w = Ok w' ->
  let ms := c_metas cx in let data := c_data cx in
  let swig := mkey ms 0 in let wallet := mkey ms 1 in
  a_data (w swig) = enc_config s -> wf_config s ->
  exists r s1 w1 w2, acts_as E cx s (u32_at 4 data) 8 r s1
    /\ can_manage r = true
    /\ s_wbump s <> 0 /\ pda E (seeds_wallet swig (s_wbump s)) = Some wallet
    /\ a_owner (w swig) = SELF
    /\ only_data w w1 swig (enc_config s1) /\ wf_config s1 /\ (forall k, a_lamports (w1 k) = a_lamports (w k))
    /\ moved w1 w2 swig wallet (Z.max 0 (a_lamports (w swig) - rent E (length (enc_config s))))
    /\ calls E (draining swig wallet) w2 w'.
Proof.
  intros H ms data swig wallet Hd W.
  unfold transfer_assets_v1 in H. cbv zeta in H. fold ms in H. fold swig wallet data in H.
  peels H. peel H. cfg s Hd W. unpair. opening W.
  grab (check_pda _ _ _ _ = Ok _) as Bk. apply check_pda_ok in Bk. rewrite hdr_wbump in * by exact W.
  grab (can_manage _ = true) as Bm. grab ((8 <=? _)%nat = true) as Bn. grab (negb _ = true) as Bz.
  grab (set_data _ _ _ _ = Ok _) as Bd. apply set_data_only in Bd as (D1 & _ & D3). rewrite O7 in D1.
  apply transfer_triples_calls in H. grab (move_lamports _ _ _ _ _ = Ok _) as Bl.
  apply move_lamports_moved in Bl as [Bl _]. rewrite D3 in Bl. unfold sat_sub in Bl.
  eexists r, s1, _, _. split; [split; [apply Nat.leb_le; exact Bn|exact O1]|]. split; [exact Bm|].
  split; [apply negb_true_iff, Z.eqb_neq in Bz; exact Bz|]. split; [exact Bk|]. split; [apply beq_eq; assumption|].
  split; [exact D1|]. split; [exact O3|]. split; [exact D3|]. split; [exact Bl|exact H].
Qed.
