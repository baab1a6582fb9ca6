(** * Who does not sign loses nothing.  Proofs *)
From Verif Require Import BaseFacts SpecConfig ConfigFacts ConfigEdit ConfigEdit2 ConfigEdit3.
From Verif Require Import AuthProps HandlerRoles HandlerRoles2 HandlerSub HandlerLife HandlerV2 HandlerAssets SignSpec Spend Rent3 SpecFound.

Lemma stays_refl w k : stays w w k.
Proof. intros V L. split; [exact V|lia]. Qed.
Lemma stays_trans a b c k : stays a b k -> stays b c k -> stays a c k.
Proof. intros H1 H2 V L. destruct (H1 V L) as [V1 L1]. destruct (H2 V1) as [V2 L2]; [lia|]. split; [exact V2|lia]. Qed.
Lemma set_data_stays ms w k0 d w' k : set_data ms w k0 d = Ok w' -> stays w w' k.
Proof.
  intros H [O D] L. unfold set_data in H. destruct (beq d (a_data (w k0))); [apply ok_inj in H; subst; split; [split; assumption|lia]|].
  peel H. apply ok_inj in H. subst w'. grab (beq _ SELF = true) as Bo. apply beq_eq in Bo.
  unfold vacant. rewrite upd_other by (intros ->; rewrite O in Bo; discriminate). split; [split; assumption|lia].
Qed.
Lemma write_data_stays ms w k0 d w' k : write_data ms w k0 d = Ok w' -> stays w w' k.
Proof. unfold write_data. intros H. peel H. eapply set_data_stays; exact H. Qed.
Lemma moved_stays w w' f t amt k : moved w w' f t amt -> k <> f -> 0 <= amt -> stays w w' k.
Proof.
  intros (K & M2 & M3) Nf A [O D] L. destruct (K k) as [K1 K2]. split; [split; congruence|]. destruct (bytes_dec f t) as [Q|N]; [rewrite (M2 Q); lia|].
  destruct (M3 N) as (_ & Lt & R). destruct (bytes_dec k t) as [->|Nt]; [lia|]. rewrite R by assumption. lia.
Qed.
Lemma move_stays ms w f t amt w' k : 0 <= amt -> move_lamports ms w f t amt = Ok w' -> stays w w' k.
Proof.
  intros A H V L. pose proof H as H'. unfold move_lamports in H'.
  destruct (amt =? 0); [apply ok_inj in H'; subst; apply stays_refl; assumption|].
  destruct (beq f t); [apply ok_inj in H'; subst; apply stays_refl; assumption|]. peel H'.
  grab (beq _ SELF = true) as Bo. apply beq_eq in Bo. apply move_lamports_moved in H as (M & _).
  apply (moved_stays _ _ _ _ _ k M); try assumption. intros ->. destruct V as [V _]. rewrite V in Bo. discriminate.
Qed.
Lemma pay_out_stays ms w sw dest sl keep w' k : k <> sw -> pay_out ms w sw dest sl keep = Ok w' -> stays w w' k.
Proof.
  intros N H [O D] L. pose proof (pay_out_keeps _ _ _ _ _ _ _ H k) as [K1 K2]. apply pay_out_ok in H as (_ & _ & P1 & P2 & P3).
  split; [split; congruence|]. destruct (bytes_dec sw dest) as [Q|Q].
  - rewrite P3; [lia|exact N|congruence].
  - destruct (bytes_dec k dest) as [->|Nd]; [|rewrite P3 by assumption; lia]. destruct (P1 Q) as (_ & Ld & _). rewrite Ld. unfold sat_sub. lia.
Qed.

Section By.
Variables (E : env) (k : key).
Hypothesis (Gd : guarded E k) (Ap : no_asset E k).
Section Ms.
Variable (ms : list meta).
Hypothesis (Ns : signer ms k = false).
Lemma sys_transfer_stays ps w f t amt w' : 0 <= amt -> ~ In k ps -> sys_transfer ms ps w f t amt = Ok w' -> stays w w' k.
Proof.
  intros A N H. apply sys_transfer_moved in H as (M & _ & _ & _ & S & _). eapply moved_stays; [exact M| |exact A].
  intros ->. destruct S as [S|S]; [congruence|contradiction].
Qed.
Lemma topup_stays p k0 n w w' : rent_topup E ms w p k0 n = Ok w' -> stays w w' k.
Proof.
  unfold rent_topup. intros H. destruct (_ <? _) eqn:Q; [|apply ok_inj in H; subst; apply stays_refl].
  eapply sys_transfer_stays; [| |exact H]; [lia|intros []].
Qed.
Lemma allocate_stays ps w k0 n w' : ~ In k ps -> sys_allocate_assign ms ps w k0 n = Ok w' -> stays w w' k.
Proof.
  unfold sys_allocate_assign. intros N H [O D] L. peel H. apply ok_inj in H. subst w'.
  grab (signer _ _ || _ = true) as S. unfold vacant.
  rewrite upd_other; [split; [split; assumption|lia]|]. intros ->. rewrite Ns in S. cbn [orb] in S.
  apply existsb_exists in S as (x & I & Q). apply beq_eq in Q. subst x. contradiction.
Qed.
Lemma create_account_stays sd w f k0 amt n w' : 0 <= amt -> pda E sd = Some k0 ->
  sys_create_account ms (pda_list E sd) w f k0 amt n = Ok w' -> stays w w' k.
Proof.
  intros A P H V L. unfold sys_create_account in H. peel H.
  assert (Nk : k <> k0) by (intros ->; lia).
  assert (N : ~ In k (pda_list E sd)) by (unfold pda_list; rewrite P; intros [Q|[]]; congruence).
  grab (sys_transfer _ _ _ _ _ _ = Ok _) as Bt. apply sys_transfer_stays in Bt; [|exact A|exact N]. apply allocate_stays in H; [|exact N].
  exact (stays_trans _ _ _ _ Bt H V L).
Qed.
Lemma cpi_stays ps w x w' : (~ In k ps \/ unsigned k (ix_metas x)) -> cpi E ms ps w x = Ok w' -> stays w w' k.
Proof.
  unfold cpi. intros N H. peel H. apply (Gd _ _ _ H). destruct N as [N|N]; [|exact N]. intros m I Q. subst k.
  grab (privileges_ok _ _ _ = true) as Bp. unfold privileges_ok in Bp. rewrite forallb_forall in Bp. specialize (Bp _ I).
  apply andb_prop in Bp as [Bp _]. rewrite Ns in Bp. destruct (m_signer m); [|reflexivity]. cbn [negb orb] in Bp.
  apply existsb_exists in Bp as (y & J & Q). apply beq_eq in Q. subst y. contradiction.
Qed.
End Ms.
Lemma not_wallet s b : ~ In k (pda_list E (seeds_wallet s b)).
Proof. unfold pda_list. intros H. destruct (pda E _) eqn:Q; [|exact H]. destruct H as [->|[]]. apply (proj1 Ap _ (or_introl (ex_intro _ _ (ex_intro _ _ eq_refl))) Q). Qed.
Lemma not_sub id i b : ~ In k (pda_list E (seeds_sub id i b)).
Proof. unfold pda_list. intros H. destruct (pda E _) eqn:Q; [|exact H]. destruct H as [->|[]]. refine (proj1 Ap _ _ Q). right. left. eauto. Qed.
Lemma not_v2 id i b : ~ In k (pda_list E (seeds_v2_asset id i b)).
Proof. unfold pda_list. intros H. destruct (pda E _) eqn:Q; [|exact H]. destruct H as [->|[]]. refine (proj1 Ap _ _ Q). right. right. eauto. Qed.
Lemma not_state id i b : ~ In k (pda_list E (seeds_v2_state id i b)).
Proof. unfold pda_list. intros H. destruct (pda E _) eqn:Q; [|exact H]. destruct H as [->|[]]. exact (proj2 Ap _ _ _ Q). Qed.

Ltac not_pda := first [apply not_wallet|apply not_sub|apply not_v2|apply not_state].
Ltac by_conv :=
  repeat match goal with
  | B : (if ?b then _ else _) = Ok ?w |- _ => match type of w with world => destruct b eqn:? end
  | B : set_data _ _ _ _ = Ok _ |- _ => apply (set_data_stays _ _ _ _ _ k) in B
  | B : write_data _ _ _ _ = Ok _ |- _ => apply (write_data_stays _ _ _ _ _ k) in B
  | B : move_lamports _ _ _ _ _ = Ok _ |- _ => apply (move_stays _ _ _ _ _ _ k) in B; [|amt]
  | B : sys_transfer _ _ _ _ _ _ = Ok _ |- _ => apply sys_transfer_stays in B; [|assumption|amt|not_pda]
  | B : rent_topup _ _ _ _ _ _ = Ok _ |- _ => apply topup_stays in B; [|assumption]
  | N : k <> _, B : pay_out _ _ _ _ _ _ = Ok _ |- _ => apply (pay_out_stays _ _ _ _ _ _ _ k) in B; [|exact N]
  | B : sys_allocate_assign _ _ _ _ _ = Ok _ |- _ => apply allocate_stays in B; [|assumption|not_pda]
  | B : sys_create_account _ _ _ _ _ _ _ = Ok _ |- _ => apply create_account_stays in B; [|assumption|amt|assumption]
  | B : cpi E _ _ _ _ = Ok _ |- _ => apply cpi_stays in B; [|assumption|left; not_pda]
  | B : @Ok world ?w = Ok ?w' |- _ => apply ok_inj in B; subst
  end.
Ltac by_chain :=
  by_conv; try apply stays_refl; try assumption;
  repeat (match goal with
  | H1 : stays ?w ?w1 k, H2 : stays ?w1 ?w2 k |- _ =>
      pose proof (stays_trans _ _ _ _ H1 H2); clear H1 H2; try assumption
  end).

Section Handlers.
Variable (cx : ctx).
Hypothesis (Hb : all_bytes (c_data cx)) (Ns : signer (c_metas cx) k = false).
Notation good h := (forall w w', h E cx w = Ok w' -> stays w w' k).

Lemma create_by : good create_v1.
Proof.
  intros w w' H. unfold create_v1 in H. cbv zeta in H. open_up H.
  grab (check_pda _ (seeds_swig _ _) _ _ = Ok _) as Bk. apply check_pda_ok in Bk. by_chain.
Qed.
Lemma add_by : good add_authority_v1.
Proof. intros w w' H. unfold add_authority_v1 in H. cbv zeta in H. open_up H; by_chain. Qed.
Lemma remove_by : good remove_authority_v1.
Proof.
  intros w w' H. unfold remove_authority_v1 in H. cbv zeta in H. open_up H.
  grab ((rent _ _ <=? rent _ _) = true) as Br. by_chain.
Qed.
Lemma update_by : good update_authority_v1.
Proof. intros w w' H. unfold update_authority_v1 in H. cbv zeta in H. open_up H; by_chain. Qed.
Lemma replace_by : good replace_authority_v1.
Proof. intros w w' H. unfold replace_authority_v1 in H. cbv zeta in H. open_up H; by_chain. Qed.
Lemma session_by : good create_session_v1.
Proof. intros w w' H. unfold create_session_v1 in H. cbv zeta in H. open_up H; by_chain. Qed.
Lemma claimer_by : good set_rent_claimer_v1.
Proof. intros w w' H. unfold set_rent_claimer_v1 in H. cbv zeta in H. open_up H; by_chain. Qed.
Lemma migrate_by : good migrate_v1.
Proof. intros w w' H. unfold migrate_v1 in H. cbv zeta in H. open_up H; by_chain. Qed.
Lemma create_sub1_by : good create_sub_account_v1.
Proof. intros w w' H. unfold create_sub_account_v1 in H. cbv zeta in H. open_up H; by_chain. Qed.
Lemma toggle1_by : good toggle_sub_account_v1.
Proof. intros w w' H. unfold toggle_sub_account_v1 in H. cbv zeta in H. open_up H; by_chain. Qed.
Lemma withdraw1_by : good withdraw_v1.
Proof. intros w w' H. unfold withdraw_v1 in H. cbv zeta in H. open_up H; by_chain. Qed.
Lemma create_sub2_by : good create_sub_account_v2.
Proof. intros w w' H. unfold create_sub_account_v2 in H. cbv zeta in H. open_up H; by_chain. Qed.
Lemma toggle2_by : good toggle_sub_account_v2.
Proof. intros w w' H. unfold toggle_sub_account_v2 in H. cbv zeta in H. open_up H; by_chain. Qed.
Lemma withdraw2_by : good withdraw_v2.
Proof. intros w w' H. unfold withdraw_v2 in H. cbv zeta in H. open_up H; try discriminate H; by_chain. Qed.
Lemma owned_not w k0 : a_owner (w k0) = SELF -> vacant w k -> k <> k0.
Proof. intros O [V _] ->. rewrite O in V. discriminate. Qed.
Lemma close_by : good close_swig_v1.
Proof.
  intros w w' H V. revert V. intros V. assert (N : k <> mkey (c_metas cx) 0).
  { unfold close_swig_v1 in H. cbv zeta in H. open_up H; grab (beq _ SELF = true) as Bo; apply beq_eq in Bo; eapply owned_not; eassumption. }
  revert V. change (stays w w' k).
  unfold close_swig_v1 in H. cbv zeta in H. open_up H; by_chain.
Qed.
Lemma close_all_by ms v2 swig wallet dest prog b ss ts : signer ms k = false -> k <> swig -> forall w w',
  close_all E ms v2 swig wallet dest prog (pda_list E (seeds_wallet swig b)) ss ts w = Ok w' -> stays w w' k.
Proof.
  intros Nm N. induction ts as [|t ts IH]; intros w w' H; cbn [close_all] in H.
  - apply ok_inj in H. subst. apply stays_refl.
  - peel H. apply IH in H. unfold close_one in B. cbv zeta in B. open_up B.
    all: try (apply cpi_stays in B; [|assumption|first [left; not_pda|right; intros m [<-|[<-|[<-|[]]]] Q; try reflexivity; cbn in Q; congruence]]).
    all: by_chain.
Qed.
Lemma close_tok_by : good close_token_account_v1.
Proof.
  intros w w' H V. assert (N : k <> mkey (c_metas cx) 0).
  { unfold close_token_account_v1 in H. cbv zeta in H. open_up H; grab (beq _ SELF = true) as Bo; apply beq_eq in Bo; eapply owned_not; eassumption. }
  revert V. change (stays w w' k).
  unfold close_token_account_v1 in H. cbv zeta in H. open_up H; apply close_all_by in H; try assumption; by_chain.
Qed.
Lemma triples_by ms swig wallet sig : signer ms k = false -> k <> swig -> forall n ts w w', (length ts <= n)%nat ->
  transfer_triples E ms swig wallet sig ts w = Ok w' -> stays w w' k.
Proof.
  intros Nm N. induction n as [|n IH]; intros ts w w' L H; destruct ts as [|a [|b [|c ts]]]; cbn [transfer_triples length] in *;
    try (apply ok_inj in H; subst; apply stays_refl); try lia.
  peel H. apply IH in H; [|lia]. unfold transfer_one in B. cbv zeta in B. open_up B.
  all: try (apply cpi_stays in B; [|assumption|right; intros m [<-|[<-|[<-|[]]]] Q; try reflexivity; cbn in Q; congruence]).
  all: by_chain.
Qed.
Lemma assets_by : good transfer_assets_v1.
Proof.
  intros w w' H V. assert (N : k <> mkey (c_metas cx) 0).
  { unfold transfer_assets_v1 in H. cbv zeta in H. open_up H; grab (beq _ SELF = true) as Bo; apply beq_eq in Bo; eapply owned_not; eassumption. }
  revert V. change (stays w w' k).
  unfold transfer_assets_v1 in H. cbv zeta in H. open_up H; apply (triples_by _ _ _ _ Ns N _ _ _ _ (le_n _)) in H; by_chain.
Qed.
Lemma dispatch_by w w' : dispatch E cx w = Ok w' -> stays w w' k.
Proof.
  intros H. unfold dispatch in H. cbv zeta in H. peel H.
  repeat match type of H with (if ?b then _ else _) = _ => destruct b end; try discriminate H;
  eauto using create_by, add_by, remove_by, update_by, replace_by, session_by, claimer_by, close_by, close_tok_by, assets_by,
    migrate_by, create_sub1_by, toggle1_by, withdraw1_by, create_sub2_by, toggle2_by, withdraw2_by.
Qed.
End Handlers.

Section Run.
Variables (cx : ctx) (sk : key) (sd : list bytes).
Hypothesis (Hc : wf_ctx cx) (Hsd : asset_seeds sd) (Hh : c_height cx = 1%nat) (Ns : signer (c_metas cx) k = false).
Lemma not_asset : ~ In k (pda_list E sd).
Proof. unfold pda_list. intros H. destruct (pda E sd) eqn:Q; [|exact H]. destruct H as [->|[]]. exact (proj1 Ap _ Hsd Q). Qed.
Lemma run_inner_by w w' x : from_outer_ix (c_metas cx) sk x -> run_inner E cx sk (pda_list E sd) w (in_ix x) = Ok w' -> stays w w' k.
Proof.
  intros X H. unfold run_inner in H. bind_inv H.
  match type of K with (if ?b then _ else _) = _ => destruct b end.
  - peel K. pose proof X as (_ & _ & _ & Xb). eapply move_stays; [apply u64_ge; exact Xb|exact K].
  - unfold invoke in K. bind_inv K. pose proof B0 as Bp. apply check_ok in Bp. destruct (beq (ix_prog (in_ix x)) SELF) eqn:Qs.
    + unfold process_inner in K0. bind_inv K0. pose proof (nested_of E cx sk sd Hc Hsd Hh x X Bp Qs) as N.
      destruct N as (_ & _ & _ & _ & _ & W & _ & Sg). eapply dispatch_by; [apply W| |exact K].
      match goal with |- ?b = false => destruct b eqn:Q end; [|reflexivity]. destruct (Sg _ Q) as [S|(sd' & A & P)]; [congruence|]. destruct (proj1 Ap _ A P).
    + apply (cpi_stays (c_metas cx) Ns (pda_list E sd) w (in_ix x)); [left; apply not_asset|]. unfold cpi. rewrite Bp. exact K0.
Qed.
Lemma run_all_by xs : Forall (from_outer_ix (c_metas cx) sk) xs -> forall w w', run_all E cx sk (pda_list E sd) xs w = Ok w' -> stays w w' k.
Proof.
  induction 1 as [|x r X Xs IH]; intros w w' H; cbn [run_all] in H.
  - apply ok_inj in H. subst. apply stays_refl.
  - bind_inv H. eapply stays_trans; [eapply run_inner_by; eassumption|]. apply IH. exact K.
Qed.
Lemma limited_by swig off len pall cur xs : Forall (from_outer_ix (c_metas cx) sk) xs -> forall w w' sol sol' cs cs',
  limited_loop E cx swig sk (pda_list E sd) off len pall cur xs w sol cs = Ok (w', sol', cs') -> stays w w' k.
Proof.
  induction 1 as [|x r X Xs IH]; intros w w' sol sol' cs cs' H; cbn [limited_loop] in H.
  - apply ok_inj in H. injection H as <- <- <-. apply stays_refl.
  - bind_inv H. bind_inv K. bind_inv K0. eapply stays_trans; [eapply run_inner_by; eassumption|]. eapply IH. exact K.
Qed.
End Run.

Section Call.
Variables (cx : ctx) (w w' : world).
Hypothesis (Hc : wf_ctx cx) (G : good_world E w) (Ns : signer (c_metas cx) k = false).
Notation ms := (c_metas cx).
Notation swig := (mkey (c_metas cx) 0).
Lemma use_by w0 d : a_owner (w swig) = SELF -> only_data w w0 swig d -> (forall k, a_lamports (w0 k) = a_lamports (w k)) -> stays w w0 k.
Proof.
  intros O (_ & _ & D3) L V Lm. rewrite L. split; [|lia]. assert (N : k <> swig) by (intros Q; destruct V as [V _]; rewrite <- Q, V in O; discriminate). destruct (D3 k N). destruct V. split; congruence.
Qed.
Lemma sign_v2_by cs : classify_all w ms = Ok cs -> tag (c_data cx) = 11 -> sign_v2 E cx cs w = Ok w' -> stays w w' k.
Proof.
  intros Cs Ht H. pose proof (classify_all_ok _ _ _ Cs) as (S1 & S2 & S3).
  assert (Hs : exists s, is_cfg (w swig) s).
  { apply (is_config_good E); [exact G|]. apply S3. unfold sign_v2 in H. cbv zeta in H. peel H. assumption. }
  destruct Hs as (s & C).
  destruct (sign_v2_spec _ _ _ _ _ _ Hc C Ht H) as (r & s1 & w0 & xs & A & Wr & W1 & D0 & L0 & Hh & N0 & N1 & Px & Cases). clear H.
  pose proof (parse_all_ok _ _ _ _ (sub_all_bytes_signed _ Hc) Px) as [Fx Lx].
  assert (Sd : asset_seeds (seeds_wallet swig (s_wbump s))) by (left; eauto).
  eapply stays_trans; [eapply use_by; [apply C|exact D0|exact L0]|].
  destruct Cases as [(U & Hrun)|(U & p & r1 & snaps & w1 & sol & cs1 & acts' & Hp & Ra & In & Sn & Lo & St & Fin)].
  - eapply run_all_by; eassumption.
  - eapply stays_trans; [eapply limited_by; eassumption|]. eapply set_data_stays. exact Fin.
Qed.
Lemma sub_sign_v1_by : tag (c_data cx) = 9 -> sub_account_sign_v1 E cx w = Ok w' -> stays w w' k.
Proof.
  intros Ht H. assert (Hs : exists s, is_cfg (w swig) s) by (unfold sub_account_sign_v1 in H; has_cfg E G H). destruct Hs as (s & C).
  destruct (sub_sign_v1_spec _ _ _ _ _ Hc C Ht H) as (r & s1 & p & w0 & xs & A & Wr & W1 & D0 & L0 & Hh & Os & _ & _ & _ & _ & Px & Hrun & _).
  pose proof (parse_all_ok _ _ _ _ (sub_all_bytes_signed _ Hc) Px) as [Fx Lx].
  eapply stays_trans; [eapply use_by; [apply C|exact D0|exact L0]|].
  eapply run_all_by; try eassumption. right. left. eauto.
Qed.
Lemma sub_sign_v2_by : tag (c_data cx) = 20 -> sub_account_sign_v2 E cx w = Ok w' -> stays w w' k.
Proof.
  intros Ht H. assert (Hs : exists s, is_cfg (w swig) s) by (unfold sub_account_sign_v2 in H; has_cfg E G H). destruct Hs as (s & C).
  destruct (sub_sign_v2_spec _ _ _ _ _ Hc C Ht H) as (r & s1 & w0 & xs & A & Wr & W1 & D0 & L0 & Hh & Os & _ & _ & _ & Px & Hrun & _).
  pose proof Hc as [Hb _].
  pose proof (parse_all_ok _ _ _ _ (all_bytes_sub _ _ _ Hb) Px) as [Fx Lx].
  eapply stays_trans; [eapply use_by; [apply C|exact D0|exact L0]|].
  eapply run_all_by; try eassumption. right. right. eauto.
Qed.
Lemma process_by : process E cx w = Ok w' -> stays w w' k.
Proof.
  intros H. unfold process in H. bind_inv H. peel K. destruct (_ =? 11) eqn:T11.
  { apply Z.eqb_eq in T11. eapply sign_v2_by; eassumption. }
  destruct (_ =? 9) eqn:T9.
  { apply Z.eqb_eq in T9. eapply sub_sign_v1_by; eassumption. }
  destruct (_ =? 20) eqn:T20.
  { apply Z.eqb_eq in T20. eapply sub_sign_v2_by; eassumption. }
  eapply dispatch_by; try eassumption. apply Hc.
Qed.
End Call.

Lemma unsigned_signer ms : unsigned k ms -> signer ms k = false.
Proof.
  intros U. unfold signer. destruct (existsb _ ms) eqn:Q; [|reflexivity]. apply existsb_exists in Q as (m & I & Q).
  apply andb_prop in Q as [Q1 Q2]. apply beq_eq in Q1. rewrite (U _ I Q1) in Q2. discriminate.
Qed.
Lemma unsigned_reach w w' : unsigned_history E k w w' -> reach E w w'.
Proof. induction 1; [constructor|]. apply reach_event; assumption. Qed.
Theorem bystander w w' : foreign_ok E -> good_world E w -> unsigned_history E k w w' -> stays w w' k.
Proof.
  intros F G. induction 1 as [|w1 e R IH A U]; [apply stays_refl|]. eapply stays_trans; [exact IH|].
  assert (G1 : good_world E w1) by (eapply reach_good; [exact F|exact G|apply unsigned_reach; exact R]). destruct e as [cx|x]; cbn [step unsigned_event] in *.
  - destruct A as (A1 & A2 & A3 & A4). destruct (process E cx w1) as [w'| |] eqn:Q; try apply stays_refl.
    eapply process_by; try eassumption. apply unsigned_signer. exact U.
  - destruct (foreign E w1 x) as [w'| |] eqn:Q; try apply stays_refl. eapply Gd; eassumption.
Qed.
End By.

(** ** An address that holds lamports is no place for a new wallet *)
Theorem create_empty E cx w w' : wf_ctx cx -> succeeds E cx w w' -> auth_layout (c_data cx) = None -> a_lamports (w (acct cx 0)) = 0.
Proof.
  intros Hc P Ht. apply none_create in P; [|exact Ht].
  destruct (create_v1_spec _ _ _ _ Hc P) as (nr & _ & _ & _ & _ & _ & _ & _ & _ & _ & _ & _ & L & _). exact L.
Qed.
Theorem squatted E k w w' cx w'' : foreign_ok E -> good_world E w -> guarded E k -> no_asset E k ->
  vacant w k -> 0 < a_lamports (w k) -> unsigned_history E k w w' ->
  wf_ctx cx -> acct cx 0 = k -> auth_layout (c_data cx) = None -> ~ succeeds E cx w' w''.
Proof.
  intros F G Gd Ap V L R Hc Q T S. destruct (bystander E k Gd Ap w w' F G R V L) as [V' L'].
  pose proof (create_empty _ _ _ _ Hc S T) as Z. rewrite Q in Z. lia.
Qed.
