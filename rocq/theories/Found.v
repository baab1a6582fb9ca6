(** * Creating a wallet succeeds *)
From Verif Require Import BaseFacts SpecConfig ConfigFacts ConfigEdit NewCredential ConfigEdit2 ConfigEdit3.
From Verif Require Import Frame HandlerRoles HandlerRoles2 HandlerAssets HandlerLife Actors ConfigProps AuthFacts SpecAvail Avail Avail2 Avail3 Avail4.
From Verif Require Import SpecRent SignProcess SignSpec Parse SpecSign SpecClient SpecWorks LifeProps SpecFound.

Lemma classify_none w k0 k1 wal i k : a_owner (w k0) <> SELF -> a_owner (w k) <> SELF -> a_owner (w k) <> STAKING ->
  can (classify w None k0 k1 wal i k).
Proof.
  intros A B C. unfold classify. cbv zeta. apply beq_neq in B, C. rewrite B, C.
  destruct (_ && _); [apply can_ok|]. destruct (_ && _); [destruct (_ || _); apply can_ok|].
  destruct (_ =? _)%nat; apply can_ok.
Qed.
Lemma classify_none_all w ms : (1 <= length ms <= 254)%nat ->
  (forall m, In m ms -> a_owner (w (m_key m)) <> SELF /\ a_owner (w (m_key m)) <> STAKING) -> can (classify_all w ms).
Proof.
  intros L A. unfold classify_all, MAX_ACCOUNTS. apply can_check; [lia|]. apply can_check; [lia|]. cbv zeta.
  assert (O : a_owner (w (mkey ms 0)) <> SELF).
  { destruct ms as [|m t]; [cbn in L; lia|]. apply A. left. reflexivity. }
  assert (Q : is_config w (mkey ms 0) = false) by (unfold is_config; apply beq_neq in O; rewrite O; reflexivity).
  rewrite Q. set (k0 := mkey ms 0) in *. set (k1 := mkey ms 1). clearbody k0 k1. clear L Q.
  generalize 0%nat, false. induction ms as [|m t IH]; intros i b; cbn [classify_from]; [apply can_ok|].
  destruct (A m (or_introl eq_refl)) as [A1 A2].
  apply can_then; [apply classify_none; assumption|]. intros c _.
  apply can_then; [apply IH; intros m' I; apply A; right; exact I|]. intros; apply can_ok.
Qed.

Lemma find_action_can l ty : action_len ty = Some 0%nat -> Forall wf_action l -> Z.of_nat (acts_len l) < U32 ->
  find_action ty (enc_actions 0 l) = Ok (existsb (fun a => ac_ty a =? ty) l).
Proof.
  intros Z0 W S. unfold find_action. pose proof (enc_actions_length 0 l) as HL. pose proof (acts_len_ge l).
  apply find_action_at; [exact Z0|exact W| |lia|lia|lia].
  pose proof (actions_at_app 0 0 [] l [] eq_refl) as A. rewrite app_nil_r in A. exact A.
Qed.

Lemma order_found d id b wb ty c l : order_of d = Some (Found id b wb ty c l) -> tag d = 0 /\ id = sub 8 32 d /\ b = byte_at 6 d
  /\ wb = byte_at 7 d /\ ty = u16_at 2 d /\ c = sub 40 (nat_of (u16_at 4 d)) d /\ l = skipn (40 + nat_of (u16_at 4 d)) d.
Proof. intros H. read_order H. subst. split; [exact Q|]. repeat (split; [reflexivity|]). reflexivity. Qed.

Lemma transfer_can ms ps w f t amt : signer ms f = true \/ In f ps -> writable ms f = true -> writable ms t = true -> can_pay w f amt -> f <> t ->
  a_lamports (w t) + amt < U64 -> exists w', sys_transfer ms ps w f t amt = Ok w' /\ handed f t amt w w'.
Proof.
  intros Sg Wf Wt (O & D & A) N U. unfold sys_transfer.
  assert (X : signer ms f || existsb (beq f) ps = true).
  { destruct Sg as [-> | I]; [reflexivity|]. apply orb_true_iff. right. apply existsb_exists. exists f. split; [exact I|apply beq_refl]. }
  rewrite X, Wf, Wt, O, D, beq_refl. cbn [andb check bind length Nat.eqb].
  replace (amt <=? a_lamports (w f)) with true by lia. cbn [check bind].
  pose proof N as N'. apply beq_neq in N'. rewrite N'.
  replace (a_lamports (w t) + amt <? U64) with true by lia. cbn [check bind]. eexists. split; [reflexivity|].
  split; [rewrite upd_other by exact N; rewrite upd_same; reflexivity|].
  split; [rewrite upd_same; reflexivity|].
  split; [intros k K1 K2; rewrite !upd_other by congruence; reflexivity|].
  intros k. destruct (beq k t) eqn:K2; [apply beq_eq in K2; subst k; rewrite upd_same; cbn; split; reflexivity|]. rewrite upd_other by (apply beq_neq; exact K2).
  destruct (beq k f) eqn:K1; [apply beq_eq in K1; subst k; rewrite upd_same; cbn; rewrite O, D; split; reflexivity|]. rewrite upd_other by (apply beq_neq; exact K1). split; reflexivity.
Qed.

Lemma empty_wf id b wb : wf_key id -> is_byte b -> is_byte wb -> wf_config (empty_config id b wb).
Proof.
  intros [Lid Aid] B WB. unfold wf_config, ids. cbn [empty_config s_bump s_id s_roles s_counter s_wbump s_pad s_subctr s_claimer].
  split; [exact B|]. split; [split; assumption|]. split; [unfold is_u32, U32; lia|].
  split; [exact WB|]. split; [reflexivity|]. split; [apply all_bytes_zeros|].
  split; [unfold is_u32, U32; lia|]. split; [constructor|]. split; [constructor|]. split; [intros i []|].
  split; [cbn; lia|]. split; [|congruence].
  unfold enc_config. cbn [empty_config s_roles s_claimer enc_roles enc_claimer app]. rewrite app_nil_r.
  rewrite enc_header_length by (try exact Lid; reflexivity). unfold HDR. lia.
Qed.
Lemma founded_add id b wb ty c l : founded id b wb ty c l = add_to (empty_config id b wb) (new_role (empty_config id b wb) ty c l).
Proof. reflexivity. Qed.

Section FoundIt.
Variables (E : env) (cx : ctx) (w : world) (id : bytes) (b wb ty : Z) (c : bytes) (l : list action).
Notation k := (acct cx 0).
Notation payer := (acct cx 1).
Notation wal := (acct cx 2).
Notation ms := (c_metas cx).
Notation s := (founded id b wb ty c l).
Notation size := (length (enc_config s)).
Hypothesis (Wc : wf_ctx cx) (A : founding_accounts cx w) (V0 : vacant w k) (V2 : vacant w wal)
  (Z0 : a_lamports (w k) = 0) (Z2 : 0 <= a_lamports (w wal))
  (P0 : pda E (seeds_swig id b) = Some k) (P2 : pda E (seeds_wallet k wb) = Some wal)
  (Od : order_of (c_data cx) = Some (Found id b wb ty c (enc_actions 0 l)))
  (Cr : credential_ok ty c) (Wl : wf_actions l) (Ul : Forall unspent l)
  (M : exists a, In a l /\ (ac_ty a = 7 \/ ac_ty a = 8))
  (Sz : Z.of_nat size <= 10240) (R1 : 0 <= rent E size < U64) (R0 : rent E 0 < U64)
  (Pay : can_pay w payer (rent E size + missing E w wal 0)).

Lemma pda_listed sd k0 : pda E sd = Some k0 -> In k0 (pda_list E sd).
Proof. intros H. unfold pda_list. rewrite H. left. reflexivity. Qed.

Theorem found_asked : exists w', succeeds E cx w w' /\ settled E w w' k payer wal s.
Proof.
  unfold settled. cbv zeta.
  apply order_found in Od as (T & D1 & D2 & D3 & D4 & D5 & D6). set (alen := nat_of (u16_at 4 (c_data cx))) in *.
  destruct A as (A1 & A2 & A3 & A4 & A5 & A6 & A7). pose proof Wl as (Wl1 & Wl2 & Wl3).
  destruct V0 as [V0o V0d], V2 as [V2o V2d].
  assert (N12 : k <> payer /\ k <> wal /\ payer <> wal).
  { apply NoDup_cons_iff in A2 as [X Y]. apply NoDup_cons_iff in Y as [Y _]. cbn [In] in X, Y. repeat split; intros Q; [apply X|apply X|apply Y]; auto. }
  destruct N12 as (N1 & N2 & N3).
  assert (Ld : (40 + alen < length (c_data cx))%nat).
  { destruct (Nat.lt_ge_cases (40 + alen) (length (c_data cx))) as [X|X]; [exact X|]. rewrite skipn_all2 in D6 by exact X.
    pose proof (enc_actions_length 0 l) as Q. rewrite D6 in Q. pose proof (acts_len_ge l). cbn in Q. lia. }
  assert (Kid : wf_key id) by (rewrite D1; split; [apply sub_length; lia|apply all_bytes_sub, Wc]).
  assert (Bb : is_byte b) by (rewrite D2; apply bytes_ge0; apply Wc).
  assert (Bw : is_byte wb) by (rewrite D3; apply bytes_ge0; apply Wc).
  pose proof (empty_wf id b wb Kid Bb Bw) as W0. set (s0 := empty_config id b wb) in *.
  assert (Bc : all_bytes c) by (rewrite D5; apply all_bytes_sub, Wc).
  assert (Wn : wf_role (new_role s0 ty c l)) by (apply new_role_wf; assumption).
  pose proof Sz as Sz'. pose proof R1 as R1'. pose proof Pay as Pay'.
  rewrite founded_add in Sz', R1', Pay' |- *. fold s0 in Sz', R1', Pay' |- *. set (nr := new_role s0 ty c l) in *.
  pose proof (grown_size s0 nr W0 Wn) as Gs.
  assert (L0 : length (enc_config s0) = HDR).
  { unfold enc_config, s0. cbn [empty_config s_roles s_claimer enc_roles enc_claimer app]. rewrite app_nil_r.
    apply enc_header_length; [apply Kid|reflexivity]. }
  rewrite L0 in Gs. cbn [nr new_role r_auth r_acts] in Gs.
  pose proof (grown s0 nr W0 Wn) as Gr. rewrite L0 in Gr.
  assert (Lal : Z.of_nat (acts_len l) < 10240).
  { unfold role_len in Gr. cbn [nr new_role r_acts] in Gr. unfold HDR in Gr. lia. }
  set (n := length (enc_config (add_to s0 nr))) in *.
  pose proof (credential_type _ _ Cr) as [Ct _].
  (* the two payments *)
  destruct Pay' as (Po & Pd & Pl). assert (Mi : 0 <= missing E w wal 0) by (unfold missing; lia).
  destruct (transfer_can ms (pda_list E (seeds_swig id b)) w payer k (rent E n)) as (w1 & T1 & H1); auto.
  { split; [exact Po|]. split; [exact Pd|lia]. } { rewrite Z0. lia. }
  destruct H1 as (H1a & H1b & H1c & H1d).
  set (w2 := upd w1 k (mk_account (a_lamports (w1 k)) SELF (zeros n))).
  assert (C1 : sys_create_account ms (pda_list E (seeds_swig id b)) w payer k (sat_sub (rent E n) (a_lamports (w k))) n = Ok w2).
  { unfold sys_create_account. pose proof (pda_listed _ _ P0) as I.
    assert (X : signer ms k || existsb (beq k) (pda_list E (seeds_swig id b)) = true).
    { apply orb_true_iff. right. apply existsb_exists. exists k. split; [exact I|apply beq_refl]. }
    rewrite X, Z0, V0o, V0d, beq_refl. cbn [Z.eqb check bind length Nat.eqb].
    replace (Z.of_nat n <=? 10240) with true by lia. cbn [check bind].
    replace (sat_sub (rent E n) 0) with (rent E n) by (unfold sat_sub; lia). rewrite T1. cbn [bind].
    unfold sys_allocate_assign. destruct (H1d k) as [Q1 Q2]. rewrite X, A3, Q1, Q2, V0o, V0d, beq_refl. cbn [check bind length Nat.eqb].
    replace (Z.of_nat n <=? 10240) with true by lia. reflexivity. }
  assert (T2 : exists w3, rent_topup E ms w2 payer wal 0 = Ok w3 /\ handed payer wal (missing E w wal 0) w2 w3).
  { assert (Q2 : a_lamports (w2 wal) = a_lamports (w wal)) by (unfold w2; rewrite upd_other by congruence; apply H1c; congruence).
    unfold rent_topup. rewrite Q2. destruct (a_lamports (w wal) <? rent E 0) eqn:Q.
    - replace (rent E 0 - a_lamports (w wal)) with (missing E w wal 0) by (unfold missing; lia).
      apply transfer_can; auto; [|rewrite Q2; unfold missing; lia].
      unfold can_pay, w2. rewrite upd_other by congruence. destruct (H1d payer) as [X Y]. rewrite X, Y, H1a. repeat split; try assumption. lia.
    - exists w2. split; [reflexivity|]. replace (missing E w wal 0) with 0 by (unfold missing; lia).
      unfold handed. rewrite Z.sub_0_r, Z.add_0_r. repeat split. }
  destruct T2 as (w3 & T2 & H2a & H2b & H2c & H2d).
  assert (Dk : a_data (w3 k) = zeros n /\ a_owner (w3 k) = SELF).
  { destruct (H2d k) as [X Y]. rewrite X, Y. unfold w2. rewrite upd_same. split; reflexivity. }
  destruct Dk as [Dk Ok3].
  assert (Ar : can (add_role (enc_header s0) (skipn HDR (zeros n)) ty c (enc_actions 0 l))).
  { replace (skipn HDR (zeros n)) with (enc_roles 0 (s_roles s0) ++ zeros (n - HDR)) by (cbn [s0 empty_config s_roles enc_roles app]; rewrite skipn_zeros; reflexivity).
    apply (add_role_can s0 (zeros (n - HDR)) ty c _ l (length (new_credential ty c))); try assumption.
    - constructor.
    - apply Kid.
    - reflexivity.
    - unfold is_u32, U32. cbn. lia.
    - cbn. lia.
    - cbn [s0 empty_config s_roles roles_size]. rewrite zeros_length. unfold U32. lia.
    - apply cred_size. exact Cr.
    - apply parses_enc. exact Wl2.
    - apply unspent_laid_out; assumption.
    - rewrite zeros_length, Gr. unfold role_len. cbn [nr new_role r_auth r_acts]. lia. }
  destruct Ar as [[h bb] Ar].
  destruct (set_can_data ms w3 k (h ++ bb)) as [w' Sd]; [exact A3|exact Ok3|].
  assert (Hn : create_v1 E cx w = Ok w').
  { unfold create_v1. cbv zeta. change (mkey ms 0) with k. change (mkey ms 1) with payer. change (mkey ms 2) with wal.
    fold alen. rewrite <- D1, <- D2, <- D3, <- D4, <- D5, <- D6.
    unfold need. replace (4 <=? length ms)%nat with true by lia. cbn [check bind].
    unfold owned_by, no_data. rewrite V0o, V0d, V2o, V2d, beq_refl. cbn [check bind length Nat.eqb].
    replace (40 <=? length (c_data cx))%nat with true by lia. replace (40 + alen <=? length (c_data cx))%nat with true by lia. cbn [check bind].
    unfold check_pda. rewrite P0, P2. cbn [ok_or bind]. rewrite !beq_refl. cbn [check bind].
    rewrite !find_action_can by (try reflexivity; try assumption; unfold U32; lia). cbn [bind].
    assert (Q : existsb (fun a => ac_ty a =? P_ManageAuthority) l || existsb (fun a => ac_ty a =? P_All) l = true).
    { destruct M as (a & I & [Q|Q]); apply orb_true_iff; [right|left]; apply existsb_exists; exists a; rewrite Q; split; auto. }
    rewrite Q, Ct. cbn [check bind]. rewrite (cred_size _ _ Cr). cbn [ok_or bind].
    rewrite !Nat.add_assoc in Gs. rewrite Gs. fold n. rewrite C1. cbn [bind]. rewrite T2. cbn [bind]. rewrite Dk.
    rewrite new_header_enc. fold s0. rewrite Ar. exact Sd. }
  exists w'. split; [|].
  - unfold succeeds, process. destruct (classify_none_all w ms) as [cs Hc]; [lia|exact A7|].
    rewrite Hc. cbn [bind]. replace (2 <=? length (c_data cx))%nat with true by lia. cbn [check bind].
    change (u16_at 0 (c_data cx)) with (tag (c_data cx)). rewrite T. cbn [Z.eqb].
    unfold dispatch. replace (2 <=? length (c_data cx))%nat with true by lia. cbn [check bind].
    change (u16_at 0 (c_data cx)) with (tag (c_data cx)). rewrite T. exact Hn.
  - destruct (create_v1_spec _ _ _ _ Wc Hn) as (nr1 & Wf & B1 & B2 & B3 & B4 & B5 & _ & _ & _ & _ & _ & _ & _ & _ & B6 & B7 & _).
    change (mkey ms 0) with k in B6, B7. fold alen in B3, B5. rewrite <- D1, <- D2, <- D3 in B7, Wf. rewrite <- D4 in B2. rewrite <- D5 in B3. rewrite <- D6 in B5.
    assert (r_acts nr1 = l) by (eapply parses_det; [exact B5|apply parses_enc; exact Wl2]).
    assert (nr1 = nr) as -> by (apply role_eta; try assumption; rewrite B2 in B3; exact B3).
    split; [split; [exact B6|split; [exact B7|exact Wf]]|].
    assert (Sl : forall k', a_lamports (w' k') = a_lamports (w3 k') /\ (k' <> k -> a_owner (w' k') = a_owner (w3 k') /\ a_data (w' k') = a_data (w3 k'))).
    { unfold set_data in Sd. destruct (beq (h ++ bb) (a_data (w3 k))); [injection Sd as <-; intros; auto|].
      rewrite A3, Ok3, beq_refl in Sd. cbn [check bind] in Sd. injection Sd as <-. intros k'.
      destruct (beq k' k) eqn:Q; [apply beq_eq in Q; subst k'; rewrite upd_same; split; [reflexivity|congruence]|].
      apply beq_neq in Q. rewrite upd_other by exact Q. auto. }
    assert (S2 : forall k', k' <> k -> w2 k' = w1 k') by (intros k' Q; unfold w2; apply upd_other; exact Q).
    split. { rewrite (proj1 (Sl k)), H2c by congruence. unfold w2. rewrite upd_same. cbn [a_lamports]. rewrite H1b, Z0. lia. }
    split. { rewrite (proj1 (Sl wal)), H2b, S2, H1c by congruence. reflexivity. }
    split. { rewrite (proj1 (Sl payer)), H2a, S2, H1a by congruence. reflexivity. }
    intros k' Nk. destruct (Sl k') as [Q1 Q2]. destruct (Q2 Nk) as [Q3 Q4]. destruct (H2d k') as [Q5 Q6]. destruct (H1d k') as [Q7 Q8].
    rewrite Q3, Q4, Q5, Q6, S2, Q7, Q8 by exact Nk. split; [reflexivity|]. split; [reflexivity|].
    intros K1 K2. rewrite Q1, H2c, S2, H1c by congruence. reflexivity.
Qed.
End FoundIt.
