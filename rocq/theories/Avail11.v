(** * Which calls succeed: sub-accounts of the first version *)
From Verif Require Import BaseFacts SpecConfig ConfigFacts ConfigEdit NewCredential ConfigEdit2 ConfigEdit3.
From Verif Require Import Frame HandlerRoles HandlerRoles2 HandlerAssets HandlerSub HandlerV2 HandlerLife LifeProps Actors ConfigProps AuthFacts SpecAvail Avail Avail2 Avail3.
From Verif Require Import SpecRent SignProcess SignSpec Parse SpecSign SpecClient SpecWorks Avail4 AllRun Avail5 ConfigCan Avail8 SpecSub2 Avail9 Avail10 SpecSub1.

Lemma order_create1 d b : order_of d = Some (CreateSub b) -> tag d = 6 /\ b = byte_at 8 d.
Proof. intros H. read_order H. subst. auto. Qed.
Lemma order_withdraw1 d n : order_of d = Some (WithdrawSub n) -> tag d = 7 /\ n = u64_at 8 d.
Proof. intros H. read_order H. subst. auto. Qed.
Lemma order_sign1 d p : order_of d = Some (SignSub p) -> tag d = 9 /\ p = sub 16 (arg_len d) d.
Proof. intros H. read_order H. subst. auto. Qed.
Lemma order_toggle1 d i on : order_of d = Some (ToggleSub i on) -> tag d = 10 /\ i = u32_at 8 d /\ on = byte_at 2 d.
Proof. intros H. read_order H. subst. auto. Qed.

(** The query of a lookup: an address, or nothing for an unused permission *)
Definition asked_for (q sa : bytes) : Prop := (q = [] /\ sa = zeros 32) \/ (q = sa /\ length sa = 32%nat).
Lemma sub_match q sa d : asked_for q sa -> action_matches P_SubAccount q d = beq (sub 0 32 d) sa.
Proof.
  intros [[-> ->]|[-> L]]; [reflexivity|]. unfold action_matches. change (P_SubAccount =? _) with false at 1.
  destruct sa as [|b t]; [discriminate L|]. cbn [Z.eqb]. 
  change (((length (b :: t) =? 32)%nat && beq (sub 0 32 d) (b :: t)) = beq (sub 0 32 d) (b :: t)). rewrite L. reflexivity.
Qed.
Lemma perm_found r q sa l1 d l2 p' : asked_for q sa -> sub_perm r sa l1 d l2 ->
  first_of P_SubAccount q (r_acts r) = Some d /\ set_first P_SubAccount q p' (r_acts r) = l1 ++ mk_action 9 p' :: l2
  /\ exists off, act_pos P_SubAccount q 0 (r_acts r) = Some off.
Proof.
  intros A (E1 & E2 & E3).
  destruct (set_first_split P_SubAccount q p' l1 (mk_action 9 d) l2) as [X1 X2]; [reflexivity| | |].
  - rewrite (sub_match _ _ _ A). apply beq_eq. exact E2.
  - intros x I. destruct (ac_ty x =? P_SubAccount) eqn:T; [|reflexivity]. apply Z.eqb_eq in T. rewrite (sub_match _ _ _ A).
    apply beq_neq. apply E3; assumption.
  - rewrite <- E1 in X1, X2. split; [exact X2|]. split; [exact X1|].
    destruct (act_pos _ _ _ _) as [off|] eqn:Q; [eauto|]. apply first_of_none in Q. congruence.
Qed.
Lemma perm_absent r sa : length sa = 32%nat -> no_sub_perm r sa -> first_of P_SubAccount sa (r_acts r) = None.
Proof.
  intros L N. unfold no_sub_perm in N. induction (r_acts r) as [|a t IH]; [reflexivity|]. cbn [first_of].
  rewrite (sub_match sa sa) by (right; auto).
  destruct (ac_ty a =? P_SubAccount) eqn:T; cbn [andb].
  - apply Z.eqb_eq in T. replace (beq (sub 0 32 (ac_data a)) sa) with false by (symmetry; apply beq_neq; apply N; [left; reflexivity|exact T]).
    apply IH. intros p I. apply N. right; exact I.
  - apply IH. intros p I. apply N. right; exact I.
Qed.
Lemma perm_got r sa l1 d l2 : wf_role r -> length sa = 32%nat -> sub_perm r sa l1 d l2 ->
  exists off, get_action P_SubAccount sa (enc_actions 0 (r_acts r)) = Ok (Some off) /\ sub off SA_LEN (enc_actions 0 (r_acts r)) = d.
Proof.
  intros W L P. destruct (perm_found r sa sa l1 d l2 [] ltac:(right; auto) P) as (F & _).
  destruct (get_action_role P_SubAccount sa r SA_LEN W eq_refl) as (o & G1 & G2). destruct o as [off|]; [|congruence].
  destruct G2 as (d' & G2 & G3). exists off. split; [exact G1|]. congruence.
Qed.
Lemma switched_splice on d : splice 33 [on] d = switched on d.
Proof. reflexivity. Qed.

Ltac opened W Fr Q3 Ho r1 s0 :=
  apply open_role_enc in Ho as (r1 & s0 & (O1 & au' & O1' & O1s) & O2 & W1 & O4 & O5 & O6 & O7 & O8 & O9 & O10); [|exact W];
  rewrite Fr in O1; injection O1 as <-; let X := fresh in pose proof (eq_trans (eq_sym Q3) O1') as X; injection X as <-.

Theorem create1_asked E cx w s r b l1 d l2 : wf_ctx cx -> is_cfg (w (acct cx 0)) s -> usual_accounts 4 cx w s -> 
  In r (s_roles s) -> sub_perm r (zeros 32) l1 d l2 -> asks E cx r (CreateSub b) ->
  let swig := acct cx 0 in let payer := acct cx 1 in let sa := acct cx 2 in
  pda E (seeds_sub (s_id s) (r_id r) b) = Some sa -> a_owner (w sa) = SYSTEM -> payer <> sa ->
  writable (c_metas cx) sa = true -> signer (c_metas cx) payer = true -> writable (c_metas cx) payer = true ->
  0 <= a_lamports (w sa) -> rent E 0 < U64 -> can_pay w payer (lack E w sa 0) ->
  exists w', succeeds E cx w w'
    /\ is_cfg (w' swig) (permissions (r_id r) (l1 ++ mk_action 9 (sub_v1 sa b 1 (sub 34 2 d) (r_id r) (s_id s)) :: l2) (used (r_id r) s))
    /\ a_lamports (w' payer) = a_lamports (w payer) - lack E w sa 0 /\ a_lamports (w' sa) = a_lamports (w sa) + lack E w sa 0
    /\ forall k, k <> swig -> kept_acct (w k) (w' k).
Proof.
  intros Wc C (A1 & A2 & A3) I M (Q1 & Q2 & a & Q3) swig payer sa P1 So N1 Ws Sp Wp Lp Rn Py.
  pose proof C as (O & Dd & W). fold swig in C, O, Dd, A2. 
  assert (Fr : find_role (r_id r) s = Some r) by (apply find_role_mine; [exact W|exact I]).
  apply order_create1 in Q2 as (T & T1). laid T Q1 Q3. rewrite ?Nat.sub_0_r in Q3.
  pose proof (payload_there _ _ _ _ _ _ _ _ Q3) as L.
  pose proof (fun x => perm_found r [] (zeros 32) l1 d l2 x ltac:(left; auto) M) as F. destruct (F []) as (F1 & _ & off & F3).
  assert (Ne : swig <> sa) by (intros Q; rewrite <- Q, O in So; discriminate So).
  assert (Hn : ends (fun w' => exists w1, rent_topup E (c_metas cx) w payer sa 0 = Ok w1 /\ (forall k, a_lamports (w' k) = a_lamports (w1 k))) (create_sub_account_v1 E cx w)).
  { unfold create_sub_account_v1. cbv zeta. unfold need. apply ends_check; [lia|]. change (mkey (c_metas cx) 0) with swig.
    change (mkey (c_metas cx) 1) with payer. change (mkey (c_metas cx) 2) with sa. 
    unfold owned_by. apply ends_check; [rewrite O; apply beq_refl|]. apply ends_check; [rewrite So; apply beq_refl|]. apply ends_check; [lia|].
    rewrite <- T1. rewrite (load_config_can _ _ _ C). cbn [bind]. rewrite Q1.
    apply ends_then; [eapply open_can; [exact W|exact Fr|exact Q3]|].
    intros o Ho. opened W Fr Q3 Ho r1 s0.
    change (s0 = shown r a s) in O1s. rewrite (shown_used _ _ _ _ _ _ _ W Fr Q3) in O1s.
    assert (Hid : h_id (o_hdr o) = s_id s) by (rewrite O4, hdr_id by exact W1; rewrite O1s; reflexivity). rewrite Hid.
    rewrite O8. rewrite !get_action_mut_enc by (try apply wf_role_acts_small; try apply O2; exact O2). cbn [bind].
    rewrite F3. cbn [ok_or bind]. rewrite (pda_checked _ _ _ _ P1). cbn [bind].
    apply ends_then; [apply lack_pays; assumption|]. intros w1 Hw1. pose proof Hw1 as Hk. apply rent_topup_keeps in Hk. destruct (Hk swig) as [K1 K2].
    apply ends_can; [apply set_can_data; [exact A2|congruence]|]. intros w2 Hw2. apply set_data_only in Hw2 as (_ & _ & S6). exists w1. auto. }
  destruct Hn as (w' & Hn & w1 & Hw1 & Lw). exists w'. split.
  - apply (dispatched E cx w s); try assumption; try lia.
    + change (~ In (tag (c_data cx)) [9; 11; 20]). rewrite T. cbn. lia.
    + unfold dispatch. replace (2 <=? length (c_data cx))%nat with true by lia. cbn [check bind].
      change (u16_at 0 (c_data cx)) with (tag (c_data cx)). rewrite T. exact Hn.
  - destruct (create_sub_v1_spec _ _ _ _ _ Wc Hn Dd W) as (r1 & s1 & old & (_ & X1 & a1 & X2 & X3) & X4 & _ & _ & _ & D1 & W').
    rewrite Q1 in *. rewrite Fr in X1. injection X1 as <-. change (s1 = shown r a1 s) in X3.
    rewrite (shown_used _ _ _ _ _ _ _ W Fr X2) in X3. subst s1. change (mkey (c_metas cx)) with (acct cx) in *. fold swig sa in D1, W'.
    rewrite F1 in X4. injection X4 as <-. rewrite <- T1 in D1, W'. destruct (F (sa ++ [b; 1] ++ sub 34 2 d ++ le_enc 4 (r_id r) ++ s_id s)) as (_ & F2 & _).
    cbv zeta in D1, W'. rewrite F2 in D1, W'.
    apply topup_does in Hw1 as (_ & B1 & B2 & _); [|exact N1].
    split; [exact (only_data_cfg w w' _ s _ C D1 W')|]. split; [rewrite Lw; exact B2|]. split; [rewrite Lw; exact B1|].
    intros k Hk. destruct D1 as (_ & _ & D1). exact (D1 k Hk).
Qed.

Theorem toggle1_asked E cx w s r tr on l1 d l2 : wf_ctx cx -> is_cfg (w (acct cx 0)) s -> usual_accounts 3 cx w s ->
  In r (s_roles s) -> In tr (s_roles s) -> r_id r = r_id tr \/ manager r -> asks E cx r (ToggleSub (r_id tr) on) ->
  sub_perm tr (acct cx 2) l1 d l2 -> a_owner (w (acct cx 2)) = SYSTEM ->
  exists w', succeeds E cx w w'
    /\ is_cfg (w' (acct cx 0)) (permissions (r_id tr) (l1 ++ mk_action 9 (switched on d) :: l2) (used (r_id r) s))
    /\ forall k, k <> acct cx 0 -> kept_acct (w k) (w' k).
Proof.
  intros Wc C (A1 & A2 & A3) I It M (Q1 & Q2 & a & Q3) P So.
  pose proof C as (O & Dd & W). 
  assert (Fr : find_role (r_id r) s = Some r) by (apply find_role_mine; [exact W|exact I]).
  assert (Ft : find_role (r_id tr) s = Some tr) by (apply find_role_mine; [exact W|exact It]).
  apply order_toggle1 in Q2 as (T & T1 & T2). laid T Q1 Q3. rewrite ?Nat.sub_0_r in Q3.
  pose proof (payload_there _ _ _ _ _ _ _ _ Q3) as L.
  assert (K : wf_key (acct cx 2)) by (apply nth_wf; [apply Wc|lia]).
  assert (Hacts : exists tr', find_role (r_id tr) (used (r_id r) s) = Some tr' /\ r_acts tr' = r_acts tr).
  { rewrite find_used, Ft. cbn [option_map]. destruct (r_id tr =? r_id r); eexists; split; try reflexivity. apply after_use_acts. }
  destruct Hacts as (tr' & Ft' & Et').
  assert (P' : sub_perm tr' (acct cx 2) l1 d l2) by (destruct P as (P1 & P2); split; [congruence|exact P2]).
  destruct (perm_found tr' (acct cx 2) (acct cx 2) l1 d l2 (switched on d) ltac:(right; split; [reflexivity|apply K]) P') as (F1 & F2 & off & F3).
  assert (Hn : can (toggle_sub_account_v1 E cx w)).
  { unfold toggle_sub_account_v1. cbv zeta. unfold need. apply can_check; [lia|]. change (mkey (c_metas cx)) with (acct cx).
    unfold owned_by. apply can_check; [rewrite O; apply beq_refl|]. apply can_check; [rewrite So; apply beq_refl|]. apply can_check; [lia|].
    rewrite <- T1, <- T2. rewrite (load_config_can _ _ _ C). cbn [bind]. rewrite Q1.
    apply can_then; [eapply open_can; [exact W|exact Fr|exact Q3]|].
    intros o Ho. opened W Fr Q3 Ho r1 s0.
    change (s0 = shown r a s) in O1s. rewrite (shown_used _ _ _ _ _ _ _ W Fr Q3) in O1s.
    assert (Wt : wf_role tr').
    { apply find_some in Ft' as [Hin _]. rewrite <- O1s in Hin. destruct W1 as (_ & _ & _ & _ & _ & _ & _ & W8 & _). rewrite Forall_forall in W8. apply W8; exact Hin. }
    assert (Hv : exists v, (if negb (r_id r =? r_id tr) then
        let* mgr := manages (o_acts o) in
        check mgr AMissingPermission ;;
        let* t := get_mut_role (r_id tr) (o_roles o) in
        ok_or t SInvalidAuthorityNotFoundByRoleId else Ok (o_role o)) = Ok v /\ rv_acts v = enc_actions 0 (r_acts tr')).
    { destruct (r_id r =? r_id tr) eqn:Er; cbn [negb].
      - apply Z.eqb_eq in Er. rewrite Er, Ft in Fr. injection Fr as <-. exists (o_role o). split; [reflexivity|]. rewrite Et'. exact O8.
      - destruct M as [M|M]; [apply Z.eqb_neq in Er; contradiction|].
        rewrite O8, manages_enc by exact O2. cbn [bind]. apply can_manage_holds in M. rewrite M. cbn [check bind].
        rewrite O5, get_mut_role_find by exact W1. rewrite O1s, Ft'.
        destruct (find_split _ _ _ Ft') as (k1 & k2 & _ & _ & Hp). rewrite Hp. cbn [option_map bind ok_or fst snd]. eexists. split; reflexivity. }
    destruct Hv as (v & Hv & Va). rewrite Hv. cbn [bind]. rewrite Va.
    rewrite get_action_mut_enc by (try apply wf_role_acts_small; try apply Wt; exact Wt). cbn [bind]. rewrite F3. cbn [ok_or bind].
    destruct (splice_action P_SubAccount (acct cx 2) 0 (r_acts tr') off d d F3 F1 eq_refl) as [_ G].
    assert (Ld : length d = 72%nat).
    { destruct (first_of_wf _ _ _ _ ltac:(apply Wt) F1) as (Lf & _). cbn in Lf. injection Lf as Lf. lia. }
    apply can_check; [|apply set_can_data; assumption].
    apply beq_eq. destruct P as (_ & P2 & _). rewrite Ld in G. transitivity (sub 0 32 d); [|exact P2]. rewrite <- G. rewrite sub_sub by lia.
    f_equal. lia. }
  destruct Hn as [w' Hn]. exists w'. split.
  - apply (dispatched E cx w s); try assumption; try lia.
    + change (~ In (tag (c_data cx)) [9; 11; 20]). rewrite T. cbn. lia.
    + unfold dispatch. replace (2 <=? length (c_data cx))%nat with true by lia. cbn [check bind].
      change (u16_at 0 (c_data cx)) with (tag (c_data cx)). rewrite T. exact Hn.
  - destruct (toggle_sub_v1_spec _ _ _ _ _ Wc Hn Dd W) as (r1 & s1 & tr1 & old & (_ & X1 & a1 & X2 & X3) & _ & X4 & X5 & _ & D1 & W').
    rewrite Q1 in *. rewrite Fr in X1. injection X1 as <-. change (s1 = shown r a1 s) in X3.
    rewrite (shown_used _ _ _ _ _ _ _ W Fr X2) in X3. subst s1. change (mkey (c_metas cx)) with (acct cx) in *.
    rewrite <- T1 in X4. rewrite Ft' in X4. injection X4 as <-. rewrite F1 in X5. injection X5 as <-. rewrite <- T1, <- T2 in D1, W'.
    cbv zeta in D1, W'. rewrite switched_splice, F2 in D1, W'.
    split; [exact (only_data_cfg w w' _ s _ C D1 W')|]. destruct D1 as (_ & _ & D1). exact D1.
Qed.

Theorem sign1_asked E cx w s r payload xs l1 d l2 b : wf_ctx cx -> is_cfg (w (acct cx 0)) s -> usual_accounts 3 cx w s -> c_height cx = 1%nat ->
  In r (s_roles s) -> sub_perm r (acct cx 1) l1 d l2 -> opens_sub s d (r_id r) b -> asks E cx r (SignSub payload) ->
  pda E (seeds_sub (s_id s) (r_id r) b) = Some (acct cx 1) -> a_owner (w (acct cx 1)) = SYSTEM -> inner_ixs (c_metas cx) (acct cx 1) payload xs ->
  exists w0, is_cfg (w0 (acct cx 0)) (used (r_id r) s) /\ only_here (acct cx 0) w w0
    /\ forall w', in_turn (by_others E (acct cx 1)) xs w0 w' ->
       rent E (length (a_data (w' (acct cx 1)))) <= a_lamports (w' (acct cx 1)) -> succeeds E cx w w'.
Proof.
  intros Wc C (A1 & A2 & A3) Hh I M (U1 & U2 & U3 & U4) (Q1 & Q2 & a & Q3) P1 Ow Ix. pose proof C as (O & Dd & W).
  assert (Fr : find_role (r_id r) s = Some r) by (apply find_role_mine; [exact W|exact I]).
  apply order_sign1 in Q2 as (T & T1). laid T Q1 Q3. rewrite ?Nat.sub_0_r in Q3.
  set (m := arg_len (c_data cx)) in *. replace (16 + m - 16)%nat with m in Q3 by lia.
  pose proof (payload_there _ _ _ _ _ _ _ _ Q3) as L.
  assert (K : wf_key (acct cx 1)) by (apply nth_wf; [apply Wc|lia]).
  destruct (classify_all_can w s (acct cx 0) C (c_metas cx) eq_refl) as [cs Hc]; [lia|exact A3|].
  destruct (open_can E cx s (r_id r) r _ _ _ W Fr Q3) as [o Ho]. pose proof Ho as Ho'.
  opened W Fr Q3 Ho' r1 s0.
  change (s0 = shown r a s) in O1s. rewrite (shown_used _ _ _ _ _ _ _ W Fr Q3) in O1s.
  destruct (set_can_data (c_metas cx) w (acct cx 0) (o_bytes o) A2 O) as [w0 Hw0].
  pose proof (set_data_only _ _ _ _ _ Hw0) as (D0 & L0). rewrite O7, O1s in D0.
  destruct (inner_parse_all _ _ _ _ Ix) as (ys & Py & <-).
  destruct (perm_got r (acct cx 1) l1 d l2 O2 ltac:(apply K) M) as (off & G1 & G2).
  exists w0. split; [exact (only_data_cfg w w0 _ s _ C D0 ltac:(rewrite <- O1s; exact W1))|].
  split; [eapply only_here_of; [exact D0|apply L0]|]. intros w' Rn Rt.
  unfold succeeds, process. rewrite Hc. cbn [bind]. replace (2 <=? length (c_data cx))%nat with true by lia. cbn [check bind].
  change (u16_at 0 (c_data cx)) with (tag (c_data cx)). rewrite T. cbn [Z.eqb Pos.eqb].
  unfold sub_account_sign_v1. cbv zeta. unfold need. replace (3 <=? length (c_metas cx))%nat with true by lia. rewrite Hh. cbn [Nat.eqb check bind].
  change (mkey (c_metas cx)) with (acct cx). unfold owned_by. rewrite O, Ow, !beq_refl. cbn [check bind].
  replace (16 <=? length (c_data cx))%nat with true by lia. cbn [check bind]. change (nat_of (u16_at 2 (c_data cx))) with m.
  replace (16 + m <=? length (c_data cx))%nat with true by lia. cbn [check bind].
  rewrite (load_config_can _ _ _ C). cbn [bind]. rewrite Q1. rewrite <- T1. rewrite <- T1 in Ho. rewrite Ho. cbn [bind].
  rewrite O8, G1. cbn [bind ok_or]. rewrite G2.
  assert (Hid : h_id (o_hdr o) = s_id s) by (rewrite O4, hdr_id by exact W1; rewrite O1s; reflexivity). rewrite Hid.
  change (sa_swig_id d) with (sub 40 32 d). change (sa_role d) with (le (sub 36 4 d)). change (sa_enabled d) with (nth 33 d 0). change (sa_bump d) with (nth 32 d 0).
  rewrite U4, U3, U2, beq_refl, Z.eqb_refl. cbn [check bind]. replace (nth 33 d 0 =? 0) with false by (symmetry; apply Z.eqb_neq; exact U1). cbn [negb check bind].
  rewrite Hw0. cbn [bind]. rewrite Py. cbn [bind]. unfold pda_list. rewrite P1.
  rewrite (run_all_can E cx _ payload ys Ix ys w0 w') by (try exact Rn; apply incl_refl). cbn [bind].
  replace (_ <=? _) with true by lia. reflexivity.
Qed.

(** ** Withdrawing *)
Lemma find_creator_found E id sa b c n r : r <= c < r + Z.of_nat n -> find_pda E (seeds_sub0 id c) = (sa, b) ->
  exists c' b', find_creator E id sa n r = Some (c', b') /\ r <= c' <= c /\ find_pda E (seeds_sub0 id c') = (sa, b').
Proof.
  intros B F. revert r B. induction n as [|n IH]; intros r B; [lia|]. cbn [find_creator].
  destruct (beq (fst (find_pda E (seeds_sub0 id r))) sa) eqn:Q.
  - apply beq_eq in Q. exists r, (snd (find_pda E (seeds_sub0 id r))). split; [reflexivity|]. split; [lia|].
    destruct (find_pda E (seeds_sub0 id r)); cbn in *; congruence.
  - assert (r <> c). { intros ->. rewrite F in Q. cbn in Q. rewrite beq_refl in Q. discriminate. }
    destruct (IH (r + 1)) as (c' & b' & X1 & X2 & X3); [lia|]. exists c', b'. split; [exact X1|]. split; [lia|exact X3].
Qed.


Theorem withdraw1_asked E cx w s r x : wf_ctx cx -> is_cfg (w (acct cx 0)) s -> usual_accounts 6 cx w s -> length (c_metas cx) = 6%nat ->
  In r (s_roles s) -> may_empty E s r (acct cx 2) -> asks E cx r (WithdrawSub x) ->
  acct cx 4 = fst (find_pda E (seeds_wallet0 (acct cx 0))) ->
  plain_acct (w (acct cx 2)) -> a_owner (w (acct cx 4)) = SYSTEM -> acct cx 2 <> acct cx 4 ->
  writable (c_metas cx) (acct cx 2) = true -> writable (c_metas cx) (acct cx 4) = true ->
  x <= a_lamports (w (acct cx 2)) -> a_lamports (w (acct cx 4)) + x < U64 ->
  exists w', succeeds E cx w w' /\ is_cfg (w' (acct cx 0)) (used (r_id r) s)
    /\ a_lamports (w' (acct cx 2)) = a_lamports (w (acct cx 2)) - x /\ a_lamports (w' (acct cx 4)) = a_lamports (w (acct cx 4)) + x
    /\ (forall k, k <> acct cx 2 -> k <> acct cx 4 -> a_lamports (w' k) = a_lamports (w k))
    /\ forall k, k <> acct cx 0 -> kept_acct (w k) (w' k).
Proof.
  intros Wc C (A1 & A2 & A3) A6 I M (Q1 & Q2 & a & Q3) Pw (So & Sd) Wo Nq W3 W4 L3 L4. pose proof C as (O & Dd & W).
  assert (Fr : find_role (r_id r) s = Some r) by (apply find_role_mine; [exact W|exact I]).
  apply order_withdraw1 in Q2 as (T & T1). laid T Q1 Q3. rewrite ?Nat.sub_0_r in Q3.
  pose proof (payload_there _ _ _ _ _ _ _ _ Q3) as L.
  assert (K : wf_key (acct cx 2)) by (apply nth_wf; [apply Wc|lia]).
  assert (N2 : acct cx 2 <> acct cx 0) by (intros Q; rewrite Q, O in So; discriminate So).
  assert (Hn : can (withdraw_v1 E cx w)).
  { unfold withdraw_v1. cbv zeta. unfold need. apply can_check; [lia|]. change (mkey (c_metas cx)) with (acct cx).
    unfold owned_by. apply can_check; [rewrite O; apply beq_refl|]. apply can_check; [rewrite So; apply beq_refl|]. apply can_check; [rewrite Wo; apply beq_refl|].
    apply can_check; [lia|]. rewrite (load_config_can _ _ _ C). cbn [bind]. apply can_check; [apply beq_eq; congruence|]. rewrite Q1.
    apply can_then; [eapply open_can; [exact W|exact Fr|exact Q3]|].
    intros o Ho. opened W Fr Q3 Ho r1 s0.
    change (s0 = shown r a s) in O1s. rewrite (shown_used _ _ _ _ _ _ _ W Fr Q3) in O1s.
    assert (Hid : h_id (o_hdr o) = s_id s) by (rewrite O4, hdr_id by exact W1; rewrite O1s; reflexivity). rewrite Hid.
    rewrite O8, !has_action_enc by exact O2. cbn [bind]. rewrite <- T1.
    assert (Rest : forall c b, pda E (seeds_sub (s_id s) c b) = Some (acct cx 2) -> can (
       let* w1 := set_data (c_metas cx) w (acct cx 0) (o_bytes o) in
       if (7 <=? length (c_metas cx))%nat then
         guard (8 <=? length (c_metas cx))%nat ;;
         guard (64 <=? length (a_data (w1 (acct cx 7))))%nat ;;
         check (beq (acct cx 4) (sub 32 32 (a_data (w1 (acct cx 7))))) SInvalidSwigTokenAccountOwner ;;
         guard (9 <=? length (c_metas cx))%nat ;;
         check (is_token_program (a_owner (w1 (acct cx 6)))) SOwnerMismatchTokenAccount ;;
         check (beq (a_owner (w1 (acct cx 7))) (a_owner (w1 (acct cx 6)))) SInvalidOperation ;;
         cpi E (c_metas cx) (pda_list E (seeds_sub (s_id s) c b)) w1 (token_transfer_ix (a_owner (w1 (acct cx 6))) (acct cx 6) (acct cx 7) (acct cx 2) x)
       else
         check (x <=? a_lamports (w1 (acct cx 2))) AInsufficientBalance ;;
         sys_transfer (c_metas cx) (pda_list E (seeds_sub (s_id s) c b)) w1 (acct cx 2) (acct cx 4) x)).
    { intros c b P. apply can_then; [apply set_can_data; assumption|]. intros w1 Hw1. apply set_data_only in Hw1 as ((_ & _ & S3) & _ & S6).
      destruct (S3 (acct cx 2) N2) as [S4 S5]. rewrite A6. cbn [Nat.leb]. apply can_check; [rewrite S6; lia|].
      apply transfer_can; try assumption; try congruence; rewrite ?S6; try assumption; try lia.
      rewrite (pda_signs _ _ _ P). apply orb_true_r. }
    destruct M as [(l1 & d & l2 & b & M & (U1 & U2 & U3 & U4) & P)|(M1 & M2 & M3 & Sd' & c & Mc & Mf)].
    - destruct (perm_got r (acct cx 2) l1 d l2 O2 ltac:(apply K) M) as (off & G1 & G2). rewrite G1. cbn [bind].
      apply can_check; [apply orb_true_r|]. rewrite G2.
      change (sa_swig_id d) with (sub 40 32 d). change (sa_role d) with (le (sub 36 4 d)). change (sa_enabled d) with (nth 33 d 0). change (sa_bump d) with (nth 32 d 0).
      rewrite U4, U3, U2, beq_refl, Z.eqb_refl. cbn [check bind]. replace (nth 33 d 0 =? 0) with false by (symmetry; apply Z.eqb_neq; exact U1). cbn [negb check bind].
      apply Rest. exact P.
    - destruct (get_action_role P_SubAccount (acct cx 2) r SA_LEN O2 eq_refl) as (oo & G1 & G2).
      pose proof (perm_absent r (acct cx 2) ltac:(apply K) M1) as Fn. destruct oo as [off|]; [destruct G2 as (d & G2 & _); congruence|].
      rewrite G1. cbn [bind].
      assert (H7 : has P_All [] r = true) by (apply has_holds; [intros q0 d0; reflexivity|exact M2]).
      assert (H8 : has P_ManageAuthority [] r = false).
      { destruct (has P_ManageAuthority [] r) eqn:Q; [|reflexivity]. apply has_holds in Q; [contradiction|intros q0 d0; reflexivity]. }
      rewrite H7, H8. cbn [orb check bind].
      destruct (find_creator_found E (s_id s) (acct cx 2) (snd (find_pda E (seeds_sub0 (s_id s) c))) c 11 0) as (c' & b' & Y1 & _ & Y2).
      { change (Z.of_nat 11) with 11. lia. }
      { destruct (find_pda E (seeds_sub0 (s_id s) c)); cbn in *; congruence. }
      rewrite Y1. cbn [ok_or bind]. apply Rest. apply Sd'. exact Y2. }
  destruct Hn as [w' Hn]. exists w'. split.
  - apply (dispatched E cx w s); try assumption; try lia.
    + change (~ In (tag (c_data cx)) [9; 11; 20]). rewrite T. cbn. lia.
    + unfold dispatch. replace (2 <=? length (c_data cx))%nat with true by lia. cbn [check bind].
      change (u16_at 0 (c_data cx)) with (tag (c_data cx)). rewrite T. exact Hn.
  - destruct (withdraw_v1_spec _ _ _ _ _ Hn Dd W) as (r1 & s1 & c & b & w1 & (_ & X1 & a1 & X2 & X3) & _ & _ & _ & _ & _ & D1 & W' & D2 & D3).
    rewrite Q1 in *. rewrite Fr in X1. injection X1 as <-. change (s1 = shown r a1 s) in X3.
    rewrite (shown_used _ _ _ _ _ _ _ W Fr X2) in X3. subst s1. change (mkey (c_metas cx)) with (acct cx) in *. cbv zeta in D3.
    destruct D3 as [(_ & _ & (D4 & _ & D5) & _)|(X & _)]; [|rewrite A6 in X; lia].
    destruct (D5 Nq) as (E1 & E2 & E3). rewrite D2 in E1, E2. rewrite <- T1 in E1, E2.
    pose proof (only_data_cfg w w1 _ s _ C D1 W') as (G1 & G2 & G3). destruct (D4 (acct cx 0)) as [H1 H2].
    split; [split; [congruence|split; [congruence|exact G3]]|]. split; [exact E1|]. split; [exact E2|].
    split; [intros k B1 B2; rewrite E3 by assumption; apply D2|]. intros k B. destruct D1 as (_ & _ & D1). destruct (D1 k B), (D4 k). split; congruence.
Qed.

(** *** Who is refused *)
Theorem withdraw1_refused E cx w s r : wf_ctx cx -> is_cfg (w (acct cx 0)) s -> tag (c_data cx) = 7 -> In r (s_roles s) -> actor_of (c_data cx) = r_id r ->
  (3 <= length (c_metas cx))%nat -> no_sub_perm r (acct cx 2) ->
  (holds 8 r /\ fst (find_pda E (seeds_sub0 (s_id s) (r_id r))) <> acct cx 2)
  \/ (forall c, 0 <= c <= 10 -> fst (find_pda E (seeds_sub0 (s_id s) c)) <> acct cx 2) ->
  forall w', ~ succeeds E cx w w'.
Proof.
  intros Wc C T I0 Ac Ln N D w' H. pose proof C as (O & Dd & W).
  assert (Fr : find_role (actor_of (c_data cx)) s = Some r) by (rewrite Ac; apply find_role_mine; [exact W|exact I0]). assert (K : wf_key (acct cx 2)) by (apply nth_wf; [apply Wc|lia]).
  unfold succeeds, process in H. apply bind_ok in H as (cs & _ & H). apply bind_ok in H as (u & _ & H).
  change (u16_at 0 (c_data cx)) with (tag (c_data cx)) in H. rewrite T in H. cbn [Z.eqb Pos.eqb] in H. unfold dispatch in H.
  apply bind_ok in H as (u' & _ & H). change (u16_at 0 (c_data cx)) with (tag (c_data cx)) in H. rewrite T in H. cbn [Z.eqb Pos.eqb] in H.
  destruct (withdraw_v1_spec _ _ _ _ _ H Dd W) as (r1 & s1 & c & b & w1 & (_ & X1 & _) & V & _).
  cbv zeta in *. change (mkey (c_metas cx)) with (acct cx) in *.
  assert (Ha : actor_of (c_data cx) = u32_at 4 (c_data cx)) by (unfold actor_of, auth_layout; rewrite T; reflexivity).
  rewrite Ha in Fr. rewrite Fr in X1. injection X1 as <-. assert (Hi : r_id r = u32_at 4 (c_data cx)) by (apply find_some in Fr as [_ Fr]; lia).
  destruct V as [(p & V & _)|(_ & _ & V1 & V2 & V3)]; [rewrite perm_absent in V by (try apply K; exact N); discriminate|].
  destruct D as [(D1 & D2)|D]; [|apply (D c V2); rewrite V3; reflexivity].
  apply D2. rewrite Hi. apply V1. apply has_holds; [intros q0 d0; reflexivity|exact D1].
Qed.
