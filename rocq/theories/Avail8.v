(** * Which calls succeed: editing permissions, closing a wallet *)
From Verif Require Import BaseFacts SpecConfig ConfigFacts ConfigEdit NewCredential ConfigEdit2 ConfigEdit3.
From Verif Require Import Frame HandlerRoles HandlerRoles2 HandlerAssets HandlerLife Actors ConfigProps AuthFacts SpecAvail Avail Avail2 Avail3.
From Verif Require Import SpecRent SignProcess SignSpec Parse SpecSign SpecClient SpecWorks Avail4 ConfigCan.

Lemma upd_result_op op x l l' : upd_result op x l l' -> 0 <= op <= 3.
Proof. unfold upd_result. intros [[-> _]|[[-> _]|[[-> _]|[-> _]]]]; lia. Qed.
Lemma upd_result_det op x l a b : upd_result op x l a -> upd_result op x l b -> a = b.
Proof.
  unfold upd_result. intros [[-> P]|[[-> (la & P & ->)]|[[-> ->]|[-> ->]]]] [[Q P']|[[Q (lb & P' & ->)]|[[Q ->]|[Q ->]]]]; try discriminate Q; try reflexivity.
  - eapply parses_det; eassumption.
  - f_equal. eapply parses_det; eassumption.
Qed.
Lemma after_use_acts r : r_acts (after_use r) = r_acts r.
Proof. unfold after_use. destruct (_ || _); reflexivity. Qed.

Theorem update_asked E cx w s r tr op x l' : wf_ctx cx -> is_cfg (w (acct cx 0)) s -> usual_accounts 3 cx w s -> acct cx 2 = SYSTEM ->
  In r (s_roles s) -> In tr (s_roles s) -> manager r -> asks E cx r (ChangeRole (r_id tr) op x) ->
  upd_result op x (r_acts tr) l' -> (op = 3 -> Nat.even (length x) = true) -> wf_actions l' -> laid_out l' ->
  let old := length (enc_config s) in
  let new := length (enc_config (on_role (r_id tr) (fun r0 => with_acts r0 l') s)) in
  Z.of_nat new <= 10485760 -> Z.of_nat new <= Z.of_nat old + 10240 ->
  ((old < new)%nat -> funded E cx w (acct cx 0) (acct cx 1) new) ->
  ((new < old)%nat -> rent_grows E /\ 0 <= a_lamports (w (acct cx 0)) /\ writable (c_metas cx) (acct cx 1) = true
     /\ a_lamports (w (acct cx 1)) + a_lamports (w (acct cx 0)) < U64) ->
  exists w', succeeds E cx w w'
    /\ is_cfg (w' (acct cx 0)) (on_role (r_id tr) (fun r0 => with_acts r0 l') (used (r_id r) s)).
Proof.
  intros Wc C (A1 & A2 & A3) A4 I It M (Q1 & Q2 & a & Q3) U Ev Wl Lo old new Z1 Z2 Grow Shrink. pose proof C as (O & Dd & W).
  assert (Fr : find_role (r_id r) s = Some r) by (apply find_role_mine; [exact W|exact I]).
  assert (Ft : find_role (r_id tr) s = Some tr) by (apply find_role_mine; [exact W|exact It]).
  apply order_change in Q2 as (T & T1 & T2 & T3). laid T Q1 Q3. rewrite Nat.sub_0_r in Q3.
  pose proof (payload_there _ _ _ _ _ _ _ _ Q3) as L. unfold arg_len in *. set (n := nat_of (u16_at 2 (c_data cx))) in *.
  pose proof (upd_result_op _ _ _ _ U) as Hop.
  assert (Hb : all_bytes x).
  { rewrite T3. unfold update_op. cbv zeta. destruct (_ && _); cbn [snd]; [apply all_bytes_skipn|]; apply all_bytes_sub; apply Wc. }
  assert (Hx : Z.of_nat (length x) < 65536).
  { pose proof (u16_bound 2 (c_data cx) (proj1 Wc)) as B. unfold is_u16, U16 in B.
    assert (length x <= n)%nat.
    { rewrite T3. unfold update_op. cbv zeta. fold n. assert (length (sub 16 n (c_data cx)) <= n)%nat by (unfold sub; rewrite firstn_length; lia).
      destruct (_ && _); cbn [snd]; [rewrite skipn_length|]; lia. }
    unfold n, nat_of in *. lia. }
  assert (Hn : can (update_authority_v1 E cx w)).
  { unfold update_authority_v1. cbv zeta. unfold need. apply can_check; [lia|]. change (mkey (c_metas cx) 0) with (acct cx 0).
    change (mkey (c_metas cx) 1) with (acct cx 1). change (mkey (c_metas cx) 2) with (acct cx 2).
    unfold owned_by. apply can_check; [rewrite O; apply beq_refl|]. apply can_check; [rewrite A4; apply beq_refl|]. apply can_check; [lia|].
    fold n. apply can_check; [lia|].
    assert (Eop : (if (byte_at 4 (c_data cx) =? 0) && negb (length (sub 16 n (c_data cx)) =? 0)%nat then byte_at 0 (sub 16 n (c_data cx)) else 0) = op)
      by (rewrite T2; unfold update_op; cbv zeta; fold n; destruct (_ && _); reflexivity).
    assert (Eax : (if (byte_at 4 (c_data cx) =? 0) && negb (length (sub 16 n (c_data cx)) =? 0)%nat then skipn 1 (sub 16 n (c_data cx)) else sub 16 n (c_data cx)) = x)
      by (rewrite T3; unfold update_op; cbv zeta; fold n; destruct (_ && _); reflexivity).
    rewrite Eop, Eax, <- T1, Q1. apply can_check; [lia|].
    rewrite (load_config_can _ _ _ C). cbn [bind]. rewrite split_parts_enc by exact W. cbn [bind].
    rewrite take_tail_enc by apply W. cbn [bind].
    apply can_then; [eapply open_can; [exact W|exact Fr|exact Q3]|].
    intros o Ho. apply open_role_enc in Ho as (r1 & s0 & (O1 & au' & O1' & O1s) & O2 & W1 & O4 & O5 & O6 & O7 & O8 & O9 & O10); [|exact W].
    rewrite Fr in O1. injection O1 as <-. pose proof (eq_trans (eq_sym Q3) O1') as X. injection X as <-.
    change (s0 = shown r a s) in O1s. rewrite (shown_used _ _ _ _ _ _ _ W Fr Q3) in O1s.
    rewrite O8, manages_enc by exact O2. cbn [bind]. apply can_check; [apply can_manage_holds; exact M|].
    pose proof W1 as (V1 & (V2 & V2') & V3 & V4 & V5 & V6 & V7 & V8 & V9 & V10 & V11 & V12 & V13).
    pose proof (wf_roles_small _ W1) as Hsm. pose proof (enc_roles_length 0 _ V8) as L2.
    rewrite <- (app_nil_r (o_hdr _)), O4, O5. rewrite hf_roles, nat_of_nat by assumption.
    pose proof (roles_at_enc (s_roles s0) [] V8) as Hat. rewrite app_nil_r in Hat.
    rewrite find_offsets_at by (try assumption; lia).
    set (tr0 := if r_id tr =? r_id r then after_use tr else tr).
    assert (Ft0 : find_role (r_id tr) s0 = Some tr0).
    { rewrite O1s. unfold used. rewrite find_role_on, Ft by (intros; unfold after_use; destruct (_ || _); reflexivity). reflexivity. }
    assert (Ac : r_acts tr0 = r_acts tr) by (unfold tr0; destruct (r_id tr =? r_id r); [apply after_use_acts|reflexivity]).
    destruct (find_split _ _ _ Ft0) as (l1 & l2 & E1 & E2 & E3). rewrite E3. cbn [bind].
    rewrite <- E2 in *. rewrite <- Ac in U.
    pose proof (made_room_fits s0 l1 tr0 l2 op x l' W1 E1 Wl U) as Sz.
    destruct (find_split _ _ _ Ft) as (m1 & m2 & M1 & M2 & _).
    assert (Sn : new = (old + acts_len l' - acts_len (r_acts tr0))%nat /\ (acts_len (r_acts tr0) <= old)%nat).
    { unfold new, old. rewrite Ac. apply (edited_size s m1 tr m2 l' W M1 Wl). }
    pose proof (edited_size s0 l1 tr0 l2 l' W1 E1 Wl) as [Sn0 _].
    set (pre := if op =? 0 then Z.of_nat (length x) - Z.of_nat (acts_len (r_acts tr0)) else if op =? 1 then Z.of_nat (length x) else 0).
    rewrite <- O10.
    assert (Sm : (if 0 <? pre then align8 (length (enc_config s0) + nat_of pre) else length (enc_config s0))
      = made_room op x (acts_len (r_acts tr0)) (length (enc_config s0))) by reflexivity.
    rewrite Sm. rewrite O10 in Sz |- *. fold old in Sz |- *.
    set (size := made_room op x (acts_len (r_acts tr0)) old) in *.
    assert (Big : (new <= size)%nat /\ ((old < new)%nat -> size = new) /\ ((new <= old)%nat -> size = old)) by lia.
    destruct Big as (Big & Big1 & Big2).
    assert (Tail : enc_claimer (s_claimer s) = enc_claimer (s_claimer s0)) by (rewrite O1s; reflexivity).
    assert (K : can (if 0 <? pre then rent_topup E (c_metas cx) w (acct cx 1) (acct cx 0) size else Ok w)).
    { destruct (0 <? pre) eqn:Pp; [|apply can_ok].
      destruct (Nat.lt_ge_cases old new) as [Y|Y].
      - rewrite (Big1 Y). destruct (Grow Y) as (G1 & G2 & G3). apply topup_pays; try assumption.
      - exfalso. unfold size, made_room in Sz. cbv zeta in Sz. fold pre in Sz. rewrite Pp in Sz.
        unfold align8 in Sz. pose proof (Nat.div_mod (old + nat_of pre + 7) 8 ltac:(discriminate)).
        pose proof (Nat.mod_upper_bound (old + nat_of pre + 7) 8 ltac:(discriminate)). unfold nat_of in *. lia. }
    assert (K0 : (new <= old)%nat -> 0 <? pre = false).
    { intros Y. destruct (0 <? pre) eqn:Pp; [|reflexivity]. exfalso. unfold size, made_room in Sz. cbv zeta in Sz. fold pre in Sz. rewrite Pp in Sz.
      unfold align8 in Sz. pose proof (Nat.div_mod (old + nat_of pre + 7) 8 ltac:(discriminate)).
      pose proof (Nat.mod_upper_bound (old + nat_of pre + 7) 8 ltac:(discriminate)). unfold nat_of in *. lia. }
    apply can_then; [exact K|]. intros w1 Hw1.
    rewrite O7, L2, Tail.
    assert (Hap : can (apply_update (enc_config s0) (enc_claimer (s_claimer s0)) (roles_size (s_roles s0)) (roles_size l1)
      (roles_size l1 + 16 + length (r_auth tr0)) (acts_len (r_acts tr0)) (r_id tr0) op x size)).
    { pose proof (enc_config_length s0 W1) as Lc.
      apply (apply_update_can s0 l1 tr0 l2 op x size l'); try assumption; try lia. }
    destruct Hap as ([d4 diff] & Hap). rewrite Hap. cbn [bind].
    assert (Sz0 : size = made_room op x (acts_len (r_acts tr0)) (length (enc_config s0))) by (unfold size, old; rewrite O10; reflexivity).
    rewrite Sz0 in Hap |- *.
    pose proof (update_seal_can s0 l1 tr0 l2 op x l' d4 diff W1 E1 Hop Hb Hx U Wl Hap) as Hs. cbv zeta in Hs.
    apply can_then; [exact Hs|]. intros d5 Hd5.
    destruct (update_seal_enc s0 l1 tr0 l2 op x _ d4 diff d5 W1 E1 Hop Hb Hx eq_refl Hap Hd5) as (l0 & Y1 & _ & Y2 & Y3 & Y4 & _).
    pose proof (upd_result_det _ _ _ _ _ U Y1) as <-.
    assert (Ld : length d5 = new) by (rewrite Y3, Sn0; lia). rewrite <- Sz0 in *.
    assert (W1w : a_owner (w1 (acct cx 0)) = SELF /\ a_data (w1 (acct cx 0)) = enc_config s).
    { destruct (0 <? pre); [|apply ok_inj in Hw1; subst w1; auto]. apply rent_topup_keeps in Hw1. destruct (Hw1 (acct cx 0)) as [X1 X2]. split; congruence. }
    destruct W1w as [X1 X2].
    apply can_then; [apply write_can; [exact A2|exact X1|lia|rewrite X2; fold old; lia]|].
    intros w2 Hw2. destruct (diff <? 0) eqn:Df; [|apply can_ok].
    assert (Lt : (new < old)%nat) by lia. destruct (Shrink Lt) as (R1 & R2 & R3 & R4).
    assert (w1 = w) as -> by (rewrite K0 in Hw1 by lia; apply ok_inj in Hw1; auto).
    apply write_data_only in Hw2 as ((_ & H2 & _) & _ & _ & Hl2).
    unfold move_lamports. do 2 (match goal with |- can (if ?c then _ else _) => destruct c end; [apply can_ok|]).
    apply can_check; [rewrite A2, R3; reflexivity|]. apply can_check; [rewrite H2, O; apply beq_refl|].
    rewrite !Hl2. destruct (R1 0%nat (align8 (nat_of (Z.of_nat size + diff))) ltac:(lia)) as [X0 X0'].
    apply can_check; [unfold sat_sub; lia|]. apply can_check; [unfold sat_sub; lia|]. apply can_ok. }
  destruct Hn as [w' Hn]. exists w'. split.
  - apply (dispatched E cx w s); try assumption; try lia.
    + change (~ In (tag (c_data cx)) [9; 11; 20]). rewrite T. cbn. lia.
    + unfold dispatch. replace (2 <=? length (c_data cx))%nat with true by lia. cbn [check bind].
      change (u16_at 0 (c_data cx)) with (tag (c_data cx)). rewrite T. exact Hn.
  - destruct (update_authority_spec _ _ _ _ _ Wc Hn Dd W) as (r1 & s1 & tr1 & l0 & (_ & X1 & a1 & X2 & X3) & _ & Y1 & Y2 & _ & _ & D1 & W' & _).
    rewrite Q1 in *. rewrite Fr in X1. injection X1 as <-. change (s1 = shown r a1 s) in X3.
    rewrite (shown_used _ _ _ _ _ _ _ W Fr X2) in X3. rewrite <- T1, <- T2, <- T3 in *. rewrite <- X3.
    assert (Ac : r_acts tr1 = r_acts tr).
    { rewrite X3 in Y1. unfold used in Y1. rewrite find_role_on, Ft in Y1 by (intros; unfold after_use; destruct (_ || _); reflexivity).
      injection Y1 as <-. destruct (r_id tr =? r_id r); [apply after_use_acts|reflexivity]. }
    rewrite Ac in Y2. pose proof (upd_result_det _ _ _ _ _ U Y2) as <-. exact (only_data_cfg w w' _ s _ C D1 W').
Qed.
