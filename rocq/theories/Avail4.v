(** * Which calls of authenticated roles succeed *)
From Verif Require Import BaseFacts SpecConfig ConfigFacts ConfigEdit NewCredential ConfigEdit2 ConfigEdit3.
From Verif Require Import Frame HandlerRoles HandlerRoles2 HandlerAssets Actors ConfigProps AuthFacts SpecAvail Avail Avail2 Avail3.
From Verif Require Import SpecRent SignProcess SignSpec Parse SpecSign SpecClient SpecWorks.

(** ** Payloads are not empty *)
Lemma authenticate_payload E cx ty auth d au : authenticate E cx ty auth [] d = Ok au -> False.
Proof.
  unfold authenticate. destruct (_ || _); [discriminate|]. destruct (_ || _); [discriminate|].
  destruct (_ || _). { unfold secp256r1_auth. discriminate. }
  destruct (_ || _); discriminate.
Qed.
Lemma role_authenticate_payload E cx ty auth d au : role_authenticate E cx ty auth [] d = Ok au -> False.
Proof.
  unfold role_authenticate. destruct (session_based ty).
  - unfold authenticate_session. destruct (session_offsets ty) as [[[a b] c]|]; [|discriminate].
    cbn [length Nat.eqb negb check bind guard]. destruct (_ || _); [discriminate|]. destruct (ty =? _); [discriminate|]. cbn [bind].
    destruct (_ <=? _); discriminate.
  - apply authenticate_payload.
Qed.
Lemma payload_there E cx ty auth d e data au : role_authenticate E cx ty auth (skipn e data) d = Ok au -> (e < length data)%nat.
Proof.
  intros H. destruct (Nat.lt_ge_cases e (length data)) as [L|L]; [exact L|]. rewrite skipn_all2 in H by exact L.
  destruct (role_authenticate_payload _ _ _ _ _ _ H).
Qed.

(** ** Reading an order *)
Ltac read_order H :=
  unfold order_of in H; cbv zeta in H;
  repeat match type of H with
  | (if (tag ?d =? ?n) then _ else _) = _ =>
      let Q := fresh "Q" in destruct (tag d =? n) eqn:Q; [first [discriminate H|apply Z.eqb_eq in Q; try injection H as H]|clear Q]
  | None = Some _ => discriminate H
  end.
Lemma order_add d ty c l : order_of d = Some (AddRole ty c l) -> tag d = 1
  /\ ty = u16_at 6 d /\ c = sub 16 (arg_len d) d /\ l = sub (16 + arg_len d) (nat_of (u16_at 4 d)) d.
Proof. intros H. read_order H. subst. auto. Qed.
Lemma order_remove d t : order_of d = Some (RemoveRole t) -> tag d = 2 /\ t = u32_at 12 d.
Proof. intros H. read_order H. subst. auto. Qed.
Lemma order_change d t op x : order_of d = Some (ChangeRole t op x) -> tag d = 3 /\ t = u32_at 12 d /\ op = fst (update_op d) /\ x = snd (update_op d).
Proof. intros H. read_order H. subst. auto. Qed.
Lemma order_session d k n : order_of d = Some (OpenSession k n) -> tag d = 5 /\ k = sub 16 32 d /\ n = u64_at 8 d.
Proof. intros H. read_order H. subst. auto. Qed.
Lemma order_sign d x : order_of d = Some (Sign x) -> tag d = 11 /\ x = sub 8 (arg_len d) d.
Proof. intros H. read_order H. subst. auto. Qed.
Lemma order_transfer d : order_of d = Some TransferAssets -> tag d = 13.
Proof. intros H. read_order H. auto. Qed.
Lemma order_close d : order_of d = Some CloseWallet -> tag d = 15.
Proof. intros H. read_order H. auto. Qed.
Lemma order_replace d t c : order_of d = Some (ReplaceKey t c) -> tag d = 16 /\ t = u32_at 8 d /\ c = sub 16 (nat_of (u16_at 12 d)) d.
Proof. intros H. read_order H. subst. auto. Qed.
Lemma order_claimer d k : order_of d = Some (NameClaimer k) -> tag d = 17 /\ k = sub 8 32 d.
Proof. intros H. read_order H. subst. auto. Qed.

(** ** From the handler to the program *)
Lemma dispatched E cx w s : is_cfg (w (acct cx 0)) s -> (1 <= length (c_metas cx) <= 254)%nat ->
  (forall m, In m (tl (c_metas cx)) -> ordinary w s (m_key m)) -> (2 <= length (c_data cx))%nat ->
  ~ In (u16_at 0 (c_data cx)) [9; 11; 20] ->
  forall w', dispatch E cx w = Ok w' -> succeeds E cx w w'.
Proof.
  intros C L O D T w' H. unfold succeeds, process.
  destruct (classify_all_can w s (acct cx 0) C (c_metas cx) eq_refl) as [cs Hc]; [lia|exact O|].
  rewrite Hc. cbn [bind]. replace (2 <=? length (c_data cx))%nat with true by lia. cbn [check bind].
  cbn [In] in T. replace (u16_at 0 (c_data cx) =? 11) with false by lia. replace (u16_at 0 (c_data cx) =? 9) with false by lia.
  replace (u16_at 0 (c_data cx) =? 20) with false by lia. exact H.
Qed.

Lemma shown_used E cx s r p d a : wf_config s -> find_role (r_id r) s = Some r ->
  role_authenticate E cx (r_aty r) (r_auth r) p d = Ok a -> shown r a s = used (r_id r) s.
Proof.
  intros W F H. unfold shown, used. apply role_authenticate_leaves in H. eapply on_role_ext; [exact W|exact F|]. cbv beta.
  unfold after_use. rewrite H. destruct ((r_aty r =? 3) || (r_aty r =? 5)); [reflexivity|apply with_auth_same].
Qed.
(** reads the data of an order whose tag is known *)
Ltac laid T Q1 Q3 :=
  unfold passes in Q3; unfold actor_of, payload_of, signed_of, auth_layout in *;
  cbv zeta in Q1, Q3; rewrite T in *; cbn [Z.eqb Pos.eqb] in *.

Theorem add_asked E cx w s r ty c l : wf_ctx cx -> is_cfg (w (acct cx 0)) s -> admin_accounts cx w s ->
  In r (s_roles s) -> manager r -> asks E cx r (AddRole ty c (enc_actions 0 l)) ->
  room 1 s -> credential_ok ty c -> wf_actions l -> Forall unspent l ->
  let nr := new_role s ty c l in let size := length (enc_config (add_to s nr)) in
  Z.of_nat (role_len nr) <= 10240 -> Z.of_nat size <= 10485760 -> funded E cx w (acct cx 0) (acct cx 1) size ->
  exists w', succeeds E cx w w' /\ is_cfg (w' (acct cx 0)) (add_to (used (r_id r) s) nr).
Proof.
  intros Wc C A I M (Q1 & Q2 & a & Q3) R Cr Wl Ul nr size Z1 Z2 (Z3 & Z4 & Pay).
  assert (Fr : find_role (r_id r) s = Some r) by (apply find_role_mine; [apply C|exact I]).
  apply order_add in Q2 as (T & T1 & T2 & T3). laid T Q1 Q3.
  rewrite <- (shown_used _ _ _ _ _ _ _ (proj2 (proj2 C)) Fr Q3).
  set (n := arg_len (c_data cx)) in *. set (m := nat_of (u16_at 4 (c_data cx))) in *.
  pose proof (payload_there _ _ _ _ _ _ _ _ Q3) as L.
  assert (Ln : length c = n) by (rewrite T2; unfold sub; rewrite firstn_length, skipn_length; lia).
  assert (Lm : acts_len l = m).
  { rewrite <- (enc_actions_length 0 l), T3. unfold sub. rewrite firstn_length, skipn_length. lia. }
  rewrite Nat.sub_0_r in Q3.
  apply (manager_adds E cx w s r ty c l a); rewrite ?Ln, ?Lm; try assumption; try lia; auto.
  - apply can_manage_holds. exact M.
  - split; [exact Z4|]. intros H. apply Pay. exact H.
Qed.
Theorem remove_asked E cx w s r tr : wf_ctx cx -> is_cfg (w (acct cx 0)) s -> admin_accounts cx w s ->
  In r (s_roles s) -> In tr (s_roles s) -> r_id tr <> 0 -> manager r \/ r = tr -> asks E cx r (RemoveRole (r_id tr)) ->
  rent_grows E -> exempt E (w (acct cx 0)) ->
  a_lamports (w (acct cx 1)) + (rent E (length (enc_config s)) - rent E (length (enc_config (drop_role (r_id tr) s)))) < U64 ->
  exists w', succeeds E cx w w' /\ is_cfg (w' (acct cx 0)) (drop_role (r_id tr) (used (r_id r) s)).
Proof.
  intros Wc C A I It T0 M (Q1 & Q2 & a & Q3) G Ex Rf.
  assert (Fr : find_role (r_id r) s = Some r) by (apply find_role_mine; [apply C|exact I]).
  apply order_remove in Q2 as (T & T1). laid T Q1 Q3.
  rewrite <- (shown_used _ _ _ _ _ _ _ (proj2 (proj2 C)) Fr Q3).
  pose proof (payload_there _ _ _ _ _ _ _ _ Q3) as L.
  apply (manager_removes E cx w s r tr a); try assumption; try (apply find_role_mine; [apply C|assumption]); try lia; auto.
  destruct M as [M| ->]; [left; apply can_manage_holds; exact M|right; reflexivity].
Qed.

(** ** Opening a session *)
Lemma set_can_data ms w k d : writable ms k = true -> a_owner (w k) = SELF -> can (set_data ms w k d).
Proof. intros W O. unfold set_data. destruct (beq d (a_data (w k))); [apply can_ok|]. rewrite W, O, beq_refl. apply can_ok. Qed.
Theorem session_asked E cx w s r k n : wf_ctx cx -> is_cfg (w (acct cx 0)) s -> usual_accounts 3 cx w s ->
  In r (s_roles s) -> is_session (r_aty r) = true -> asks E cx r (OpenSession k n) -> n <= session_max (r_aty r) (r_auth r) ->
  exists w', succeeds E cx w w'
    /\ is_cfg (w' (acct cx 0)) (on_role (r_id r) (fun r0 => with_auth r0 (with_session (r_aty r) k ((c_slot cx + n) mod 2 ^ 64)
         (if is_secp (r_aty r) then count_up (r_auth r) else r_auth r))) s).
Proof.
  intros Wc C (A1 & A2 & A3) I Ss (Q1 & Q2 & a & Q3) Mx. pose proof C as (O & Dd & W).
  assert (Fr : find_role (r_id r) s = Some r) by (apply find_role_mine; [exact W|exact I]).
  apply order_session in Q2 as (T & T1 & T2). laid T Q1 Q3. rewrite Nat.sub_0_r in Q3.
  assert (L : (48 < length (c_data cx))%nat).
  { destruct (Nat.lt_ge_cases 48 (length (c_data cx))) as [X|X]; [exact X|]. rewrite skipn_all2 in Q3 by exact X.
    destruct (authenticate_payload _ _ _ _ _ _ Q3). }
  destruct (find_role_wf _ _ _ W Fr) as ((_ & Wl & Wb & _) & _).
  pose proof (authenticate_leaves _ _ _ _ _ _ _ Q3) as Aa.
  pose proof (authenticate_size _ _ _ _ _ _ _ Q3 Wl Wb) as [La _].
  assert (Lk : length k = 32%nat) by (rewrite T1; apply sub_length; lia).
  assert (St : exists a', start_session (r_aty r) a k (c_slot cx) n = Ok a').
  { unfold start_session. assert (X : session_offsets (r_aty r) = Some (session_at (r_aty r), (session_at (r_aty r) + 32)%nat, (session_at (r_aty r) + 40)%nat)).
    { unfold is_session in Ss. rewrite !orb_true_iff, !Z.eqb_eq in Ss. assert (Y : r_aty r = 2 \/ r_aty r = 4 \/ r_aty r = 6 \/ r_aty r = 8) by lia.
      destruct Y as [Y|[Y|[Y|Y]]]; rewrite Y; reflexivity. }
    rewrite X. rewrite <- (session_max_up _ _ Wl Ss), <- Aa in Mx. unfold session_max in Mx. unfold u64_at.
    replace (n <=? _) with true by (symmetry; apply Z.leb_le; exact Mx). eexists. reflexivity. }
  destruct St as (a' & St). rewrite <- La in Wl.
  destruct (start_session_ok _ _ _ _ _ _ Wl Lk St) as (_ & _ & Ea'). rewrite Aa in Ea'. rewrite <- Ea'.
  assert (Hn : can (create_session_v1 E cx w)).
  { unfold create_session_v1. cbv zeta. unfold need. apply can_check; [lia|]. change (mkey (c_metas cx) 0) with (acct cx 0).
    unfold owned_by. apply can_check; [rewrite O; apply beq_refl|]. apply can_check; [lia|].
    rewrite (load_config_can _ _ _ C). cbn [bind]. apply can_then; [|intros o _; apply set_can_data; assumption].
    unfold open_with. rewrite split_parts_enc by exact W. cbn [bind]. rewrite Q1.
    destruct (get_mut_find (r_id r) s W) as [G Q]. rewrite G. rewrite Fr in Q. destruct (pos_of (r_id r) 0 (s_roles s)) as [[o r']|]; [|discriminate Q].
    injection Q as <-. cbn [bind ok_or view_of rv_ty rv_auth].
    assert (Sb : session_based (r_aty r) = true).
    { unfold is_session in Ss. rewrite !orb_true_iff, !Z.eqb_eq in Ss. assert (Y : r_aty r = 2 \/ r_aty r = 4 \/ r_aty r = 6 \/ r_aty r = 8) by lia.
      destruct Y as [Y|[Y|[Y|Y]]]; rewrite Y; reflexivity. }
    rewrite Sb. cbn [check bind]. rewrite Q3. cbn [bind]. rewrite <- T1, <- T2, St. apply can_ok. }
  destruct Hn as [w' Hn]. exists w'. split.
  - apply (dispatched E cx w s); try assumption; try lia.
    + change (~ In (tag (c_data cx)) [9; 11; 20]). rewrite T. cbn. lia.
    + unfold dispatch. replace (2 <=? length (c_data cx))%nat with true by lia. cbn [check bind].
      change (u16_at 0 (c_data cx)) with (tag (c_data cx)). rewrite T. exact Hn.
  - destruct (create_session_spec _ _ _ _ _ Wc Hn Dd W) as (r1 & b & b' & F & _ & _ & A & S1 & _ & D1 & W').
    rewrite Q1 in *. rewrite Fr in F. injection F as <-. pose proof (eq_trans (eq_sym Q3) A) as X. injection X as <-.
    rewrite <- T1, <- T2, St in S1. injection S1 as <-. exact (only_data_cfg w w' _ s _ C D1 W').
Qed.

Lemma topup_pays E ms w payer k n : 0 <= a_lamports (w k) -> rent E n < U64 -> writable ms k = true ->
  (a_lamports (w k) < rent E n -> can_pay w payer (rent E n - a_lamports (w k)) /\ signer ms payer = true /\ writable ms payer = true) ->
  can (rent_topup E ms w payer k n).
Proof.
  intros L R Wk P. destruct (Z.lt_ge_cases (a_lamports (w k)) (rent E n)) as [X|X].
  - destruct (P X) as (P1 & P2 & P3). apply topup_can; auto.
  - unfold rent_topup. replace (_ <? _) with false by lia. apply can_ok.
Qed.
(** ** Naming a rent claimer *)
Theorem claimer_asked E cx w s r k wal : wf_ctx cx -> is_cfg (w (acct cx 0)) s -> usual_accounts 3 cx w s -> acct cx 2 = SYSTEM ->
  In r (s_roles s) -> holds 7 r \/ holds 20 r -> asks E cx r (NameClaimer k) ->
  s_claimer s = None -> k <> zeros 32 -> k <> acct cx 0 -> pda E (seeds_wallet (acct cx 0) (s_wbump s)) = Some wal -> k <> wal ->
  let size := length (enc_config (set_claimer s k)) in
  Z.of_nat size <= 10485760 -> funded E cx w (acct cx 0) (acct cx 1) size ->
  exists w', succeeds E cx w w' /\ is_cfg (w' (acct cx 0)) (set_claimer (used (r_id r) s) k).
Proof.
  intros Wc C (A1 & A2 & A3) A4 I M (Q1 & Q2 & a & Q3) Cl K1 K2 Pw K3 size Z1 (F1 & F2 & F3). pose proof C as (O & Dd & W).
  assert (Fr : find_role (r_id r) s = Some r) by (apply find_role_mine; [exact W|exact I]).
  apply order_claimer in Q2 as (T & T1). laid T Q1 Q3. rewrite Nat.sub_0_r in Q3.
  pose proof (payload_there _ _ _ _ _ _ _ _ Q3) as L.
  assert (Lk : length k = 32%nat) by (rewrite T1; apply sub_length; lia).
  assert (Sz : size = (length (enc_config s) + ENTRY_LEN)%nat).
  { unfold size, enc_config. rewrite Cl. cbn [set_claimer s_roles s_claimer]. change (enc_claimer None) with (@nil Z).
    rewrite <- claimer_entry_enc, !app_length. change (length (enc_header (set_claimer s k))) with (length (enc_header s)). cbn [length].
    assert (length (claimer_entry k) = ENTRY_LEN) by (unfold claimer_entry; rewrite !app_length, ?le_enc_length, ?zeros_length, Lk; reflexivity). lia. }
  assert (Hn : can (set_rent_claimer_v1 E cx w)).
  { unfold set_rent_claimer_v1. cbv zeta. unfold need. apply can_check; [lia|]. change (mkey (c_metas cx) 0) with (acct cx 0).
    change (mkey (c_metas cx) 1) with (acct cx 1). change (mkey (c_metas cx) 2) with (acct cx 2).
    unfold owned_by. apply can_check; [rewrite O; apply beq_refl|]. apply can_check; [rewrite A4; apply beq_refl|]. apply can_check; [lia|].
    rewrite <- T1. apply can_check; [apply negb_true_iff, beq_neq; exact K1|]. apply can_check; [apply negb_true_iff, beq_neq; exact K2|].
    rewrite (load_config_can _ _ _ C). cbn [bind]. rewrite split_parts_enc by exact W. cbn [bind]. rewrite hdr_wbump, Pw by exact W. cbn [ok_or bind].
    apply can_check; [apply negb_true_iff, beq_neq; exact K3|]. rewrite Q1.
    apply can_then; [eapply open_can; [exact W|exact Fr|exact Q3]|].
    intros o Ho. apply open_role_enc in Ho as (r1 & s0 & (O1 & au' & O1' & O1s) & O2 & W1 & O4 & O5 & O6 & O7 & O8 & O9 & O10); [|exact W].
    rewrite Fr in O1. injection O1 as <-.
    pose proof (on_role_fields (r_id r) (fun r0 => with_auth r0 au') s) as (G1 & G2 & G3 & G4 & G5 & G6 & G7 & G8).
    rewrite <- O1s in *. clear O1s.
    rewrite O8, !has_action_enc by exact O2. cbn [bind]. apply can_check; [apply can_claim_holds; exact M|].
    rewrite O6, read_strict_enc by apply W1. cbn [bind]. rewrite G7, Cl. cbn [is_some negb check bind]. rewrite <- Sz.
    apply can_then; [apply topup_pays; try assumption; intros; apply F3; assumption|].
    intros w1 Hw1. apply rent_topup_keeps in Hw1. destruct (Hw1 (acct cx 0)) as [X1 X2].
    assert (Ls : length (o_bytes o ++ claimer_entry k) = size).
    { rewrite app_length, O7, O10, Sz. f_equal. unfold claimer_entry. rewrite !app_length, ?le_enc_length, ?zeros_length, Lk. reflexivity. }
    apply write_can; [exact A2|congruence|lia|]. rewrite Ls, X1, Dd, Sz. unfold ENTRY_LEN. lia. }
  destruct Hn as [w' Hn]. exists w'. split.
  - apply (dispatched E cx w s); try assumption; try lia.
    + change (~ In (tag (c_data cx)) [9; 11; 20]). rewrite T. cbn. lia.
    + unfold dispatch. replace (2 <=? length (c_data cx))%nat with true by lia. cbn [check bind].
      change (u16_at 0 (c_data cx)) with (tag (c_data cx)). rewrite T. exact Hn.
  - destruct (set_rent_claimer_spec _ _ _ _ _ Wc Hn Dd W) as (r1 & s1 & (_ & X1 & a1 & X2 & X3) & _ & _ & _ & _ & _ & _ & D1 & W').
    rewrite Q1 in *. rewrite Fr in X1. injection X1 as <-. change (s1 = shown r a1 s) in X3.
    rewrite (shown_used _ _ _ _ _ _ _ W Fr X2) in X3. subst s1. rewrite <- T1 in *. exact (only_data_cfg w w' _ s _ C D1 W').
Qed.

(** ** Replacing a key *)
Lemma normalize_can ty c : key_fits ty c -> normalize_signer ty c = Ok (new_key ty c).
Proof.
  unfold key_fits, normalize_signer, new_key, key33, T_Ed25519, T_Ed25519Session, T_Secp256k1, T_Secp256k1Session, T_Secp256r1, T_Secp256r1Session.
  intros [(T & L)|[(T & L)|(T & L)]]; destruct T as [-> | ->]; cbn [Z.eqb Pos.eqb orb]; try (rewrite L; reflexivity); destruct L as [L|L]; rewrite L; try reflexivity.
Qed.
Lemma replace_loop_can E l buf swig acting target new o p r : Forall wf_role l -> roles_at o buf l -> Z.of_nat (o + roles_size l) < U32 ->
  (o + roles_size l <= length buf)%nat ->
  pos_of target o l = Some (p, r) -> key_fits (r_aty r) new -> let pk := new_key (r_aty r) new in
  sub 0 (length pk) (r_auth r) <> pk ->
  can (replace_loop E (length l) buf swig acting target new None o).
Proof.
  intros Hl; revert o; induction Hl as [|q t Hr Ht IH]; intros o Hat Hsm Hb Hp Fi pk Ne; [discriminate Hp|].
  cbn [replace_loop length]. cbn in Hat, Hsm, Hb. destruct Hat as [H1 H2]. pose proof (role_len_ge q). cbn [pos_of] in Hp.
  apply can_guard; [unfold POS in *; lia|].
  rewrite (fld_id o buf q) by (try assumption; lia).
  destruct (r_id q =? target) eqn:Ei.
  - injection Hp as <- <-. rewrite (fld_type o buf q) by (try assumption; lia).
    pose proof Hr as (W1 & W2 & W3 & W4 & W5 & W6). pose proof (authority_len_bound _ _ W2) as Bd.
    unfold authority_type. replace ((1 <=? r_aty q) && (r_aty q <=? 8)) with true by lia. cbn [bind].
    rewrite (normalize_can _ _ Fi). cbn [bind]. rewrite W2. cbn [ok_or bind]. fold pk.
    unfold slice. replace (_ <=? _)%nat with true by (unfold role_len, POS in *; lia). cbn [check bind].
    unfold POS. rewrite (fld_auth o buf q) by (try assumption; lia). cbn [check bind].
    apply can_check; [apply negb_true_iff, beq_neq; exact Ne|]. apply can_ok.
  - rewrite (fld_bound o buf q) by (try assumption; lia). apply IH; try assumption; lia.
Qed.
Theorem replace_asked E cx w s r tr c : wf_ctx cx -> is_cfg (w (acct cx 0)) s -> usual_accounts 1 cx w s ->
  In r (s_roles s) -> In tr (s_roles s) -> manager r \/ holds_for 21 (r_id tr) r -> r_aty r <> 7 ->
  asks E cx r (ReplaceKey (r_id tr) c) -> sub 2 2 (c_data cx) = zeros 2 -> sub 14 2 (c_data cx) = zeros 2 ->
  key_fits (r_aty tr) c -> let pk := new_key (r_aty tr) c in firstn (length pk) (r_auth tr) <> pk ->
  exists w', succeeds E cx w w'
    /\ is_cfg (w' (acct cx 0)) (on_role (r_id tr) (fun r0 => with_auth r0 (rotated (r_aty r0) (r_auth r0) pk)) (used (r_id r) s)).
Proof.
  intros Wc C (A1 & A2 & A3) I It M N7 (Q1 & Q2 & a & Q3) Z1 Z2 Kf pk Ne. pose proof C as (O & Dd & W).
  assert (Fr : find_role (r_id r) s = Some r) by (apply find_role_mine; [exact W|exact I]).
  assert (Ft : find_role (r_id tr) s = Some tr) by (apply find_role_mine; [exact W|exact It]).
  apply order_replace in Q2 as (T & T1 & T2). laid T Q1 Q3. rewrite Nat.sub_0_r in Q3.
  pose proof (payload_there _ _ _ _ _ _ _ _ Q3) as L. set (n := nat_of (u16_at 12 (c_data cx))) in *.
  assert (Ln : length c = n) by (rewrite T2; unfold sub; rewrite firstn_length, skipn_length; lia).
  assert (Hn : can (replace_authority_v1 E cx w)).
  { unfold replace_authority_v1. cbv zeta. unfold need. apply can_check; [lia|]. change (mkey (c_metas cx) 0) with (acct cx 0).
    unfold owned_by. apply can_check; [rewrite O; apply beq_refl|]. apply can_check; [lia|].
    rewrite Z1, Z2, beq_refl. cbn [andb check bind]. fold n.
    apply can_check.
    { unfold key_fits in Kf. assert (X : u16_at 12 (c_data cx) = Z.of_nat n).
      { unfold n, nat_of. rewrite Z2Nat.id; [reflexivity|]. apply (u16_bound 12 (c_data cx)), Wc. }
      rewrite X. lia. }
    apply can_check; [lia|]. rewrite Q1, <- T1, <- T2, (load_config_can _ _ _ C). cbn [bind].
    apply can_then; [eapply open_can; [exact W|exact Fr|exact Q3]|].
    intros o Ho. apply open_role_enc in Ho as (r1 & s0 & (O1 & au' & O1' & O1s) & O2 & W1 & O4 & O5 & O6 & O7 & O8 & O9 & O10); [|exact W].
    rewrite Fr in O1. injection O1 as <-. pose proof (eq_trans (eq_sym Q3) O1') as X. injection X as <-.
    change (s0 = shown r a s) in O1s. rewrite (shown_used _ _ _ _ _ _ _ W Fr Q3) in O1s.
    rewrite O8, !has_action_enc by exact O2. cbn [bind].
    assert (Cr : can_replace (r_id tr) r = true).
    { apply can_replace_holds; [|exact O2|exact M]. destruct (find_role_wf _ _ _ W Ft) as (X & _). apply X. }
    apply can_then. { destruct (has P_All [] r); [apply can_ok|]. cbn [bind]. destruct (has P_ManageAuthority [] r); apply can_ok. }
    intros b Hb. assert (b = true) as ->.
    { unfold can_replace in Cr. destruct (has P_All [] r); [injection Hb as <-; reflexivity|]. cbn [bind orb] in *.
      destruct (has P_ManageAuthority [] r); injection Hb as <-; [reflexivity|exact Cr]. }
    cbn [check bind]. rewrite O9. replace (r_aty r =? T_ProgramExec) with false by (unfold T_ProgramExec; lia). cbn [bind].
    pose proof W1 as (V1 & (V2 & V2') & V3 & V4 & V5 & V6 & V7 & V8 & V9 & V10 & V11 & V12 & V13).
    pose proof (wf_roles_small _ W1) as Hsm.
    rewrite <- (app_nil_r (o_hdr _)), O4, O5. rewrite hf_roles, nat_of_nat by assumption.
    pose proof (roles_at_enc (s_roles s0) [] V8) as Hat. rewrite app_nil_r in Hat.
    set (tr0 := if r_id tr =? r_id r then after_use tr else tr).
    assert (Ft0 : find_role (r_id tr) s0 = Some tr0).
    { rewrite O1s. unfold used. rewrite find_role_on, Ft by (intros; unfold after_use; destruct (_ || _); reflexivity). reflexivity. }
    destruct (get_mut_find (r_id tr) s0 W1) as [_ G]. rewrite Ft0 in G.
    destruct (pos_of (r_id tr) 0 (s_roles s0)) as [[p tr1]|] eqn:Ps; [|discriminate G]. injection G as <-.
    assert (Ty : r_aty tr0 = r_aty tr) by (unfold tr0, after_use; destruct (_ =? _); [destruct (_ || _)|]; reflexivity).
    apply can_then; [|intros; apply set_can_data; assumption].
    eapply replace_loop_can; [exact V8|exact Hat|lia|rewrite (enc_roles_length 0 _ V8); lia|exact Ps|rewrite Ty; exact Kf|].
    rewrite Ty. fold pk. change (sub 0 ?n ?x) with (firstn n x). unfold tr0. destruct (_ =? _); [|exact Ne].
    rewrite after_use_head; [exact Ne|apply (find_role_wf _ _ _ W Ft)|].
    destruct (normalize_new _ _ _ (normalize_can _ _ Kf)) as (_ & _ & Lp & _). unfold pk. rewrite Lp. destruct (_ || _); lia. }
  destruct Hn as [w' Hn]. exists w'. split.
  - apply (dispatched E cx w s); try assumption; try lia.
    + change (~ In (tag (c_data cx)) [9; 11; 20]). rewrite T. cbn. lia.
    + unfold dispatch. replace (2 <=? length (c_data cx))%nat with true by lia. cbn [check bind].
      change (u16_at 0 (c_data cx)) with (tag (c_data cx)). rewrite T. exact Hn.
  - destruct (replace_authority_spec _ _ _ _ _ Wc Hn Dd W) as (r1 & s1 & tr1 & pk1 & (_ & X1 & a1 & X2 & X3) & _ & Y1 & Y2 & _ & _ & _ & D1 & W').
    rewrite Q1 in *. rewrite Fr in X1. injection X1 as <-. change (s1 = shown r a1 s) in X3.
    pose proof (shown_size _ _ _ _ _ _ _ W Fr X2) as (_ & W1). rewrite <- X3 in W1.
    rewrite (shown_used _ _ _ _ _ _ _ W Fr X2) in X3. rewrite <- T1 in *. rewrite <- X3.
    fold n in Y2. rewrite <- T2 in Y2.
    assert (Ty : r_aty tr1 = r_aty tr).
    { rewrite X3 in Y1. unfold used in Y1. rewrite find_role_on, Ft in Y1 by (intros; unfold after_use; destruct (_ || _); reflexivity).
      injection Y1 as <-. unfold after_use. destruct (_ =? _); [destruct (_ || _)|]; reflexivity. }
    rewrite Ty, (normalize_can _ _ Kf) in Y2. injection Y2 as <-. fold pk in D1, W'.
    assert (Eq : on_role (r_id tr) (fun r0 => with_auth r0 (rotated (r_aty r0) (r_auth r0) pk)) s1
               = on_role (r_id tr) (fun r0 => with_auth r0 (replaced_authority (r_aty tr1) (r_auth tr1) pk)) s1).
    { apply (on_role_ext _ _ _ _ tr1); [exact W1|exact Y1|]. cbv beta. f_equal. symmetry.
      destruct (normalize_new _ _ _ (normalize_can _ _ Kf)) as (B6 & _ & Lp & _). destruct (find_role_wf _ _ _ W1 Y1) as ((_ & La & _) & _).
      apply rotated_ok; [exact La|lia|rewrite Ty; exact Lp]. }
    rewrite Eq. exact (only_data_cfg w w' _ s _ C D1 W').
Qed.
