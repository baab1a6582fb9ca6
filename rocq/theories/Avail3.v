(** * A manager can add and remove roles *)
From Verif Require Import BaseFacts SpecConfig ConfigFacts ConfigEdit NewCredential ConfigEdit2 ConfigEdit3.
From Verif Require Import Frame HandlerRoles HandlerRoles2 Actors ConfigProps AuthFacts SpecAvail Avail Avail2.
From Verif Require Import SpecRent SignProcess.

Lemma topup_can E ms w payer k n : 0 <= a_lamports (w k) -> (a_lamports (w k) < rent E n -> can_pay w payer (rent E n - a_lamports (w k))) ->
  signer ms payer = true -> writable ms payer = true -> writable ms k = true -> rent E n < U64 ->
  can (rent_topup E ms w payer k n).
Proof.
  intros L P Sg Wp Wk R. unfold rent_topup. destruct (a_lamports (w k) <? rent E n) eqn:Q; [|apply can_ok].
  destruct P as (O & D & A); [lia|].
  unfold sys_transfer. rewrite Sg, Wp, Wk, O, D, beq_refl. cbn [orb andb check bind length Nat.eqb].
  apply can_check; [lia|]. destruct (beq payer k); [apply can_ok|]. apply can_check; [lia|]. apply can_ok.
Qed.
Lemma write_can ms w k d : writable ms k = true -> a_owner (w k) = SELF -> Z.of_nat (length d) <= 10485760 ->
  Z.of_nat (length d) <= Z.of_nat (length (a_data (w k))) + 10240 -> can (write_data ms w k d).
Proof.
  intros W O L1 L2. unfold write_data. apply can_check; [lia|]. apply can_check; [lia|].
  unfold set_data. destruct (beq d (a_data (w k))); [apply can_ok|]. rewrite W, O, beq_refl. apply can_ok.
Qed.
Lemma seal_can s tail slack : pre_ok s -> (length tail <= length slack)%nat ->
  can (seal_tail tail (enc_header s ++ enc_roles 0 (s_roles s) ++ slack)).
Proof.
  intros W Hl. unfold seal_tail. rewrite roles_len_pre by exact W. cbn [bind].
  destruct W as (W2 & W5 & W8 & W11 & Hsm).
  pose proof (enc_header_length s W2 W5) as L1. pose proof (enc_roles_length 0 _ W8) as L2.
  unfold restore_at. destruct tail as [|t0 t]; [apply can_ok|]. apply can_check; [|apply can_ok].
  rewrite !app_length, firstn_length, !app_length, zeros_length, L1, L2. cbn [length] in *. lia.
Qed.

Lemma load_config_can w k s : is_cfg (w k) s -> load_config w k = Ok (enc_config s).
Proof. intros (_ & D & _). unfold load_config. rewrite D. reflexivity. Qed.

(** the role the edit writes is the one announced *)
Lemma role_eta a b c d e r : r_id r = a -> r_aty r = b -> r_pad r = c -> r_auth r = d -> r_acts r = e -> r = mk_role a b c d e.
Proof. intros; subst; destruct r; reflexivity. Qed.

(** ** The new role and the size of the account with it *)
Lemma new_role_wf s ty c l : wf_config s -> all_bytes c -> credential_ok ty c -> wf_actions l -> wf_role (new_role s ty c l).
Proof.
  intros W Bc Cr Wl. pose proof W as (W1 & _ & W3 & _).
  unfold wf_role. cbn [r_id r_aty r_auth r_pad r_acts new_role]. split; [exact W3|]. split; [apply cred_size; exact Cr|].
  split; [|split; [reflexivity|]; split; [apply zeros_bytes|exact Wl]].
  destruct (set_can ty c (zeros (length (new_credential ty c))) Cr) as [a Q].
  assert (L' : authority_len ty = Some (length (zeros (length (new_credential ty c))))) by (rewrite zeros_length; apply cred_size; exact Cr).
  pose proof (set_into_bytes_new _ _ _ _ (length (new_credential ty c) - 24) Q L') as En.
  rewrite <- En by (rewrite skipn_zeros; reflexivity).
  apply (set_into_bytes_bytes _ _ _ _ Q); [exact Bc|apply zeros_bytes].
Qed.
Lemma grown s nr : wf_config s -> wf_role nr -> length (enc_config (add_to s nr)) = (length (enc_config s) + role_len nr)%nat.
Proof.
  intros W Wn. pose proof W as (W1 & (W2 & W2') & W3 & W4 & W5 & W6 & W7 & W8 & _).
  pose proof (enc_config_length s W) as HL. rewrite HL. unfold enc_config. rewrite !app_length.
  assert (W8' : Forall wf_role (s_roles (add_to s nr))) by (cbn [s_roles add_to]; apply Forall_app; split; [exact W8|constructor; [exact Wn|constructor]]).
  rewrite (enc_roles_length 0 _ W8'), enc_header_length by assumption.
  cbn [s_roles s_claimer add_to]. rewrite roles_size_app. cbn [roles_size]. lia.
Qed.
Lemma grown_size s nr : wf_config s -> wf_role nr ->
  align8 (length (enc_config s) + (POS + length (r_auth nr) + length (enc_actions 0 (r_acts nr)))) = length (enc_config (add_to s nr)).
Proof.
  intros W Wn. rewrite grown, enc_actions_length by assumption.
  assert (El : role_len nr = (POS + length (r_auth nr) + acts_len (r_acts nr))%nat) by reflexivity.
  rewrite <- El. destruct (role_len_8 nr Wn) as [q Hq]. destruct (enc_config_8 s W) as [q2 Hq2].
  rewrite Hq2, Hq. replace (8 * q2 + 8 * q)%nat with (8 * (q2 + q))%nat by lia. apply align8_id.
Qed.
Lemma shown_size E cx s r p d au : wf_config s -> find_role (r_id r) s = Some r ->
  role_authenticate E cx (r_aty r) (r_auth r) p d = Ok au -> length (enc_config (shown r au s)) = length (enc_config s) /\ wf_config (shown r au s).
Proof.
  intros W F A. destruct (open_can E cx s (r_id r) r p d au W F A) as [o Ho].
  apply open_role_enc in Ho as (r1 & s1 & (O1 & au' & O1' & ->) & O2 & O3 & O4 & O5 & O6 & O7 & O8 & O9 & O10); [|exact W].
  rewrite F in O1. injection O1 as <-. rewrite A in O1'. injection O1' as <-. split; assumption.
Qed.

(** ** The data of AddAuthority and RemoveAuthority *)
Section AddData.
Variables (cx : ctx) (w : world) (s : config) (r : role) (ty : Z) (c : bytes) (l : list action) (i : Z).
Hypothesis (C : is_cfg (w (acct cx 0)) s) (Fr : find_role (r_id r) s = Some r) (D : c_data cx = add_data (r_id r) ty c l i)
  (Cr : credential_ok ty c) (Z1 : Z.of_nat (role_len (new_role s ty c l)) <= 10240).
Let acts := enc_actions 0 l.
Let head := le_enc 2 1 ++ le_enc 2 (Z.of_nat (length c)) ++ le_enc 2 (Z.of_nat (acts_len l)) ++ le_enc 2 ty
  ++ le_enc 4 (Z.of_nat (length l)) ++ le_enc 4 (r_id r).
Lemma add_split : c_data cx = head ++ c ++ acts ++ [i].
Proof. rewrite D. unfold add_data, head, acts. rewrite <- !app_assoc. reflexivity. Qed.
Lemma add_sizes : (length c <= 128)%nat /\ Z.of_nat (acts_len l) <= 10240 /\ length acts = acts_len l.
Proof.
  split; [unfold credential_ok in Cr; lia|]. split; [|apply enc_actions_length].
  unfold role_len in Z1. cbn [r_auth r_acts new_role] in Z1. lia.
Qed.
Lemma add_fields : u16_at 0 (c_data cx) = 1 /\ nat_of (u16_at 2 (c_data cx)) = length c
  /\ nat_of (u16_at 4 (c_data cx)) = acts_len l /\ u16_at 6 (c_data cx) = ty /\ u32_at 12 (c_data cx) = r_id r.
Proof.
  destruct add_sizes as (S1 & S2 & S3). rewrite D. unfold add_data.
  split; [reflexivity|]. unfold u16_at, u32_at.
  change (sub 2 2 _) with (le_enc 2 (Z.of_nat (length c))). rewrite le2 by (unfold is_u16, U16; lia).
  split; [apply nat_of_nat|].
  change (sub 4 2 _) with (le_enc 2 (Z.of_nat (acts_len l))). rewrite le2 by (unfold is_u16, U16; lia).
  split; [apply nat_of_nat|].
  change (sub 6 2 _) with (le_enc 2 ty). rewrite le2 by (unfold is_u16, U16; unfold credential_ok in Cr; lia).
  split; [reflexivity|].
  change (sub 12 4 _) with (le_enc 4 (r_id r)). apply le4.
  destruct C as (_ & _ & W). apply find_role_wf in Fr as (Wr & _); [|exact W]. apply Wr.
Qed.
Lemma add_parts : sub 16 (length c) (c_data cx) = c /\ sub (16 + length c) (acts_len l) (c_data cx) = acts
  /\ skipn (16 + length c + acts_len l) (c_data cx) = [i] /\ length (c_data cx) = (16 + length c + acts_len l + 1)%nat.
Proof.
  destruct add_sizes as (S1 & S2 & S3). rewrite add_split. assert (L : length head = 16%nat) by reflexivity.
  split; [apply sub_app_exact; [exact L|reflexivity]|].
  split. { rewrite app_assoc. apply sub_app_exact; [rewrite app_length; lia|exact S3]. }
  split. { rewrite !app_assoc. apply skipn_app_exact. rewrite !app_length. lia. }
  rewrite !app_length, L, S3. cbn. lia.
Qed.

End AddData.
Section RemoveData.
Variables (cx : ctx) (w : world) (s : config) (r tr : role) (i : Z).
Hypothesis (C : is_cfg (w (acct cx 0)) s) (Fr : find_role (r_id r) s = Some r) (Ft : find_role (r_id tr) s = Some tr)
  (D : c_data cx = remove_data (r_id r) (r_id tr) i).
Lemma remove_fields : u16_at 0 (c_data cx) = 2 /\ u32_at 8 (c_data cx) = r_id r /\ u32_at 12 (c_data cx) = (r_id tr)
  /\ skipn 16 (c_data cx) = [i] /\ length (c_data cx) = 17%nat.
Proof.
  destruct C as (_ & _ & W). rewrite D. unfold remove_data. split; [reflexivity|]. unfold u32_at.
  change (sub 8 4 _) with (le_enc 4 (r_id r)). change (sub 12 4 _) with (le_enc 4 (r_id tr)).
  assert (B1 : is_u32 (r_id r)) by (destruct (find_role_wf _ _ _ W Fr) as (X & _); apply X).
  assert (B2 : is_u32 (r_id tr)) by (destruct (find_role_wf _ _ _ W Ft) as (X & _); apply X).
  rewrite !le4 by assumption. split; [|split; [|split]]; reflexivity.
Qed.
End RemoveData.

Section Add.
Variables (E : env) (cx : ctx) (w : world) (s : config) (r : role) (ty : Z) (c : bytes) (l : list action) (au : bytes).
Notation k := (acct cx 0).
Notation data := (c_data cx).
Notation nr := (new_role s ty c l).
Notation s1 := (shown r au s).
Hypothesis (C : is_cfg (w k) s) (Wc : wf_ctx cx) (A : admin_accounts cx w s)
  (Fr : find_role (r_id r) s = Some r) (M : can_manage r = true)
  (F0 : u16_at 0 data = 1) (F1 : nat_of (u16_at 2 data) = length c) (F2 : nat_of (u16_at 4 data) = acts_len l)
  (F3 : u16_at 6 data = ty) (F4 : u32_at 12 data = r_id r)
  (P1 : sub 16 (length c) data = c) (P2 : sub (16 + length c) (acts_len l) data = enc_actions 0 l)
  (P4 : (16 + length c + acts_len l <= length data)%nat)
  (Au : role_authenticate E cx (r_aty r) (r_auth r) (skipn (16 + length c + acts_len l) data) (sub 0 (16 + length c + acts_len l) data) = Ok au)
  (R : room 1 s)
  (Cr : credential_ok ty c) (Wl : wf_actions l) (Ul : Forall unspent l)
  (Z1 : Z.of_nat (role_len nr) <= 10240) (Z2 : Z.of_nat (length (enc_config (add_to s nr))) <= 10485760)
  (Pos : 0 <= a_lamports (w k))
  (Pay : let cost := rent E (length (enc_config (add_to s nr))) in
         cost < U64 /\ (a_lamports (w k) < cost -> can_pay w (acct cx 1) (cost - a_lamports (w k)))).

Let acts := enc_actions 0 l.
Lemma sizes_of_add : (length c <= 128)%nat /\ Z.of_nat (acts_len l) <= 10240 /\ length acts = acts_len l.
Proof.
  split; [unfold credential_ok in Cr; lia|]. split; [|apply enc_actions_length].
  unfold role_len in Z1. cbn [r_auth r_acts new_role] in Z1. lia.
Qed.
Lemma c_bytes : all_bytes c.
Proof. rewrite <- P1. apply all_bytes_sub, Wc. Qed.

Lemma add_can : can (add_authority_v1 E cx w).
Proof.
  destruct A as (A1 & A2 & A3 & A4 & A5 & A6). pose proof C as (O & Dd & W0).
  unfold add_authority_v1. cbv zeta. unfold need. apply can_check; [lia|]. change (mkey (c_metas cx) 0) with k.
  change (mkey (c_metas cx) 1) with (acct cx 1). change (mkey (c_metas cx) 2) with (acct cx 2).
  unfold owned_by. apply can_check; [rewrite O; apply beq_refl|]. apply can_check; [rewrite A2; apply beq_refl|].
  apply can_check; [lia|]. rewrite F1, F2, F3, F4, P1, P2. apply can_check; [lia|].
  rewrite (proj1 (credential_type _ _ Cr)). cbn [bind].
  rewrite (load_config_can _ _ _ C). cbn [bind]. rewrite split_parts_enc by exact W0. cbn [bind].
  rewrite take_tail_enc by apply W0. cbn [bind].
  apply can_then; [eapply open_can; [exact W0|exact Fr|exact Au]|].
  intros o Ho. pose proof Ho as Ho'. apply open_role_enc in Ho' as (r1 & s0 & (O1 & au' & O1' & O1s) & O2 & W & O4 & O5 & O6 & O7 & O8 & O9 & O10); [|exact W0].
  rewrite Fr in O1. injection O1 as <-. rewrite Au in O1'. injection O1' as <-.
  pose proof (on_role_fields (r_id r) (fun r0 => with_auth r0 au) s) as (G1 & G2 & G3 & G4 & G5 & G6 & G7 & G8).
  rewrite <- O1s in *. clear O1s.
  assert (En : nr = new_role s0 ty c l) by (unfold new_role; rewrite G3; reflexivity).
  assert (Wn : wf_role (new_role s0 ty c l)) by (apply new_role_wf; try assumption; apply c_bytes).
  assert (Es : length (enc_config (add_to s nr)) = length (enc_config (add_to s0 (new_role s0 ty c l)))).
  { rewrite En, !grown by (try assumption; rewrite <- En; assumption). lia. }
  rewrite Es in *. rewrite En in Z1.
  rewrite O8, manages_enc by exact O2. cbn [bind]. rewrite M. cbn [check bind].
  rewrite (cred_size _ _ Cr). cbn [ok_or bind]. rewrite <- O10.
  pose proof (grown_size s0 _ W Wn) as Gs. cbn [r_auth r_acts new_role] in Gs. rewrite Gs, O7. clear Gs.
  apply can_then; [apply topup_can; try assumption; apply Pay|]. intros w1 Hw1.
  apply rent_topup_keeps in Hw1. destruct (Hw1 k) as [K1 K2].
  set (nr0 := new_role s0 ty c l) in *.
  set (size := length (enc_config (add_to s0 nr0))) in *.
  assert (Hsz : size = (length (enc_config s0) + role_len nr0)%nat) by (apply grown; assumption).
  pose proof (wf_roles_small s0 W) as Hsm. pose proof (enc_config_length s0 W) as HL.
  pose proof W as (W1 & (W2 & W2') & W3 & W4 & W5 & W6 & W7 & W8 & W9 & W10 & W11 & W12 & W13).
  pose proof (enc_header_length s0 W2 W5) as L1. pose proof (enc_roles_length 0 _ W8) as L2.
  rewrite <- G7. set (tail := enc_claimer (s_claimer s0)) in *.
  set (n := role_len nr0) in *.
  assert (Ed2 : resize_bytes size (enc_config s0) = enc_config s0 ++ zeros n).
  { rewrite (resize_grow size (enc_config s0)) by lia. do 2 f_equal. lia. }
  rewrite Ed2. set (d2 := enc_config s0 ++ zeros n).
  assert (Ld2 : length d2 = (HDR + roles_size (s_roles s0) + length tail + n)%nat) by (unfold d2; rewrite app_length, zeros_length, HL; reflexivity).
  apply can_guard; [lia|].
  set (slack := firstn n (tail ++ zeros n)).
  assert (Lsl : length slack = n) by (unfold slack; rewrite firstn_length, app_length, zeros_length; lia).
  assert (E1 : firstn HDR d2 = enc_header s0).
  { unfold d2, enc_config. rewrite <- app_assoc. apply firstn_app_exact. exact L1. }
  assert (E2 : sub HDR (length d2 - HDR - length tail) d2 = enc_roles 0 (s_roles s0) ++ slack).
  { replace (length d2 - HDR - length tail)%nat with (length (enc_roles 0 (s_roles s0) ++ slack)) by (rewrite app_length, Lsl, L2; lia).
    unfold d2, enc_config. fold tail. rewrite <- !app_assoc.
    replace (tail ++ zeros n) with (slack ++ skipn n (tail ++ zeros n)) by apply firstn_skipn.
    rewrite (app_assoc (enc_roles 0 (s_roles s0)) slack). apply sub_app_exact; [exact L1|reflexivity]. }
  rewrite E1, E2. destruct Wl as (Wl1 & Wl2 & Wl3). destruct sizes_of_add as (_ & _ & S3).
  destruct R as (R1 & R2). rewrite <- G3 in R1. rewrite <- G8 in R2. unfold U16 in R2.
  apply can_then.
  { apply (add_role_can s0 slack ty c acts l (length (new_credential ty c))); try assumption; try lia.
    - unfold U32 in *. lia.
    - apply cred_size. exact Cr.
    - apply parses_enc. exact Wl2.
    - apply unspent_laid_out; assumption.
    - rewrite Lsl. unfold n, role_len. cbn [r_auth r_acts nr0 new_role]. lia. }
  intros [h b] Ha. cbv beta iota.
  pose proof Ha as Ha'. apply add_role_enc in Ha'; try assumption.
  2:{ unfold slack. apply all_bytes_firstn. apply all_bytes_app. split; [apply enc_claimer_bytes; exact W|apply zeros_bytes]. }
  2:{ apply c_bytes. } 2:{ apply enc_actions_bytes. exact Wl2. }
  2:{ unfold U32 in *. lia. }
  destruct Ha' as (auth & lacts & HH). cbv zeta in HH. set (r0 := mk_role _ _ _ _ _) in HH.
  destruct HH as (Q1 & Q2 & Q3 & Q4 & Q5 & Q6).
  assert (lacts = l) by (eapply parses_det; [exact Q1|apply parses_enc; exact Wl2]). subst lacts.
  assert (Lr : role_len r0 = n).
  { unfold n, role_len. cbn [r0 r_auth r_acts nr0 new_role]. destruct Q2 as (_ & Q2 & _). cbn [r0 r_aty r_auth] in Q2.
    rewrite (cred_size _ _ Cr) in Q2. injection Q2 as <-. reflexivity. }
  rewrite skipn_all2, app_nil_r in Q6 by lia.
  rewrite header_set_counts in Q5 by assumption.
  rewrite !Z.mod_small in Q5 by (unfold U16, U32, is_u32 in *; lia).
  rewrite (enc_header_add s0 r0) in Q5. change (s_roles s0 ++ [r0]) with (s_roles (add_to s0 r0)) in Q6.
  assert (Lsk : length (skipn (length d2 - length tail) d2) = length tail) by (rewrite skipn_length; lia).
  rewrite Q5, Q6.
  assert (Pre : pre_ok (add_to s0 r0)).
  { split; [exact W2|]. split; [exact W5|]. cbn [s_roles add_to].
    split; [apply Forall_app; split; [exact W8|constructor; [exact Q2|constructor]]|].
    split; [rewrite app_length; cbn; unfold U16 in *; lia|].
    rewrite roles_size_app. cbn [roles_size]. unfold U32 in *. lia. }
  apply can_then; [apply seal_can; [exact Pre|lia]|].
  intros d3 Hd3. apply seal_tail_enc in Hd3; [|exact Pre|lia].
  assert (Ld3 : length d3 = size).
  { rewrite Hd3, !app_length, zeros_length, Lsk. rewrite enc_header_length by assumption.
    rewrite enc_roles_length by apply Pre. cbn [s_roles add_to]. rewrite roles_size_app. cbn [roles_size]. lia. }
  apply write_can; [exact A3|congruence|lia|]. rewrite K1, Dd. lia.
Qed.

Theorem manager_adds : exists w', succeeds E cx w w' /\ is_cfg (w' k) (add_to s1 nr).
Proof.
  destruct add_can as [w' H].
  pose proof C as (O & Dd & W). pose proof A as (A1 & A2 & A3 & A4 & A5 & A6).
  exists w'. split.
  - unfold succeeds, process. destruct (classify_all_can w s k C (c_metas cx) eq_refl) as [cs Hc]; [lia|exact A6|].
    rewrite Hc. cbn [bind]. replace (2 <=? length (c_data cx))%nat with true by lia. cbn [check bind]. rewrite F0. cbn [Z.eqb Pos.eqb].
    unfold dispatch. replace (2 <=? length (c_data cx))%nat with true by lia. cbn [check bind]. rewrite F0. cbn [Z.eqb Pos.eqb]. exact H.
  - apply add_authority_spec with (s := s) in H; [|exact Wc|exact Dd|exact W|exact R].
    cbv zeta in H. rewrite F1, F2, F3, F4, P1, P2 in H.
    destruct H as (r1 & s2 & nr1 & (_ & O1 & au' & O1' & O1s) & _ & N1 & N2 & N3 & N4 & N5 & N6 & N7 & N8 & _).
    rewrite Fr in O1. injection O1 as <-. pose proof (eq_trans (eq_sym Au) O1') as Qa. injection Qa as <-. subst s2.
    assert (r_acts nr1 = l) by (eapply parses_det; [exact N5|apply parses_enc; apply Wl]).
    assert (nr1 = nr) as -> by (apply role_eta; try assumption; rewrite N2 in N3; exact N3).
    exact (only_data_cfg w w' k s _ C N7 N8).
Qed.
End Add.

Lemma drop_size s i tr : wf_config s -> find_role i s = Some tr ->
  length (enc_config (drop_role i s)) = (length (enc_config s) - role_len tr)%nat /\ (role_len tr <= length (enc_config s))%nat.
Proof.
  intros W F. destruct (find_split _ _ _ F) as (l1 & l2 & E1 & E2 & _). subst i.
  pose proof (drop_wf s l1 tr l2 W E1) as W'. rewrite (drop_role_split s l1 tr l2) by (try assumption; apply W).
  rewrite (enc_config_length s W), (enc_config_length _ W'). cbn [with_roles s_roles s_claimer].
  rewrite E1, !roles_size_app. cbn [roles_size]. lia.
Qed.

Section Remove.
Variables (E : env) (cx : ctx) (w : world) (s : config) (r tr : role) (au : bytes).
Notation k := (acct cx 0).
Notation target := (r_id tr).
Notation data := (c_data cx).
Notation s1 := (shown r au s).
Hypothesis (C : is_cfg (w k) s) (Wc : wf_ctx cx) (A : admin_accounts cx w s)
  (Fr : find_role (r_id r) s = Some r) (Ft : find_role target s = Some tr) (T0 : target <> 0)
  (M : can_manage r = true \/ r_id r = target)
  (F0 : u16_at 0 data = 2) (F1 : u32_at 8 data = r_id r) (F2 : u32_at 12 data = target) (F4 : (16 <= length data)%nat)
  (Au : role_authenticate E cx (r_aty r) (r_auth r) (skipn 16 data) (sub 0 16 data) = Ok au)
  (G : rent_grows E) (Ex : exempt E (w k))
  (Rf : a_lamports (w (acct cx 1)) + (rent E (length (enc_config s)) - rent E (length (enc_config (drop_role target s)))) < U64).

Lemma remove_can : can (remove_authority_v1 E cx w).
Proof.
  destruct A as (A1 & A2 & A3 & A4 & A5 & A6). pose proof C as (O & Dd & W0).
  unfold remove_authority_v1. cbv zeta. unfold need. apply can_check; [lia|]. change (mkey (c_metas cx) 0) with k.
  change (mkey (c_metas cx) 1) with (acct cx 1). change (mkey (c_metas cx) 2) with (acct cx 2).
  unfold owned_by. apply can_check; [rewrite O; apply beq_refl|]. apply can_check; [rewrite A2; apply beq_refl|].
  apply can_check; [lia|]. rewrite F1, F2. apply can_check; [lia|].
  rewrite (load_config_can _ _ _ C). cbn [bind]. rewrite split_parts_enc by exact W0. cbn [bind].
  rewrite take_tail_enc by apply W0. cbn [bind].
  apply can_then; [eapply open_can; [exact W0|exact Fr|exact Au]|].
  intros o Ho. pose proof Ho as Ho'. apply open_role_enc in Ho' as (r1 & s0 & (O1 & au' & O1' & O1s) & O2 & W & O4 & O5 & O6 & O7 & O8 & O9 & O10); [|exact W0].
  rewrite Fr in O1. injection O1 as <-. rewrite Au in O1'. injection O1' as <-.
  pose proof (on_role_fields (r_id r) (fun r0 => with_auth r0 au) s) as (G1 & G2 & G3 & G4 & G5 & G6 & G7 & G8).
  assert (Ft0 : exists tr0, find_role target s0 = Some tr0 /\ role_len tr0 = role_len tr /\ r_id tr0 = target).
  { rewrite O1s, find_role_on, Ft by reflexivity. cbn [option_map]. eexists. split; [reflexivity|].
    destruct (r_id tr =? r_id r) eqn:Q; [|split; reflexivity]. split; [|reflexivity].
    assert (F2' : find_role target s0 = Some (with_auth tr au)) by (rewrite O1s, find_role_on, Ft by reflexivity; cbn [option_map]; rewrite Q; reflexivity).
    apply find_role_wf in F2' as ((_ & L1 & _) & _); [|exact W]. destruct (find_role_wf _ _ _ W0 Ft) as ((_ & L2 & _) & _).
    unfold role_len. cbn [with_auth r_auth r_acts r_aty] in *. rewrite L1 in L2. injection L2 as ->. reflexivity. }
  destruct Ft0 as (tr0 & Ft0 & Lt0 & It0).
  rewrite <- O1s in *. clear O1s.
  rewrite O8, manages_enc by exact O2. cbn [bind].
  apply can_check; [destruct M as [-> | ->]; [reflexivity|rewrite Z.eqb_refl; apply orb_true_r]|].
  rewrite O5, get_mut_role_find, Ft0 by exact W. cbn [bind].
  destruct (find_split _ _ _ Ft0) as (l1 & l2 & E1 & _ & E3). rewrite E3. cbn [option_map ok_or bind].
  pose proof W as (W1 & (W2 & W2') & W3 & W4 & W5 & W6 & W7 & W8 & W9 & W10 & W11 & W12 & W13).
  pose proof (wf_roles_small _ W) as Hsm. rewrite O4, <- It0.
  rewrite (remove_role_enc s0 l1 tr0 l2) by (try assumption; lia). cbn [bind].
  pose proof (drop_wf s0 l1 tr0 l2 W E1) as W'. pose proof (drop_role_split s0 l1 tr0 l2 W9 E1) as Ed.
  pose proof (enc_config_length s0 W) as HL. pose proof (enc_config_length _ W') as HL'.
  pose proof (wf_roles_small _ W') as Hsm'.
  pose proof W' as (V1 & (V2 & V2') & V3 & V4 & V5 & V6 & V7 & V8 & V9 & V10 & V11 & V12 & V13).
  pose proof (enc_header_length _ V2 V5) as L1. pose proof (enc_roles_length 0 _ V8) as L2.
  cbn [with_roles s_roles s_claimer] in L2, HL', Hsm', V11. rewrite E1, roles_size_app in HL. cbn [roles_size] in HL.
  rewrite roles_size_app in *.
  rewrite It0 in Ed.
  assert (Ln : (length (enc_config s0) - role_len tr0)%nat = length (enc_config (drop_role target s0))) by (rewrite Ed; lia).
  destruct (drop_size s target tr W0 Ft) as [Ln0 _].
  assert (Ln1 : length (enc_config (drop_role target s)) = (length (enc_config s0) - role_len tr0)%nat) by lia.
  pose proof Rf as Rf'. rewrite Ln1, <- O10 in Rf'. pose proof Ex as Ex'. unfold exempt in Ex'. rewrite Dd, <- O10 in Ex'.
  rewrite <- O10.
  destruct (G (length (enc_config s0) - role_len tr0)%nat (length (enc_config s0)) ltac:(lia)) as [H1 H2].
  apply can_check; [lia|]. rewrite O6, <- G7. set (tail := enc_claimer (s_claimer s0)) in *.
  set (X := firstn (length tail) (zeros (role_len tr0) ++ tail)).
  assert (LX : length X = length tail) by (unfold X; rewrite firstn_length, app_length; lia).
  assert (Er : resize_bytes (length (enc_config s0) - role_len tr0)
    (enc_header (with_roles s0 (l1 ++ l2)) ++ (enc_roles 0 (l1 ++ l2) ++ zeros (role_len tr0)) ++ tail)
    = enc_header (with_roles s0 (l1 ++ l2)) ++ enc_roles 0 (s_roles (with_roles s0 (l1 ++ l2))) ++ X).
  { unfold resize_bytes. rewrite !app_length, zeros_length, L1, L2.
    replace (_ <=? _)%nat with true by lia. rewrite <- app_assoc.
    rewrite (app_assoc (enc_header _)), firstn_app.
    rewrite firstn_all2 by (rewrite app_length; lia).
    replace (_ - _)%nat with (length tail) by (rewrite app_length; lia). fold X. cbn [with_roles s_roles].
    rewrite <- app_assoc. reflexivity. }
  assert (Hp : pre_ok (with_roles s0 (l1 ++ l2))).
  { split; [exact V2|]. split; [exact V5|]. split; [exact V8|]. cbn [with_roles s_roles].
    split; [exact V11|]. rewrite roles_size_app. lia. }
  rewrite Er. apply can_then; [apply seal_can; [exact Hp|lia]|].
  intros d3 Hd3. rewrite <- Er in Hd3. apply (remove_seal_enc s0 l1 tr0 l2) in Hd3; try assumption; [|reflexivity].
  assert (Ld3 : length d3 = (length (enc_config s0) - role_len tr0)%nat) by (rewrite Hd3, Ln, Ed; reflexivity).
  apply can_then; [apply write_can; [exact A3|congruence| |]; rewrite Ld3; [|rewrite Dd]; lia|].
  intros w1 Hw1. apply write_data_only in Hw1 as ((Q1 & Q2 & Q3) & _ & _ & Ql).
  unfold move_lamports. cbv beta. match goal with |- can (if ?c then _ else _) => destruct c end; [apply can_ok|].
  destruct (beq k (acct cx 1)) eqn:Ek; [apply can_ok|].
  apply can_check; [rewrite A3, A4; reflexivity|]. apply can_check; [rewrite Q2, O; apply beq_refl|].
  rewrite !Ql. apply can_check; [lia|]. apply can_check; [lia|]. apply can_ok.
Qed.
Theorem manager_removes : exists w', succeeds E cx w w' /\ is_cfg (w' k) (drop_role target s1).
Proof.
  destruct remove_can as [w' H].
  pose proof C as (O & Dd & W). pose proof A as (A1 & A2 & A3 & A4 & A5 & A6).
  exists w'. split.
  - unfold succeeds, process. destruct (classify_all_can w s k C (c_metas cx) eq_refl) as [cs Hc]; [lia|exact A6|].
    rewrite Hc. cbn [bind]. replace (2 <=? length (c_data cx))%nat with true by lia. cbn [check bind]. rewrite F0. cbn [Z.eqb Pos.eqb].
    unfold dispatch. replace (2 <=? length (c_data cx))%nat with true by lia. cbn [check bind]. rewrite F0. cbn [Z.eqb Pos.eqb]. exact H.
  - apply remove_authority_spec with (s := s) in H; [|exact Dd|exact W]. cbv zeta in H. rewrite F1, F2 in H.
    destruct H as (r1 & s2 & tr1 & (_ & O1 & au' & O1' & O1s) & _ & N1 & N2 & N3 & N4 & N5).
    rewrite Fr in O1. injection O1 as <-. pose proof (eq_trans (eq_sym Au) O1') as Qa. injection Qa as <-. subst s2.
    exact (only_data_cfg w w' k s _ C N4 N5).
Qed.
End Remove.

(** ** The calls as a client makes them *)
Lemma add_works E cx w s r ty c l i : wf_ctx cx -> is_cfg (w (acct cx 0)) s -> admin_accounts cx w s ->
  In r (s_roles s) -> manager r -> shows cx r i -> c_data cx = add_data (r_id r) ty c l i ->
  room 1 s -> credential_ok ty c -> wf_actions l -> Forall unspent l ->
  let nr := new_role s ty c l in let size := length (enc_config (add_to s nr)) in
  let had := a_lamports (w (acct cx 0)) in
  Z.of_nat (role_len nr) <= 10240 -> Z.of_nat size <= 10485760 -> 0 <= had -> rent E size < U64 ->
  (had < rent E size -> can_pay w (acct cx 1) (rent E size - had)) ->
  exists w', succeeds E cx w w' /\ is_cfg (w' (acct cx 0)) (add_to s nr).
Proof.
  intros Wc C A I M Sh D R Cr Wl Ul nr size had Z1 Z2 Z3 Z4 Pay.
  assert (Fr : find_role (r_id r) s = Some r) by (apply find_role_mine; [apply C|exact I]).
  assert (Wr : wf_role r) by (destruct C as (_ & _ & W); eapply find_role_wf; eassumption).
  destruct (add_fields cx w s r ty c l i C Fr D Cr Z1) as (F0 & F1 & F2 & F3 & F4).
  destruct (add_parts cx s r ty c l i D Cr Z1) as (P1 & P2 & P3 & P4).
  destruct (manager_adds E cx w s r ty c l (r_auth r)) as (w' & S & C'); try assumption; try lia.
  - apply can_manage_holds. exact M.
  - rewrite P3. apply shows_auth; assumption.
  - split; assumption.
  - exists w'. split; [exact S|]. unfold shown in C'. rewrite on_role_same in C' by (try assumption; apply C). exact C'.
Qed.
Lemma remove_works E cx w s r tr i : is_cfg (w (acct cx 0)) s -> admin_accounts cx w s ->
  In r (s_roles s) -> In tr (s_roles s) -> r_id tr <> 0 -> manager r \/ r = tr -> shows cx r i ->
  c_data cx = remove_data (r_id r) (r_id tr) i -> rent_grows E -> exempt E (w (acct cx 0)) ->
  let s' := drop_role (r_id tr) s in
  a_lamports (w (acct cx 1)) + (rent E (length (enc_config s)) - rent E (length (enc_config s'))) < U64 ->
  exists w', succeeds E cx w w' /\ is_cfg (w' (acct cx 0)) s'.
Proof.
  intros C A I It T0 M Sh D G Ex s' Rf.
  assert (Fr : find_role (r_id r) s = Some r) by (apply find_role_mine; [apply C|exact I]).
  assert (Ft : find_role (r_id tr) s = Some tr) by (apply find_role_mine; [apply C|exact It]).
  assert (Wr : wf_role r) by (destruct C as (_ & _ & W); eapply find_role_wf; eassumption).
  destruct (remove_fields cx w s r tr i C Fr Ft D) as (F0 & F1 & F2 & F3 & F4).
  destruct (manager_removes E cx w s r tr (r_auth r)) as (w' & S & C'); try assumption; try lia.
  - destruct M as [M| ->]; [left; apply can_manage_holds; exact M|right; reflexivity].
  - rewrite F3. apply shows_auth; assumption.
  - exists w'. split; [exact S|]. unfold shown in C'. rewrite on_role_same in C' by (try assumption; apply C). exact C'.
Qed.
