(** * The role-management handlers refine the configuration-level steps *)
From Verif Require Import BaseFacts SpecConfig ConfigFacts ConfigEdit NewCredential ConfigEdit2 ConfigEdit3.
From Verif Require Export SpecSteps Frame.

(** Peel binds and tuple matches *)
Ltac peels H :=
  repeat (peel H; match type of H with (match ?v with pair _ _ => _ end) = Ok _ => is_var v; destruct v end).

Lemma firstn_sub0 n (d : bytes) : sub 0 n d = firstn n d.
Proof. reflexivity. Qed.

Lemma load_config_enc w k s d : a_data (w k) = enc_config s -> load_config w k = Ok d -> d = enc_config s.
Proof. intros H L. unfold load_config in L. rewrite H in L. peel L. apply ok_inj in L. congruence. Qed.

Lemma enc_config_length_eq s : length (enc_config s)
  = (length (enc_header s) + length (enc_roles 0 (s_roles s)) + length (enc_claimer (s_claimer s)))%nat.
Proof. unfold enc_config. rewrite !app_length. lia. Qed.

Lemma on_role_fields i f s : s_bump (on_role i f s) = s_bump s /\ s_id (on_role i f s) = s_id s
  /\ s_counter (on_role i f s) = s_counter s /\ s_wbump (on_role i f s) = s_wbump s
  /\ s_pad (on_role i f s) = s_pad s /\ s_subctr (on_role i f s) = s_subctr s
  /\ s_claimer (on_role i f s) = s_claimer s /\ length (s_roles (on_role i f s)) = length (s_roles s).
Proof. cbn. rewrite map_length. repeat (split; [reflexivity|]). reflexivity. Qed.

(** the shared opening *)
Lemma open_role_enc E cx s rid payload sdata o : wf_config s ->
  open_role E cx (enc_config s) rid payload sdata = Ok o ->
  exists r s1, acting E cx s rid payload sdata r s1 /\ wf_role r /\ wf_config s1
    /\ o_hdr o = enc_header s1 /\ o_roles o = enc_roles 0 (s_roles s1) /\ o_tail o = enc_claimer (s_claimer s1)
    /\ o_bytes o = enc_config s1 /\ o_acts o = enc_actions 0 (r_acts r) /\ rv_ty (o_role o) = r_aty r
    /\ length (enc_config s1) = length (enc_config s).
Proof.
  intros W H. unfold open_role in H.
  assert (Hwf : forall r, find_role rid s = Some r -> wf_role r).
  { intros r Hr. destruct (find_split _ _ _ Hr) as (l1 & l2 & E1 & _).
    destruct W as (_ & _ & _ & _ & _ & _ & _ & W8 & _). rewrite Forall_forall in W8. apply W8. rewrite E1.
    apply in_elt. }
  apply open_with_enc in H; [|exact W|].
  2:{ intros r auth Hr v Hv1 Hv2 Hv3. rewrite Hv1, Hv2 in Hv3. specialize (Hwf _ Hr).
      destruct Hwf as (A1 & A2 & A3 & _). eapply role_authenticate_size; eassumption. }
  destruct H as (r & auth & s1 & H1 & H2 & H3 & H4 & H5 & H6 & H7 & H8 & H9 & H10).
  exists r, s1.
  assert (Hr : rv_ty (o_role o) = r_aty r /\ rv_auth (o_role o) = r_auth r /\ rv_acts (o_role o) = enc_actions 0 (r_acts r)).
  { rewrite H2. cbn. auto. }
  destruct Hr as (R1 & R2 & R3). rewrite R1, R2 in H3.
  split; [split; [exact H1|exists auth; split; [exact H3|exact H6]]|].
  split; [apply Hwf; exact H1|]. split; [exact H7|]. split; [exact H8|]. split; [exact H9|]. split; [exact H10|].
  split; [unfold o_bytes, enc_config; rewrite H8, H9, H10; reflexivity|].
  split; [exact R3|]. split; [exact R1|].
  rewrite !enc_config_length by (try apply W; try apply H7).
  destruct (find_split _ _ _ H1) as (l1 & l2 & E1 & E2 & _).
  subst s1 rid. rewrite (on_role_split _ s l1 r l2) by (try assumption; apply W).
  cbn [s_roles with_roles s_claimer]. rewrite E1.
  assert (Hs : forall a b, roles_size (a ++ b) = (roles_size a + roles_size b)%nat).
  { induction a as [|x a IH]; intros b; cbn; [reflexivity|]. rewrite IH. lia. }
  rewrite !Hs. cbn [roles_size]. replace (role_len (with_auth r auth)) with (role_len r) by (unfold role_len; cbn; lia). reflexivity.
Qed.

Lemma manages_enc r : wf_role r -> manages (enc_actions 0 (r_acts r)) = Ok (can_manage r).
Proof. intros H. unfold manages. rewrite !has_action_enc by exact H. reflexivity. Qed.

Lemma acting_fields E cx s rid p d r s1 : acting E cx s rid p d r s1 ->
  s_bump s1 = s_bump s /\ s_id s1 = s_id s /\ s_counter s1 = s_counter s /\ s_wbump s1 = s_wbump s
  /\ s_pad s1 = s_pad s /\ s_subctr s1 = s_subctr s /\ s_claimer s1 = s_claimer s
  /\ length (s_roles s1) = length (s_roles s).
Proof. intros (_ & auth & _ & ->). apply on_role_fields. Qed.

Lemma resize_grow n d : (length d <= n)%nat -> resize_bytes n d = d ++ zeros (n - length d).
Proof.
  intros H. unfold resize_bytes. destruct (n <=? length d)%nat eqn:E; [|reflexivity].
  replace n with (length d) by lia. rewrite firstn_all, Nat.sub_diag. cbn. rewrite app_nil_r. reflexivity.
Qed.

Lemma align8_ge n : (n <= align8 n)%nat.
Proof. unfold align8. pose proof (Nat.div_mod (n + 7) 8 ltac:(lia)). pose proof (Nat.mod_upper_bound (n + 7) 8). lia. Qed.

Lemma all_bytes_zeros n : all_bytes (zeros n).
Proof. unfold zeros, all_bytes. apply Forall_forall. intros x H. apply repeat_spec in H. subst. unfold is_byte. lia. Qed.
Lemma enc_claimer_bytes s : wf_config s -> all_bytes (enc_claimer (s_claimer s)).
Proof.
  intros (_ & _ & _ & _ & _ & _ & _ & _ & _ & _ & _ & _ & W). destruct (s_claimer s) as [k|]; cbn [enc_claimer]; [|constructor].
  apply all_bytes_app. split; [|apply W; reflexivity]. repeat constructor; unfold is_byte; lia.
Qed.
Lemma enc_header_add s nr :
  [1; s_bump s] ++ s_id s ++ le_enc 2 (Z.of_nat (length (s_roles s)) + 1) ++ le_enc 4 (s_counter s + 1)
    ++ [s_wbump s] ++ s_pad s ++ le_enc 4 (s_subctr s) = enc_header (add_to s nr).
Proof.
  unfold enc_header, add_to. cbn [s_bump s_id s_roles s_counter s_wbump s_pad s_subctr].
  rewrite app_length. cbn [length]. do 3 f_equal. f_equal. lia.
Qed.

Lemma wf_config_add s nr : wf_config s -> wf_role nr -> r_id nr = s_counter s -> room 1 s ->
  Z.of_nat (length (enc_config (add_to s nr))) <= 10485760 -> wf_config (add_to s nr).
Proof.
  intros (W1 & W2 & W3 & W4 & W5 & W6 & W7 & W8 & W9 & W10 & W11 & W12 & W13) Hn Hi (R1 & R2) L.
  unfold wf_config, ids. cbn [add_to s_bump s_id s_roles s_counter s_wbump s_pad s_subctr s_claimer].
  split; [exact W1|]. split; [exact W2|]. split; [unfold is_u32 in *; lia|]. split; [exact W4|].
  split; [exact W5|]. split; [exact W6|]. split; [exact W7|].
  split; [apply Forall_app; split; [exact W8|constructor; [exact Hn|constructor]]|].
  assert (Hid : forall i, In i (map r_id (s_roles s ++ [nr])) -> In i (ids s) \/ i = s_counter s).
  { intros i. rewrite map_app, in_app_iff. cbn. intros [H|[H|[]]]; [left; exact H|right; congruence]. }
  split; [|split; [|split; [|split; [exact L|exact W13]]]].
  - rewrite map_app. cbn [map]. rewrite Hi. apply NoDup_Add with (a := s_counter s) (l := ids s).
    + rewrite <- (app_nil_r (ids s)) at 1. apply Add_app.
    + split; [exact W9|]. intros Hc. apply W10 in Hc. lia.
  - intros i Hin. destruct (Hid i Hin) as [A|A]; [apply W10 in A; lia|lia].
  - rewrite app_length. cbn [length]. unfold U16 in R2. lia.
Qed.

Lemma add_seal_enc s ty adata acts al h b d3 :
  wf_config s -> room 1 s -> all_bytes adata -> all_bytes acts -> Z.of_nat (length acts) < 65536 ->
  authority_len ty = Some al ->
  let d2 := resize_bytes (align8 (length (enc_config s) + (POS + al + length acts))) (enc_config s) in
  let tail := enc_claimer (s_claimer s) in
  add_role (firstn HDR d2) (sub HDR (length d2 - HDR - length tail) d2) ty adata acts = Ok (h, b) ->
  seal_tail tail (h ++ b ++ skipn (length d2 - length tail) d2) = Ok d3 ->
  exists nr, wf_role nr /\ r_id nr = s_counter s /\ r_aty nr = ty
    /\ r_auth nr = new_credential ty adata /\ r_pad nr = zeros 2
    /\ parses acts (r_acts nr) /\ d3 = enc_config (add_to s nr) /\ exec_outside nr.
Proof.
  intros W (R1 & R2) Hb1 Hb2 Hl Hal d2 tail Ha Hs.
  pose proof (wf_roles_small s W) as Hsm. pose proof (enc_config_length s W) as HL.
  pose proof W as (W1 & (W2 & W2') & W3 & W4 & W5 & W6 & W7 & W8 & W9 & W10 & W11 & W12 & W13).
  pose proof (enc_header_length s W2 W5) as L1. pose proof (enc_roles_length 0 _ W8) as L2.
  assert (Lt : (length tail <= 40)%nat).
  { unfold tail. destruct (s_claimer s) as [k|] eqn:Ek; cbn [enc_claimer]; [|cbn; lia]. rewrite app_length.
    destruct (W13 k eq_refl) as [-> _]. cbn. lia. }
  assert (Hal' : (al <= 1000)%nat).
  { clear - Hal. unfold authority_len in Hal. repeat match type of Hal with (if ?c then _ else _) = _ => destruct c end; inversion Hal; lia. }
  pose proof (align8_ge (length (enc_config s) + (POS + al + length acts))) as Hge.
  set (k := (align8 (length (enc_config s) + (POS + al + length acts)) - length (enc_config s))%nat).
  assert (Ed2 : d2 = enc_config s ++ zeros k) by (apply resize_grow; lia).
  assert (Hk8 : (k < 16 + al + length acts + 8)%nat).
  { unfold k, align8, POS. pose proof (Nat.div_mod (length (enc_config s) + (16 + al + length acts) + 7) 8 ltac:(lia)).
    lia. }
  set (slack := firstn k (tail ++ zeros k)).
  assert (Lsl : length slack = k) by (unfold slack; rewrite firstn_length, app_length, zeros_length; lia).
  assert (E1 : firstn HDR d2 = enc_header s).
  { rewrite Ed2. unfold enc_config. rewrite <- app_assoc. apply firstn_app_exact. exact L1. }
  assert (Ld2 : length d2 = (HDR + roles_size (s_roles s) + length tail + k)%nat).
  { rewrite Ed2, app_length, zeros_length, HL. reflexivity. }
  assert (E2 : sub HDR (length d2 - HDR - length tail) d2 = enc_roles 0 (s_roles s) ++ slack).
  { replace (length d2 - HDR - length tail)%nat with (length (enc_roles 0 (s_roles s) ++ slack))
      by (rewrite app_length, Lsl, L2; lia).
    rewrite Ed2. unfold enc_config. fold tail.
    rewrite <- !app_assoc.
    replace (tail ++ zeros k) with (slack ++ skipn k (tail ++ zeros k)) by apply firstn_skipn.
    rewrite (app_assoc (enc_roles 0 (s_roles s)) slack). apply sub_app_exact; [exact L1|reflexivity]. }
  rewrite E1, E2 in Ha.
  apply add_role_enc in Ha; try assumption.
  2:{ unfold slack. apply all_bytes_firstn. apply all_bytes_app. split; [apply enc_claimer_bytes; exact W|apply all_bytes_zeros]. }
  2:{ rewrite Lsl. unfold U32 in *. lia. }
  destruct Ha as (auth & lacts & A1 & A2 & A3 & A4 & A5 & A6).
  set (nr := mk_role (s_counter s) ty (sub 6 2 slack) auth lacts) in *.
  exists nr. split; [exact A2|]. split; [reflexivity|]. split; [reflexivity|]. 
  assert (Lau : length auth = al) by (destruct A2 as (_ & A2 & _); cbn [nr r_aty r_auth] in A2; congruence).
  assert (Hz : (exists m, skipn 24 (sub 16 (length auth) slack) = zeros m) /\ sub 6 2 slack = zeros 2).
  { apply claimer_slack; [intros x Hx; destruct (W13 x Hx) as [Lx _]; exact Lx|]. fold tail. fold slack. unfold role_len in A3. cbn [nr r_auth] in A3. lia. }
  destruct Hz as ((zn & Hz) & Hp2).
  assert (Nc : r_auth nr = new_credential ty adata). { eapply set_into_bytes_new; [exact A4| |exact Hz]. rewrite sub_length; [congruence|]. unfold role_len in A3. cbn [nr r_auth] in A3. lia. }
  split; [exact Nc|]. split; [exact Hp2|].
  split; [exact A1|]. apply and_comm. split; [exact (set_into_bytes_exec nr _ _ _ A4 Nc)|].
  rewrite header_set_counts in A5 by assumption.
  rewrite !Z.mod_small in A5 by (unfold U16, U32, is_u32 in *; lia).
  rewrite (enc_header_add s nr) in A5.
  assert (Lnr : role_len nr = (16 + al + length acts)%nat).
  { unfold role_len. cbn [nr r_auth r_acts]. rewrite (parses_length _ _ A1).
    destruct A2 as (_ & A2 & _). cbn [nr r_aty r_auth] in A2. rewrite Hal in A2. injection A2 as ->. lia. }
  assert (Ek : k = role_len nr).
  { destruct (role_len_8 nr A2) as [q Hq]. destruct (enc_config_8 s W) as [q2 Hq2].
    unfold k. rewrite Hq2. unfold POS. replace (8 * q2 + (16 + al + length acts))%nat with (8 * (q2 + q))%nat by lia.
    rewrite align8_id. lia. }
  assert (Hsk : skipn (role_len nr) slack = []) by (apply skipn_all2; lia).
  rewrite Hsk, app_nil_r in A6.
  change (s_roles s ++ [nr]) with (s_roles (add_to s nr)) in A6.
  rewrite A5, A6 in Hs.
  apply seal_tail_enc in Hs.
  - rewrite Hs. unfold enc_config. f_equal. f_equal. change (s_claimer (add_to s nr)) with (s_claimer s).
    fold tail. rewrite skipn_length, Ld2.
    replace (_ - _ - _)%nat with O by lia. cbn. apply app_nil_r.
  - split; [exact W2|]. split; [exact W5|]. cbn [s_roles add_to].
    split; [apply Forall_app; split; [exact W8|constructor; [exact A2|constructor]]|].
    split; [rewrite app_length; cbn; unfold U16 in *; lia|].
    rewrite roles_size_app. cbn [roles_size]. unfold U32 in *. lia.
  - rewrite skipn_length, Ld2. lia.
Qed.

Lemma authority_type_id t v : authority_type t = Ok v -> v = t.
Proof. unfold authority_type. intros H. destruct ((1 <=? t) && (t <=? 8)); congruence. Qed.

Lemma add_authority_spec E cx w w' s :
  wf_ctx cx -> add_authority_v1 E cx w = Ok w' ->
  let swig := mkey (c_metas cx) 0 in let data := c_data cx in
  let alen := nat_of (u16_at 2 data) in let actlen := nat_of (u16_at 4 data) in
  a_data (w swig) = enc_config s -> wf_config s -> room 1 s ->
  exists r s1 nr, acts_as E cx s (u32_at 12 data) (16 + alen + actlen) r s1
    /\ can_manage r = true
    /\ r_id nr = s_counter s /\ r_aty nr = u16_at 6 data
    /\ r_auth nr = new_credential (r_aty nr) (sub 16 alen data) /\ r_pad nr = zeros 2
    /\ parses (sub (16 + alen) actlen data) (r_acts nr)
    /\ a_owner (w swig) = SELF
    /\ only_data w w' swig (enc_config (add_to s1 nr)) /\ wf_config (add_to s1 nr) /\ exec_outside nr.
Proof.
  intros (Wc1 & Wc2) H swig data alen actlen Hd W (Hr1 & Hr2).
  unfold add_authority_v1 in H. cbv zeta in H. fold swig data in H. fold alen actlen in H.
  peel H. apply load_config_enc with (s := s) in B5; [|exact Hd]. subst v0.
  rewrite split_parts_enc in B6 by exact W. apply ok_inj in B6. subst v1.
  peel H. rewrite take_tail_enc in B5 by apply W. apply ok_inj in B5. subst v0.
  apply open_role_enc in B6; [|exact W].
  destruct B6 as (r & s1 & O1 & O2 & O3 & O4 & O5 & O6 & O7 & O8 & O9 & O10).
  rewrite O8, manages_enc in B7 by exact O2. apply ok_inj in B7. subst v2.
  peels H. peel H. pose proof (acting_fields _ _ _ _ _ _ _ _ O1) as (F1 & F2 & F3 & F4 & F5 & F6 & F7 & F8).
  apply authority_type_id in B4. subst v.
  rewrite O7 in *. rewrite <- O10, <- F7 in *.
  assert (Rm : room 1 s1) by (unfold room; rewrite F3, F8; split; assumption).
  apply add_seal_enc with (s := s1) (al := v3) (d3 := v0) in B12; try assumption; try (apply all_bytes_sub; exact Wc1).
  2:{ rewrite sub_length by lia. pose proof (u16_bound 4 data Wc1) as U. unfold is_u16, U16 in U. unfold actlen, nat_of. lia. }
  destruct B12 as (nr & N1 & N2 & N3 & N4 & N4b & N5 & N6 & N7).
  exists r, s1, nr. split; [split; [apply Nat.leb_le; exact B3|exact O1]|]. split; [exact B8|]. split; [congruence|].
  split; [exact N3|]. split; [rewrite N3; exact N4|]. split; [exact N4b|]. split; [exact N5|]. split; [apply beq_eq; exact B0|].
  apply write_data_only in H as (H1 & H2 & _). apply rent_topup_keeps in B10.
  subst v0. split; [eapply only_data_keeps_l; eassumption|].
  split; [|exact N7]. apply wf_config_add; try assumption; congruence.
Qed.

(** Rewrite the opening of a handler in terms of the configuration *)
Ltac cfg s Hd W :=
  repeat match goal with
  | H : load_config _ _ = Ok ?d |- _ => apply (load_config_enc _ _ s) in H; [subst d|exact Hd]
  | H : split_parts (enc_config s) = Ok _ |- _ =>
      rewrite (split_parts_enc s W) in H; apply ok_inj in H;
      first [subst | (apply pair_equal_spec in H; let H1 := fresh in let H2 := fresh in destruct H as [H1 H2];
        apply pair_equal_spec in H1; let H3 := fresh in destruct H1 as [H3 H1]; subst)]
  | H : take_tail (enc_claimer _) = Ok _ |- _ =>
      rewrite take_tail_enc in H by apply W; apply ok_inj in H; subst
  end.
Ltac opening W :=
  match goal with B : open_role _ _ (enc_config _) _ _ _ = Ok _ |- _ =>
    apply open_role_enc in B; [|exact W];
    destruct B as (r & s1 & O1 & O2 & O3 & O4 & O5 & O6 & O7 & O8 & O9 & O10)
  end;
  match goal with Q : acting _ _ _ _ _ _ _ _ |- _ =>
    pose proof (acting_fields _ _ _ _ _ _ _ _ Q) as (F1 & F2 & F3 & F4 & F5 & F6 & F7 & F8) end;
  try match goal with Q : o_acts ?o = enc_actions 0 (r_acts ?r), Q2 : wf_role ?r, B : manages (o_acts ?o) = Ok ?v |- _ =>
    rewrite Q, (manages_enc r Q2) in B; apply ok_inj in B; try subst v end.
(** [grab p as n]: name the hypothesis whose type matches [p] *)
Tactic Notation "grab" open_constr(p) "as" ident(n) :=
  match goal with H : ?T |- _ => unify T p; rename H into n end.

Lemma drop_wf s l1 r l2 : wf_config s -> s_roles s = l1 ++ r :: l2 -> wf_config (with_roles s (l1 ++ l2)).
Proof.
  intros W E1. pose proof (enc_config_length s W) as HL.
  destruct W as (W1 & W2 & W3 & W4 & W5 & W6 & W7 & W8 & W9 & W10 & W11 & W12 & W13).
  unfold wf_config, ids in *. cbn [with_roles s_bump s_id s_roles s_counter s_wbump s_pad s_subctr s_claimer].
  rewrite E1 in *.
  assert (W8' : Forall wf_role (l1 ++ l2)).
  { apply Forall_app in W8 as [A B]. inversion B. apply Forall_app. split; assumption. }
  repeat (split; [assumption|]).
  rewrite map_app in *. cbn [map] in *.
  split; [eapply NoDup_remove_1; exact W9|].
  split; [intros i Hi; apply W10; rewrite in_app_iff in *; cbn; tauto|].
  rewrite app_length in *. cbn [length] in W11. split; [lia|]. split; [|exact W13].
  unfold enc_config in *. cbn [with_roles s_roles s_claimer].
  rewrite !app_length in *. rewrite enc_roles_length in * by assumption.
  rewrite enc_header_length in * by (cbn; apply W2 || exact W5). rewrite roles_size_app in *. cbn [roles_size] in HL. lia.
Qed.

Lemma remove_seal_enc s l1 r l2 tail d3 : wf_config s -> s_roles s = l1 ++ r :: l2 ->
  tail = enc_claimer (s_claimer s) ->
  seal_tail tail (resize_bytes (length (enc_config s) - role_len r)
    (enc_header (with_roles s (l1 ++ l2)) ++ (enc_roles 0 (l1 ++ l2) ++ zeros (role_len r)) ++ tail)) = Ok d3 ->
  d3 = enc_config (with_roles s (l1 ++ l2)).
Proof.
  intros W E1 Et Hs. pose proof (drop_wf s l1 r l2 W E1) as W'.
  pose proof (enc_config_length s W) as HL. pose proof (enc_config_length _ W') as HL'.
  pose proof (wf_roles_small _ W') as Hsm.
  pose proof W' as (V1 & (V2 & V2') & V3 & V4 & V5 & V6 & V7 & V8 & V9 & V10 & V11 & V12 & V13).
  pose proof (enc_header_length _ V2 V5) as L1. pose proof (enc_roles_length 0 _ V8) as L2.
  cbn [with_roles s_roles s_claimer] in L2, HL', Hsm, V11. rewrite E1, roles_size_app in HL. cbn [roles_size] in HL.
  rewrite roles_size_app in *. rewrite <- Et in *.
  set (X := firstn (length tail) (zeros (role_len r) ++ tail)).
  assert (LX : length X = length tail) by (unfold X; rewrite firstn_length, app_length; lia).
  assert (Er : resize_bytes (length (enc_config s) - role_len r)
    (enc_header (with_roles s (l1 ++ l2)) ++ (enc_roles 0 (l1 ++ l2) ++ zeros (role_len r)) ++ tail)
    = enc_header (with_roles s (l1 ++ l2)) ++ enc_roles 0 (s_roles (with_roles s (l1 ++ l2))) ++ X).
  { unfold resize_bytes. rewrite !app_length, zeros_length, L1, L2.
    replace (_ <=? _)%nat with true by lia. rewrite <- app_assoc.
    rewrite (app_assoc (enc_header _)), firstn_app.
    rewrite firstn_all2 by (rewrite app_length; lia).
    replace (_ - _)%nat with (length tail) by (rewrite app_length; lia). fold X. cbn [with_roles s_roles].
    rewrite <- app_assoc. reflexivity. }
  rewrite Er in Hs. apply seal_tail_enc in Hs.
  - rewrite Hs, LX, Nat.sub_diag. unfold enc_config. cbn [with_roles s_claimer s_roles zeros repeat].
    rewrite app_nil_r, Et. reflexivity.
  - split; [exact V2|]. split; [exact V5|]. split; [exact V8|]. cbn [with_roles s_roles].
    split; [exact V11|]. rewrite roles_size_app. lia.
  - lia.
Qed.

Lemma get_mut_role_find i s : wf_config s ->
  get_mut_role i (enc_roles 0 (s_roles s)) =
  match find_role i s with
  | Some r => Ok (option_map (fun p => view_of (fst p) (snd p)) (pos_of i 0 (s_roles s)))
  | None => Ok None
  end.
Proof.
  intros W. pose proof (wf_roles_small s W). rewrite get_mut_role_enc by (try apply W; lia).
  unfold find_role. rewrite <- (pos_of_find i 0). destruct (pos_of i 0 (s_roles s)) as [[p r]|]; reflexivity.
Qed.

Lemma find_on_role i j f s : (forall r, r_id (f r) = r_id r) ->
  find_role i (on_role j f s) = option_map (fun r => if r_id r =? j then f r else r) (find_role i s).
Proof.
  intros Hf. unfold find_role, on_role. cbn [with_roles s_roles].
  induction (s_roles s) as [|a l IH]; [reflexivity|]. cbn [map find].
  destruct (r_id a =? j) eqn:Ej; [rewrite Hf|]; (destruct (r_id a =? i) eqn:Ei; cbn [option_map]; [rewrite Ej; reflexivity|exact IH]).
Qed.

Lemma remove_authority_spec E cx w w' s :
  remove_authority_v1 E cx w = Ok w' ->
  let swig := mkey (c_metas cx) 0 in let data := c_data cx in
  let target := u32_at 12 data in
  a_data (w swig) = enc_config s -> wf_config s ->
  exists r s1 tr, acts_as E cx s (u32_at 8 data) 16 r s1
    /\ (can_manage r = true \/ u32_at 8 data = target)
    /\ target <> 0 /\ find_role target s = Some tr
    /\ a_owner (w swig) = SELF
    /\ only_data w w' swig (enc_config (drop_role target s1)) /\ wf_config (drop_role target s1).
Proof.
  intros H swig data target Hd W.
  unfold remove_authority_v1 in H. cbv zeta in H. fold swig data in H. fold target in H.
  peel H. cfg s Hd W. peel H. cfg s Hd W. opening W.
  grab (get_mut_role _ _ = Ok _) as Bg. grab (remove_role _ _ _ = Ok _) as Br.
  grab (_ || _ = true) as Bm.
  rewrite O5, get_mut_role_find in Bg by exact O3.
  destruct (find_role target s1) as [tr|] eqn:Et; [|apply ok_inj in Bg; subst; discriminate].
  destruct (find_split _ _ _ Et) as (l1 & l2 & E1 & E2 & E3).
  pose proof O3 as (V1 & (V2 & V2') & V3 & V4 & V5 & V6 & V7 & V8 & V9 & V10 & V11 & V12 & V13).
  pose proof (wf_roles_small _ O3).
  rewrite O4, O5, <- E2 in Br.
  rewrite (remove_role_enc s1 l1 tr l2) in Br by (try assumption; lia).
  apply ok_inj in Br. subst. peel H.
  grab (seal_tail _ _ = Ok _) as Bs. grab (write_data _ _ _ _ = Ok _) as Bw.
  rewrite O6, <- O10, <- F7 in *.
  apply (remove_seal_enc s1 l1 tr l2) in Bs; try assumption; [|reflexivity].
  assert (Ed : drop_role target s1 = with_roles s1 (l1 ++ l2)).
  { rewrite <- E2. apply drop_role_split; assumption. }
  apply write_data_only in Bw as (H1 & H2 & _). apply move_lamports_keeps in H.
  assert (Ef : exists tr0, find_role target s = Some tr0).
  { destruct O1 as (Q1 & auth & Q2 & Q3). rewrite Q3, find_on_role in Et by reflexivity.
    destruct (find_role target s); [eauto|discriminate]. }
  destruct Ef as (tr0 & Ef).
  exists r, s1, tr0. split; [split; [apply Nat.leb_le; exact B2|exact O1]|].
  split; [apply orb_true_iff in Bm; destruct Bm as [Bm|Bm]; [left; exact Bm|right; apply Z.eqb_eq; exact Bm]|].
  split; [lia|]. split; [exact Ef|]. split; [apply beq_eq; exact B0|].
  rewrite Ed. split; [subst; eapply only_data_keeps_r; eassumption|eapply drop_wf; eassumption].
Qed.
