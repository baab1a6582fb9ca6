(** * The 65536th role *)
From Verif Require Import BaseFacts SpecConfig ConfigFacts ConfigEdit NewCredential ConfigEdit2 ConfigEdit3.
From Verif Require Import Frame HandlerRoles HandlerRoles2 Actors ConfigProps AuthFacts SpecWrap Avail Avail2 Avail3.
From Verif Require Import SpecRent SignProcess Rent.

Definition gives {A} (P : A -> Prop) (m : res A) : Prop := exists a, m = Ok a /\ P a.
Lemma gives_then {A B} (P : B -> Prop) (m : res A) (f : A -> res B) : can m -> (forall a, m = Ok a -> gives P (f a)) -> gives P (bind m f).
Proof. intros [a H] K. rewrite H. cbn. apply K. exact H. Qed.
Lemma gives_check {B} (P : B -> Prop) b e (f : unit -> res B) : b = true -> gives P (f tt) -> gives P (bind (check b e) f).
Proof. intros -> H. exact H. Qed.
Lemma gives_guard {B} (P : B -> Prop) b (f : unit -> res B) : b = true -> gives P (f tt) -> gives P (bind (guard b) f).
Proof. intros -> H. exact H. Qed.

Section Wrap.
Variables (E : env) (cx : ctx) (w : world) (s : config) (r : role) (ty : Z) (c : bytes) (l : list action) (i : Z).
Notation k := (acct cx 0).
Notation nr := (new_role s ty c l).
Hypothesis (C : is_cfg (w k) s) (Wc : wf_ctx cx) (A : admin_accounts cx w s)
  (Fr : find_role (r_id r) s = Some r) (M : can_manage r = true) (Sh : shows cx r i)
  (D : c_data cx = add_data (r_id r) ty c l i) (R1 : s_counter s + 1 < U32) (R3 : Z.of_nat (length (s_roles s)) = 65535)
  (Cr : credential_ok ty c) (Wl : wf_actions l) (Ul : Forall unspent l)
  (Z1 : Z.of_nat (role_len nr) <= 10240) (Z2 : Z.of_nat (length (enc_config (add_to s nr))) <= 10485760)
  (Pos : 0 <= a_lamports (w k))
  (Pay : let cost := rent E (length (enc_config (add_to s nr))) in
         cost < U64 /\ (a_lamports (w k) < cost -> can_pay w (acct cx 1) (cost - a_lamports (w k)))).
Let acts := enc_actions 0 l.

Lemma wrap_can : gives (fun w' => exists n, a_data (w' k) = enc_config (wiped s) ++ zeros n) (add_authority_v1 E cx w).
Proof.
  destruct (add_fields cx w s r ty c l i C Fr D Cr Z1) as (F0 & F1 & F2 & F3 & F4). destruct (add_parts cx s r ty c l i D Cr Z1) as (P1 & P2 & P3 & P4).
  destruct A as (A1 & A2 & A3 & A4 & A5 & A6). pose proof C as (O & Dd & W).
  pose proof (find_role_wf _ _ _ W Fr) as (Wr & _ & _).
  assert (Wn : wf_role nr) by (apply new_role_wf; try assumption; rewrite <- P1; apply all_bytes_sub, Wc).
  unfold add_authority_v1. cbv zeta. unfold need. apply gives_check; [lia|]. change (mkey (c_metas cx) 0) with k.
  change (mkey (c_metas cx) 1) with (acct cx 1). change (mkey (c_metas cx) 2) with (acct cx 2).
  unfold owned_by. apply gives_check; [rewrite O; apply beq_refl|]. apply gives_check; [rewrite A2; apply beq_refl|].
  apply gives_check; [lia|]. rewrite F1, F2, F3, F4, P1, P2, P3. apply gives_check; [lia|].
  rewrite (proj1 (credential_type _ _ Cr)). cbn [bind].
  rewrite (load_config_can _ _ _ C). cbn [bind]. rewrite split_parts_enc by exact W. cbn [bind].
  rewrite take_tail_enc by apply W. cbn [bind].
  apply gives_then; [eapply open_can; [exact W|exact Fr|apply shows_auth; eassumption]|].
  intros o Ho. pose proof Ho as Ho'. apply open_role_enc in Ho' as (r1 & s1 & (O1 & au & O1' & O1s) & O2 & O3 & O4 & O5 & O6 & O7 & O8 & O9 & O10); [|exact W].
  rewrite Fr in O1. injection O1 as <-. rewrite shows_auth in O1' by assumption. injection O1' as <-.
  rewrite (on_role_same s r W Fr) in O1s. subst s1. rewrite O8, manages_enc by exact O2. cbn [bind]. rewrite M. cbn [check bind].
  rewrite (cred_size _ _ Cr). cbn [ok_or bind]. pose proof (grown_size s nr W Wn) as Gs. cbn [r_auth r_acts new_role] in Gs. rewrite Gs, O7. clear Gs.
  apply gives_then; [apply topup_can; try assumption; apply Pay|]. intros w1 Hw1.
  apply rent_topup_keeps in Hw1. destruct (Hw1 k) as [K1 K2].
  set (size := length (enc_config (add_to s nr))) in *.
  assert (Hsz : size = (length (enc_config s) + role_len nr)%nat) by (apply grown; assumption).
  pose proof (wf_roles_small s W) as Hsm. pose proof (enc_config_length s W) as HL.
  pose proof W as (W1 & (W2 & W2') & W3 & W4 & W5 & W6 & W7 & W8 & W9 & W10 & W11 & W12 & W13).
  pose proof (enc_header_length s W2 W5) as L1. pose proof (enc_roles_length 0 _ W8) as L2.
  set (tail := enc_claimer (s_claimer s)) in *.
  set (n := role_len nr) in *.
  assert (Ed2 : resize_bytes size (enc_config s) = enc_config s ++ zeros n).
  { rewrite (resize_grow size (enc_config s)) by lia. do 2 f_equal. lia. }
  rewrite Ed2. set (d2 := enc_config s ++ zeros n).
  assert (Ld2 : length d2 = (HDR + roles_size (s_roles s) + length tail + n)%nat) by (unfold d2; rewrite app_length, zeros_length, HL; reflexivity).
  apply gives_guard; [lia|].
  set (slack := firstn n (tail ++ zeros n)).
  assert (Lsl : length slack = n) by (unfold slack; rewrite firstn_length, app_length, zeros_length; lia).
  assert (E1 : firstn HDR d2 = enc_header s).
  { unfold d2, enc_config. rewrite <- app_assoc. apply firstn_app_exact. exact L1. }
  assert (E2 : sub HDR (length d2 - HDR - length tail) d2 = enc_roles 0 (s_roles s) ++ slack).
  { replace (length d2 - HDR - length tail)%nat with (length (enc_roles 0 (s_roles s) ++ slack)) by (rewrite app_length, Lsl, L2; lia).
    unfold d2, enc_config. fold tail. rewrite <- !app_assoc.
    replace (tail ++ zeros n) with (slack ++ skipn n (tail ++ zeros n)) by apply firstn_skipn.
    rewrite (app_assoc (enc_roles 0 (s_roles s)) slack). apply sub_app_exact; [exact L1|reflexivity]. }
  rewrite E1, E2. destruct Wl as (Wl1 & Wl2 & Wl3). destruct (add_sizes s ty c l Cr Z1) as (_ & _ & S3).
  apply gives_then.
  { apply (add_role_can s slack ty c acts l (length (new_credential ty c))); try assumption; try lia.
    - unfold U32 in *. lia.
    - apply cred_size. exact Cr.
    - apply parses_enc. exact Wl2.
    - apply unspent_laid_out; assumption.
    - rewrite Lsl. unfold n, role_len. cbn [r_auth r_acts new_role]. lia. }
  intros [h b] Ha. cbv beta iota.
  pose proof Ha as Ha'. apply add_role_enc in Ha'; try assumption.
  2:{ unfold slack. apply all_bytes_firstn. apply all_bytes_app. split; [apply enc_claimer_bytes; exact W|apply zeros_bytes]. }
  2:{ rewrite <- P1. apply all_bytes_sub, Wc. } 2:{ apply enc_actions_bytes. exact Wl2. }
  2:{ unfold U32 in *. lia. }
  destruct Ha' as (auth & lacts & HH). cbv zeta in HH. set (r0 := mk_role _ _ _ _ _) in HH.
  destruct HH as (Q1 & Q2 & Q3 & Q4 & Q5 & Q6).
  assert (lacts = l) by (eapply parses_det; [exact Q1|apply parses_enc; exact Wl2]). subst lacts.
  assert (Lr : role_len r0 = n).
  { unfold n, role_len. cbn [r0 r_auth r_acts new_role]. destruct Q2 as (_ & Q2 & _). cbn [r0 r_aty r_auth] in Q2.
    rewrite (cred_size _ _ Cr) in Q2. injection Q2 as <-. reflexivity. }
  rewrite skipn_all2, app_nil_r in Q6 by lia.
  rewrite header_set_counts in Q5 by assumption.
  rewrite R3 in Q5. change ((65535 + 1) mod U16) with 0 in Q5. rewrite Z.mod_small in Q5 by (unfold U32, is_u32 in *; lia).
  assert (Q7 : h = enc_header (wiped s)) by exact Q5. clear Q5.
  assert (Lsk : length (skipn (length d2 - length tail) d2) = length tail) by (rewrite skipn_length; lia).
  rewrite Q7, Q6.
  assert (Pre : pre_ok (wiped s)).
  { split; [exact W2|]. split; [exact W5|]. cbn [wiped s_roles roles_size length]. split; [constructor|]. unfold U16, U32. cbn. lia. }
  set (slack2 := enc_roles 0 (s_roles s ++ [r0]) ++ skipn (length d2 - length tail) d2).
  change (enc_header (wiped s) ++ slack2) with (enc_header (wiped s) ++ enc_roles 0 (s_roles (wiped s)) ++ slack2).
  assert (Lr2 : length (enc_roles 0 (s_roles s ++ [r0])) = (roles_size (s_roles s) + n)%nat).
  { rewrite enc_roles_length by (apply Forall_app; split; [exact W8|constructor; [exact Q2|constructor]]).
    rewrite roles_size_app. cbn [roles_size]. lia. }
  assert (Ls2 : length slack2 = (roles_size (s_roles s) + n + length tail)%nat) by (unfold slack2; rewrite app_length, Lr2, Lsk; reflexivity).
  apply gives_then; [apply seal_can; [exact Pre|lia]|].
  intros d3 Hd3. apply seal_tail_enc in Hd3; [|exact Pre|lia].
  assert (Ld3 : length d3 = size).
  { rewrite Hd3, !app_length, zeros_length, Ls2. rewrite enc_header_length by assumption. cbn [wiped s_roles enc_roles length]. lia. }
  destruct (write_can (c_metas cx) w1 k d3) as [w' Hw]; [exact A3|congruence|lia|rewrite K1, Dd; lia|].
  exists w'. split; [exact Hw|]. apply write_data_only in Hw as ((Hd & _) & _).
  exists (length slack2 - length tail)%nat. rewrite Hd, Hd3. unfold enc_config. cbn [wiped s_roles s_claimer enc_roles app].
  rewrite <- app_assoc. reflexivity.
Qed.

Theorem wraps : exists w', succeeds E cx w w' /\ exists n, a_data (w' k) = enc_config (wiped s) ++ zeros n.
Proof.
  destruct wrap_can as (w' & H & Q). destruct (add_fields cx w s r ty c l i C Fr D Cr Z1) as (F0 & _).
  destruct (add_parts cx s r ty c l i D Cr Z1) as (_ & _ & _ & P4).
  pose proof A as (A1 & A2 & A3 & A4 & A5 & A6).
  exists w'. split; [|exact Q].
  unfold succeeds, process. destruct (classify_all_can w s k C (c_metas cx) eq_refl) as [cs Hc]; [lia|exact A6|].
  rewrite Hc. cbn [bind]. replace (2 <=? length (c_data cx))%nat with true by lia. cbn [check bind]. rewrite F0. cbn [Z.eqb Pos.eqb].
  unfold dispatch. replace (2 <=? length (c_data cx))%nat with true by lia. cbn [check bind]. rewrite F0. cbn [Z.eqb Pos.eqb]. exact H.
Qed.
End Wrap.
