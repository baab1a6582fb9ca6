(** * The configuration account, where an instruction resizes or debits it.  Proofs *)
From Verif Require Import BaseFacts SpecConfig ConfigFacts ConfigEdit ConfigEdit2 ConfigEdit3.
From Verif Require Import AuthProps HandlerRoles HandlerRoles2 HandlerSub HandlerLife HandlerV2 HandlerAssets SignSpec.
From Verif Require Export Rent.

Lemma seal_tail_length tail d d' : seal_tail tail d = Ok d' -> length d' = length d.
Proof.
  unfold seal_tail. intros H. peel H.
  assert (L : length (firstn (HDR + v) d ++ zeros (length d - (HDR + v))) = length d).
  { rewrite app_length, firstn_length, zeros_length. lia. }
  revert H. generalize dependent (firstn (HDR + v) d ++ zeros (length d - (HDR + v))). intros x L H. unfold restore_at in H.
  destruct tail as [|z t]; [apply ok_inj in H; subst; exact L|]. peel H. apply ok_inj in H. subst d'.
  rewrite splice_length; [exact L|]. apply Nat.leb_le. assumption.
Qed.
Lemma resize_length n d : length (resize_bytes n d) = n.
Proof.
  unfold resize_bytes. destruct (n <=? length d)%nat eqn:Q.
  - apply Nat.leb_le in Q. rewrite firstn_length. lia.
  - apply Nat.leb_gt in Q. rewrite app_length, zeros_length. lia.
Qed.
Lemma align8_le n k : (n <= 8 * k)%nat -> (align8 n <= 8 * k)%nat.
Proof.
  intros H. rewrite <- (align8_id k). unfold align8. apply Nat.mul_le_mono_r. apply Nat.div_le_mono; lia.
Qed.
Lemma align8_mult n : exists k, align8 n = (8 * k)%nat.
Proof. exists ((n + 7) / 8)%nat. unfold align8. lia. Qed.
Lemma acting_shape E cx s rid p d r s1 : acting E cx s rid p d r s1 -> shape s s1.
Proof. intros (_ & auth & _ & ->). apply shape_on. intros r0 _ _. split; reflexivity. Qed.
Lemma moved_lam w w' f t amt : moved w w' f t amt -> a_lamports (w' f) = a_lamports (w f) - amt \/ a_lamports (w' f) = a_lamports (w f).
Proof. intros (_ & M2 & M3). destruct (bytes_dec f t) as [Q|Q]; [right; apply M2; exact Q|left; apply M3; exact Q]. Qed.

Lemma alike_size l l' : Forall wf_role l -> Forall wf_role l' -> Forall2 alike l l' -> roles_size l' = roles_size l.
Proof.
  intros W W' F. induction F as [|r r' t t' A F IH]; [reflexivity|]. inversion W; inversion W'; subst. cbn.
  rewrite IH by assumption. rewrite (alike_len r r') by assumption. reflexivity.
Qed.

Section Swig.
Variables (E : env) (cx : ctx) (w w' : world) (s : config).
Hypothesis (F : foreign_ok E) (Hr : rent_grows E) (Hc : wf_ctx cx).
Notation swig := (mkey (c_metas cx) 0).
Hypothesis (S : is_cfg (w swig) s) (X : exempt E (w swig)).

Lemma add_ex : room 1 s -> add_authority_v1 E cx w = Ok w' -> exempt E (w' swig).
Proof.
  intros R H. destruct S as (So & Hd & W).
  destruct (add_authority_spec _ _ _ _ _ Hc H Hd W R) as (r & s1 & nr & (_ & A) & _ & _ & T & Au & _ & P & _ & (D & _) & W' & _).
  pose proof Hc as (Wc1 & _). apply acting_shape in A as (A1 & A2).
  unfold add_authority_v1 in H. cbv zeta in H. peels H. peel H. cfg s Hd W.
  grab (rent_topup _ _ _ _ _ _ = Ok _) as Bt.
  grab (authority_len _ = Some _) as Bl. grab (authority_type _ = Ok _) as Bty. apply authority_type_id in Bty. subst.
  grab ((16 + _ + _ <=? _)%nat = true) as Bn. apply Nat.leb_le in Bn.
  apply topup_enough in Bt; [|exact So]. apply write_data_only in H as (_ & _ & _ & L).
  unfold exempt. rewrite D, L.
  eapply Z.le_trans; [apply Hr|exact Bt].
  assert (Wn : Forall wf_role (s_roles s1) /\ wf_role nr).
  { destruct W' as (_ & _ & _ & _ & _ & _ & _ & W' & _). cbn [add_to s_roles] in W'. rewrite Forall_app in W'. destruct W' as (W1 & W').
    inversion W'. split; assumption. }
  destruct Wn as (W1 & Wn).
  assert (Ln : length (enc_config (add_to s1 nr)) = (length (enc_config s) + role_len nr)%nat).
  { rewrite !enc_config_length by assumption. cbn [add_to s_roles s_claimer]. rewrite A2. rewrite roles_size_app. cbn.
    destruct W as (_ & _ & _ & _ & _ & _ & _ & W & _). rewrite (alike_size _ _ W W1 A1). lia. }
  rewrite Ln.
  assert (Rl : role_len nr = (POS + v4 + length (sub (16 + nat_of (u16_at 2 (c_data cx))) (nat_of (u16_at 4 (c_data cx))) (c_data cx)))%nat).
  { unfold role_len. rewrite (parses_length _ _ P). destruct Wn as (_ & Wl & _). rewrite T, Bl in Wl. injection Wl as ->. reflexivity. }
  rewrite Rl. apply align8_ge.
Qed.

Lemma remove_ex : remove_authority_v1 E cx w = Ok w' -> exempt E (w' swig).
Proof.
  intros H. destruct S as (So & Hd & W). unfold remove_authority_v1 in H. cbv zeta in H. open_up H. cfg s Hd W.
  grab ((rent _ _ <=? rent _ _) = true) as Br. apply Z.leb_le in Br. grab (seal_tail _ _ = Ok _) as Bs. grab (write_data _ _ _ _ = Ok _) as Bw.
  apply seal_tail_length in Bs. rewrite resize_length in Bs.
  apply write_data_only in Bw as ((D & _) & _ & _ & L).
  apply move_lamports_moved in H as (M & _). pose proof M as (K & _). destruct (K swig) as [D' _]. apply moved_lam in M.
  unfold exempt in *. rewrite D', D, Bs. rewrite Hd in X. rewrite L in M. lia.
Qed.

Lemma update_ex : update_authority_v1 E cx w = Ok w' -> exempt E (w' swig).
Proof.
  intros H. destruct S as (So & Hd & W). unfold update_authority_v1 in H. cbv zeta in H. peels H. cfg s Hd W.
  destruct (enc_config_8 _ W) as (q8 & Q8).
  repeat match goal with v : (_ * _)%type |- _ => destruct v end. peel H.
  repeat match goal with v : (_ * _)%type |- _ => destruct v end. peel H.
  grab (seal_tail _ _ = Ok _) as Bs. grab (write_data _ _ _ _ = Ok _) as Bw. grab ((if 0 <? _ then rent_topup _ _ _ _ _ _ else Ok _) = Ok _) as Bt.
  apply seal_tail_length in Bs. rewrite resize_length in Bs.
  apply write_data_only in Bw as ((D & _) & _ & _ & L).
  unfold exempt in X. rewrite Hd in X.
  match type of Bt with (if 0 <? ?p then _ else _) = _ => generalize dependent p end. intros pre; intros.
  match type of Bs with _ = if _ then align8 (nat_of (Z.of_nat ?x + _)) else _ => set (size := x) in * end.
  assert (Bm : rent E size <= a_lamports (v2 swig) /\ exists q, size = (8 * q)%nat).
  { rewrite L. unfold size. destruct (0 <? pre).
    - split; [eapply topup_enough; eassumption|apply align8_mult].
    - apply ok_inj in Bt. subst. split; [exact X|exists q8; exact Q8]. }
  destruct Bm as (Bm & q & Bq). unfold exempt. destruct (z <? 0) eqn:Ng.
  - apply move_lamports_moved in H as (M & _). pose proof M as (K & _). destruct (K swig) as [D' _]. apply moved_lam in M.
    rewrite D', D, Bs.
    assert (Le : (align8 (nat_of (Z.of_nat size + z)) <= size)%nat) by (rewrite Bq at 2; apply align8_le; rewrite <- Bq; unfold nat_of; lia).
    apply Hr in Le. unfold sat_sub in M. lia.
  - apply ok_inj in H. rewrite <- H, D, Bs. exact Bm.
Qed.

Lemma claimer_ex : set_rent_claimer_v1 E cx w = Ok w' -> exempt E (w' swig).
Proof.
  intros H. destruct S as (So & Hd & W). unfold set_rent_claimer_v1 in H. cbv zeta in H. open_up H; cfg s Hd W.
  grab (rent_topup _ _ _ _ _ _ = Ok _) as Bt. grab (open_role _ _ _ _ _ _ = Ok _) as Bo. grab ((40 <=? _)%nat = true) as Bn. apply Nat.leb_le in Bn.
  apply open_role_enc in Bo as (r & s1 & _ & _ & _ & _ & _ & _ & O7 & _ & _ & O10); [|exact W].
  apply topup_enough in Bt; [|exact So]. apply write_data_only in H as ((D & _) & _ & _ & L).
  unfold exempt. rewrite D, L, app_length, O7, O10.
  assert (Le : length (claimer_entry (sub 8 32 (c_data cx))) = ENTRY_LEN).
  { unfold claimer_entry. rewrite !app_length. rewrite (sub_length 8 32) by lia. reflexivity. }
  rewrite Le. exact Bt.
Qed.

Lemma close_ex : close_swig_v1 E cx w = Ok w' -> exempt E (w' swig).
Proof.
  intros H. destruct S as (So & Hd & W). unfold close_swig_v1 in H. cbv zeta in H. open_up H; cfg s Hd W.
  grab (pay_out _ _ _ _ _ _ = Ok _) as Bp. grab ((if 0 <? _ then sys_transfer _ _ _ _ _ _ else Ok _) = Ok _) as Bt.
  match type of Bt with _ = Ok ?wx => assert (G : gains w wx swig) end.
  { destruct (0 <? _) eqn:Q; [|apply ok_inj in Bt; subst; apply gains_refl]. eapply sys_transfer_gains; [|exact Bt]. lia. }
  destruct (G So) as [_ Lg]. apply write_data_only in H as ((D & _) & _ & _ & L). apply pay_out_ok in Bp as (_ & _ & P1 & P2 & _).
  unfold exempt in *. rewrite D, L. cbn [length]. destruct (bytes_dec swig (mkey (c_metas cx) 2)) as [Q|Q].
  - rewrite (P2 Q). rewrite Hd in X.
    assert (Le : (1 <= length (enc_config s))%nat) by (rewrite enc_config_length by exact W; unfold HDR; lia).
    apply Hr in Le. lia.
  - destruct (P1 Q) as (-> & _). lia.
Qed.

Lemma assets_ex : transfer_assets_v1 E cx w = Ok w' -> length (a_data (w' swig)) = length (a_data (w swig)) -> exempt E (w' swig).
Proof.
  intros H Ln. destruct S as (So & Hd & W). unfold transfer_assets_v1 in H. cbv zeta in H. open_up H; cfg s Hd W.
  grab (set_data _ _ _ _ = Ok _) as Bs. grab (move_lamports _ _ _ _ _ = Ok _) as Bm.
  apply set_data_only in Bs as ((_ & Ow & _) & _ & L). apply move_lamports_moved in Bm as (M & _). pose proof M as (K & _).
  destruct (K swig) as [_ Ow2]. apply moved_lam in M. rewrite L in M. apply (triples_gn E swig F _ _ _ _ _ _ _ _ (le_n _)) in H.
  destruct H as [_ H]; [congruence|]. unfold exempt in *. rewrite Ln. rewrite Hd in *. unfold sat_sub in M. lia.
Qed.

Lemma create_sub2_ex : create_sub_account_v2 E cx w = Ok w' -> exempt E (w' swig).
Proof.
  intros H. destruct S as (So & Hd & W). pose proof H as H0. apply create_sub2_gn with (k := swig) in H0. destruct (H0 So) as [_ Lg].
  unfold create_sub_account_v2 in H. cbv zeta in H. open_up H; cfg s Hd W.
  all: grab (open_role _ _ _ _ _ _ = Ok _) as Bo; apply open_role_enc in Bo as (r & s1 & _ & _ & W1 & O4 & O5 & O6 & _ & _ & _ & O10); [|exact W].
  - apply set_data_only in H as ((D & _) & _ & _). unfold exempt in *. rewrite D, O4, O5, O6. rewrite Hd, <- O10 in X. eapply Z.le_trans; [|exact Lg].
    eapply Z.le_trans; [|exact X]. apply Hr. unfold enc_config. rewrite !app_length. rewrite splice_length; [lia|].
    destruct W1 as (_ & (Wi & _) & _ & _ & Wp & _). rewrite le_enc_length, enc_header_length by assumption. unfold HDR. lia.
  - apply write_data_only in H as ((D & _) & _ & _ & L).
    match goal with B : rent_topup _ _ ?wx _ swig _ = Ok _ |- _ =>
      rename B into Bx; assert (G : gains w wx swig) by (clear Bx H0; set (k0 := swig) in *; chain k0) end.
    unfold exempt. rewrite D, L. eapply topup_enough; [|exact Bx]. apply G. exact So.
Qed.
End Swig.
