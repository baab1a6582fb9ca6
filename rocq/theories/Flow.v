(** * What the configuration account pays when permissions are edited.  Proofs *)
From Verif Require Import BaseFacts SpecConfig ConfigFacts ConfigEdit ConfigEdit2 ConfigEdit3.
From Verif Require Import AuthProps HandlerRoles HandlerRoles2 HandlerSub HandlerLife HandlerV2 HandlerAssets SignSpec.
From Verif Require Import Actors Rent Rent2.
From Verif Require Export SpecFlow.

Lemma replace_all_diff buf n ao acto cur new id b diff : replace_all buf n ao acto cur new id = Ok (b, diff) ->
  diff = Z.of_nat (length new) - Z.of_nat cur.
Proof. unfold replace_all. intros H. cbv zeta in H. peels H. peel H. congruence. Qed.
Lemma apply_update_diff d tail n ao acto cur id op arg size d4 diff :
  apply_update d tail n ao acto cur id op arg size = Ok (d4, diff) ->
  (op = 0 -> diff = Z.of_nat (length arg) - Z.of_nat cur) /\ (op = 1 -> diff = Z.of_nat (length arg)).
Proof.
  unfold apply_update. intros H. cbv zeta in H. peels H.
  repeat match goal with v : (_ * _)%type |- _ => destruct v end. peel H. apply ok_inj in H. injection H as _ <-.
  grab (replace_all _ _ _ _ _ _ _ = Ok _) as Br. apply replace_all_diff in Br.
  grab (updated_actions _ _ _ = Ok _) as Bu. unfold updated_actions in Bu. split; intros ->; cbn in Bu; apply ok_inj in Bu; subst.
  - reflexivity.
  - rewrite app_length. match goal with G : (_ + _ <=? _)%nat = true |- _ => idtac end.
    grab ((_ + _ <=? length (sub _ _ _))%nat = true) as Bg. apply Nat.leb_le in Bg.
    rewrite (sub_length acto cur) by exact Bg. lia.
Qed.

Section Flow.
Variables (E : env) (cx : ctx) (w w' : world) (s : config).
Hypothesis Hc : wf_ctx cx.
Notation swig := (mkey (c_metas cx) 0).
Notation payer := (mkey (c_metas cx) 1).
Hypothesis (S : is_cfg (w swig) s).

Lemma remove_pays : remove_authority_v1 E cx w = Ok w' -> moved_only w w' swig payer
    (rent E (length (a_data (w swig))) - rent E (length (a_data (w' swig)))).
Proof.
  intros H. destruct S as (So & Hd & W). unfold remove_authority_v1 in H. cbv zeta in H. open_up H. cfg s Hd W.
  grab (seal_tail _ _ = Ok _) as Bs. grab (write_data _ _ _ _ = Ok _) as Bw.
  apply seal_tail_length in Bs. rewrite resize_length in Bs.
  apply write_data_only in Bw as ((D & _) & _ & _ & L).
  apply move_lamports_moved in H as (M & _). pose proof M as (K & M2 & M3). destruct (K swig) as [D' _].
  rewrite D', D, Bs, Hd. split; intros Q.
  - intros k. rewrite <- L. apply M2, Q.
  - destruct (M3 Q) as (A1 & A2 & A3). rewrite !L in *. split; [exact A1|]. split; [exact A2|]. intros k N1 N2. rewrite A3 by assumption. apply L.
Qed.

Lemma topup_flow w1 n : rent_topup E (c_metas cx) w payer swig n = Ok w1 ->
  moved_only w w1 payer swig (Z.max 0 (rent E n - a_lamports (w swig))).
Proof.
  unfold rent_topup. intros H. destruct (a_lamports (w swig) <? rent E n) eqn:Q.
  - apply Z.ltb_lt in Q. apply sys_transfer_moved in H as ((_ & M) & _). rewrite Z.max_r by lia. exact M.
  - apply Z.ltb_ge in Q. apply ok_inj in H. subst. rewrite Z.max_l by lia. split; intros _; [reflexivity|].
    split; [lia|]. split; [lia|reflexivity].
Qed.

Lemma update_pays : update_authority_v1 E cx w = Ok w' ->
  ((size w' swig < size w swig)%nat -> moved_only w w' swig payer (Z.max 0 (a_lamports (w swig) - rent E (size w' swig))))
  /\ ((size w swig < size w' swig)%nat -> moved_only w w' payer swig (Z.max 0 (rent E (size w' swig) - a_lamports (w swig)))).
Proof.
  intros H. destruct S as (So & Hd & W). unfold update_authority_v1 in H. cbv zeta in H. peels H. cfg s Hd W.
  destruct (enc_config_8 _ W) as (q8 & Q8).
  repeat match goal with v : (_ * _)%type |- _ => destruct v end. peel H.
  repeat match goal with v : (_ * _)%type |- _ => destruct v end. peel H.
  grab (apply_update _ _ _ _ _ _ _ _ _ _ = Ok _) as Ba. apply apply_update_diff in Ba.
  grab (seal_tail _ _ = Ok _) as Bs. grab (write_data _ _ _ _ = Ok _) as Bw. grab ((if 0 <? _ then rent_topup _ _ _ _ _ _ else Ok _) = Ok _) as Bt.
  apply seal_tail_length in Bs. rewrite resize_length in Bs.
  apply write_data_only in Bw as ((D & _) & _ & _ & L). unfold size. rewrite Hd.
  match type of Bt with (if 0 <? (if ?o =? 0 then _ else if _ then ?y else _) then _ else _) = _ => assert (Bp : z < 0 -> (if o =? 0 then Z.of_nat (length (if (byte_at 4 (c_data cx) =? 0) && negb (length (sub 16 (nat_of (u16_at 2 (c_data cx))) (c_data cx)) =? 0)%nat then skipn 1 (sub 16 (nat_of (u16_at 2 (c_data cx))) (c_data cx)) else sub 16 (nat_of (u16_at 2 (c_data cx))) (c_data cx))) - Z.of_nat n else if o =? 1 then y else 0) <= 0); [
    intros Hz; destruct Ba as (Ba0 & Ba1); destruct (o =? 0) eqn:O0; [apply Z.eqb_eq in O0; rewrite <- (Ba0 O0); lia|];
    destruct (o =? 1) eqn:O1; [apply Z.eqb_eq in O1; rewrite <- (Ba1 O1); lia|lia]|] end.
  clear Ba.
  match type of Bt with (if 0 <? ?p then _ else _) = _ => generalize dependent p end. intros pre; intros.
  destruct (z <? 0) eqn:Ng.
  - apply Z.ltb_lt in Ng. assert (Np : (0 <? pre) = false) by (apply Z.ltb_ge; auto). rewrite Np in *. apply ok_inj in Bt. match type of Bt with _ = ?v => subst v end.
    apply move_lamports_moved in H as (M & _). pose proof M as (K & M2 & M3). destruct (K swig) as [D' _].
    assert (Le : (align8 (nat_of (Z.of_nat (length (enc_config s)) + z)) <= length (enc_config s))%nat)
      by (rewrite Q8 at 2; apply align8_le; rewrite <- Q8; unfold nat_of; lia).
    rewrite D', D, Bs. split; intros Lt; [|lia]. unfold sat_sub in M3. split; intros Q.
    + intros k. rewrite <- L. apply M2, Q.
    + destruct (M3 Q) as (A1 & A2 & A3). rewrite !L in *. split; [exact A1|]. split; [exact A2|]. intros k N1 N2. rewrite A3 by assumption. apply L.
  - apply ok_inj in H. subst w'. rewrite D, Bs. destruct (0 <? pre).
    + pose proof (align8_ge (length (enc_config s) + nat_of pre)). split; [lia|]. intros _.
      apply topup_flow in Bt as (M2 & M3). split; intros Q; [intros k; rewrite L; apply M2, Q|].
      destruct (M3 Q) as (A1 & A2 & A3). rewrite !L. split; [exact A1|]. split; [exact A2|]. intros k N1 N2. rewrite L. apply A3; assumption.
    + split; lia.
Qed.

Lemma add_pays : room 1 s -> add_authority_v1 E cx w = Ok w' ->
  moved_only w w' payer swig (Z.max 0 (rent E (size w' swig) - a_lamports (w swig))).
Proof.
  intros R H. destruct S as (So & Hd & W).
  destruct (add_authority_spec _ _ _ _ _ Hc H Hd W R) as (r & s1 & nr & (_ & A) & _ & _ & T & Au & _ & P & _ & (D & _) & W' & _).
  pose proof Hc as (Wc1 & _). apply acting_shape in A as (A1 & A2).
  unfold add_authority_v1 in H. cbv zeta in H. peels H. peel H. cfg s Hd W.
  grab (rent_topup _ _ _ _ _ _ = Ok _) as Bt.
  grab (authority_len _ = Some _) as Bl. grab (authority_type _ = Ok _) as Bty. apply authority_type_id in Bty. subst.
  grab ((16 + _ + _ <=? _)%nat = true) as Bn. apply Nat.leb_le in Bn.
  apply topup_flow in Bt. apply write_data_only in H as (_ & _ & _ & L).
  assert (Wn : Forall wf_role (s_roles s1) /\ wf_role nr).
  { pose proof W' as (_ & _ & _ & _ & _ & _ & _ & W2 & _). cbn [add_to s_roles] in W2. rewrite Forall_app in W2. destruct W2 as (W1 & W2).
    inversion W2. split; assumption. }
  destruct Wn as (W1 & Wn).
  assert (Ln : length (enc_config (add_to s1 nr)) = (length (enc_config s) + role_len nr)%nat).
  { rewrite !enc_config_length by assumption. cbn [add_to s_roles s_claimer]. rewrite A2. rewrite roles_size_app. cbn.
    destruct W as (_ & _ & _ & _ & _ & _ & _ & W & _). rewrite (alike_size _ _ W W1 A1). lia. }
  assert (Rl : role_len nr = (POS + v4 + length (sub (16 + nat_of (u16_at 2 (c_data cx))) (nat_of (u16_at 4 (c_data cx))) (c_data cx)))%nat).
  { unfold role_len. rewrite (parses_length _ _ P). destruct Wn as (_ & Wl & _). rewrite T, Bl in Wl. injection Wl as ->. reflexivity. }
  destruct (enc_config_8 _ W') as (q & Q). rewrite <- Rl, <- Ln, Q, align8_id, <- Q in Bt.
  unfold size. rewrite D. destruct Bt as (M2 & M3). split; intros N; [intros k; rewrite L; apply M2, N|].
  rewrite !L. destruct (M3 N) as (G1 & G2 & G3). split; [exact G1|]. split; [exact G2|]. intros k N1 N2. rewrite L. apply G3; assumption.
Qed.
End Flow.

Section Props.
Variables (E : env) (cx : ctx) (w w' : world) (s : config).
Hypothesis (Hc : wf_ctx cx) (S : is_cfg (w (acct cx 0)) s) (R : room 1 s) (H : succeeds E cx w w').

Theorem flow_add : tag (c_data cx) = 1 ->
  moved_only w w' (acct cx 1) (acct cx 0) (Z.max 0 (rent E (size w' (acct cx 0)) - a_lamports (w (acct cx 0)))).
Proof. intros T. pose proof H as P. by_tag P T. eapply add_pays; eassumption. Qed.
Theorem flow_remove : tag (c_data cx) = 2 ->
  moved_only w w' (acct cx 0) (acct cx 1) (rent E (size w (acct cx 0)) - rent E (size w' (acct cx 0))).
Proof. intros T. pose proof H as P. by_tag P T. eapply remove_pays; eassumption. Qed.
Theorem flow_update : tag (c_data cx) = 3 ->
  let k := acct cx 0 in let p := acct cx 1 in
  ((size w k < size w' k)%nat -> moved_only w w' p k (Z.max 0 (rent E (size w' k) - a_lamports (w k))))
  /\ ((size w' k < size w k)%nat -> moved_only w w' k p (Z.max 0 (a_lamports (w k) - rent E (size w' k)))).
Proof. intros T. pose proof H as P. by_tag P T. cbv zeta. apply and_comm. eapply update_pays; eassumption. Qed.
End Props.
