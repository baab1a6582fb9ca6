(** * A wallet with 65535 roles *)
From Verif Require Import BaseFacts SpecConfig ConfigFacts SpecSteps Frame Actors ConfigProps LifeProps Avail2 Avail3 Rent Wrap.
From Verif Require Export DemoAvail SpecWrap.

Lemma add_frame E cx w w' : succeeds E cx w w' -> tag (c_data cx) = 1 ->
  (forall j, a_owner (w' j) = a_owner (w j))
  /\ (a_owner (w (acct cx 0)) = SELF -> a_lamports (w (acct cx 0)) <= a_lamports (w' (acct cx 0))).
Proof.
  intros H T. by_tag H T. unfold add_authority_v1 in H. cbv zeta in H. peel H. destruct v1 as [[? ?] ?]. peel H. destruct v6 as [? ?]. peel H. change (mkey (c_metas cx) 0) with (acct cx 0) in *.
  grab (rent_topup _ _ _ _ _ _ = Ok _) as Ht. rename H into Hw.
  pose proof (rent_topup_keeps _ _ _ _ _ _ _ Ht) as K. apply (topup_gains _ _ _ _ _ _ _ (acct cx 0)) in Ht.
  apply write_data_only in Hw as ((_ & O & X) & _ & _ & L). split.
  - intros j. destruct (bytes_dec j (acct cx 0)) as [->|N]; [rewrite O|destruct (X j N) as (_ & ->)]; apply K.
  - intros O1. rewrite L. apply Ht. exact O1.
Qed.

Lemma foreign_works E w x : okb (foreign E w x) = true -> foreign E w x = Ok (result w (foreign E w x)).
Proof. destruct (foreign E w x); [reflexivity|discriminate|discriminate]. Qed.
Lemma smooth_app E es : forall w fs, smooth E w es -> smooth E (run E w es) fs -> smooth E w (es ++ fs).
Proof.
  induction es as [|e es IH]; intros w fs H F; [exact F|]. destruct H as (H1 & H2). split; [exact H1|]. apply IH; assumption.
Qed.

(** root adds account 11 as another root, again and again *)
Definition c_many : ctx := call 6 [rw SWIG2; payer; ro SYSTEM] (add_data 0 1 (K 11) [p_all] 1).
Definition pays_rent : event := Other (mk_ix SYSTEM [payer; rw SWIG2] (sys_pay 60000000000)).
Definition start : list event := [Call (c_create2 [p_all]); pays_rent].
Definition crowd (n : nat) : list event := start ++ repeat (Call c_many) n.

Definition full (n : nat) (w : world) : Prop :=
  exists s, is_cfg (w SWIG2) s /\ length (s_roles s) = S n /\ s_counter s = Z.of_nat (S n) /\ s_claimer s = None
  /\ In m0 (s_roles s) /\ Forall (fun r => r_acts r = [p_all]) (s_roles s)
  /\ length (enc_config s) = (48 + 56 * S n)%nat /\ 60000000000 <= a_lamports (w SWIG2)
  /\ a_owner (w (K 10)) = SYSTEM /\ a_owner (w SYSTEM) = SYSTEM.
Lemma full_start : full 0 (run toy genesis start).
Proof.
  exists (mk_config 255 ID2 1 255 (zeros 3) 0 [m0] None). split; [apply cfgb_ok; calc|].
  split; [calc|]. split; [calc|]. split; [calc|]. split; [left; reflexivity|]. split; [constructor; [reflexivity|constructor]|].
  split; [calc|]. split; [apply Z.leb_le; calc|]. split; calc.
Qed.
Lemma smooth_start : smooth toy genesis start.
Proof.
  split; [split; [apply ctxb_ok; calc|split; [apply flagsb_ok; calc|eexists; run_it]]|].
  split; [|exact I]. eexists. apply foreign_works. calc.
Qed.

Lemma many_accounts w s : is_cfg (w SWIG2) s -> Forall (fun r => r_acts r = [p_all]) (s_roles s) ->
  a_owner (w (K 10)) = SYSTEM -> a_owner (w SYSTEM) = SYSTEM -> admin_accounts c_many w s.
Proof.
  intros C F O1 O2. split; [cbn; lia|]. split; [calc|]. split; [calc|]. split; [calc|]. split; [calc|].
  assert (N : forall k r a, In r (s_roles s) -> In a (r_acts r) -> ~ watches k a).
  { intros k r a I J (T & _). rewrite Forall_forall in F. rewrite (F r I) in J. destruct J as [<-|[]]. discriminate T. }
  intros m I. cbn [c_many call c_metas tl In] in I. destruct I as [<-|[<-|[]]]; cbn [payer sw ro m_key]; (split; [|apply N]).
  - rewrite O1. discriminate.
  - rewrite O2. discriminate.
Qed.
Lemma many_facts : wf_ctx c_many /\ flags_ok (c_metas c_many) /\ shows c_many m0 1 /\ credential_ok 1 (K 11)
  /\ wf_actions [p_all] /\ Forall unspent [p_all] /\ acct c_many 0 = SWIG2.
Proof.
  split; [apply ctxb_ok; calc|]. split; [apply flagsb_ok; calc|].
  split; [split; [unfold is_byte; lia|]; exists payer; split; [reflexivity|]; split; [reflexivity|]; left; split; reflexivity|].
  split; [left; split; reflexivity|]. split; [apply wf_actionsb_ok; calc|]. split; [apply unspentb_ok; calc|reflexivity].
Qed.
Lemma many_grown w s : is_cfg (w SWIG2) s -> length (enc_config (add_to s (new_role s 1 (K 11) [p_all]))) = (length (enc_config s) + 56)%nat.
Proof.
  intros C. destruct many_facts as (M1 & M2 & M3 & M4 & M5 & M6 & M7).
  pose proof C as (_ & _ & W).
  rewrite grown; [f_equal|exact W|]. apply new_role_wf; try assumption. apply bytesb_ok. calc.
Qed.
Lemma full_pays w n : 60000000000 <= a_lamports (w SWIG2) -> Z.of_nat n <= 4000000 ->
  rent toy n < U64 /\ (a_lamports (w SWIG2) < rent toy n -> can_pay w (acct c_many 1) (rent toy n - a_lamports (w SWIG2))).
Proof. intros L N. cbn [rent toy]. unfold U64. split; [lia|intros; exfalso; lia]. Qed.

Lemma full_step n w : Z.of_nat n < 65534 -> full n w ->
  (exists w', succeeds toy c_many w w') /\ full (S n) (step toy w (Call c_many)).
Proof.
  intros B (s & C & L & Ct & Cl & I & Fa & Sz & Lm & O1 & O2).
  destruct many_facts as (M1 & M2 & M3 & M4 & M5 & M6 & M7). pose proof (many_grown w s C) as Gr.
  pose proof C as (_ & _ & W).
  destruct (full_pays w (length (enc_config (add_to s (new_role s 1 (K 11) [p_all]))))) as (Py1 & Py2); [exact Lm|rewrite Gr, Sz; lia|].
  destruct (add_works toy c_many w s m0 1 (K 11) [p_all] 1) as (w' & H1 & H2); try assumption.
  - apply many_accounts; assumption.
  - apply can_manage_holds. reflexivity.
  - reflexivity.
  - split; [rewrite Ct; unfold U32; lia|rewrite L; unfold U16; lia].
  - change (role_len _) with 56%nat. lia.
  - rewrite Gr, Sz. lia.
  - rewrite M7. lia.
  - rewrite M7 in H2. split; [exists w'; exact H1|]. cbn [step]. unfold succeeds in H1. rewrite H1.
    destruct (add_frame toy c_many w w' H1 eq_refl) as (X1 & X2). rewrite M7 in X2.
    exists (add_to s (new_role s 1 (K 11) [p_all])). split; [exact H2|]. cbn [add_to s_roles s_counter s_claimer].
    split; [rewrite app_length, L; cbn; lia|]. split; [lia|]. split; [exact Cl|]. split; [apply in_or_app; left; exact I|].
    split; [apply Forall_app; split; [exact Fa|constructor; [reflexivity|constructor]]|].
    split; [rewrite Gr, Sz; lia|]. split; [|rewrite !X1; split; assumption].
    destruct C as (O & _). specialize (X2 O). lia.
Qed.
Lemma crowd_S n : crowd (S n) = crowd n ++ [Call c_many].
Proof. unfold crowd. rewrite <- app_assoc. f_equal. cbn [repeat]. apply repeat_cons. Qed.
Lemma run_app E es fs w : run E w (es ++ fs) = run E (run E w es) fs.
Proof. apply fold_left_app. Qed.
Lemma crowd_full n : Z.of_nat n <= 65534 -> smooth toy genesis (crowd n) /\ full n (run toy genesis (crowd n)).
Proof.
  induction n as [|n IH]; intros B.
  - unfold crowd. cbn [repeat]. rewrite app_nil_r. split; [exact smooth_start|exact full_start].
  - destruct IH as (S1 & F1); [lia|]. destruct (full_step n _ ltac:(lia) F1) as (G1 & G2). rewrite crowd_S, run_app.
    split; [|exact G2]. apply smooth_app; [exact S1|]. split; [|exact I].
    destruct many_facts as (M1 & M2 & _). split; [exact M1|]. split; [exact M2|exact G1].
Qed.
Lemma overfull : exists E w0 es w cx w' k s r n, foreign_ok E /\ fresh w0 /\ smooth E w0 es /\ w = run E w0 es
  /\ is_cfg (w k) s /\ Z.of_nat (length (s_roles s)) = 65535
  /\ tag (c_data cx) = 1 /\ acct cx 0 = k /\ find_role (actor_of (c_data cx)) s = Some r /\ holds 7 r
  /\ succeeds E cx w w' /\ a_data (w' k) = enc_config (wiped s) ++ zeros n.
Proof.
  destruct (crowd_full (Z.to_nat 65534)) as (S1 & s & C & L & Ct & Cl & I & Fa & Sz & Lm & O1 & O2); [rewrite Z2Nat.id; lia|].
  assert (N : Z.of_nat (Z.to_nat 65534) = 65534) by (apply Z2Nat.id; lia).
  set (w := run toy genesis (crowd (Z.to_nat 65534))) in *. set (n := Z.to_nat 65534) in *. clearbody n.
  destruct many_facts as (M1 & M2 & M3 & M4 & M5 & M6 & M7). pose proof (many_grown w s C) as Gr.
  pose proof C as (_ & _ & W).
  destruct (wraps toy c_many w s m0 1 (K 11) [p_all] 1) as (w' & H1 & z & H2); try assumption.
  - apply many_accounts; assumption.
  - apply find_role_mine; assumption.
  - reflexivity.
  - reflexivity.
  - rewrite Ct. unfold U32. lia.
  - rewrite L. lia.
  - change (role_len _) with 56%nat. lia.
  - rewrite Gr, Sz. lia.
  - rewrite M7. lia.
  - cbv zeta. apply full_pays; [exact Lm|]. rewrite Gr, Sz. lia.
  - exists toy, genesis, (crowd n), w, c_many, w', SWIG2, s, m0, z.
    split; [exact toy_foreign_ok|]. split; [exact genesis_fresh|]. split; [exact S1|]. split; [reflexivity|].
    split; [exact C|]. split; [rewrite L; lia|]. split; [reflexivity|]. split; [reflexivity|].
    split; [change (actor_of (c_data c_many)) with (r_id m0); apply find_role_mine; assumption|].
    split; [exists p_all; split; [left; reflexivity|reflexivity]|]. split; [exact H1|exact H2].
Qed.
Lemma full_case : exists w s, is_cfg (w (acct c_many 0)) s /\ wf_ctx c_many /\ admin_accounts c_many w s
  /\ In m0 (s_roles s) /\ manager m0 /\ shows c_many m0 1 /\ c_data c_many = add_data (r_id m0) 1 (K 11) [p_all] 1
  /\ s_counter s + 1 < U32 /\ Z.of_nat (length (s_roles s)) = 65535
  /\ credential_ok 1 (K 11) /\ wf_actions [p_all] /\ Forall unspent [p_all]
  /\ let nr := new_role s 1 (K 11) [p_all] in let size := length (enc_config (add_to s nr)) in
     Z.of_nat (role_len nr) <= 10240 /\ Z.of_nat size <= 10485760
     /\ 0 <= a_lamports (w (acct c_many 0)) /\ rent toy size <= a_lamports (w (acct c_many 0)) /\ rent toy size < U64.
Proof.
  assert (N : Z.of_nat (Z.to_nat 65534) = 65534) by (apply Z2Nat.id; lia).
  destruct (crowd_full (Z.to_nat 65534)) as (S1 & s & C & L & Ct & Cl & I & Fa & Sz & Lm & O1 & O2); [lia|].
  set (w := run toy genesis (crowd (Z.to_nat 65534))) in *. clearbody w. clear S1. set (n := Z.to_nat 65534) in *. clearbody n.
  destruct many_facts as (M1 & M2 & M3 & M4 & M5 & M6 & M7). pose proof (many_grown w s C) as Gr.
  exists w, s. rewrite M7. split; [exact C|]. split; [exact M1|]. split; [apply many_accounts; assumption|].
  split; [exact I|]. split; [left; exists p_all; split; [left; reflexivity|reflexivity]|]. split; [exact M3|]. split; [reflexivity|].
  split; [rewrite Ct; unfold U32; lia|]. split; [rewrite L; lia|]. split; [exact M4|]. split; [exact M5|]. split; [exact M6|].
  cbv zeta. change (role_len _) with 56%nat. rewrite Gr, Sz. cbn [rent toy]. unfold U64. split; [lia|]. split; [lia|]. split; [lia|]. split; lia.
Qed.
Lemma full_erases E cx w s r ty c l i :
  wf_ctx cx -> is_cfg (w (acct cx 0)) s -> admin_accounts cx w s ->
  In r (s_roles s) -> manager r -> shows cx r i -> c_data cx = add_data (r_id r) ty c l i ->
  s_counter s + 1 < U32 -> Z.of_nat (length (s_roles s)) = 65535 ->
  credential_ok ty c -> wf_actions l -> Forall unspent l ->
  let nr := new_role s ty c l in let size := length (enc_config (add_to s nr)) in
  let had := a_lamports (w (acct cx 0)) in
  Z.of_nat (role_len nr) <= 10240 -> Z.of_nat size <= 10485760 -> 0 <= had -> rent E size < U64 ->
  (had < rent E size -> can_pay w (acct cx 1) (rent E size - had)) ->
  exists w', succeeds E cx w w' /\ exists n, a_data (w' (acct cx 0)) = enc_config (wiped s) ++ zeros n.
Proof.
  intros Wc C A I M Sh D R1 R2 Cr Wl Ul nr size had Z1 Z2 Z3 Z4 Pay.
  eapply wraps; try eassumption; [apply find_role_mine; [apply C|exact I]|apply can_manage_holds; exact M|].
  split; assumption.
Qed.
