(** * An example wallet, created and furnished by a history of instructions *)
From Verif Require Import BaseFacts SpecConfig.
From Verif Require Export DemoReach.

(** token, stake and other accounts *)
Definition MINT : key := K 90.
Definition tok_acct (auth : key) (amt : Z) : account :=
  mk_account 3000000 SPL_TOKEN (MINT ++ auth ++ le_enc 8 amt ++ zeros 36 ++ [1] ++ zeros 56).
Definition stake_data (amt : Z) : bytes :=
  le_enc 4 2 ++ le_enc 8 0 ++ WALLET ++ WALLET ++ zeros 80 ++ le_enc 8 amt ++ zeros 36.
Definition genesis : world := look
  [(K 10, sol 100000000000); (K 11, sol 50000000000); (K 12, sol 1000000000); (K 40, sol 1000000);
   (K 70, tok_acct WALLET 1000); (K 71, tok_acct (K 11) 0); (K 80, mk_account 900000000 STAKING (stake_data 5000));
   (K 85, mk_account 900000000 (K 86) (le_enc 8 777))].
Definition payer : meta := sw (K 10).
Definition p_all := mk_action 7 [].
Definition p_manage := mk_action 8 [].
Definition p_sol (n : Z) := mk_action 1 (le_enc 8 n).
Definition p_program (k : key) := mk_action 3 k.
Definition p_program_all := mk_action 13 [].
Definition p_replace (n : Z) := mk_action 21 (le_enc 4 n ++ zeros 4).
Definition p_close := mk_action 20 [].
Definition p_v2create := mk_action 22 [].
Definition p_sub := mk_action 9 (zeros 72).
Definition admin : list meta := [rw SWIG; payer; ro SYSTEM].

Definition c_new : ctx := call 5 [rw SWIG; payer; rw WALLET; ro SYSTEM] (d_create 1 (K 10) [p_all]).
Definition c_plus (ty : Z) (cred : bytes) (l : list action) : ctx := call 6 admin (d_add 0 ty cred l ++ ed 1).

Definition k1_x : bytes := K 20.
Definition r1_key : bytes := [3] ++ K 21.
Definition pe_cred : bytes := K 30 ++ [3] ++ zeros 7 ++ [7; 7; 7] ++ zeros 37.

Definition l1 := [p_manage; p_sol 1000000; p_program SYSTEM].
Definition l2 := [p_sol 500; p_program_all; p_replace 1].
Definition l3 := [p_all].
Definition l4 := [p_close; p_v2create; p_sub].
Definition l5 := [p_sol 100; p_program_all].
Definition furnish : list event :=
  map Call [c_new; c_plus 1 (K 11) l1; c_plus 3 ([2] ++ k1_x) l2; c_plus 2 (K 12 ++ zeros 32 ++ le_enc 8 100) l3;
            c_plus 5 r1_key l4; c_plus 7 pe_cred l5]
  (* and account 10 pays the wallet *)
  ++ [Other (mk_ix SYSTEM [payer; rw WALLET] (sys_pay 100000000))].
Definition home : world := run toy genesis furnish.

Definition r0 := mk_role 0 1 (zeros 2) (K 10) [p_all].
Definition r1 := mk_role 1 1 (zeros 2) (K 11) l1.
Definition r2 := mk_role 2 3 (zeros 2) ([2] ++ k1_x ++ zeros 7) l2.
Definition r3 := mk_role 3 2 (zeros 2) (K 12 ++ zeros 32 ++ le_enc 8 100 ++ zeros 8) l3.
Definition r4 := mk_role 4 5 (zeros 2) (r1_key ++ zeros 7) l4.
Definition r5 := mk_role 5 7 (zeros 2) pe_cred l5.
Definition s_home : config := mk_config 255 WID 6 254 (zeros 3) 0 [r0; r1; r2; r3; r4; r5] None.

Lemma genesis_fresh : fresh genesis.
Proof. apply look_fresh. calc. Qed.
Lemma home_ok : reach toy genesis home /\ roomy 50000 home.
Proof. apply fresh_plays; [exact toy_foreign_ok|exact genesis_fresh|cbn; lia|calc]. Qed.
Lemma home_reach : reach toy genesis home. Proof. exact (proj1 home_ok). Qed.
Lemma home_roomy : roomy 300 home. Proof. eapply roomy_le; [|exact (proj2 home_ok)]. lia. Qed.
Lemma home_cfg : is_cfg (home SWIG) s_home.
Proof. apply cfgb_ok. calc. Qed.
Lemma home_good : good_world toy home.
Proof. eapply reach_good; [exact toy_foreign_ok|apply fresh_good; exact genesis_fresh|exact home_reach]. Qed.
Lemma home_then es : (length es <=? 50)%nat = true -> playable toy home es = true -> reach toy home (run toy home es).
Proof.
  intros L P. apply Nat.leb_le in L. apply (playable_reach toy 0); [exact toy_foreign_ok|lia|exact home_good| |lia|exact P].
  eapply roomy_le; [|exact (proj2 home_ok)]. lia.
Qed.
Lemma home_admissible e : eventb toy home e = true -> admissible toy home e.
Proof. apply eventb_ok. exact home_roomy. Qed.
Ltac at_home :=
  repeat match goal with
  | |- _ /\ _ => split
  | |- fresh genesis => exact genesis_fresh
  | |- reach toy genesis home => exact home_reach
  | |- reach toy home _ => apply home_then; calc
  | |- reach toy genesis _ => apply fresh_reach; [exact toy_foreign_ok|exact genesis_fresh|cbn; lia|calc]
  | |- good_world toy home => exact home_good
  | |- roomy 300 home => exact home_roomy
  | |- admissible toy home _ => apply home_admissible; calc
  | |- is_cfg (home SWIG) s_home => exact home_cfg
  end; demo.

(** ** After further events *)
Lemma home_later es : (length es <=? 50)%nat = true -> playable toy home es = true ->
  good_world toy (run toy home es) /\ roomy 300 (run toy home es).
Proof.
  intros L P. apply Nat.leb_le in L. destruct (playable_reach toy 0 es toy_foreign_ok (Z.le_refl 0) home home_good) as [R Ro].
  - eapply roomy_le; [|exact (proj2 home_ok)]. lia.
  - lia.
  - exact P.
  - split; [|exact Ro]. eapply reach_good; [exact toy_foreign_ok|exact home_good|exact R].
Qed.
Lemma later_admissible es e : (length es <=? 50)%nat = true -> playable toy home es = true ->
  eventb toy (run toy home es) e = true -> admissible toy (run toy home es) e.
Proof. intros L P. apply eventb_ok. apply home_later; assumption. Qed.
Lemma later_reach es e : (length es <=? 50)%nat = true -> playable toy home es = true ->
  eventb toy (run toy home es) e = true -> reach toy (run toy home es) (run toy home (es ++ [e])).
Proof.
  intros L P V. unfold run at 2. rewrite fold_left_app. cbn [fold_left]. eapply reach_event; [constructor|].
  apply later_admissible; assumption.
Qed.
Lemma run_one E cx w : okb (process E cx w) = true -> succeeds E cx w (run E w [Call cx]).
Proof. cbn [run fold_left step]. unfold succeeds. destruct (process E cx w); intros H; [reflexivity|discriminate H..]. Qed.
Lemma since_genesis es : (length es <=? 50)%nat = true -> playable toy home es = true -> reach toy genesis (run toy home es).
Proof. intros L P. eapply reach_app; [exact home_reach|apply home_then; assumption]. Qed.
Ltac later :=
  repeat match goal with
  | |- succeeds toy ?cx ?w (run toy ?w [Call ?cx]) => apply run_one; calc
  | |- _ /\ _ => split
  | |- good_world toy (run toy home _) => apply home_later; calc
  | |- admissible toy (run toy home _) _ => apply later_admissible; calc
  | |- reach toy ?x ?x => apply reach_nil
  | |- reach toy genesis (run toy home _) => apply since_genesis; calc
  | |- by_counter _ _ => split
  end; at_home.

(** ** Payments by SignV2: the wallet pays account 40 *)
Definition ms_pay (l : list meta) : list meta := [rw SWIG; rw WALLET; ro SYSTEM; rw (K 40)] ++ l.
Definition inner_pay (n : Z) : bytes := into_bytes [i_ix 2 [1; 3] (sys_pay n)].
(* role 2 signs with its secp256k1 key *)
Definition k1_pays (i slot counter n : Z) : ctx :=
  call 30 (ms_pay []) (d_sign i (inner_pay n) ++ k1_pay k1_x [] slot counter (ms_pay []) (inner_pay n)).
(* role 0 replaces the key of role 2 *)
Definition c_rotate (target : Z) (cred : bytes) : ctx := call 30 [rw SWIG; ro WALLET; payer] (d_replace 0 target cred ++ ed 2).
Lemma replay_reach : reach toy (run toy home [Call (k1_pays 2 20 1 5)])
  (run toy home [Call (k1_pays 2 20 1 5); Call (c_rotate 2 ([2] ++ K 60)); Call (c_rotate 2 ([2] ++ k1_x))]).
Proof.
  eapply reach_app.
  - apply (later_reach [Call (k1_pays 2 20 1 5)] (Call (c_rotate 2 ([2] ++ K 60)))); calc.
  - apply (later_reach [Call (k1_pays 2 20 1 5); Call (c_rotate 2 ([2] ++ K 60))] (Call (c_rotate 2 ([2] ++ k1_x)))); calc.
Qed.
