(** * Cases for the theorems of PropertiesCan *)
From Verif Require Import BaseFacts Parse SpecWorks SpecSub2 Avail8 Avail9 Avail10 Avail.
From Verif Require Export DemoWorks.

Definition den_cfgb (es : list event) (n : Z) (l : list action) : bool := cfgb (den es SWIG2) (s_den n l None).
Lemma den_cfg es n l : den_cfgb es n l = true -> is_cfg (den es SWIG2) (s_den n l None).
Proof. apply cfgb_ok. Qed.
(** the wallet after role 1 created a sub-account, to which account 10 paid *)
Definition opened : list event := [Call (c_sub2 0 255); pays (ASSET 0 255) 5000000].
Definition with_sub : list action := lm ++ [p_v2all 0].
Definition sub_recordb (w : world) (s : config) (st sa : key) (n on b ab : Z) : bool :=
  beq (a_owner (w st)) SELF && beq (a_data (w st)) (state_record b ab on n (s_id s) sa)
  && beq (toy_pda (seeds_v2_state (s_id s) n b)) st && beq (toy_pda (seeds_v2_asset (s_id s) n ab)) sa
  && (0 <=? b) && (b <? 256) && (0 <=? ab) && (ab <? 256).
Lemma sub_recordb_ok w s st sa n on b ab : sub_recordb w s st sa n on b ab = true -> sub_record toy w s st sa n on.
Proof.
  unfold sub_recordb. rewrite !andb_true_iff. intros (((((((A & B) & C) & D) & F) & G) & H) & I). apply beq_eq in A, B, C, D. exists b, ab.
  split; [exact A|]. split; [exact B|]. split; [cbn [pda toy]; rewrite C; reflexivity|]. split; [cbn [pda toy]; rewrite D; reflexivity|].
  unfold is_byte. lia.
Qed.
Lemma asset_inner : inner_ixs (c_metas (c_subsign2 1 0 255 70)) (acct (c_subsign2 1 0 255 70) 2)
  (into_bytes [i_ix 3 [2; 4] (sys_pay 70)]) [payment (ASSET 0 255) (K 40) 70].
Proof. eapply inner_of; [apply bytesb_ok; calc|calc|calc]. Qed.
Lemma lm_unspent : Forall unspent lm.
Proof.
  constructor; [|constructor; [|constructor]]; unfold unspent; cbn; repeat split; intros; try (exfalso; lia); reflexivity.
Qed.
Lemma second_den n l : second_version (s_den n l None).
Proof. split; [discriminate|reflexivity]. Qed.
Lemma sol7_parses : parses (enc_actions 0 [p_sol 7]) [p_sol 7].
Proof.
  pose proof (parses_cons 1 (le_enc 4 16) (le_enc 8 7) [] []) as P. rewrite app_nil_r in P. apply P; try reflexivity. constructor.
Qed.
