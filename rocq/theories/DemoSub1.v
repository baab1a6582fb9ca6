(** * Cases for the theorems of PropertiesSub1 *)
From Verif Require Import BaseFacts Parse SpecWorks SpecSub1 Avail8 Avail9 Avail10 Avail11 Avail.
From Verif Require Export DemoCan.

Definition sub_permb (r : role) (sa : key) (l1 : list action) (d : bytes) (l2 : list action) : bool :=
  beq (sub 0 32 d) sa && forallb (fun p => negb ((ac_ty p =? 9) && beq (sub 0 32 (ac_data p)) sa)) l1.
Lemma sub_permb_ok r sa l1 d l2 : r_acts r = l1 ++ mk_action 9 d :: l2 -> sub_permb r sa l1 d l2 = true -> sub_perm r sa l1 d l2.
Proof.
  intros E B. apply andb_prop in B as [B1 B2]. apply beq_eq in B1. split; [exact E|]. split; [exact B1|]. intros p I T Q.
  rewrite forallb_forall in B2. specialize (B2 p I). rewrite T, Q, beq_refl in B2. discriminate B2.
Qed.
Definition no_permb (r : role) (sa : key) : bool := forallb (fun p => negb ((ac_ty p =? 9) && beq (sub 0 32 (ac_data p)) sa)) (r_acts r).
Lemma no_permb_ok r sa : no_permb r sa = true -> no_sub_perm r sa.
Proof.
  intros B p I T Q. unfold no_permb in B. rewrite forallb_forall in B. specialize (B p I). rewrite T, Q, beq_refl in B. discriminate B.
Qed.
Lemma toy_search : search_sound toy.
Proof. intros seeds k b H. injection H as <- <-. reflexivity. Qed.
(** role 1 opened the sub-account, to which account 10 paid *)
Definition opened1 : list event := [Call c_sub1; pays SUB1 5000000].
Definition with_sub1 : list action := [p_v2create; p_sub1].
(** role 0 gives itself the permission to manage roles, in addition to all powers *)
Definition narrowed : list event := opened1 ++ [Call (c_update2 0 1 (enc_actions 0 [p_manage]))].
Definition m0' := mk_role 0 1 (zeros 2) (K 10) [p_all; p_manage].
Definition s_narrowed : config := mk_config 255 ID2 2 255 (zeros 3) 0 [m0'; m1 with_sub1] None.
(** the address of the sub-account of a role 11 *)
Definition SUB11 : key := Eval vm_compute in toy_pda (seeds_sub ID2 11 255).
Definition c_wd11 (n : Z) : ctx :=
  call 9 [rw SWIG2; payer; rw SUB11; sg (K 11); rw WALLET2; ro SYSTEM] (le_enc 2 7 ++ zeros 2 ++ le_enc 4 0 ++ le_enc 8 n ++ ed 1).
Lemma far_away : forall c, 0 <= c <= 10 -> fst (find_pda toy (seeds_sub0 ID2 c)) <> SUB11.
Proof.
  intros c B. assert (c = 0 \/ c = 1 \/ c = 2 \/ c = 3 \/ c = 4 \/ c = 5 \/ c = 6 \/ c = 7 \/ c = 8 \/ c = 9 \/ c = 10) as D by lia.
  repeat destruct D as [->|D]; try subst c; apply beq_neq; calc.
Qed.
Lemma sub1_inner : inner_ixs (c_metas (c_subsign1 70)) (acct (c_subsign1 70) 1)
  (into_bytes [i_ix 2 [1; 3] (sys_pay 70)]) [payment SUB1 (K 40) 70].
Proof. eapply inner_of; [apply bytesb_ok; calc|calc|calc]. Qed.
