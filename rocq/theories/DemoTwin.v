(** * A second wallet with the id of the first, for the findings about ids *)
From Verif Require Import BaseFacts SpecConfig SpecSteps ConfigProps LifeProps.
From Verif Require Export DemoLife DemoRent SpecIdent.

(** account 12 creates a wallet with the id of the second example wallet and
    another bump; it has no role in that wallet *)
Definition TWIN : key := Eval vm_compute in toy_pda (seeds_swig ID2 254).
Definition TWIN_WALLET : key := Eval vm_compute in toy_pda (seeds_wallet TWIN 255).
Definition thief : meta := sw (K 12).
Definition c_twin (l : list action) : ctx :=
  call 8 [rw TWIN; thief; rw TWIN_WALLET; ro SYSTEM]
    (le_enc 2 0 ++ le_enc 2 1 ++ le_enc 2 32 ++ [254; 255] ++ ID2 ++ K 12 ++ enc_actions 0 l).
Definition s_twin (l : list action) : config :=
  mk_config 254 ID2 1 255 (zeros 3) 0 [mk_role 0 1 (zeros 2) (K 12) l] None.
(** the owner of the twin withdraws from the V1 sub-account of the first wallet *)
Definition c_steal1 (n : Z) : ctx :=
  call 9 [rw TWIN; thief; rw SUB1; ro SYSTEM; rw TWIN_WALLET; ro SYSTEM]
    (le_enc 2 7 ++ zeros 2 ++ le_enc 4 0 ++ le_enc 8 n ++ ed 1).
(** and lets a V2 sub-account of the first wallet pay account 40 *)
Definition c_steal2 (n : Z) : ctx :=
  call 9 [rw TWIN; ro (STATE 0 255); rw (ASSET 0 255); ro SYSTEM; rw (K 40); thief]
    (d_subsign2 0 0 (into_bytes [i_ix 3 [2; 4] (sys_pay n)]) ++ ed 5).

(** a program-execution credential (7) for program [p], comparing [n] bytes *)
Definition c_vouch (p : key) (n : Z) : ctx := call 6 admin2 (d_add 0 7 (p ++ [n] ++ zeros 47) [p_sol 5] ++ ed 1).
Definition r_vouch (p : key) (n : Z) : role := mk_role 2 7 (zeros 2) (p ++ [n] ++ zeros 47) [p_sol 5].

(** ** Checking *)
Definition strangerb (cx : ctx) (k : key) (s : config) : bool :=
  negb (existsb (fun m => beq (m_key m) k) (c_metas cx))
  && forallb (fun r => (r_aty r =? 1) && negb (signer (c_metas cx) (r_auth r))) (s_roles s).
Lemma strangerb_ok cx k s : strangerb cx k s = true -> stranger cx k s.
Proof.
  intros H. apply andb_prop in H as [A B]. split.
  - intros I. apply in_map_iff in I as (m & Q & I). apply negb_true_iff in A. rewrite <- Bool.not_true_iff_false in A. apply A.
    apply existsb_exists. exists m. rewrite Q, beq_refl. auto.
  - intros r I. rewrite forallb_forall in B. specialize (B r I). apply andb_prop in B as [B1 B2]. apply negb_true_iff in B2. split; [lia|exact B2].
Qed.
Definition w_twin1 : world := den [Call c_sub1; pays SUB1 5000000; Call (c_twin [p_all])].
Definition w_twin2 : world := den [Call (c_sub2 0 255); pays (ASSET 0 255) 5000000; Call (c_twin [p_all; p_v2all 0])].
Ltac twin := unfold w_twin1, w_twin2; life; try exact genesis_fresh; try (apply strangerb_ok; calc); try (apply Z.ltb_lt; calc); calc.
Lemma twin_exists : exists E w w' k1 k2 s1 s2, foreign_ok E /\ fresh w /\ reach E w w'
  /\ is_cfg (w' k1) s1 /\ is_cfg (w' k2) s2 /\ s_id s1 = s_id s2 /\ k1 <> k2.
Proof.
  exists toy, genesis, w_twin1, SWIG2, TWIN, (s_den 0 [p_v2create; p_sub1] None), (s_twin [p_all]). twin.
Qed.
Lemma twin_v1 : exists E w0 w cx w' k s r a sa, foreign_ok E /\ fresh w0 /\ reach E w0 w
  /\ is_cfg (w k) s /\ In r (s_roles s) /\ In a (r_acts r) /\ ac_ty a = 9 /\ firstn 32 (ac_data a) = sa
  /\ stranger cx k s /\ tag (c_data cx) = 7 /\ succeeds E cx w w'
  /\ a_lamports (w' sa) < a_lamports (w sa).
Proof.
  exists toy, genesis, w_twin1, (c_steal1 3000000), (result w_twin1 (process toy (c_steal1 3000000) w_twin1)), SWIG2,
    (s_den 0 [p_v2create; p_sub1] None), (m1 [p_v2create; p_sub1]), p_sub1, SUB1.
  split; [exact toy_foreign_ok|]. split; [exact genesis_fresh|]. split; [twin|]. split; [twin|].
  split; [right; left; reflexivity|]. split; [right; left; reflexivity|]. twin.
Qed.
Lemma twin_v2 : exists E w0 w cx w' k s r st sa n bump abump, foreign_ok E /\ fresh w0 /\ reach E w0 w
  /\ is_cfg (w k) s /\ In r (s_roles s) /\ holds_for 23 n r
  /\ a_owner (w st) = SELF /\ a_data (w st) = state_record bump abump 1 n (s_id s) sa
  /\ stranger cx k s /\ tag (c_data cx) = 20 /\ succeeds E cx w w'
  /\ a_lamports (w' sa) < a_lamports (w sa).
Proof.
  exists toy, genesis, w_twin2, (c_steal2 3000000), (result w_twin2 (process toy (c_steal2 3000000) w_twin2)), SWIG2,
    (s_den 1 (lm ++ [p_v2all 0]) None), (m1 (lm ++ [p_v2all 0])), (STATE 0 255), (ASSET 0 255), 0, 255, 255.
  split; [exact toy_foreign_ok|]. split; [exact genesis_fresh|]. split; [twin|]. split; [twin|].
  split; [right; left; reflexivity|]. split; [eexists; split; [right; right; left; reflexivity|split; vm_compute; reflexivity]|]. twin.
Qed.
