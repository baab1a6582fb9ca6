(** * Examples for the signing instructions *)
From Verif Require Import BaseFacts SpecSign.
From Verif Require Export DemoWallet.

(** ** Checking by computation *)
Definition sane_acctb (a : account) : bool :=
  (0 <=? a_lamports a) && (a_lamports a <? U64) && bytesb (a_data a) && (length (a_owner a) =? 32)%nat.
Definition saneb (cx : ctx) (w : world) : bool := forallb (fun m => sane_acctb (w (m_key m))) (c_metas cx).
Lemma saneb_ok cx w : saneb cx w = true -> sane cx w.
Proof.
  unfold saneb, sane. intros H. rewrite forallb_forall in H. apply Forall_forall. intros m I. specialize (H m I).
  unfold sane_acctb in H. apply andb_prop in H as [H L]. apply andb_prop in H as [H B]. split; [lia|].
  split; [apply bytesb_ok; exact B|apply Nat.eqb_eq; exact L].
Qed.
Definition holdsb (p : Z) (r : role) : bool := existsb (fun a => ac_ty a =? p) (r_acts r).
Lemma holdsb_no p r : holdsb p r = false -> ~ holds p r.
Proof.
  intros H (a & I & Q). assert (holdsb p r = true); [|congruence]. apply existsb_exists. exists a. split; [exact I|lia].
Qed.
Lemma holdsb_yes p r : holdsb p r = true -> holds p r.
Proof. intros H. apply existsb_exists in H as (a & I & Q). exists a. split; [exact I|lia]. Qed.
Lemma limitedb_ok r : holdsb 7 r || holdsb 15 r = false -> limited r.
Proof. intros H. apply Bool.orb_false_iff in H as [A B]. split; apply holdsb_no; assumption. Qed.
Definition framesb (cx : ctx) (w w' : world) : bool :=
  forallb (fun m => let a := w (m_key m) in let a' := w' (m_key m) in
    (negb (own_token cx w m) || beq (token_frame a) (token_frame a'))
    && (negb (own_stake cx w m) || beq (stake_frame a) (stake_frame a'))) (rest_of cx).
Lemma framesb_ok E cx w w' : framesb cx w w' = true -> ~ collides E cx w w'.
Proof.
  intros H (m & I & [(O & N & _)|(O & N & _)]); unfold framesb in H; rewrite forallb_forall in H; specialize (H m I);
    apply andb_prop in H as [H1 H2]; rewrite O in *; cbn [negb orb] in *; [apply beq_eq in H1|apply beq_eq in H2]; contradiction.
Qed.
Ltac signing :=
  later; repeat match goal with
  | |- sane _ _ => apply saneb_ok; calc
  | |- limited _ => apply limitedb_ok; calc
  | |- ~ holds _ _ => apply holdsb_no; calc
  | |- holds _ _ => apply holdsb_yes; calc
  | |- ~ collides _ _ _ _ => apply framesb_ok; calc
  | |- (_ <= _)%Z => apply Z.leb_le; calc
  | |- (_ < _)%Z => apply Z.ltb_lt; calc
  end.

(** ** Roles *)
Definition p_token (n : Z) := mk_action 5 (MINT ++ le_enc 8 n).
Definition p_sol_dest (k : key) (n : Z) := mk_action 16 (k ++ le_enc 8 n).
Definition p_stake (n : Z) := mk_action 10 (le_enc 8 n).
(* role 6, for key 13 *)
Definition l6 := [p_sol 100; p_sol_dest (K 40) 60; p_token 300; p_stake 1000; p_program SYSTEM; p_program SPL_TOKEN; p_program STAKING].
Definition r6 (l : list action) := mk_role 6 1 (zeros 2) (K 13) l.
Definition hired (l : list action) : world := run toy home [Call (c_plus 1 (K 13) l)].
Definition s_hired (l : list action) : config := mk_config 255 WID 7 254 (zeros 3) 0 [r0; r1; r2; r3; r4; r5; r6 l] None.

(** ** Instructions: 0 config, 1 wallet, 2 key 13, 3 system, 4 token program, 5
    stake program, 6 account 40, 7 and 8 token accounts, 9 stake account *)
Definition ms6 : list meta :=
  [rw SWIG; rw WALLET; sg (K 13); ro SYSTEM; ro SPL_TOKEN; ro STAKING; rw (K 40); rw (K 70); rw (K 71); rw (K 80)].
Definition by6 (xs : list cix) : ctx := call 30 ms6 (d_sign 6 (into_bytes xs) ++ ed 2).
Definition x_sol (n : Z) : cix := i_ix 3 [1; 6] (sys_pay n).
Definition x_token (n : Z) : cix := i_ix 4 [7; 8; 1] ([3] ++ le_enc 8 n).
Definition x_stake (n : Z) : cix := i_ix 5 [9] ([1] ++ stake_data n).
Definition after6 (l : list action) (xs : list cix) : world := run toy (hired l) [Call (by6 xs)].

(** ** Program scopes on account 85 of program 86: 0 Basic, 1 Limit *)
Definition p_scope (ty limit : Z) := mk_action 4
  (zeros 16 ++ le_enc 16 limit ++ le_enc 8 0 ++ le_enc 8 0 ++ K 86 ++ K 85 ++ le_enc 8 ty ++ le_enc 8 2 ++ le_enc 8 0 ++ le_enc 8 8).
Definition c_basic : ctx := c_plus 1 (K 13) [p_program (K 86); p_scope 0 0].
Definition c_scoped : ctx := c_plus 1 (K 14) [p_program (K 86); p_scope 1 100].
(* program 86 empties account 85 *)
Definition by_scoped (i : Z) : ctx :=
  call 30 [rw SWIG; rw WALLET; sg (K 14); ro (K 86); rw (K 85)]
    (d_sign i (into_bytes [i_ix 3 [4] ([1] ++ le_enc 8 0)]) ++ ed 2).
Definition x_close : cix := i_ix 4 [7; 6; 1] [9].
Definition x_assign : cix := i_ix 3 [1] (le_enc 4 1 ++ K 86).
Definition x_loot (n : Z) : ix := mk_ix (K 86) [rw WALLET; rw (K 40)] ([0] ++ le_enc 8 n).
