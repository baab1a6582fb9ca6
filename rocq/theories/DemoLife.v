(** * A second, smaller example wallet, for the life-cycle and sub-account instructions *)
From Verif Require Import BaseFacts SpecConfig.
From Verif Require Export SpecLife DemoSign.

(** ** The wallet *)
Definition ID2 : bytes := K 2.
Definition SWIG2 : key := Eval vm_compute in toy_pda (seeds_swig ID2 255).
Definition WALLET2 : key := Eval vm_compute in toy_pda (seeds_wallet SWIG2 255).
Definition d_create2 (l : list action) : bytes :=
  le_enc 2 0 ++ le_enc 2 1 ++ le_enc 2 32 ++ [255; 255] ++ ID2 ++ K 10 ++ enc_actions 0 l.
Definition c_create2 (l : list action) : ctx := call 5 [rw SWIG2; payer; rw WALLET2; ro SYSTEM] (d_create2 l).
Definition admin2 : list meta := [rw SWIG2; payer; ro SYSTEM; sg (K 11)].
Definition c_plus2 (k : key) (l : list action) : ctx := call 6 admin2 (d_add 0 1 k l ++ ed 1).
Definition c_update2 (target op : Z) (arg : bytes) : ctx := call 7 admin2 (d_update 0 target op arg ++ ed 1).
(* role 0 of account 10 holds All; role 1 of account 11 may have sub-accounts *)
Definition lm := [p_v2create; p_sub].
Definition open2 : list event := [Call (c_create2 [p_all]); Call (c_plus2 (K 11) lm)].
Definition den (es : list event) : world := run toy genesis (open2 ++ es).
Definition m0 := mk_role 0 1 (zeros 2) (K 10) [p_all].
Definition m1 (l : list action) := mk_role 1 1 (zeros 2) (K 11) l.
Definition s_den (n : Z) (l : list action) (c : option key) : config := mk_config 255 ID2 2 255 (zeros 3) n [m0; m1 l] c.

(** ** Instructions *)
Definition d_claim2 (actor : Z) (k : key) : bytes := d_claimer actor k.
Definition c_claim2 (k : key) : ctx := call 8 [rw SWIG2; payer; ro SYSTEM] (d_claim2 0 k ++ ed 1).
Definition c_close2 (dest : key) : ctx :=
  call 9 [rw SWIG2; rw WALLET2; rw dest; ro SYSTEM; sg (K 10)] (le_enc 2 15 ++ zeros 2 ++ le_enc 4 0 ++ ed 4).
Definition c_migrate2 (b : Z) : ctx :=
  call 9 [rw SWIG2; ro SYSTEM; payer; rw (toy_pda (seeds_wallet SWIG2 b)); ro SYSTEM]
    (le_enc 2 12 ++ [b; 0] ++ le_enc 4 0 ++ ed 2).
(** V1 sub-account of role 1 *)
Definition SUB1 : key := Eval vm_compute in toy_pda (seeds_sub ID2 1 255).
Definition c_sub1 : ctx :=
  call 9 [rw SWIG2; payer; rw SUB1; ro SYSTEM; sg (K 11)] (le_enc 2 6 ++ zeros 2 ++ le_enc 4 1 ++ [255] ++ zeros 7 ++ ed 4).
Definition c_toggle1 (actor en : Z) : ctx :=
  call 9 [rw SWIG2; payer; rw SUB1; sg (K 11)]
    (le_enc 2 10 ++ [en; 0] ++ zeros 4 ++ le_enc 4 1 ++ le_enc 4 actor ++ ed (if actor =? 0 then 1 else 3)).
Definition d_subsign1 (inner : bytes) : bytes := le_enc 2 9 ++ le_enc 2 (len inner) ++ le_enc 4 1 ++ zeros 8 ++ inner.
Definition c_subsign1 (n : Z) : ctx :=
  call 9 [rw SWIG2; rw SUB1; ro SYSTEM; rw (K 40); sg (K 11)] (d_subsign1 (into_bytes [i_ix 2 [1; 3] (sys_pay n)]) ++ ed 4).
Definition c_wd1 (actor n : Z) : ctx :=
  call 9 [rw SWIG2; payer; rw SUB1; sg (K 11); rw WALLET2; ro SYSTEM]
    (le_enc 2 7 ++ zeros 2 ++ le_enc 4 actor ++ le_enc 8 n ++ ed (if actor =? 0 then 1 else 3)).
(** V2 sub-accounts, created by role 1 *)
Definition STATE (n b : Z) : key := toy_pda (seeds_v2_state ID2 n b).
Definition ASSET (n b : Z) : key := toy_pda (seeds_v2_asset ID2 n b).
Definition c_sub2 (n b : Z) : ctx :=
  call 9 [rw SWIG2; payer; rw (STATE n b); rw (ASSET n b); ro SYSTEM; sg (K 11)]
    (le_enc 2 18 ++ zeros 2 ++ le_enc 4 1 ++ [b; b] ++ zeros 6 ++ ed 5).
Definition c_toggle2 (actor n b en : Z) : ctx :=
  call 9 [rw SWIG2; payer; rw (STATE n b); sg (K 11)]
    (le_enc 2 19 ++ [en; 0] ++ le_enc 4 actor ++ le_enc 4 n ++ zeros 4 ++ ed (if actor =? 0 then 1 else 3)).
Definition d_subsign2 (actor n : Z) (inner : bytes) : bytes :=
  le_enc 2 20 ++ le_enc 2 (len inner) ++ le_enc 4 actor ++ le_enc 4 n ++ zeros 4 ++ inner.
Definition c_subsign2 (actor n b amt : Z) : ctx :=
  call 9 [rw SWIG2; ro (STATE n b); rw (ASSET n b); ro SYSTEM; rw (K 40); sg (K 11); payer]
    (d_subsign2 actor n (into_bytes [i_ix 3 [2; 4] (sys_pay amt)]) ++ ed (if actor =? 0 then 6 else 5)).
Definition c_wd2 (actor n b amt : Z) : ctx :=
  call 9 [rw SWIG2; payer; ro (STATE n b); rw (ASSET n b); rw WALLET2; ro SYSTEM; sg (K 11)]
    (le_enc 2 21 ++ zeros 2 ++ le_enc 4 actor ++ le_enc 4 n ++ zeros 4 ++ le_enc 8 amt ++ ed (if actor =? 0 then 1 else 6)).
Definition c_xfer2 (l : list meta) : ctx :=
  call 9 ([rw SWIG2; rw WALLET2; payer; ro SYSTEM] ++ l) (le_enc 2 13 ++ zeros 2 ++ le_enc 4 0 ++ ed 2).
Definition pays (to : key) (n : Z) : event := Other (mk_ix SYSTEM [payer; rw to] (sys_pay n)).

(** Closing the first example wallet, whose wallet address has bump 254, with
    the address of bump 255 *)
Definition c_close_home : ctx :=
  call 30 [rw SWIG; rw (toy_pda (seeds_wallet SWIG 255)); rw (K 40); ro SYSTEM; payer] (le_enc 2 15 ++ zeros 2 ++ le_enc 4 0 ++ ed 4).
(** Creation with a single permission, for one program, whose 32 payload bytes and
    boundary field (16) make a search along boundaries meet a permission 7 *)
Definition fake_prog : bytes := zeros 8 ++ [7; 0; 0; 0; 200; 0; 0; 0] ++ zeros 16.
Definition c_fake : ctx :=
  call 5 [rw SWIG2; payer; rw WALLET2; ro SYSTEM]
    (le_enc 2 0 ++ le_enc 2 1 ++ le_enc 2 32 ++ [255; 255] ++ ID2 ++ K 10 ++ le_enc 2 3 ++ le_enc 2 32 ++ le_enc 4 16 ++ fake_prog).
Definition r_fake : role := mk_role 0 1 (zeros 2) (K 10) [mk_action 3 fake_prog].
Definition s_fake : config := mk_config 255 ID2 1 255 (zeros 3) 0 [r_fake] None.
(** the permissions of role 1 after creating sub-accounts *)
Definition p_v2all (n : Z) := mk_action 23 (le_enc 4 n ++ zeros 4).
Definition p_sub1 := mk_action 9 (sub_v1 SUB1 255 1 (zeros 2) 1 ID2).
(** the second wallet with token accounts of its wallet address (90) and of its
    configuration account (91) *)
Definition den_tokens : world := put (den []) [(K 90, tok_acct WALLET2 0); (K 91, tok_acct SWIG2 33)].
Definition c_tclose2 (t : key) : ctx :=
  call 9 [rw SWIG2; rw WALLET2; rw (K 40); ro SPL_TOKEN; sg (K 10); rw t] (le_enc 2 14 ++ le_enc 2 5 ++ le_enc 4 0 ++ ed 4).

(** ** Checking by computation *)
Lemma den_ok es : (length es <=? 40)%nat = true -> playable toy genesis (open2 ++ es) = true ->
  reach toy genesis (den es) /\ good_world toy (den es).
Proof.
  intros L P. apply Nat.leb_le in L.
  assert (R : reach toy genesis (den es)).
  { apply fresh_reach; [exact toy_foreign_ok|exact genesis_fresh|rewrite app_length; cbn; lia|exact P]. }
  split; [exact R|]. eapply reach_good; [exact toy_foreign_ok|apply fresh_good; exact genesis_fresh|exact R].
Qed.
Ltac life :=
  repeat match goal with
  | |- _ /\ _ => split
  | |- reach toy genesis (den _) => apply den_ok; calc
  | |- good_world toy (den _) => apply den_ok; calc
  | |- ~ holds _ _ => apply holdsb_no; calc
  | |- holds _ _ => apply holdsb_yes; calc
  | |- _ <> _ => apply beq_neq; calc
  end; demo.
