(** * Property theorems: the command line tool.

    The tool's code is in Cli.v; what is expected of it is in SpecCli.v.  [read] is
    the JSON reader, [b58] the base58 reader, both arbitrary up to [json_reader] and
    [keys32]. *)
From Coq Require Import String.
From Verif Require Import BaseFacts DemoCli.
Local Notation length := List.length.

(** ** C88: the wallet that a name stands for *)
(** every name gives an identifier of 32 bytes *)
Theorem C88_name_size : forall t, Forall (fun c => c <> []) t -> length (wallet_name t) = 32%nat.
Proof. exact name_size. Qed.
Print Assumptions C88_name_size.
(** Two names of at most 32 characters stand for the same wallet exactly if they differ
    in zeros at the end only *)
Theorem C88_same_wallet : forall a b, (length a <= 32)%nat -> (length b <= 32)%nat ->
  (wallet_name (one_byte a) = wallet_name (one_byte b) <-> exists n, a = b ++ repeat 48 n \/ b = a ++ repeat 48 n).
Proof. exact same_name. Qed.
Print Assumptions C88_same_wallet.
(** what follows 32 bytes does not count *)
Theorem C88_long_names : forall a x y, (32 <= length (concat a))%nat -> wallet_name (a ++ x) = wallet_name (a ++ y).
Proof. exact name_cut. Qed.
Print Assumptions C88_long_names.
(** Finding: savings1 and savings10 are one wallet *)
Theorem C88_names_refuted : exists a b, a <> b /\ typed a /\ typed b /\ (length a <= 9)%nat /\ (length b <= 9)%nat
  /\ wallet_name (one_byte a) = wallet_name (one_byte b).
Proof.
  exists (txt "savings1"), (txt "savings10"). split; [apply beq_neq; reflexivity|].
  split; [repeat constructor; discriminate|]. split; [repeat constructor; discriminate|]. split; [cbn; lia|]. split; [cbn; lia|reflexivity].
Qed.
Print Assumptions C88_names_refuted.
Example C88_case : let a := txt "savings1" in let b := txt "savings2" in
  (length a <= 32)%nat /\ (length b <= 32)%nat /\ wallet_name (one_byte a) <> wallet_name (one_byte b)
  /\ Forall (fun c => c <> []) (one_byte a)
  /\ (let t := one_byte (txt "a name of thirty-two characters, and more") in
      wallet_name t = wallet_name (one_byte (txt "a name of thirty-two characters,"))).
Proof.
  cbv zeta. split; [cbn; lia|]. split; [cbn; lia|]. split; [apply beq_neq; reflexivity|]. split; [repeat constructor; discriminate|reflexivity].
Qed.

(** ** C89: permissions given as JSON *)
(** what is written is what is granted *)
Theorem C89_as_written : forall b58 v g, states b58 v g -> parse_permission b58 v = Ok g.
Proof. exact as_written. Qed.
Print Assumptions C89_as_written.
(** ... and nothing else is, if the numbers are given, as numbers *)
Theorem C89_only_written : forall b58 v g, parse_permission b58 v = Ok g -> complete v -> states b58 v g.
Proof. exact only_written. Qed.
Print Assumptions C89_only_written.
(** Finding: any amount that is not a number between 0 and 2^64 - 1 (a text, a negative
    number, a fraction) means one SOL *)
Theorem C89_amount_refuted : forall b58 x, (forall n, x <> JNat n) ->
  parse_permission b58 (JObj [(ascii_bytes "type", word "sol"); (ascii_bytes "amount", x)]) = Ok (GSol 1000000000 None).
Proof. exact defaulted. Qed.
Print Assumptions C89_amount_refuted.
(** Finding: because the value of --permissions is cut at its commas, the tool can
    grant nothing but these six permissions, and no limit other than one SOL *)
Theorem C89_cut_refuted : forall read b58 values gs g, json_reader read -> cli_permissions read b58 values = Ok gs -> In g gs ->
  In g [GAll; GCurated; GSol 1000000000 None; GAllButManage; GManage; GProgramAll].
Proof. exact comma_limits. Qed.
Print Assumptions C89_cut_refuted.
(** Finding: words that are not JSON, as in the manual (--permissions all,sol), are refused *)
Theorem C89_manual_refuted : forall read b58 values gs t, json_reader read -> In t (flat_map pieces values) -> ~ starts_value (first_char t) ->
  cli_permissions read b58 values <> Ok gs.
Proof. exact bare_words. Qed.
Print Assumptions C89_manual_refuted.
(** Finding: a sub-account permission cannot be granted: its text must have 32
    characters, and then the program refuses the role *)
Theorem C89_sub_refuted : forall E cx w w' b58 v ty c gs k, wf_ctx cx -> parse_permission b58 v = Ok (GSub k) -> typed k ->
  order_of (c_data cx) = Some (AddRole ty c (enc_actions 0 (to_client_actions gs))) -> Forall grant_ok gs -> In (GSub k) gs ->
  ~ succeeds E cx w w'.
Proof.
  intros E cx w w' b58 v ty c gs k Wc P T O G I. apply (sub_refused E cx w w' ty c gs k Wc O G I).
  apply typed_not_zero; [exact T|]. rewrite Forall_forall in G. apply (G _ I).
Qed.
Print Assumptions C89_sub_refuted.
(** Finding: renewing limits, and the permissions to close, to replace keys and for
    sub-accounts of the second version cannot be named for removal *)
Theorem C89_kinds_refuted : forall t g, cli_kind t = Ok g ->
  ~ In (to_action_type g) [2; 6; 11; 17; 19; 20; 21; 22; 23; 24; 25; 26].
Proof. exact kinds_named. Qed.
Print Assumptions C89_kinds_refuted.
(** The reader reads {"type":"sol","amount":5} as a limit of 5, the tool refuses it; and
    it takes {"type":"sol"} for one SOL *)
Example C89_case : json_reader small_reader /\ small_reader sol_five = Some v_sol_five /\ complete (JObj [(txt "type", word "sol"); (txt "amount", JNat 5); (txt "numericType", JNat 0)])
  /\ states small_b58 v_sol_five (GSol 5 None) /\ parse_permission small_b58 v_sol_five = Ok (GSol 5 None)
  /\ cli_permissions small_reader small_b58 [sol_five] = Err PInvalidArgument
  /\ cli_permissions small_reader small_b58 [typed_as "all" ++ [44] ++ typed_as "sol"] = Ok [GAll; GSol 1000000000 None]
  /\ In (txt "all") (flat_map pieces [txt "all,sol"]) /\ ~ starts_value (first_char (txt "all"))
  /\ states small_b58 (JObj [(txt "type", word "solDestination"); (txt "destination", word "key 40"); (txt "amount", JNat 9);
       (txt "recurring", JObj [(txt "window", JNat 100)])]) (GSolTo (K 40) 9 (Some (mk_renewal 100 0 0)))
  /\ parse_permission small_b58 (JObj [(txt "type", word "subAccount"); (txt "subAccount", JStr letters)]) = Ok (GSub letters)
  /\ cli_kind (txt "Sol") = Ok (GSol 0 None).
Proof.
  split; [exact small_reader_ok|]. split; [reflexivity|]. split.
  { split; [exists 5; reflexivity|]. split; [exists 0; reflexivity|]. split.
    - intros k x I H. unfold numbers in I. cbn [In] in I. unfold has_field in H.
      decompose [or] I; try contradiction; subst k; cbn in H; try discriminate H; injection H as <-; eexists; reflexivity.
    - intros x H. discriminate H. }
  split; [split; [reflexivity|split; reflexivity]|]. split; [reflexivity|]. split; [reflexivity|]. split; [reflexivity|].
  split; [left; reflexivity|]. split.
  { intros [H|H]; [cbn in H; decompose [or] H; (discriminate || contradiction)|cbn in H; destruct H as [H1 H2]; apply H2; reflexivity]. }
  split; [|split; reflexivity].
  split; [reflexivity|]. split; [eexists; split; reflexivity|]. split; [reflexivity|]. eexists. split; [reflexivity|]. split; reflexivity.
Qed.

(** ** C90: keys given as text, and removal *)
(** a secp256k1 key, with both coordinates and the leading 4, and a compressed
    secp256r1 key are taken as they are *)
Theorem C90_whole_key : forall b58 ty p t, In ty [3; 4] -> all_bytes p -> length p = 64%nat ->
  t = hex_encode (4 :: p) \/ t = zero_x (hex_encode (4 :: p)) -> format_authority b58 ty t = Ok p.
Proof. exact whole_key. Qed.
Print Assumptions C90_whole_key.
Theorem C90_r1_key : forall b58 ty p t, In ty [5; 6] -> all_bytes p -> length p = 33%nat ->
  t = hex_encode p \/ t = zero_x (hex_encode p) -> format_authority b58 ty t = Ok p.
Proof. exact CliProps2.r1_key. Qed.
Print Assumptions C90_r1_key.
(** Finding: the tool refuses the secp256k1 keys that it generates itself *)
Theorem C90_own_key_refuted : forall b58 ty p, In ty [3; 4] -> all_bytes p -> length p = 64%nat ->
  format_authority b58 ty (generated_k1_text p) = Err PInvalidArgument.
Proof. exact own_key_refused. Qed.
Print Assumptions C90_own_key_refuted.
(** Finding: a role added by the tool is an Ed25519 role, a secp256k1 role given with
    both coordinates, or a secp256r1 role: no role with sessions, no compressed
    secp256k1 key *)
Theorem C90_added : forall E cx w w' b58 ty t c acts, keys32 b58 -> wf_ctx cx -> format_authority b58 ty t = Ok c ->
  order_of (c_data cx) = Some (AddRole ty c acts) -> succeeds E cx w w' -> ty = 1 \/ ty = 3 /\ length c = 64%nat \/ ty = 5.
Proof. exact added_by_cli. Qed.
Print Assumptions C90_added.
(** Finding: a role can be removed by the tool only if its key consists of characters
    that can be typed, because the text is not decoded *)
Theorem C90_remove_refuted : forall a s t i, is_cfg a s -> typed t -> cli_remove_target (a_data a) t = Ok i ->
  exists r, In r (s_roles s) /\ r_id r = i /\ named_by t r /\ typed (key_part (r_auth r)).
Proof. exact removal_by_text. Qed.
Print Assumptions C90_remove_refuted.
(** no text removes any role of the example wallet, whose role 1 can be looked up by its
    key; a role with a key of letters is found, by any text that starts with them *)
Example C90_case : reach toy genesis home /\ is_cfg (home SWIG) s_home
  /\ (forall t i, typed t -> cli_remove_target (a_data (home SWIG)) t <> Ok i)
  /\ cli_remove_target (a_data (home SWIG)) (K 11) = Ok 1
  /\ cli_remove_target (a_data (lettered SWIG)) (letters ++ txt "and more") = Ok 6
  /\ keys32 small_b58 /\ format_authority small_b58 2 (txt "key 40") = Ok (K 40)
  /\ wf_ctx (post 6 (sdk_add_ed SWIG (K 10) (K 11) 1 2 (K 40) [GAll]))
  /\ okb (process toy (post 6 (sdk_add_ed SWIG (K 10) (K 11) 1 2 (K 40) [GAll])) home) = false
  /\ okb (process toy (post 6 (sdk_add_ed SWIG (K 10) (K 11) 1 1 (K 40) [GAll])) home) = true.
Proof.
  split; [exact home_reach|]. split; [exact home_cfg|]. split; [exact home_untyped|]. split; [calc|]. split; [calc|].
  split; [exact small_b58_ok|]. split; [calc|]. split; [demo|]. split; calc.
Qed.

(** ** C91: opening a wallet with the SDK *)
(** An existing wallet is joined with the first role that the credential names; there
    is an error if no role is named, and nothing is sent *)
Theorem C91_joins : forall E w id k b s ty c fee, find_pda E (swig_seeds id) = (k, b) -> is_cfg (w k) s -> a_lamports (w k) <> 0 ->
  match sdk_new E w id ty c fee with
  | Ok (Joins i) => exists l1 r l2, s_roles s = l1 ++ r :: l2 /\ r_id r = i /\ named_by c r /\ forall r', In r' l1 -> ~ named_by c r'
  | Ok (Creates _) | Panic => False
  | Err _ => forall r, In r (s_roles s) -> ~ named_by c r
  end.
Proof. exact joins. Qed.
Print Assumptions C91_joins.
(** Otherwise the wallet is created, with one role that has all powers, whatever the
    command was meant to do; opening it again joins role 0, but fails for the session
    credentials of secp keys and of program execution *)
Theorem C91_creates : forall E cx w id k b wal wb ty c fee, find_pda E (swig_seeds id) = (k, b) -> find_pda E (seeds_wallet0 k) = (wal, wb) ->
  pda E (seeds_swig id b) = Some k -> pda E (seeds_wallet k wb) = Some wal ->
  wf_ctx cx -> length id = 32%nat -> is_byte b -> is_byte wb -> NoDup [k; fee; wal] -> native w ->
  vacant w k -> vacant w wal -> a_lamports (w k) = 0 -> credential_ok ty c -> all_bytes c ->
  let s := founded id b wb ty c [mk_action 7 []] in let n := length (enc_config s) in
  0 < rent E n < U64 -> rent E 0 < U64 -> can_pay w fee (rent E n + missing E w wal 0) ->
  exists x, sdk_new E w id ty c fee = Ok (Creates x) /\ (sent cx x ->
    exists w', succeeds E cx w w' /\ settled E w w' k fee wal s
      /\ (In ty [1; 2; 3; 5; 7] -> sdk_new E w' id ty c fee = Ok (Joins 0))
      /\ (In ty [4; 6; 8] -> exists e, sdk_new E w' id ty c fee = Err e)).
Proof. exact opens_again. Qed.
Print Assumptions C91_creates.
(** Finding: with such a credential no wallet is ever joined as a role of its type *)
Theorem C91_session_refuted : forall E w id k b s ty c fee i r, find_pda E (swig_seeds id) = (k, b) -> is_cfg (w k) s -> a_lamports (w k) <> 0 ->
  In ty [4; 6; 8] -> credential_ok ty c -> sdk_new E w id ty c fee = Ok (Joins i) -> find_role i s = Some r -> r_aty r <> ty.
Proof. exact session_never. Qed.
Print Assumptions C91_session_refuted.
(** Finding: an address that holds lamports but no wallet stops it *)
Theorem C91_gift_refuted : forall E w id k b ty c fee, find_pda E (swig_seeds id) = (k, b) -> a_data (w k) = [] -> a_lamports (w k) <> 0 ->
  exists e, sdk_new E w id ty c fee = Err e.
Proof. exact gift_stops. Qed.
Print Assumptions C91_gift_refuted.
Example C91_case : let x ty c := create SWIG2 255 (K 10) WALLET2 255 ty c [mk_action 7 []] ID2 in
  let again ty c := sdk_new solid (step solid dawn (Call (post 5 (x ty c)))) ID2 ty c (K 10) in
  let c4 := K 20 ++ K 21 ++ zeros 32 ++ le_enc 8 100 in let n := length (enc_config (founded ID2 255 255 4 c4 [mk_action 7 []])) in
  find_pda solid (swig_seeds ID2) = (SWIG2, 255) /\ find_pda solid (seeds_wallet0 SWIG2) = (WALLET2, 255)
  /\ pda solid (seeds_swig ID2 255) = Some SWIG2 /\ pda solid (seeds_wallet SWIG2 255) = Some WALLET2
  /\ native dawn /\ vacant dawn SWIG2 /\ vacant dawn WALLET2 /\ a_lamports (dawn SWIG2) = 0 /\ credential_ok 4 c4
  /\ NoDup [SWIG2; K 10; WALLET2] /\ 0 < rent solid n < U64 /\ can_pay dawn (K 10) (rent solid n + missing solid dawn WALLET2 0)
  /\ sdk_new solid dawn ID2 4 c4 (K 10) = Ok (Creates (x 4 c4))
  /\ wf_ctx (post 5 (x 4 c4)) /\ okb (process solid (post 5 (x 4 c4)) dawn) = true
  /\ again 4 c4 = Err PInvalidArgument /\ again 1 (K 11) = Ok (Joins 0)
  /\ sdk_new toy (den []) ID2 1 (K 11) (K 10) = Ok (Joins 1) /\ sdk_new toy (den []) ID2 1 (K 12) (K 10) = Err PInvalidArgument.
Proof.
  cbv zeta. split; [calc|]. split; [calc|]. split; [calc|]. split; [calc|]. split; [apply nativeb_ok; calc|]. split; [split; calc|]. split; [split; calc|].
  split; [calc|]. split; [unfold credential_ok; right; right; right; left; split; reflexivity|]. split; [apply (nodupb_ok beq _ beq_refl); calc|].
  split; [split; apply Z.ltb_lt; calc|]. split; [split; [calc|split; [calc|apply Z.leb_le; calc]]|].
  split; [calc|]. split; [demo|]. split; [calc|]. split; [calc|]. split; [calc|]. split; calc.
Qed.
