(** * The command line tool: texts to requests.

    Models the parts of cli/src that turn what is typed into requests of the SDK:
    commands.rs and main.rs in command mode.  A text is the list of its bytes; JSON
    values are data, the JSON reader (serde_json) and the base58 reader
    (Pubkey::from_str) are parameters.  All error texts are [Err PInvalidArgument];
    a panic is [Panic].  Not modelled: the interactive mode, the configuration file,
    the generation of keys itself, printing. *)
From Coq Require Import String.
From Verif Require Export Sdk SdkRead Client Handlers.
Local Notation length := List.length.

(** The name of a wallet, given as its characters, each with its UTF-8 bytes:
    commands.rs:252-265, 291, 344, 373, 398, 430, 454, 481, 523, 563, 825:
    format!("{:0<32}", id).as_bytes()[..32]; the width counts characters *)
Definition wallet_name (t : list bytes) : bytes := firstn 32 (concat t ++ repeat 48 (32 - length t)).

(** serde_json::Value; [JNat] is a number that as_u64 returns, [JNumber] any other *)
Inductive json :=
| JNull | JBool (b : bool) | JNat (n : Z) | JNumber | JStr (t : bytes) | JArr (l : list json)
| JObj (fields : list (bytes * json)).
(** Value::get, of equal names the last *)
Definition get (k : string) (v : json) : option json :=
  match v with
  | JObj l => option_map snd (find (fun p => beq (fst p) (ascii_bytes k)) (rev l))
  | _ => None
  end.
(** Index: null if there is no such field or [v] is no object *)
Definition field (k : string) (v : json) : json := match get k v with Some x => x | None => JNull end.
Definition as_str (v : json) : option bytes := match v with JStr t => Some t | _ => None end.
Definition as_u64 (v : json) : option Z := match v with JNat n => Some n | _ => None end.
Definition or_else (o : option Z) (d : Z) : Z := match o with Some n => n | None => d end.

(** commands.rs:147-245 [parse_permission_from_json] *)
Definition key_field (b58 : bytes -> option key) (k : string) (v : json) : res key :=
  match as_str (field k v) with
  | None => Err PInvalidArgument
  | Some t => ok_or (b58 t) PInvalidArgument
  end.
Definition amount_field (v : json) : Z := or_else (as_u64 (field "amount" v)) 1000000000.
Definition renewal_field (v : json) : option renewal :=
  match get "recurring" v with
  | Some r => Some (mk_renewal (or_else (as_u64 (field "window" r)) 86400) 0 0)
  | None => None
  end.
Definition parse_permission (b58 : bytes -> option key) (v : json) : res grant :=
  match as_str (field "type" v) with
  | None => Err PInvalidArgument
  | Some t =>
    let is s := beq t (ascii_bytes s) in
    if is "all"%string then Ok GAll
    else if is "programCurated"%string then Ok GCurated
    else if is "sol"%string then Ok (GSol (amount_field v) (renewal_field v))
    else if is "allButManageAuthority"%string then Ok GAllButManage
    else if is "manageAuthority"%string then Ok GManage
    else if is "program"%string then let* p := key_field b58 "programId" v in Ok (GProgram p)
    else if is "programAll"%string then Ok GProgramAll
    else if is "programScope"%string then
      let* p := key_field b58 "programId" v in let* a := key_field b58 "targetAccount" v in
      Ok (GScope p a (or_else (as_u64 (field "numericType" v)) 0) (as_u64 (field "limit" v)) (as_u64 (field "window" v))
            (as_u64 (field "balanceFieldStart" v)) (as_u64 (field "balanceFieldEnd" v)))
    else if is "subAccount"%string then
      match as_str (field "subAccount" v) with
      | None => Err PInvalidArgument
      | Some k => if (length k =? 32)%nat then Ok (GSub k) else Panic
      end
    else if is "solDestination"%string then
      let* d := key_field b58 "destination" v in Ok (GSolTo d (amount_field v) (renewal_field v))
    else if is "tokenDestination"%string then
      let* m := key_field b58 "mint" v in let* d := key_field b58 "destination" v in
      Ok (GTokenTo m d (amount_field v) (renewal_field v))
    else Err PInvalidArgument
  end.

(** main.rs:115, 155 (value_delimiter): every value of --permissions is cut at its commas *)
Fixpoint pieces (t : bytes) : list bytes :=
  match t with
  | [] => [[]]
  | c :: t' => if c =? 44 then [] :: pieces t' else match pieces t' with p :: ps => (c :: p) :: ps | [] => [[c]] end
  end.
(** commands.rs:293-305, 842-855, 856-869: read every piece as JSON, the first failure ends it *)
Fixpoint read_all (read : bytes -> option json) (b58 : bytes -> option key) (l : list bytes) : res (list grant) :=
  match l with
  | [] => Ok []
  | t :: l' =>
    let* v := ok_or (read t) PInvalidArgument in
    let* g := parse_permission b58 v in
    let* gs := read_all read b58 l' in Ok (g :: gs)
  end.
Definition cli_permissions (read : bytes -> option json) (b58 : bytes -> option key) (values : list bytes) : res (list grant) :=
  match flat_map pieces values with
  | [] => Err PInvalidArgument
  | l => read_all read b58 l
  end.

(** commands.rs:871-933, the words of --action-types *)
Definition NOKEY : key := zeros 32.
Definition cli_kind (t : bytes) : res grant :=
  let is s := beq t (ascii_bytes s) in
  if is "All"%string then Ok GAll
  else if is "AllButManageAuthority"%string then Ok GAllButManage
  else if is "ManageAuthority"%string then Ok GManage
  else if is "Sol"%string then Ok (GSol 0 None)
  else if is "Token"%string then Ok (GToken NOKEY 0 None)
  else if is "Program"%string then Ok (GProgram NOKEY)
  else if is "ProgramAll"%string then Ok GProgramAll
  else if is "ProgramCurated"%string then Ok GCurated
  else if is "ProgramScope"%string then Ok (GScope NOKEY NOKEY 0 None None None None)
  else if is "SubAccount"%string then Ok (GSub NOKEY)
  else if is "Stake"%string then Ok (GStake 0 None)
  else if is "StakeAll"%string then Ok GStakeAll
  else if is "SolDestination"%string then Ok (GSolTo NOKEY 0 None)
  else if is "TokenDestination"%string then Ok (GTokenTo NOKEY NOKEY 0 None)
  else Err PInvalidArgument.

(** commands.rs:955-965 [parse_authority_type] *)
Definition cli_type (t : bytes) : res Z :=
  let is s := beq t (ascii_bytes s) in
  if is "Ed25519"%string then Ok 1
  else if is "Secp256k1"%string then Ok 3
  else if is "Secp256r1"%string then Ok 5
  else if is "Ed25519Session"%string then Ok 2
  else if is "Secp256k1Session"%string then Ok 4
  else if is "Secp256r1Session"%string then Ok 6
  else Err PInvalidArgument.

(** hex::decode, both cases of letters; hex::encode is [hex_encode] *)
Definition digit_of (c : Z) : option Z :=
  if (48 <=? c) && (c <=? 57) then Some (c - 48)
  else if (97 <=? c) && (c <=? 102) then Some (c - 87)
  else if (65 <=? c) && (c <=? 70) then Some (c - 55)
  else None.
Fixpoint from_hex (t : bytes) : option bytes :=
  match t with
  | [] => Some []
  | a :: b :: t' =>
    match digit_of a, digit_of b, from_hex t' with
    | Some x, Some y, Some l => Some (x * 16 + y :: l)
    | _, _, _ => None
    end
  | _ => None
  end.
(** str::trim_start_matches("0x") *)
Fixpoint trim_0x (t : bytes) : bytes :=
  match t with
  | a :: ((b :: t') as u) => if (a =? 48) && (b =? 120) then trim_0x t' else t
  | _ => t
  end.

(** main.rs:674-723 [format_authority]: the credential for a typed key *)
Definition format_authority (b58 : bytes -> option key) (ty : Z) (t : bytes) : res bytes :=
  if (ty =? 1) || (ty =? 2) then ok_or (b58 t) PInvalidArgument
  else if (ty =? 3) || (ty =? 4) then
    let* c := ok_or (from_hex (trim_0x t)) PInvalidArgument in
    if (length c =? 65)%nat && (nth 0 c 0 =? 4) then Ok (skipn 1 c)
    else if (length c =? 33)%nat && ((nth 0 c 0 =? 2) || (nth 0 c 0 =? 3)) then Ok (skipn 1 c)
    else Err PInvalidArgument
  else if (ty =? 5) || (ty =? 6) then
    let* c := ok_or (from_hex (trim_0x t)) PInvalidArgument in
    if (length c =? 33)%nat then Ok c else Err PInvalidArgument
  else Err PInvalidArgument.
(** commands.rs:625-652, 704-733 [Command::Generate]: the public key of a secp256k1 pair as
    printed: the 64 bytes of both coordinates without the leading 4 *)
Definition generated_k1_text (point : bytes) : bytes := hex_encode point.

(** commands.rs:358-363 with wallet.rs:261-297 [remove_authority]: the role that
    RemoveAuthority asks to remove *)
Definition cli_remove_target (d t : bytes) : res Z :=
  match lookup_role_id d t with
  | Ok (Some i) => Ok i
  | Ok None => Err PInvalidArgument
  | _ => Panic
  end.

(** ** Opening a wallet: rust-sdk/src/wallet.rs:93-230 [SwigWallet::new],
    instruction_builder.rs:85-114 [build_swig_account].  [c] is what the client role
    gives as its authority, [fee] the fee payer.  Every command of the tool starts with this
    (commands.rs:29-146 [create_swig_instance]) *)
Inductive opening := Joins (role : Z) | Creates (x : ix).
Definition swig_seeds (id : bytes) : list bytes := [ascii_bytes "swig"%string; id].
Definition sdk_new (E : env) (w : world) (id : bytes) (ty : Z) (c : bytes) (fee : key) : res opening :=
  let (k, b) := find_pda E (swig_seeds id) in
  if on_chain (w k) then
    let d := a_data (w k) in
    let* o := lookup_role_id d c in
    let* i := ok_or o PInvalidArgument in
    let* v := read_role d i in
    match v with Some _ => Ok (Joins i) | None => Err PInvalidArgument end
  else let (wal, wb) := find_pda E (seeds_wallet0 k) in
    Ok (Creates (create k b fee wal wb ty c [mk_action 7 []] id)).
