(** * The Rust SDK: reading a wallet.

    Models the read-only view of the configuration account (state/src/swig.rs
    [SwigWithRoles], state/src/role.rs [Role]) and the parts of rust-sdk/src that
    read it: types.rs, utils.rs and the questions of wallet.rs.  [d] is always the
    data of the configuration account as the RPC node returns it; a failed request
    to the node is not modelled.  SDK errors are kept apart only from success:
    [Err PInvalidAccountData] stands for SwigError::InvalidSwigData,
    [Err PInvalidArgument] for AuthorityNotFound, [Err SInvalidAuthorityType] for
    InvalidAuthorityType. *)
From Verif Require Export Roles SpecSdk.
From Verif Require Import World.

(** swig.rs:699-710 [SwigWithRoles::from_bytes]: the region of the roles *)
Definition read_open (d : bytes) : res bytes :=
  let* p := split_parts d in Ok (snd (fst p)).

(** swig.rs:782-846 [SwigWithRoles::get_role]; unchecked reads out of range are [Panic] *)
Fixpoint read_role_loop (n : nat) (id : Z) (roles : bytes) (cursor : nat) : res (option rview) :=
  match n with
  | O => Ok None
  | S n' =>
    guard (cursor + POS <=? length roles)%nat ;;
    if p_id cursor roles =? id then let* v := view_at cursor roles in Ok (Some v)
    else read_role_loop n' id roles (p_bound cursor roles)
  end.
Definition read_role (d : bytes) (id : Z) : res (option rview) :=
  let* roles := read_open d in read_role_loop (nat_of (h_roles d)) id roles 0.

(** [AuthorityInfo::match_data]: state/src/authority/ed25519.rs:74-76, 250-252,
    secp256k1.rs:151-164, 251-264, secp256r1.rs:199-204, 284-289,
    programexec/mod.rs:138-156, programexec/session.rs:194-213 *)
Definition match_data (ty : Z) (auth q : bytes) : bool :=
  if (ty =? 1) || (ty =? 2) then beq (sub 0 32 auth) (sub 0 32 q)
  else if (ty =? 3) || (ty =? 4) then
    if (length q =? 33)%nat then beq (sub 0 33 auth) q
    else if (length q =? 64)%nat then beq (sub 0 33 auth) (compress q)
    else false
  else if (ty =? 5) || (ty =? 6) then (length q =? 33)%nat && beq (sub 0 33 auth) q
  else let n := nat_of (byte_at 32 auth) in
    if ty =? 7 then (length q =? 80)%nat && beq (sub 0 32 auth) (sub 0 32 q) && beq (sub 40 n auth) (sub 40 n q)
    else (33 <=? length q)%nat && (byte_at 32 q =? byte_at 32 auth) && (length q =? 33 + n)%nat
         && beq (sub 0 32 auth) (sub 0 32 q) && beq (sub 40 n auth) (sub 33 n q).

(** swig.rs:712-778 [SwigWithRoles::lookup_role_id] *)
Fixpoint lookup_loop (n : nat) (q roles : bytes) (cursor : nat) : res (option Z) :=
  match n with
  | O => Ok None
  | S n' =>
    guard (cursor + POS <=? length roles)%nat ;;
    let* v := view_at cursor roles in
    if (32 <=? length q)%nat && match_data (rv_ty v) (rv_auth v) q then Ok (Some (p_id cursor roles))
    else lookup_loop n' q roles (p_bound cursor roles)
  end.
Definition lookup_role_id (d q : bytes) : res (option Z) :=
  let* roles := read_open d in lookup_loop (nat_of (h_roles d)) q roles 0.

(** role.rs:99-122 [Role::get_all_actions_of_type]: the payloads *)
Fixpoint all_of_loop (fuel : nat) (ty : Z) (acts : bytes) (cursor : nat) : res (list bytes) :=
  match fuel with
  | O => Err RComputeExhausted
  | S f =>
    if (cursor <? length acts)%nat then
      guard (cursor + 8 <=? length acts)%nat ;;
      let* p := permission (hdr_ty cursor acts) in
      let b := hdr_boundary cursor acts in
      if p =? ty then
        let* n := ok_or (action_len ty) PInvalidAccountData in
        guard (cursor + 8 + n <=? length acts)%nat ;;
        let* l := all_of_loop f ty acts b in Ok (sub (cursor + 8) n acts :: l)
      else all_of_loop f ty acts b
    else Ok []
  end.
Definition all_of (ty : Z) (acts : bytes) : res (list bytes) :=
  check (8 <=? length acts)%nat PInvalidAccountData ;;
  all_of_loop (S (length acts)) ty acts 0.
(** role.rs [Role::get_action]: the payload of the first one *)
Definition one_of (ty : Z) (q acts : bytes) : res (list bytes) :=
  let* o := get_action ty q acts in
  match o with
  | None => Ok []
  | Some c => let* n := ok_or (action_len ty) PInvalidAccountData in Ok [sub c n acts]
  end.

(** ** Permissions: rust-sdk/src/types.rs *)

(** The fields of the payload, by the layout of the structs in state/src/action/*.rs *)
Definition ren (w l c : nat) (d : bytes) : option renewal := Some (mk_renewal (u64_at w d) (u64_at l d) (u64_at c d)).
(** types.rs:564-590 *)
Definition scope_shown (d : bytes) : grant :=
  GScope (sub 48 32 d) (sub 80 32 d) (u64_at 120 d)
    (if 0 <? u64_at 112 d then Some (le (sub 16 16 d) mod U64) else None)
    (if u64_at 112 d =? 2 then Some (u64_at 32 d) else None)
    (Some (u64_at 128 d)) (Some (u64_at 136 d)).
(** types.rs:403-669 [Permission::from_role], block by block in order.  [spl_token::ID]
    is the query of the one lookup of a program scope. *)
Definition from_role (acts : bytes) : res (list grant) :=
  let one ty q (f : bytes -> grant) := let* l := one_of ty q acts in Ok (map f l) in
  let all ty (f : bytes -> grant) := let* l := all_of ty acts in Ok (map f l) in
  let fix cat (l : list (res (list grant))) : res (list grant) :=
    match l with [] => Ok [] | x :: t => let* a := x in let* b := cat t in Ok (a ++ b) end in
  cat [ one 7 [] (fun _ => GAll);
        one 8 [] (fun _ => GManage);
        all 21 (fun d => GReplace (u32_at 0 d));
        one 1 [] (fun d => GSol (u64_at 0 d) None);
        one 2 [] (fun d => GSol (u64_at 0 d) (ren 8 16 24 d));
        all 5 (fun d => GToken (sub 0 32 d) (u64_at 32 d) None);
        all 6 (fun d => GToken (sub 0 32 d) (u64_at 40 d) (ren 32 56 48 d));
        all 18 (fun d => GTokenTo (sub 0 32 d) (sub 32 32 d) (u64_at 64 d) None);
        all 19 (fun d => GTokenTo (sub 0 32 d) (sub 32 32 d) (u64_at 64 d) (ren 72 80 88 d));
        all 16 (fun d => GSolTo (sub 0 32 d) (u64_at 32 d) None);
        all 17 (fun d => GSolTo (sub 0 32 d) (u64_at 32 d) (ren 40 48 56 d));
        one 13 [] (fun _ => GProgramAll);
        one 14 [] (fun _ => GCurated);
        all 3 (fun d => GProgram (sub 0 32 d));
        one 4 SPL_TOKEN scope_shown;
        one 9 [] (fun d => GSub (sub 0 32 d));
        one 22 [] (fun _ => GV2Create);
        all 23 (fun d => GV2All (u32_at 0 d));
        all 24 (fun d => GV2Sign (u32_at 0 d));
        all 25 (fun d => GV2Withdraw (u32_at 0 d));
        all 26 (fun d => GV2Toggle (u32_at 0 d));
        one 10 [] (fun d => GStake (u64_at 0 d) None);
        one 11 [] (fun d => GStake (u64_at 0 d) (ren 8 16 24 d));
        one 12 [] (fun _ => GStakeAll);
        one 15 [] (fun _ => GAllButManage) ].

(** types.rs:200-390 [Permission::to_client_actions], one permission *)
Definition or0 (o : option Z) : Z := match o with Some z => z | None => 0 end.
Definition client_action (g : grant) : action :=
  match g with
  | GAll => mk_action 7 []
  | GManage => mk_action 8 []
  | GReplace i => mk_action 21 (le_enc 4 i ++ zeros 4)
  | GToken m n (Some r) =>
      mk_action 6 (m ++ le_enc 8 (rn_window r) ++ le_enc 8 n ++ le_enc 8 n ++ le_enc 8 0)
  | GToken m n None => mk_action 5 (m ++ le_enc 8 n)
  | GTokenTo m d n (Some r) =>
      mk_action 19 (m ++ d ++ le_enc 8 n ++ le_enc 8 (rn_window r) ++ le_enc 8 0 ++ le_enc 8 n)
  | GTokenTo m d n None => mk_action 18 (m ++ d ++ le_enc 8 n)
  | GSol n (Some r) => mk_action 2 (le_enc 8 n ++ le_enc 8 (rn_window r) ++ le_enc 8 0 ++ le_enc 8 n)
  | GSol n None => mk_action 1 (le_enc 8 n)
  | GSolTo d n (Some r) =>
      mk_action 17 (d ++ le_enc 8 n ++ le_enc 8 (rn_window r) ++ le_enc 8 0 ++ le_enc 8 n)
  | GSolTo d n None => mk_action 16 (d ++ le_enc 8 n)
  | GProgram p => mk_action 3 p
  | GProgramAll => mk_action 13 []
  | GCurated => mk_action 14 (zeros 32)
  | GScope p t num lim win a b =>
      let '(kind, win, lim) := match win, lim with
                               | Some w, Some l => (2, w, l)
                               | None, Some l => (1, 0, l)
                               | _, None => (0, 0, 0)
                               end in
      mk_action 4 (le_enc 16 0 ++ le_enc 16 lim ++ le_enc 8 win ++ le_enc 8 0 ++ p ++ t ++ le_enc 8 kind
                   ++ le_enc 8 num ++ le_enc 8 (or0 a) ++ le_enc 8 (or0 b))
  (* state/src/action/sub_account.rs:59-68 [SubAccount::new]: not yet enabled, no role, no wallet *)
  | GSub k => mk_action 9 (k ++ zeros 40)
  | GStake n (Some r) => mk_action 11 (le_enc 8 n ++ le_enc 8 (rn_window r) ++ le_enc 8 0 ++ le_enc 8 n)
  | GStake n None => mk_action 10 (le_enc 8 n)
  | GStakeAll => mk_action 12 []
  | GAllButManage => mk_action 15 []
  | GV2Create => mk_action 22 []
  | GV2All i => mk_action 23 (le_enc 4 i ++ zeros 4)
  | GV2Sign i => mk_action 24 (le_enc 4 i ++ zeros 4)
  | GV2Withdraw i => mk_action 25 (le_enc 4 i ++ zeros 4)
  | GV2Toggle i => mk_action 26 (le_enc 4 i ++ zeros 4)
  end.
Definition to_client_actions (l : list grant) : list action := map client_action l.

(** types.rs:677-755 [Permission::to_action_type] *)
Definition to_action_type (g : grant) : Z :=
  match g with
  | GAll => 7 | GManage => 8 | GReplace _ => 21
  | GSol _ (Some _) => 2 | GSol _ None => 1
  | GSolTo _ _ (Some _) => 17 | GSolTo _ _ None => 16
  | GToken _ _ (Some _) => 6 | GToken _ _ None => 5
  | GTokenTo _ _ _ (Some _) => 19 | GTokenTo _ _ _ None => 18
  | GProgram _ => 3 | GProgramAll => 13 | GCurated => 14
  | GScope _ _ _ _ _ _ _ => 4 | GSub _ => 9
  | GV2Create => 22 | GV2All _ => 23 | GV2Sign _ => 24 | GV2Withdraw _ => 25 | GV2Toggle _ => 26
  | GStake _ (Some _) => 11 | GStake _ None => 10
  | GStakeAll => 12 | GAllButManage => 15
  end.

(** ** The questions of wallet.rs *)

(** wallet.rs:2025-2046 [with_role_data] *)
Definition with_role {A} (d : bytes) (i : Z) (f : rview -> res A) : res A :=
  let* o := read_role d i in
  match o with Some v => f v | None => Err PInvalidArgument end.
(** wallet.rs:1944-1947 [get_role_permissions] *)
Definition get_role_permissions (d : bytes) (i : Z) : res (list grant) := with_role d i (fun v => from_role (rv_acts v)).
Definition same_renewal (a b : option renewal) : bool :=
  match a, b with
  | Some x, Some y => (rn_window x =? rn_window y) && (rn_last x =? rn_last y) && (rn_left x =? rn_left y)
  | None, None => true
  | _, _ => false
  end.
Definition same_opt (a b : option Z) : bool :=
  match a, b with Some x, Some y => x =? y | None, None => true | _, _ => false end.
(** [#[derive(PartialEq)]] of [Permission] *)
Definition same_grant (x y : grant) : bool :=
  match x, y with
  | GAll, GAll | GManage, GManage | GProgramAll, GProgramAll | GCurated, GCurated | GStakeAll, GStakeAll
  | GAllButManage, GAllButManage | GV2Create, GV2Create => true
  | GReplace i, GReplace j | GV2All i, GV2All j | GV2Sign i, GV2Sign j | GV2Withdraw i, GV2Withdraw j
  | GV2Toggle i, GV2Toggle j => i =? j
  | GToken m n r, GToken m' n' r' => beq m m' && (n =? n') && same_renewal r r'
  | GTokenTo m d n r, GTokenTo m' d' n' r' => beq m m' && beq d d' && (n =? n') && same_renewal r r'
  | GSol n r, GSol n' r' | GStake n r, GStake n' r' => (n =? n') && same_renewal r r'
  | GSolTo d n r, GSolTo d' n' r' => beq d d' && (n =? n') && same_renewal r r'
  | GProgram p, GProgram p' | GSub p, GSub p' => beq p p'
  | GScope p t n l w a b, GScope p' t' n' l' w' a' b' =>
      beq p p' && beq t t' && (n =? n') && same_opt l l' && same_opt w w' && same_opt a a' && same_opt b b'
  | _, _ => false
  end.
(** wallet.rs:1959-1966 [role_has_permission]; 1760-1763 [has_permission] asks the same of the
    list it last fetched for its own role *)
Definition role_has_permission (d : bytes) (i : Z) (g : grant) : res bool :=
  let* l := get_role_permissions d i in Ok (existsb (same_grant g) l).
(** wallet.rs:1771-1774, 1782-1787, 1794-1802, 1810-1818, 1830-1862: answers from the list
    last fetched *)
Definition has_all_permissions (l : list grant) : bool := existsb (fun g => match g with GAll => true | _ => false end) l.
Definition can_manage_authority (l : list grant) : bool := existsb (fun g => match g with GManage => true | _ => false end) l.
Fixpoint get_sol_limit (l : list grant) : option Z :=
  match l with [] => None | GSol n _ :: _ => Some n | _ :: t => get_sol_limit t end.
Fixpoint get_recurring_sol_limit (l : list grant) : option renewal :=
  match l with [] => None | GSol _ r :: _ => r | _ :: t => get_recurring_sol_limit t end.
Definition can_spend_sol (l : list grant) (n : Z) : bool :=
  has_all_permissions l
  || existsb (fun g => match g with
                       | GSol lim r => (n <=? lim) || match r with Some q => n <=? rn_left q | None => false end
                       | _ => false
                       end) l.
(** wallet.rs:1868-1880 [get_role_count] *)
Definition get_role_count (d : bytes) : res Z := let* _ := read_open d in Ok (h_counter d).
(** wallet.rs:587-598 [get_sub_account_v2_counter] *)
Definition get_sub_account_v2_counter (d : bytes) : res Z := let* _ := read_open d in Ok (h_subctr d).
(** wallet.rs:1293-1309 [get_role_id], 1423-1442 [authenticate_authority] *)
Definition get_role_id (d q : bytes) : res Z :=
  let* o := lookup_role_id d q in match o with Some i => Ok i | None => Err PInvalidArgument end.
(** wallet.rs:1890-1893 [get_authority_type] *)
Definition get_authority_type (d : bytes) (i : Z) : res Z := with_role d i (fun v => Ok (rv_ty v)).
(** wallet.rs:1930-1933 [is_session_based]: the even types *)
Definition is_session_based (d : bytes) (i : Z) : res bool := with_role d i (fun v => Ok (Z.even (rv_ty v))).
(** [AuthorityInfo::signature_odometer]: both secp types, offset 36 *)
Definition signature_odometer (v : rview) : option Z :=
  if (3 <=? rv_ty v) && (rv_ty v <=? 6) then Some (u32_at 36 (rv_auth v)) else None.
(** utils.rs:41-72 and 106-138 [get_secp256k1_signature_counter], [get_secp256r1_signature_counter];
    [ty] is 3 or 5 *)
Definition signature_counter (ty : Z) (d q : bytes) : res Z :=
  let* o := lookup_role_id d q in
  match o with
  | None => Err PInvalidArgument
  | Some i => with_role d i (fun v => if rv_ty v =? ty then Ok (u32_at 36 (rv_auth v)) else Err SInvalidAuthorityType)
  end.
