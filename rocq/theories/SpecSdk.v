(** * The Rust SDK: what its user sees.

    The permissions of the SDK (rust-sdk/src/types.rs:55-190 [enum Permission],
    [RecurringConfig]) and what each of them says about a permission that a role
    holds on chain. *)
From Verif Require Export SpecConfig SpecWorld.

(** A limit that renews itself: its window, when it was last renewed, what is left *)
Record renewal := mk_renewal { rn_window : Z; rn_last : Z; rn_left : Z }.
Inductive grant :=
| GAll | GManage
| GReplace (role : Z)
| GToken (mint : key) (amount : Z) (r : option renewal)
| GTokenTo (mint dest : key) (amount : Z) (r : option renewal)
| GSol (amount : Z) (r : option renewal)
| GSolTo (dest : key) (amount : Z) (r : option renewal)
| GProgram (p : key)
| GProgramAll
| GScope (prog target : key) (numeric : Z) (limit window first last : option Z)
| GCurated
| GSub (address : key)
| GStake (amount : Z) (r : option renewal)
| GStakeAll
| GAllButManage
| GV2Create
| GV2All (id : Z) | GV2Sign (id : Z) | GV2Withdraw (id : Z) | GV2Toggle (id : Z).

(** ** The permission [a] of a role is described by [g] *)
Definition amount_of (n : Z) : bytes := le_enc 8 n.
Inductive tells : action -> grant -> Prop :=
| t_all : tells (mk_action 7 []) GAll
| t_manage : tells (mk_action 8 []) GManage
| t_replace i pad : is_u32 i -> length pad = 4%nat -> tells (mk_action 21 (le_enc 4 i ++ pad)) (GReplace i)
| t_token m n : length m = 32%nat -> is_u64 n -> tells (mk_action 5 (m ++ amount_of n)) (GToken m n None)
| t_token_rec m n win last left : length m = 32%nat -> is_u64 n -> is_u64 win -> is_u64 last -> is_u64 left ->
    tells (mk_action 6 (m ++ amount_of win ++ amount_of n ++ amount_of left ++ amount_of last))
          (GToken m n (Some (mk_renewal win last left)))
| t_token_to m d n : length m = 32%nat -> length d = 32%nat -> is_u64 n ->
    tells (mk_action 18 (m ++ d ++ amount_of n)) (GTokenTo m d n None)
| t_token_to_rec m d n win last left :
    length m = 32%nat -> length d = 32%nat -> is_u64 n -> is_u64 win -> is_u64 last -> is_u64 left ->
    tells (mk_action 19 (m ++ d ++ amount_of n ++ amount_of win ++ amount_of last ++ amount_of left))
          (GTokenTo m d n (Some (mk_renewal win last left)))
| t_sol n : is_u64 n -> tells (mk_action 1 (amount_of n)) (GSol n None)
| t_sol_rec n win last left : is_u64 n -> is_u64 win -> is_u64 last -> is_u64 left ->
    tells (mk_action 2 (amount_of n ++ amount_of win ++ amount_of last ++ amount_of left))
          (GSol n (Some (mk_renewal win last left)))
| t_sol_to d n : length d = 32%nat -> is_u64 n -> tells (mk_action 16 (d ++ amount_of n)) (GSolTo d n None)
| t_sol_to_rec d n win last left : length d = 32%nat -> is_u64 n -> is_u64 win -> is_u64 last -> is_u64 left ->
    tells (mk_action 17 (d ++ amount_of n ++ amount_of win ++ amount_of last ++ amount_of left))
          (GSolTo d n (Some (mk_renewal win last left)))
| t_program p : length p = 32%nat -> tells (mk_action 3 p) (GProgram p)
| t_program_all : tells (mk_action 13 []) GProgramAll
(** an account of a program: how much was used, the limit, ... A limit of more
    than 64 bits is shown without its upper bits *)
| t_scope used lim win last p t kind num a b :
    length used = 16%nat -> length lim = 16%nat -> is_u64 win -> length last = 8%nat ->
    length p = 32%nat -> length t = 32%nat -> is_u64 kind -> is_u64 num -> is_u64 a -> is_u64 b ->
    tells (mk_action 4 (used ++ lim ++ amount_of win ++ last ++ p ++ t ++ amount_of kind ++ amount_of num
                        ++ amount_of a ++ amount_of b))
          (GScope p t num (if 0 <? kind then Some (le (firstn 8 lim)) else None)
                  (if kind =? 2 then Some win else None) (Some a) (Some b))
| t_curated pad : length pad = 32%nat -> tells (mk_action 14 pad) GCurated
| t_sub k rest : length k = 32%nat -> length rest = 40%nat -> tells (mk_action 9 (k ++ rest)) (GSub k)
| t_stake n : is_u64 n -> tells (mk_action 10 (amount_of n)) (GStake n None)
| t_stake_rec n win last left : is_u64 n -> is_u64 win -> is_u64 last -> is_u64 left ->
    tells (mk_action 11 (amount_of n ++ amount_of win ++ amount_of last ++ amount_of left))
          (GStake n (Some (mk_renewal win last left)))
| t_stake_all : tells (mk_action 12 []) GStakeAll
| t_but : tells (mk_action 15 []) GAllButManage
| t_v2 : tells (mk_action 22 []) GV2Create
| t_v2_all i pad : is_u32 i -> length pad = 4%nat -> tells (mk_action 23 (le_enc 4 i ++ pad)) (GV2All i)
| t_v2_sign i pad : is_u32 i -> length pad = 4%nat -> tells (mk_action 24 (le_enc 4 i ++ pad)) (GV2Sign i)
| t_v2_withdraw i pad : is_u32 i -> length pad = 4%nat -> tells (mk_action 25 (le_enc 4 i ++ pad)) (GV2Withdraw i)
| t_v2_toggle i pad : is_u32 i -> length pad = 4%nat -> tells (mk_action 26 (le_enc 4 i ++ pad)) (GV2Toggle i).

(** Permissions of which a role can use only the first one it holds: all but
    those about a program, an account, a mint, a destination, a role or a sub-account *)
Definition single (ty : Z) : bool := negb (existsb (Z.eqb ty) [3; 4; 5; 6; 9; 16; 17; 18; 19; 21; 23; 24; 25; 26]).
(** [a] is in use in [l]: no earlier permission takes its place *)
Definition in_use (l : list action) (a : action) : Prop :=
  exists l1 l2, l = l1 ++ a :: l2 /\ (single (ac_ty a) = true -> forall b, In b l1 -> ac_ty b <> ac_ty a).
(** What the SDK's listing leaves out, see C76: limits on accounts of programs, and
    sub-account permissions that have been used *)
Definition left_out (g : grant) : Prop :=
  match g with
  | GScope _ _ _ _ _ _ _ => True
  | GSub k => k <> zeros 32
  | _ => False
  end.

(** ** What can be granted: numbers that fit and addresses of 32 bytes *)
Definition renewal_ok (r : option renewal) : Prop :=
  match r with Some q => is_u64 (rn_window q) | None => True end.
Definition grant_ok (g : grant) : Prop :=
  match g with
  | GReplace i | GV2All i | GV2Sign i | GV2Withdraw i | GV2Toggle i => is_u32 i
  | GToken m n r => wf_key m /\ is_u64 n /\ renewal_ok r
  | GTokenTo m d n r => wf_key m /\ wf_key d /\ is_u64 n /\ renewal_ok r
  | GSol n r | GStake n r => is_u64 n /\ renewal_ok r
  | GSolTo d n r => wf_key d /\ is_u64 n /\ renewal_ok r
  | GProgram p | GSub p => wf_key p
  | GScope p t n lim win a b => wf_key p /\ wf_key t /\ is_u64 n
      /\ forall x, In x [lim; win; a; b] -> forall z, x = Some z -> is_u64 z
  | _ => True
  end.
(** ... and the program accepts for a new role: a sub-account permission without
    sub-account, a destination limit with a window that is not 0 *)
Definition grantable (g : grant) : Prop :=
  grant_ok g /\ match g with
                | GSub k => k = zeros 32
                | GSolTo _ _ (Some r) | GTokenTo _ _ _ (Some r) => rn_window r <> 0
                | _ => True
                end.
(** A renewing limit starts full, whatever was asked for *)
Definition start_full (n : Z) (r : option renewal) : option renewal :=
  option_map (fun q => mk_renewal (rn_window q) 0 n) r.
Definition at_start (g : grant) : grant :=
  match g with
  | GToken m n r => GToken m n (start_full n r)
  | GTokenTo m d n r => GTokenTo m d n (start_full n r)
  | GSol n r => GSol n (start_full n r)
  | GSolTo d n r => GSolTo d n (start_full n r)
  | GStake n r => GStake n (start_full n r)
  | _ => g
  end.

(** ** The bytes [q] name role [r]: its Ed25519 key, followed by anything; its
    secp256k1 key, compressed or not; its secp256r1 key; 80 bytes with the program and
    the prefix of a program-execution role; program, length of the prefix and prefix
    of one with sessions *)
Definition named_by (q : bytes) (r : role) : Prop :=
  let c := r_auth r in let n := Z.to_nat (nth 32 c 0) in
  match r_aty r with
  | 1 | 2 => (32 <= length q)%nat /\ firstn 32 q = firstn 32 c
  | 3 | 4 => (length q = 33 \/ length q = 64)%nat /\ key33 q = firstn 33 c
  | 5 | 6 => length q = 33%nat /\ q = firstn 33 c
  | 7 => length q = 80%nat /\ firstn 32 q = firstn 32 c /\ sub 40 n q = sub 40 n c
  | _ => (length q = 33 + n)%nat /\ firstn 33 q = firstn 33 c /\ sub 33 n q = sub 40 n c
  end.
(** An Ed25519 credential starts with its 32-byte key, a secp credential with its 33-byte key *)
Definition key_size (ty : Z) : nat := if ty <=? 2 then 32%nat else 33%nat.
