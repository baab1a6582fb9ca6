(** * Compact inner instructions.

    Models instructions/src/lib.rs ([InstructionIterator], [execute]) and
    instructions/src/compact_instructions.rs (the client-side encoder). *)
From Verif Require Export Env.

(** ** Encoder: compact_instructions.rs:195-225 [into_bytes].
    The lengths are truncated to u8/u8/u16. *)
Record cix := mk_cix { ci_prog : Z; ci_accts : list Z; ci_data : bytes }.
Definition cix_bytes (c : cix) : bytes :=
  [ci_prog c; Z.of_nat (length (ci_accts c)) mod U8] ++ ci_accts c
  ++ le_enc 2 (Z.of_nat (length (ci_data c)) mod U16) ++ ci_data c.
Definition into_bytes (l : list cix) : bytes :=
  (Z.of_nat (length l) mod U8) :: flat_map cix_bytes l.

(** compact_instructions.rs:35-75 [compact_instructions].  The HashMap is built
    from (key, index) pairs, so for duplicate keys the last index wins; keys
    added later are new.  Modelled as an association list, newest first. *)
Fixpoint lookup (k : key) (l : list (key * nat)) : option nat :=
  match l with
  | [] => None
  | (k', i) :: r => if beq k k' then Some i else lookup k r
  end.
Fixpoint index_keys (ms : list meta) (i : nat) (acc : list (key * nat)) : list (key * nat) :=
  match ms with [] => acc | m :: r => index_keys r (S i) ((m_key m, i) :: acc) end.
(** One instruction account; [no_sign] are the keys whose signer bit is cleared *)
Definition clear_signer (no_sign : list key) (m : meta) : meta :=
  if existsb (beq (m_key m)) no_sign then mk_meta (m_key m) false (m_writable m) else m.
Fixpoint compact_accts (no_sign : list key) (ims : list meta) (map : list (key * nat)) (ms : list meta)
  : list Z * list (key * nat) * list meta :=
  match ims with
  | [] => ([], map, ms)
  | m0 :: r =>
    let m := clear_signer no_sign m0 in
    match lookup (m_key m) map with
    | Some i =>
      let '(l, mp, ms') := compact_accts no_sign r map ms in
      (Z.of_nat i mod U8 :: l, mp, ms')
    | None =>
      let i := length ms in
      let '(l, mp, ms') := compact_accts no_sign r ((m_key m, i) :: map) (ms ++ [m]) in
      (Z.of_nat i mod U8 :: l, mp, ms')
    end
  end.
Fixpoint compact_loop (no_sign : list key) (ixs : list ix) (map : list (key * nat)) (ms : list meta)
  : list meta * list cix :=
  match ixs with
  | [] => (ms, [])
  | x :: r =>
    let pi := length ms in
    let '(l, mp, ms2) := compact_accts no_sign (ix_metas x) map (ms ++ [mk_meta (ix_prog x) false false]) in
    let '(ms3, cs) := compact_loop no_sign r mp ms2 in
    (ms3, mk_cix (Z.of_nat pi mod U8) l (ix_data x) :: cs)
  end.
Definition compact_instructions (no_sign : list key) (ms : list meta) (ixs : list ix)
  : list meta * list cix :=
  compact_loop no_sign ixs (index_keys ms 0 []) ms.

(** ** Decoder: instructions/src/lib.rs:220-380.  An inner instruction; its
    signer bits are those of the outer accounts plus the signing address, its
    writable bits those of the outer accounts.  (The list of restricted keys is
    empty in every use.) *)
Record inner := mk_inner { in_ix : ix; in_uses : bool }.

Fixpoint parse_accts (ms : list meta) (sk : key) (n : nat) (l : bytes) : res (list meta * bool * bytes) :=
  match n with
  | O => Ok ([], false, l)
  | S n' =>
    match l with
    | [] => Err IMissingData
    | i :: r =>
      let* m := ok_or (nth_error ms (nat_of i)) IMissingAccountInfo in
      let is_s := beq (m_key m) sk || m_signer m in
      let* ' (ims, u, r') := parse_accts ms sk n' r in
      Ok (mk_meta (m_key m) is_s (m_writable m) :: ims, (is_s && beq (m_key m) sk) || u, r')
    end
  end.
(** instructions/src/lib.rs:274-330 [parse_next_instruction]; 255 accounts
    overrun the fixed array of 254 (index panic) *)
Definition parse_one (ms : list meta) (sk : key) (l : bytes) : res (inner * bytes) :=
  match l with
  | [] => Err IMissingData
  | p :: r =>
    let* pm := ok_or (nth_error ms (nat_of p)) IMissingAccountInfo in
    match r with
    | [] => Err IMissingData
    | n :: r1 =>
      let* ' (ims, u, r2) := parse_accts ms sk (nat_of n) r1 in
      guard (n <=? 254) ;;
      check (2 <=? length r2)%nat IMissingData ;;
      let dl := nat_of (u16_at 0 r2) in
      let r3 := skipn 2 r2 in
      check (dl <=? length r3)%nat IMissingData ;;
      Ok (mk_inner (mk_ix (m_key pm) ims (firstn dl r3)) u, skipn dl r3)
    end
  end.
Fixpoint parse_n (ms : list meta) (sk : key) (n : nat) (l : bytes) : res (list inner) :=
  match n with
  | O => Ok []
  | S n' =>
    let* ' (x, r) := parse_one ms sk l in
    let* xs := parse_n ms sk n' r in
    Ok (x :: xs)
  end.
(** [InstructionIterator::new] and the iteration.  The Rust code interleaves
    parsing with execution; a parse error at any point fails the whole
    instruction, so the model parses everything first.  Bytes after the last
    instruction are ignored. *)
Definition parse_all (ms : list meta) (sk : key) (l : bytes) : res (list inner) :=
  match l with
  | [] => Err IMissingInstructions
  | n :: r => parse_n ms sk (nat_of n) r
  end.
