(** * The wallet configuration account as bytes.

    Models state/src/swig.rs (header, role table, lookup, add, remove),
    state/src/role.rs [Position] and state/src/tail/*.rs. *)
From Verif Require Export Actions Authority.

(** ** Header: swig.rs:480-500 [struct Swig], 48 bytes, little endian *)
Definition HDR : nat := 48.
Definition h_disc (d : bytes) : Z := byte_at 0 d.
Definition h_bump (d : bytes) : Z := byte_at 1 d.
Definition h_id (d : bytes) : bytes := sub 2 32 d.
Definition h_roles (d : bytes) : Z := u16_at 34 d.
Definition h_counter (d : bytes) : Z := u32_at 36 d.
Definition h_wbump (d : bytes) : Z := byte_at 40 d.
Definition h_pad (d : bytes) : bytes := sub 41 3 d.
Definition h_subctr (d : bytes) : Z := u32_at 44 d.

(** state/src/lib.rs [Discriminator] *)
Definition D_Config : Z := 1.
Definition D_SubV2 : Z := 2.
Definition D_Closed : Z := 255.

(** [Swig::into_bytes] (the repr(C) struct overlays its bytes) *)
Definition header (bump : Z) (id : bytes) (roles counter wbump : Z) (pad : bytes) (subctr : Z) : bytes :=
  [D_Config; bump] ++ id ++ le_enc 2 roles ++ le_enc 4 counter ++ [wbump] ++ pad ++ le_enc 4 subctr.

(** swig.rs:519-532 [Swig::new] *)
Definition new_header (id : bytes) (bump wbump : Z) : bytes :=
  header bump id 0 0 wbump (zeros 3) 0.

(** ** Role position: role.rs [struct Position], 16 bytes *)
Definition POS : nat := 16.
Definition p_type (o : nat) (d : bytes) : Z := u16_at o d.
Definition p_alen (o : nat) (d : bytes) : nat := nat_of (u16_at (o + 2) d).
Definition p_nact (o : nat) (d : bytes) : Z := u16_at (o + 4) d.
Definition p_id (o : nat) (d : bytes) : Z := u32_at (o + 8) d.
Definition p_bound (o : nat) (d : bytes) : nat := nat_of (u32_at (o + 12) d).

(** swig.rs:538-563 [Swig::roles_end_offset]; the loop over [roles] positions *)
Fixpoint roles_end_loop (n : nat) (rt : bytes) (cursor : nat) : res nat :=
  match n with
  | O => Ok cursor
  | S n' =>
    check (cursor + POS <=? length rt)%nat PInvalidAccountData ;;
    let b := p_bound cursor rt in
    check ((cursor + POS <=? b)%nat && (b <=? length rt)%nat) PInvalidAccountData ;;
    roles_end_loop n' rt b
  end.
(** Returns the length of the roles region, i.e. [roles_end_offset - 48]. *)
Definition roles_len (d : bytes) : res nat :=
  check (HDR <=? length d)%nat PInvalidAccountData ;;
  roles_end_loop (nat_of (h_roles d)) (skipn HDR d) 0.

(** swig.rs:583-600 [split_parts] / [split_parts_mut]: header, roles, tail *)
Definition split_parts (d : bytes) : res (bytes * bytes * bytes) :=
  let* n := roles_len d in
  Ok (firstn HDR d, sub HDR n d, skipn (HDR + n) d).

(** swig.rs:603-672 [Swig::get_mut_role].  A role view: where the role starts in
    the roles region, its authority type and bytes, its actions buffer. *)
Record rview := mk_rview
  { rv_off : nat; rv_ty : Z; rv_nact : Z; rv_auth : bytes; rv_acts : bytes }.

Fixpoint find_role_loop (fuel : nat) (id : Z) (roles : bytes) (cursor : nat) : res (option nat) :=
  match fuel with
  | O => Err RComputeExhausted
  | S f =>
    if (cursor <? length roles)%nat then
      check (cursor + POS <=? length roles)%nat PInvalidAccountData ;;
      if p_id cursor roles =? id then Ok (Some cursor)
      else
        let b := p_bound cursor roles in
        check ((cursor + POS <=? b)%nat && (b <=? length roles)%nat) PInvalidAccountData ;;
        find_role_loop f id roles b
    else Ok None
  end.

(** The unchecked splits of the matched role are [Panic] when out of range. *)
Definition view_at (o : nat) (roles : bytes) : res rview :=
  let alen := p_alen o roles in
  guard (o + POS + alen <=? length roles)%nat ;;
  let* ty := authority_type (p_type o roles) in
  let auth := sub (o + POS) alen roles in
  let* n := ok_or (authority_len ty) PInvalidAccountData in
  check (alen =? n)%nat PInvalidAccountData ;;
  let b := p_bound o roles in
  guard ((o + POS + alen <=? b)%nat && (b <=? length roles)%nat) ;;
  Ok {| rv_off := o; rv_ty := ty; rv_nact := p_nact o roles mod U8; rv_auth := auth;
        rv_acts := sub (o + POS + alen) (b - (o + POS + alen)) roles |}.

Definition get_mut_role (id : Z) (roles : bytes) : res (option rview) :=
  let* o := find_role_loop (S (length roles)) id roles 0 in
  match o with
  | None => Ok None
  | Some off => let* v := view_at off roles in Ok (Some v)
  end.

(** The mutations a handler makes through a [RoleMut]: overwrite the authority
    bytes, or bytes of the actions buffer, in place. *)
Definition put_auth (v : rview) (auth : bytes) (roles : bytes) : bytes :=
  splice (rv_off v + POS) auth roles.
Definition put_acts (v : rview) (o : nat) (new : bytes) (roles : bytes) : bytes :=
  splice (rv_off v + POS + length (rv_auth v) + o) new roles.

(** ** Adding a role: swig.rs:347-473 [SwigBuilder::add_role] *)

(** The walk to the end of the last role (slice bounds panic) *)
Fixpoint walk_end (n : nat) (buf : bytes) (cursor : nat) : res nat :=
  match n with
  | O => Ok cursor
  | S n' => guard (cursor + POS <=? length buf)%nat ;; walk_end n' buf (p_bound cursor buf)
  end.

(** swig.rs:436-468: copy the actions one by one, rewriting boundaries.
    [ac] is the read cursor, [start] where the actions begin, [cur] the write cursor. *)
Fixpoint copy_actions (n : nat) (acts : bytes) (ac start cur : nat) (buf : bytes) : res bytes :=
  match n with
  | O => Ok buf
  | S n' =>
    let* h := slice ac 8 acts in
    let alen := hdr_len ac acts in
    let* data := slice (ac + 8) alen acts in
    let* p := permission (hdr_ty ac acts) in
    let* ok := validate_layout p data in
    check ok PInvalidAccountData ;;
    guard (cur + 8 + alen <=? length buf)%nat ;;
    let next := (cur - start + 8 + alen)%nat in
    let buf1 := splice cur h buf in
    let buf2 := splice (cur + 4) (le_enc 4 (Z.of_nat next)) buf1 in
    let buf3 := splice (cur + 8) data buf2 in
    copy_actions n' acts (ac + 8 + alen) start (cur + 8 + alen) buf3
  end.

(** [hdr] is the 48-byte header, [buf] the role buffer; both are returned. *)
Definition add_role (hdr buf : bytes) (aty : Z) (adata acts : bytes) : res (bytes * bytes) :=
  let* n := calculate_num_actions acts in
  reject_duplicate_v2_scoped acts ;;
  let* cur := walk_end (nat_of (h_roles hdr)) buf 0 in
  let* alen := ok_or (authority_len aty) TInvalidAuthorityData in
  let* old := slice (cur + POS) alen buf in
  let* auth := set_into_bytes aty adata old in
  let buf1 := splice (cur + POS) auth buf in
  let boundary := (cur + POS + alen + length acts)%nat in
  let buf2 := splice cur (le_enc 2 aty ++ le_enc 2 (Z.of_nat alen) ++ le_enc 2 n) buf1 in
  let buf3 := splice (cur + 8) (le_enc 4 (h_counter hdr) ++ le_enc 4 (Z.of_nat boundary)) buf2 in
  let* buf4 := copy_actions (nat_of n) acts 0 (cur + POS + alen) (cur + POS + alen) buf3 in
  Ok (splice 34 (le_enc 2 ((h_roles hdr + 1) mod U16) ++ le_enc 4 ((h_counter hdr + 1) mod U32)) hdr,
      buf4).

(** ** Removing a role: swig.rs:203-289 [SwigBuilder::remove_role] *)
Fixpoint remove_scan (n : nat) (id : Z) (buf : bytes) (cursor : nat) (found : option (nat * nat))
  : res (option (nat * nat)) :=
  match n with
  | O => Ok found
  | S n' =>
    if (length buf <=? cursor)%nat then Ok found
    else
      check (cursor + POS <=? length buf)%nat PInvalidAccountData ;;
      let b := p_bound cursor buf in
      check (b <=? length buf)%nat PInvalidAccountData ;;
      remove_scan n' id buf b (if p_id cursor buf =? id then Some (cursor, b) else found)
  end.

(** The boundary fix-up after the shift *)
Fixpoint remove_fix (fuel : nat) (size : nat) (cursor new_end : nat) (buf : bytes) : res bytes :=
  match fuel with
  | O => Err RComputeExhausted
  | S f =>
    if (cursor <? new_end)%nat then
      if (cursor + POS <=? length buf)%nat then
        let b := p_bound cursor buf in
        if (size <? b)%nat then
          let b' := (b - size)%nat in
          remove_fix f size b' new_end (splice (cursor + 12) (le_enc 4 (Z.of_nat b')) buf)
        else Ok buf
      else Ok buf
    else Ok buf
  end.

(** Returns the header, the buffer and the number of bytes freed. *)
Definition remove_role (hdr buf : bytes) (id : Z) : res (bytes * bytes * nat) :=
  let* f := remove_scan (nat_of (h_roles hdr)) id buf 0 None in
  match f with
  | None => Err TRoleNotFound
  | Some (o, b) =>
    guard (o <=? b)%nat ;;
    let size := (b - o)%nat in
    let rest := skipn b buf in
    let buf1 := splice o rest buf in
    let* buf2 := remove_fix (S (length buf)) size o (o + length rest) buf1 in
    let buf3 := firstn (length buf - size) buf2 ++ zeros size in
    Ok (splice 34 (le_enc 2 ((h_roles hdr - 1) mod U16)) hdr, buf3, size)
  end.

(** ** Tail: state/src/tail/mod.rs, state/src/tail/rent_claimer.rs *)
Definition ENTRY_LEN : nat := 40.

(** rent_claimer.rs:74-84 [entry] *)
Definition claimer_entry (k : bytes) : bytes := [1; 1] ++ le_enc 2 32 ++ zeros 4 ++ k.

(** rent_claimer.rs:56-72 [read_strict] *)
Definition read_strict (tail : bytes) : res (option bytes) :=
  match tail with
  | [] => Ok None
  | _ =>
    check (length tail =? ENTRY_LEN)%nat TInvalidRentClaimerLayout ;;
    check (byte_at 0 tail =? 1) TInvalidRentClaimerLayout ;;
    check (u16_at 2 tail =? 32) TInvalidRentClaimerLayout ;;
    check (byte_at 1 tail =? 1) TInvalidRentClaimerLayout ;;
    check (beq (sub 4 4 tail) (zeros 4)) TInvalidRentClaimerLayout ;;
    Ok (Some (sub 8 32 tail))
  end.

(** tail/mod.rs [SavedTail::take] *)
Definition take_tail (tail : bytes) : res bytes := let* _ := read_strict tail in Ok tail.

(** tail/mod.rs [SavedTail::restore_at] *)
Definition restore_at (tail : bytes) (o : nat) (d : bytes) : res bytes :=
  match tail with
  | [] => Ok d
  | _ => check (o + length tail <=? length d)%nat PInvalidAccountData ;; Ok (splice o tail d)
  end.

(** The common epilogue: find the roles end, zero everything after it, put the
    tail back (add_authority_v1.rs:273-275, remove_authority_v1.rs:233-235). *)
Definition seal_tail (tail d : bytes) : res bytes :=
  let* n := roles_len d in
  let e := (HDR + n)%nat in
  restore_at tail e (firstn e d ++ zeros (length d - e)).
