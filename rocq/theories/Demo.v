(** * A concrete chain, for examples only.

    Nothing here models source code.  It is a small environment with toy hash
    functions, a toy signature scheme and a few foreign programs, in which
    every theorem's hypotheses are met by computation.  The examples beside the
    theorems and the witnesses of the refutations run in it. *)
From Verif Require Export BaseFacts Program SpecConfig SpecSteps SpecAuth SpecWorld SpecHistory SpecActs.

(** ** Environment *)
Definition MASK : Z := Eval vm_compute in 2 ^ 62 - 1.
Definition toy_hash (salt : Z) (l : bytes) : bytes :=
  le_enc 32 (fold_left (fun a b => Z.land (a * 257 + b + 1) MASK) l salt).
(* the seeds with their lengths *)
Definition toy_pda (sd : list bytes) : key :=
  toy_hash 3 (flat_map (fun s => Z.of_nat (length s) :: s) sd).
(** The key with x-coordinate [x] signs [digest] by revealing the digest next
    to [x]; the second half starts with 0 to be in canonical range *)
Definition toy_sig (x digest : bytes) : bytes := x ++ [0] ++ sub 1 31 digest.
Definition toy_recover (digest : bytes) (v : Z) (sig : bytes) : option bytes :=
  if beq (sub 32 32 sig) ([0] ++ sub 1 31 digest) then Some (sub 0 32 sig ++ zeros 32) else None.

(** Foreign programs, as lists of account updates *)
Definition meta_at (x : ix) (i : nat) : meta := nth i (ix_metas x) (mk_meta [] false false).
Definition with_lamports (a : account) (n : Z) : account := mk_account n (a_owner a) (a_data a).
Definition with_data (a : account) (d : bytes) : account := mk_account (a_lamports a) (a_owner a) d.
Definition pay (w : world) (f t : key) (n : Z) : list (key * account) :=
  if beq f t then []
  else [(f, with_lamports (w f) (a_lamports (w f) - n)); (t, with_lamports (w t) (a_lamports (w t) + n))].
Definition with_amount (a : account) (n : Z) : account := with_data a (splice 64 (le_enc 8 n) (a_data a)).
Definition tok_amount (a : account) : Z := u64_at 64 (a_data a).

Definition toy_foreign (w : world) (x : ix) : option (list (key * account)) :=
  let k i := m_key (meta_at x i) in
  let a i := w (k i) in
  let d := ix_data x in
  let p := ix_prog x in
  if beq p SYSTEM then
    if negb (m_signer (meta_at x 0) && m_writable (meta_at x 0) && beq (a_owner (a 0%nat)) SYSTEM
             && (length (a_data (a 0%nat)) =? 0)%nat) then None
    (* transfer *)
    else if u32_at 0 d =? 2 then
      if m_writable (meta_at x 1) && (u64_at 4 d <=? a_lamports (a 0%nat))
      then Some (pay w (k 0%nat) (k 1%nat) (u64_at 4 d)) else None
    (* assign *)
    else if u32_at 0 d =? 1 then Some [(k 0%nat, mk_account (a_lamports (a 0%nat)) (sub 4 32 d) [])]
    else None
  else if is_token_program p then
    if negb (beq (a_owner (a 0%nat)) p && m_writable (meta_at x 0)) then None
    (* transfer: source, destination, authority; amount *)
    else if byte_at 0 d =? 3 then
      if beq (a_owner (a 1%nat)) p && m_writable (meta_at x 1) && beq (sub 32 32 (a_data (a 0%nat))) (k 2%nat)
         && m_signer (meta_at x 2) && beq (sub 0 32 (a_data (a 0%nat))) (sub 0 32 (a_data (a 1%nat)))
         && (u64_at 1 d <=? tok_amount (a 0%nat)) && negb (beq (k 0%nat) (k 1%nat))
      then Some [(k 0%nat, with_amount (a 0%nat) (tok_amount (a 0%nat) - u64_at 1 d));
                 (k 1%nat, with_amount (a 1%nat) (tok_amount (a 1%nat) + u64_at 1 d))]
      else None
    (* close: account, receiver, authority *)
    else if byte_at 0 d =? 9 then
      if beq (sub 32 32 (a_data (a 0%nat))) (k 2%nat) && m_signer (meta_at x 2) && m_writable (meta_at x 1)
         && (tok_amount (a 0%nat) =? 0) && negb (beq (k 0%nat) (k 1%nat))
      then Some [(k 0%nat, mk_account 0 SYSTEM []);
                 (k 1%nat, with_lamports (a 1%nat) (a_lamports (a 1%nat) + a_lamports (a 0%nat)))]
      else None
    else None
  else
    (* any other program does as it likes with the accounts it owns *)
    if negb (beq (a_owner (a 0%nat)) p && m_writable (meta_at x 0)) then None
    else if byte_at 0 d =? 0 then
      if m_writable (meta_at x 1) && (u64_at 1 d <=? a_lamports (a 0%nat))
      then Some (pay w (k 0%nat) (k 1%nat) (u64_at 1 d)) else None
    else if byte_at 0 d =? 1 then Some [(k 0%nat, with_data (a 0%nat) (skipn 1 d))]
    else Some [].

(** What the runtime checks of another program's changes *)
Definition permitted (w : world) (u : key * account) : bool :=
  let (k, a) := u in
  if beq (a_owner (w k)) SELF
  then beq (a_owner a) SELF && beq (a_data a) (a_data (w k)) && (a_lamports (w k) <=? a_lamports a)
  else negb (beq (a_owner a) SELF).
Definition put (w : world) (us : list (key * account)) : world :=
  fold_left (fun w u => upd w (fst u) (snd u)) us w.
Definition sandboxed (w : world) (x : ix) : res world :=
  let* us := ok_or (toy_foreign w x) RSystemProgram in
  check (forallb (permitted w) us) RExternalDataModified ;;
  Ok (put w us).

Definition toy : env :=
  mk_env (toy_hash 1) (toy_hash 2) toy_recover (fun _ => true) (fun sd => Some (toy_pda sd))
    (fun sd => (toy_pda (sd ++ [[255]]), 255)) (fun n => 6960 * (128 + Z.of_nat n)) sandboxed.

Lemma toy_hashes : hashes_ok toy.
Proof.
  intros x. cbn [sha256 keccak toy]. unfold toy_hash.
  repeat split; try (rewrite le_enc_length; reflexivity); apply le_enc_bytes.
Qed.

Lemma put_cases us : forall w k, put w us k = w k \/ exists a, In (k, a) us /\ put w us k = a.
Proof.
  induction us as [|[k0 a0] us IH]; intros w k; [left; reflexivity|].
  cbn [put fold_left fst snd]. destruct (IH (upd w k0 a0) k) as [Q|(a & I & Q)].
  - unfold put in Q. rewrite Q. unfold upd. destruct (beq k k0) eqn:B.
    + right. exists a0. apply beq_eq in B. subst k0. split; [left; reflexivity | reflexivity].
    + left; reflexivity.
  - right. exists a. split; [right; exact I | exact Q].
Qed.
Lemma toy_foreign_ok : foreign_ok toy.
Proof.
  intros w x w' H k. cbn [foreign toy] in H. unfold sandboxed in H.
  destruct (bind_ok _ _ _ H) as (us & _ & H1). clear H.
  destruct (forallb (permitted w) us) eqn:P; [|discriminate H1].
  cbn [check bind] in H1. injection H1 as <-.
  rewrite forallb_forall in P.
  destruct (put_cases us w k) as [Q|(a & I & Q)]; rewrite Q.
  - split; [intros; unfold kept_acct; repeat split; lia | intros A B; congruence].
  - specialize (P _ I). unfold permitted in P. split; intros O.
    + rewrite O, beq_refl in P. apply andb_prop in P as [P L]. apply andb_prop in P as [P D].
      apply beq_eq in P, D. unfold kept_acct. rewrite P, D, O. repeat split. apply Z.leb_le; exact L.
    + intros O'. apply (proj2 (beq_neq _ _)) in O. rewrite O, O', beq_refl in P. discriminate P.
Qed.

(** ** Addresses, worlds *)
Definition K (n : Z) : key := le_enc 32 (n + 2 ^ 200).
Definition empty : account := mk_account 0 SYSTEM [].
Fixpoint look (l : list (key * account)) (k : key) : account :=
  match l with [] => empty | (k', a) :: r => if beq k k' then a else look r k end.
Definition sol (n : Z) : account := mk_account n SYSTEM [].

(** ** Wallets: id, configuration address, wallet address *)
Definition WID : bytes := K 1.
Definition SWIG : key := Eval vm_compute in toy_pda (seeds_swig WID 255).
Definition WALLET : key := Eval vm_compute in toy_pda (seeds_wallet SWIG 254).

(** ** Instructions *)
Definition ro k := mk_meta k false false.
Definition rw k := mk_meta k false true.
Definition sg k := mk_meta k true false.
Definition sw k := mk_meta k true true.
Definition call (slot : Z) (ms : list meta) (data : bytes) : ctx := mk_ctx slot 1 [] 0 ms data.
Definition len (l : bytes) : Z := Z.of_nat (length l).

Definition d_create (ty : Z) (cred : bytes) (l : list action) : bytes :=
  le_enc 2 0 ++ le_enc 2 ty ++ le_enc 2 (len cred) ++ [255; 254] ++ WID ++ cred ++ enc_actions 0 l.
Definition d_add (actor ty : Z) (cred : bytes) (l : list action) : bytes :=
  le_enc 2 1 ++ le_enc 2 (len cred) ++ le_enc 2 (len (enc_actions 0 l)) ++ le_enc 2 ty ++ [Z.of_nat (length l); 0; 0; 0]
  ++ le_enc 4 actor ++ cred ++ enc_actions 0 l.
Definition d_remove (actor target : Z) : bytes :=
  le_enc 2 2 ++ le_enc 2 0 ++ zeros 4 ++ le_enc 4 actor ++ le_enc 4 target.
Definition d_update (actor target op : Z) (arg : bytes) : bytes :=
  le_enc 2 3 ++ le_enc 2 (1 + len arg) ++ zeros 4 ++ le_enc 4 actor ++ le_enc 4 target ++ [op] ++ arg.
Definition d_session (actor dur : Z) (k : key) : bytes :=
  le_enc 2 5 ++ zeros 2 ++ le_enc 4 actor ++ le_enc 8 dur ++ k.
Definition d_replace (actor target : Z) (cred : bytes) : bytes :=
  le_enc 2 16 ++ zeros 2 ++ le_enc 4 actor ++ le_enc 4 target ++ le_enc 2 (len cred) ++ zeros 2 ++ cred.
Definition d_claimer (actor : Z) (k : key) : bytes := le_enc 2 17 ++ zeros 2 ++ le_enc 4 actor ++ k.
Definition d_sign (actor : Z) (inner : bytes) : bytes :=
  le_enc 2 11 ++ le_enc 2 (len inner) ++ le_enc 4 actor ++ inner.

(** inner instructions, by account index *)
Definition i_ix (prog : Z) (accts : list Z) (data : bytes) : cix := mk_cix prog accts data.
Definition sys_pay (n : Z) : bytes := le_enc 4 2 ++ le_enc 8 n.

(** Ed25519 approval: the index of the signing account *)
Definition ed (i : Z) : bytes := [i].
(** secp256k1 approval over [data] *)
Definition k1_pay (x prefix : bytes) (slot counter : Z) (ms : list meta) (data : bytes) : bytes :=
  le_enc 8 slot ++ le_enc 4 counter
  ++ toy_sig x (keccak toy (prefix ++ hex (sha256 toy (request data ms slot counter)))) ++ [27] ++ prefix.

(** ** Checking hypotheses by computation *)
Definition okb {A} (r : res A) : bool := match r with Ok _ => true | _ => false end.
Definition result (w : world) (r : res world) : world := match r with Ok w' => w' | _ => w end.
Lemma run_ok E cx w : okb (process E cx w) = true -> succeeds E cx w (result w (process E cx w)).
Proof. unfold succeeds. destruct (process E cx w); intros H; [reflexivity | discriminate H | discriminate H]. Qed.

Definition keyb (k : key) : bool := (length k =? 32)%nat && bytesb k.
Lemma keyb_ok k : keyb k = true -> wf_key k.
Proof. unfold keyb. intros H. apply andb_prop in H as [A B]. split; [apply Nat.eqb_eq; exact A | apply bytesb_ok; exact B]. Qed.
Definition ctxb (cx : ctx) : bool := bytesb (c_data cx) && forallb (fun m => keyb (m_key m)) (c_metas cx).
Lemma ctxb_ok cx : ctxb cx = true -> wf_ctx cx.
Proof.
  unfold ctxb. intros H. apply andb_prop in H as [A B]. split; [apply bytesb_ok; exact A|].
  rewrite forallb_forall in B. apply Forall_forall. intros m I. apply keyb_ok. exact (B m I).
Qed.

Definition u32b (z : Z) : bool := (0 <=? z) && (z <? U32).
Lemma u32b_ok z : u32b z = true -> is_u32 z.
Proof. unfold u32b, is_u32. lia. Qed.
Definition pairb (a b : Z * Z) : bool := (fst a =? fst b) && (snd a =? snd b).
Fixpoint nodupb {A} (eqb : A -> A -> bool) (l : list A) : bool :=
  match l with [] => true | a :: t => negb (existsb (eqb a) t) && nodupb eqb t end.
Lemma nodupb_ok {A} (eqb : A -> A -> bool) l :
  (forall a, eqb a a = true) -> nodupb eqb l = true -> NoDup l.
Proof.
  intros R. induction l as [|a t IH]; cbn [nodupb]; intros H; constructor.
  - apply andb_prop in H as [H _]. intros I.
    assert (existsb (eqb a) t = true) as Q by (apply existsb_exists; exists a; auto). rewrite Q in H. discriminate H.
  - apply IH. apply andb_prop in H as [_ H]. exact H.
Qed.
Definition actionb (a : action) : bool :=
  match action_len (ac_ty a) with Some n => (n =? length (ac_data a))%nat && bytesb (ac_data a) | None => false end.
Definition actionsb (l : list action) : bool :=
  (1 <=? length l)%nat && (length l <=? 255)%nat && forallb actionb l && nodupb pairb (v2_scopes l).
Lemma actionsb_ok l : actionsb l = true -> wf_actions l.
Proof.
  unfold actionsb. intros H. apply andb_prop in H as [H N]. apply andb_prop in H as [H F]. apply andb_prop in H as [A B].
  apply Nat.leb_le in A, B. split; [lia|]. split.
  - rewrite forallb_forall in F. apply Forall_forall. intros a I. specialize (F a I). unfold actionb in F. unfold wf_action.
    destruct (action_len (ac_ty a)); [|discriminate F]. apply andb_prop in F as [F G]. apply Nat.eqb_eq in F. subst n.
    split; [reflexivity | apply bytesb_ok; exact G].
  - revert N. apply nodupb_ok. intros [x y]. unfold pairb. cbn. rewrite !Z.eqb_refl. reflexivity.
Qed.
Definition roleb (r : role) : bool :=
  u32b (r_id r) && match authority_len (r_aty r) with Some n => (n =? length (r_auth r))%nat | None => false end
  && bytesb (r_auth r) && (length (r_pad r) =? 2)%nat && bytesb (r_pad r) && actionsb (r_acts r).
Lemma roleb_ok r : roleb r = true -> wf_role r.
Proof.
  unfold roleb. intros H. apply andb_prop in H as [H L]. apply andb_prop in H as [H P]. apply andb_prop in H as [H Q].
  apply andb_prop in H as [H B]. apply andb_prop in H as [H A]. unfold wf_role.
  destruct (authority_len (r_aty r)) as [n|]; [|discriminate A].
  apply Nat.eqb_eq in A, Q. subst n.
  split; [apply u32b_ok; exact H|]. split; [reflexivity|]. split; [apply bytesb_ok; exact B|].
  split; [exact Q|]. split; [apply bytesb_ok; exact P | apply actionsb_ok; exact L].
Qed.
Definition byteb (z : Z) : bool := (0 <=? z) && (z <? 256).
Definition configb (s : config) : bool :=
  byteb (s_bump s) && keyb (s_id s) && u32b (s_counter s) && byteb (s_wbump s)
  && (length (s_pad s) =? 3)%nat && bytesb (s_pad s) && u32b (s_subctr s)
  && forallb roleb (s_roles s) && nodupb Z.eqb (ids s) && forallb (fun i => i <? s_counter s) (ids s)
  && (Z.of_nat (length (s_roles s)) <? 65536) && (Z.of_nat (length (enc_config s)) <=? 10485760)
  && match s_claimer s with Some k => keyb k | None => true end.
Lemma configb_ok s : configb s = true -> wf_config s.
Proof.
  unfold configb. intros H.
  apply andb_prop in H as [H C]. apply andb_prop in H as [H L]. apply andb_prop in H as [H N].
  apply andb_prop in H as [H I]. apply andb_prop in H as [H D]. apply andb_prop in H as [H R].
  apply andb_prop in H as [H U]. apply andb_prop in H as [H B]. apply andb_prop in H as [H P].
  apply andb_prop in H as [H W]. apply andb_prop in H as [H T]. apply andb_prop in H as [H Q].
  unfold wf_config. repeat apply conj.
  - unfold byteb in H. unfold is_byte. lia.
  - unfold byteb in H. lia.
  - apply keyb_ok; exact Q.
  - apply keyb_ok; exact Q.
  - apply u32b_ok; exact T.
  - apply u32b_ok; exact T.
  - unfold byteb in W. unfold is_byte. lia.
  - unfold byteb in W. unfold is_byte. lia.
  - apply Nat.eqb_eq; exact P.
  - apply bytesb_ok; exact B.
  - apply u32b_ok; exact U.
  - apply u32b_ok; exact U.
  - rewrite forallb_forall in R. apply Forall_forall. intros r Ir. apply roleb_ok. exact (R r Ir).
  - revert D. apply nodupb_ok. apply Z.eqb_refl.
  - rewrite forallb_forall in I. intros i Ii. apply Z.ltb_lt. exact (I i Ii).
  - apply Z.ltb_lt; exact N.
  - apply Z.leb_le; exact L.
  - intros k Q'. rewrite Q' in C. apply keyb_ok; exact C.
Qed.
Definition cfgb (a : account) (s : config) : bool := beq (a_owner a) SELF && beq (a_data a) (enc_config s) && configb s.
Lemma cfgb_ok a s : cfgb a s = true -> is_cfg a s.
Proof.
  unfold cfgb. intros H. apply andb_prop in H as [H C]. apply andb_prop in H as [A B].
  split; [apply beq_eq; exact A | split; [apply beq_eq; exact B | apply configb_ok; exact C]].
Qed.

(** all mentions of an account carry the same flags *)
Definition flagsb (ms : list meta) : bool :=
  forallb (fun m => forallb (fun m' => negb (beq (m_key m) (m_key m'))
    || (Bool.eqb (m_writable m) (m_writable m') && Bool.eqb (m_signer m) (m_signer m'))) ms) ms.
Lemma flagsb_ok ms : flagsb ms = true -> flags_ok ms.
Proof.
  unfold flagsb. intros H m m' I I' Q. rewrite forallb_forall in H. specialize (H m I).
  rewrite forallb_forall in H. specialize (H m' I'). rewrite Q, beq_refl in H. cbn [negb orb] in H.
  apply andb_prop in H as [A B]. split; apply Bool.eqb_prop; assumption.
Qed.

(** A world given by a list in which only [ks] belong to the wallet program *)
Lemma look_in l k : look l k = empty \/ exists a, In (k, a) l /\ look l k = a.
Proof.
  induction l as [|[k0 a0] l IH]; [left; reflexivity|]. cbn [look]. destruct (beq k k0) eqn:B.
  - right. exists a0. apply beq_eq in B. subst. split; [left; reflexivity | reflexivity].
  - destruct IH as [Q|(a & I & Q)]; [left; exact Q | right; exists a; split; [right; exact I | exact Q]].
Qed.
Lemma look_fresh l : forallb (fun u => negb (beq (a_owner (snd u)) SELF)) l = true -> fresh (look l).
Proof.
  intros H k O. destruct (look_in l k) as [Q|(a & I & Q)]; rewrite Q in O.
  - discriminate O.
  - rewrite forallb_forall in H. specialize (H _ I). cbn [snd] in H. rewrite O, beq_refl in H. discriminate H.
Qed.

Ltac calc :=
  lazymatch goal with
  | |- ex _ => fail | |- reach _ _ _ => fail | |- succeeds _ _ _ _ => fail | |- is_cfg _ _ => fail
  | |- admissible _ _ _ => fail | |- good_world _ _ => fail | |- _ /\ _ => fail
  | |- _ => vm_compute; reflexivity
  end.
Ltac run_it := apply run_ok; calc.
Ltac demo :=
  repeat match goal with
  | |- _ /\ _ => split
  | |- hashes_ok toy => exact toy_hashes
  | |- foreign_ok toy => exact toy_foreign_ok
  | |- wf_ctx _ => apply ctxb_ok; calc
  | |- is_cfg _ _ => apply cfgb_ok; calc
  | |- wf_config _ => apply configb_ok; calc
  | |- wf_role _ => apply roleb_ok; calc
  | |- wf_key _ => apply keyb_ok; calc
  | |- all_bytes _ => apply bytesb_ok; calc
  | |- flags_ok _ => apply flagsb_ok; calc
  | |- succeeds _ _ _ _ => run_it
  | |- room _ _ => split; calc
  end.
