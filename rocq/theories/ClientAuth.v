(** * Instructions built by the client pass the program's check *)
From Verif Require Import BaseFacts SpecClient ClientFacts Roundtrip AuthFacts AuthProps Actors.

(** ** The shapes of the builders *)
Definition first_is (swig : key) (ms : list meta) : Prop := option_map m_key (nth_error ms 0) = Some swig.
Definition aimed (o : order) (ks : list key) (ms : list meta) : Prop :=
  map (fun i => option_map m_key (nth_error ms i)) (places o (length ms)) = map Some ks.
Lemma aim_tokens (pre : list meta) toks :
  map (fun i => option_map m_key (nth_error (pre ++ map w_ toks) i)) (seq (length pre) (length (pre ++ map w_ toks) - length pre)) = map Some toks.
Proof.
  rewrite app_length, map_length, Nat.add_comm, Nat.add_sub. revert pre. induction toks as [|k t IH]; intro pre; [reflexivity|].
  cbn [length seq map]. rewrite nth_error_app2, Nat.sub_diag by lia. cbn [nth_error option_map w_ m_key]. f_equal.
  specialize (IH (pre ++ [w_ k])). rewrite app_length in IH. cbn [length] in IH. rewrite Nat.add_1_r, <- app_assoc in IH. exact IH.
Qed.
Ltac aim := first [reflexivity | match goal with t : option (key * key * key) |- _ => destruct t as [[[? ?] ?]|]; reflexivity end
  | match goal with u : update_data |- _ => destruct u; reflexivity end
  | match goal with |- aimed (CloseTokens ?n) _ (?pre ++ map w_ ?tk) =>
      unfold aimed; cbn [places map app nth_error option_map w_ m_key ro_]; do 3 f_equal; exact (aim_tokens pre tk) end].
Definition ed_shape (swig : key) (rid : Z) (auth : key) (o : order) (ks : list key) (x : ix) : Prop :=
  exists ms B signed i m, x = by_ed ms B i /\ reads B signed rid o /\ first_is swig ms /\ aimed o ks ms
    /\ nth_error ms (nat_of i) = Some m /\ m_key m = auth /\ m_signer m = true.

Lemma compact_more ns ms l : exists t, fst (compact_instructions ns ms l) = ms ++ t.
Proof.
  unfold compact_instructions. destruct (compact_loop _ _ _ _) as [ms' cs] eqn:C.
  assert (I : index_ok (index_keys ms 0 []) ms).
  { apply (index_keys_ok ms [] []). intros k i H. discriminate. }
  destruct (compact_loop_ok ns l _ _ _ _ I C) as ((t & X) & _). exists t. exact X.
Qed.
Lemma mark_key s m : m_key (mark s m) = m_key m.
Proof. unfold mark. destruct (existsb _ _); reflexivity. Qed.
Lemma mark_signer s m : m_signer m = true -> m_signer (mark s m) = true.
Proof. unfold mark. intro. destruct (existsb _ _); [reflexivity|assumption]. Qed.

(* compaction of [l] on top of [ms] *)
Ltac compacted ns ms l :=
  let t := fresh "t" in let X := fresh "X" in
  destruct (compact_more ns ms l) as [t X];
  unfold packed in *; destruct (compact_instructions ns ms l) as [ms' cs]; cbn [fst snd] in *; subst ms'.

Ltac rd := first [apply reads_add | apply reads_sign | apply reads_remove | apply reads_update | apply reads_session
  | apply reads_sub | apply reads_withdraw | apply reads_sub_sign | apply reads_toggle | apply reads_transfer | apply reads_claimer
  | apply reads_close_token | apply reads_close | apply reads_sub2 | apply reads_toggle2 | apply reads_sub_sign2 | apply reads_withdraw2
  | apply reads_replace]; try assumption.
Ltac ranges G := cbn [in_range] in G; decompose [and] G.
Lemma change_range target u : exists op x, change_of target u = ChangeRole target op x.
Proof. destruct (encoded_change target u) as (op & x & C & _). eauto. Qed.
Lemma small_u16 z : (0 <=? z) && (z <? 65536) = true -> is_u16 z.
Proof. unfold is_u16, U16. lia. Qed.

Lemma built_ed_shape swig rid auth o ks x : is_u32 rid -> built_ed swig rid auth o ks x -> in_range o -> ed_shape swig rid auth o ks x.
Proof.
  intros R H G. unfold ed_shape.
  destruct H as [| wallet inner signers | | | | | | sa inner | | | | | | | | state sa id inner | | target c x Hx];
    try (do 2 eexists; eexists; do 2 eexists; split; [reflexivity|];
         split; [ranges G; rd; try (apply small_u16; reflexivity); exact G|]; split; [reflexivity|]; split; [aim|]; split; [reflexivity|]; split; reflexivity).
  - unfold sign_ed. compacted [swig] [w_ swig; w_ wallet; ros auth] [inner].
    do 5 eexists. split; [reflexivity|]. split; [rd; exact G|]. split; [unfold first_is; cbn; f_equal; apply mark_key|]. split; [unfold aimed; cbn; do 2 f_equal; apply mark_key|].
    split; [reflexivity|]. split; [apply mark_key|now apply mark_signer].
  - unfold sub_sign_ed. compacted [swig; sa] [ro_ swig; w_ sa; SYS; ros auth] inner.
    do 5 eexists. split; [reflexivity|]. split; [rd; exact G|]. repeat split.
  - unfold sub_sign2_ed. compacted [swig; sa] [w_ swig; ro_ state; w_ sa; SYS; ros auth] inner.
    do 5 eexists. split; [reflexivity|]. split; [ranges G; rd|]. repeat split.
  - unfold replace_ed in Hx. destruct (replace_fits c); [|discriminate]. injection Hx as <-.
    do 5 eexists. split; [reflexivity|]. split; [ranges G; rd|]. repeat split.
Qed.

Definition k1_shape E sign slot counter (swig : key) (rid : Z) (o : order) (ks : list key) (x : ix) : Prop :=
  exists ms B signed, x = by_k1 E sign slot counter ms signed B /\ reads B signed rid o /\ first_is swig ms /\ aimed o ks ms.
Definition k1_old_shape E sign slot (swig : key) (rid : Z) (o : order) (ks : list key) (x : ix) : Prop :=
  exists ms B signed, x = by_k1_old E sign slot ms signed B /\ reads B signed rid o /\ first_is swig ms /\ aimed o ks ms.
Definition r1_shape E sign pk slot counter (swig : key) (rid : Z) (o : order) (ks : list key) (l : list ix) : Prop :=
  exists ms B signed i, l = by_r1 E sign pk slot counter ms signed B i /\ reads B signed rid o /\ first_is swig ms /\ aimed o ks ms
    /\ option_map m_key (nth_error ms (nat_of i)) = Some INSTRUCTIONS_ID.
Definition r1_old_shape E sign pk slot counter (swig : key) (rid : Z) (o : order) (ks : list key) (l : list ix) : Prop :=
  exists ms B signed i, l = by_r1_old E sign pk slot counter ms signed B i /\ reads B signed rid o /\ first_is swig ms /\ aimed o ks ms.
Definition exec_shape pre tix (swig : key) (rid : Z) (o : order) (ks : list key) (l : list ix) : Prop :=
  exists ms B signed i, l = by_exec pre ms B i tix /\ reads B signed rid o /\ first_is swig ms /\ aimed o ks ms
    /\ ((length ms <= 256)%nat -> option_map m_key (nth_error ms (nat_of i)) = Some INSTRUCTIONS_ID) /\ (2 <= length ms)%nat.

Ltac plain_case G := do 3 eexists; split; [reflexivity|];
  split; [ranges G; rd; try (apply small_u16; reflexivity); exact G|]; split; [reflexivity|]; aim.
Ltac plain_case4 G := do 4 eexists; split; [reflexivity|];
  split; [ranges G; rd; try (apply small_u16; reflexivity); exact G|]; split; [reflexivity|]; first [split; [aim|reflexivity] | aim].

Lemma built_k1_shape swig rid E sign slot counter o ks x : is_u32 rid -> built_k1 swig rid E sign slot counter o ks x -> in_range o ->
  k1_shape E sign slot counter swig rid o ks x.
Proof.
  intros R H G. unfold k1_shape.
  destruct H as [| wallet inner signers | | | | | | | | | state sa id inner | | target c x Hx]; try plain_case G.
  - unfold sign_k1. compacted [swig] [w_ swig; w_ wallet; SYS] [inner].
    do 3 eexists. split; [reflexivity|]. split; [rd; exact G|]. split; [unfold first_is; cbn; f_equal; apply mark_key|]. unfold aimed; cbn; do 2 f_equal; apply mark_key.
  - unfold sub_sign2_k1. compacted [swig; sa] [w_ swig; ro_ state; w_ sa; SYS] inner.
    do 3 eexists. split; [reflexivity|]. split; [ranges G; rd|]. split; reflexivity.
  - unfold replace_k1 in Hx. destruct (replace_fits c); [|discriminate]. injection Hx as <-. plain_case G.
Qed.
Lemma built_k1_old_shape swig rid E sign slot o ks x : is_u32 rid -> built_k1_old swig rid E sign slot o ks x -> in_range o ->
  k1_old_shape E sign slot swig rid o ks x.
Proof.
  intros R H G. unfold k1_old_shape. destruct H as [| | sa inner | |]; try plain_case G.
  unfold sub_sign_k1. compacted [swig; sa] [ro_ swig; w_ sa; SYS] inner.
  do 3 eexists. split; [reflexivity|]. split; [rd; exact G|]. split; reflexivity.
Qed.
Lemma built_r1_shape swig rid E sign pk slot counter o ks l : is_u32 rid -> built_r1 swig rid E sign pk slot counter o ks l -> in_range o ->
  r1_shape E sign pk slot counter swig rid o ks l.
Proof.
  intros R H G. unfold r1_shape.
  destruct H as [| wallet inner signers | | | | | | | | | | state sa id inner | | target c x Hx]; try plain_case4 G.
  - unfold sign_r1. compacted [swig] [w_ swig; w_ wallet; SYS; IXS] [inner].
    do 4 eexists. split; [reflexivity|]. split; [rd; exact G|]. split; [unfold first_is; cbn; f_equal; apply mark_key|]. split; [unfold aimed; cbn; do 2 f_equal; apply mark_key|].
    change (Some (m_key (mark signers IXS)) = Some INSTRUCTIONS_ID). rewrite mark_key. reflexivity.
  - unfold sub_sign2_r1. compacted [swig; sa] [w_ swig; ro_ state; w_ sa; SYS; IXS] inner.
    do 4 eexists. split; [reflexivity|]. split; [ranges G; rd|]. split; [reflexivity|]. split; reflexivity.
  - unfold replace_r1 in Hx. destruct (replace_fits c); [|discriminate]. injection Hx as <-. plain_case4 G.
Qed.
Lemma built_r1_old_shape swig rid E sign pk slot counter o ks l : is_u32 rid -> built_r1_old swig rid E sign pk slot counter o ks l -> in_range o ->
  r1_old_shape E sign pk slot counter swig rid o ks l.
Proof.
  intros R H G. unfold r1_old_shape. destruct H as [| | sa inner | |]; try plain_case4 G.
  unfold sub_sign_r1. compacted [swig; sa] [ro_ swig; w_ sa; SYS; IXS] inner.
  do 4 eexists. split; [reflexivity|]. split; [rd; exact G|]. split; reflexivity.
Qed.
Ltac exec_case G := do 4 eexists; split; [reflexivity|];
  split; [ranges G; rd; exact G|]; split; [reflexivity|]; split; [aim|]; split; [reflexivity|cbn; lia].
Lemma built_exec_shape swig rid pre tix o ks l : is_u32 rid -> built_exec swig rid pre tix o ks l -> in_range o ->
  exec_shape pre tix swig rid o ks l.
Proof.
  intros R H G. unfold exec_shape.
  destruct H as [| wallet payer inner | | | | | | | wallet target c l T Hx]; try exec_case G.
  - unfold sign_exec. compacted [swig] [w_ swig; w_ wallet; ws payer] [inner].
    do 4 eexists. split; [reflexivity|]. split; [rd; exact G|]. split; [reflexivity|]. split; [reflexivity|]. split; [|cbn; lia].
    intro L. set (ms := [w_ swig; w_ wallet; ws payer] ++ t) in *. rewrite app_length in L. change (length [IXS]) with 1%nat in L.
    unfold U8. rewrite Z.mod_small by lia. unfold nat_of. rewrite Nat2Z.id, nth_error_app2, Nat.sub_diag by lia. reflexivity.
  - subst tix. unfold replace_exec in Hx. destruct (replace_fits c); [|discriminate]. injection Hx as <-. exec_case G.
Qed.

(** ** What is built says what was asked *)
Lemma says_build swig rid o ks ms B signed p : reads B signed rid o -> first_is swig ms -> aimed o ks ms -> says swig rid o ks (build ms (B ++ p)).
Proof. intros H F Am. destruct (H p) as (A & O & _). split; [reflexivity|]. split; [exact F|]. split; [exact A|]. split; [exact O|exact Am]. Qed.

Theorem says_ed swig rid auth o ks x : is_u32 rid -> in_range o -> built_ed swig rid auth o ks x -> says swig rid o ks x.
Proof.
  intros R G H. destruct (built_ed_shape _ _ _ _ _ _ R H G) as (ms & B & signed & i & m & -> & Rd & F & Am & _).
  eapply says_build; eassumption.
Qed.
Theorem says_k1 swig rid E sign slot counter o ks x : is_u32 rid -> in_range o ->
  built_k1 swig rid E sign slot counter o ks x -> says swig rid o ks x.
Proof.
  intros R G H. destruct (built_k1_shape _ _ _ _ _ _ _ _ _ R H G) as (ms & B & signed & -> & Rd & F & Am). eapply says_build; eassumption.
Qed.
Theorem says_k1_old swig rid E sign slot o ks x : is_u32 rid -> in_range o ->
  built_k1_old swig rid E sign slot o ks x -> says swig rid o ks x.
Proof.
  intros R G H. destruct (built_k1_old_shape _ _ _ _ _ _ _ _ R H G) as (ms & B & signed & -> & Rd & F & Am). eapply says_build; eassumption.
Qed.
Theorem says_r1 swig rid E sign pk slot counter o ks l : is_u32 rid -> in_range o ->
  built_r1 swig rid E sign pk slot counter o ks l -> exists v x, l = [v; x] /\ says swig rid o ks x.
Proof.
  intros R G H. destruct (built_r1_shape _ _ _ _ _ _ _ _ _ _ R H G) as (ms & B & signed & i & -> & Rd & F & Am & _).
  do 2 eexists. split; [reflexivity|]. eapply says_build; eassumption.
Qed.
Theorem says_r1_old swig rid E sign pk slot counter o ks l : is_u32 rid -> in_range o ->
  built_r1_old swig rid E sign pk slot counter o ks l -> exists v x, l = [v; x] /\ says swig rid o ks x.
Proof.
  intros R G H. destruct (built_r1_old_shape _ _ _ _ _ _ _ _ _ _ R H G) as (ms & B & signed & i & -> & Rd & F & Am).
  do 2 eexists. split; [reflexivity|]. eapply says_build; eassumption.
Qed.
Theorem says_exec swig rid pre tix o ks l : is_u32 rid -> in_range o ->
  built_exec swig rid pre tix o ks l -> exists x, l = [pre; x] /\ says swig rid o ks x.
Proof.
  intros R G H. destruct (built_exec_shape _ _ _ _ _ _ _ R H G) as (ms & B & signed & i & -> & Rd & F & Am & _).
  eexists. split; [reflexivity|]. eapply says_build; eassumption.
Qed.

(** ** What is built passes *)
Lemma wider_nth ms ms' i m : Forall2 wider ms ms' -> nth_error ms i = Some m -> exists m', nth_error ms' i = Some m' /\ wider m m'.
Proof.
  intro H. revert i. induction H as [|a b l l' W H IH]; intros [|i] N; try discriminate.
  - injection N as <-. exists b. split; [reflexivity|exact W].
  - apply IH. exact N.
Qed.
Theorem passes_ed E swig rid auth o ks x cx r : is_u32 rid -> in_range o -> built_ed swig rid auth o ks x ->
  sent cx x -> ed_key o (c_slot cx) r auth -> passes E cx r (r_auth r).
Proof.
  intros R G H [Sd Sm] K. destruct (built_ed_shape _ _ _ _ _ _ R H G) as (ms & B & signed & i & m & -> & Rd & F & Am & Ni & Mk & Ms).
  cbn [by_ed build ix_data ix_metas] in Sd, Sm. unfold passes. rewrite Sd. destruct (Rd [i]) as (_ & _ & -> & -> & ->).
  destruct (wider_nth _ _ _ _ Sm Ni) as (m' & Nm & Wk & Ws & _). specialize (Ws Ms).
  assert (Ed : ed25519_authenticate (c_metas cx) i auth = Ok tt).
  { unfold ed25519_authenticate. rewrite Nm, Wk, Mk, Ws, beq_refl. reflexivity. }
  unfold ed_key in K.
  destruct (starts_session o); cbn [negb] in K;
    [rewrite andb_false_r in K|rewrite andb_true_r in K; unfold role_authenticate; rewrite session_same; destruct (is_session (r_aty r)) eqn:Is].
  - destruct K as [T Ka]. unfold authenticate.
    replace ((r_aty r =? T_Ed25519) || (r_aty r =? T_Ed25519Session)) with true by (destruct T as [-> | ->]; reflexivity).
    change (sub 0 32 (r_auth r)) with (firstn 32 (r_auth r)). cbn [length Nat.eqb check byte_at nth]. rewrite Ka, Ed. reflexivity.
  - destruct K as [Ka Kt]. subst auth. unfold session_key, session_end in *.
    assert (T : r_aty r = 2 \/ r_aty r = 4 \/ r_aty r = 6 \/ r_aty r = 8) by (unfold is_session in Is; lia).
    unfold authenticate_session. cbn [length Nat.eqb check byte_at nth]. unfold u64_at.
    destruct T as [T|[T|[T|T]]]; rewrite T in *; cbn in Ed, Kt |- *;
      match goal with |- context [?a <=? ?b] => replace (a <=? b) with true by (symmetry; apply Z.leb_le; exact Kt) end;
      cbn; rewrite Ed; reflexivity.
  - destruct K as [T Ka]. unfold authenticate.
    replace ((r_aty r =? T_Ed25519) || (r_aty r =? T_Ed25519Session)) with true by (destruct T as [-> | ->]; reflexivity).
    change (sub 0 32 (r_auth r)) with (firstn 32 (r_auth r)). cbn [length Nat.eqb check byte_at nth]. rewrite Ka, Ed. reflexivity.
Qed.

Lemma counted_splice a : splice 36 (le_enc 4 (next_counter a)) a = count_up a.
Proof. unfold splice, count_up. rewrite le_enc_length. reflexivity. Qed.
Lemma next_u32 a : is_u32 (next_counter a).
Proof. apply (next_bound a). Qed.
Lemma time_ok now t : in_time now t -> negb ((now <? t) || (MAX_SIGNATURE_AGE <? now - t)) = true.
Proof. unfold in_time, MAX_SIGNATURE_AGE. intros. lia. Qed.

Lemma k1_accepted E cx a slot signed sig : is_u64 slot -> in_time (c_slot cx) slot -> (length (c_metas cx) <= 64)%nat ->
  k1_signs E (cred_key a) (prepare_k1 E slot (next_counter a) signed (accounts_payload (c_metas cx)) []) sig ->
  secp256k1_auth E a (le_enc 8 slot ++ le_enc 4 (next_counter a) ++ sig) signed (c_slot cx) (c_metas cx) = Ok (count_up a).
Proof.
  intros Us It Lm (rs & v & pub & -> & Lr & (C1 & C2) & Rc & Cp). unfold secp256k1_auth.
  set (p := le_enc 8 slot ++ le_enc 4 (next_counter a) ++ rs ++ [v]).
  assert (Lp : length p = 77%nat) by (unfold p; rewrite !app_length, !le_enc_length, Lr; reflexivity).
  rewrite Lp. change (check (77 <=? 77)%nat AInvalidAuthorityPayload) with (@Ok unit tt). cbv zeta beta. cbn [bind].
  change (u64_at 0 p) with (le (le_enc 8 slot)). rewrite (le8 slot Us).
  change (u32_at 8 p) with (le (le_enc 4 (next_counter a))). rewrite (le4 _ (next_u32 a)).
  change ((u32_at 36 a + 1) mod U32) with (next_counter a). rewrite Z.eqb_refl. cbn [check bind].
  assert (S : sub 12 65 p = rs ++ [v]).
  { unfold p. rewrite app_assoc. pose proof (app_nil_r (rs ++ [v])) as N. rewrite <- N at 1. apply sub_app_exact; [reflexivity|].
    rewrite app_length, Lr. reflexivity. }
  assert (Sk : skipn 77 p = []) by (apply skipn_all2; lia). rewrite S, Sk.
  unfold secp256k1_authenticate. rewrite (time_ok _ _ It). cbn [check bind].
  replace (length (c_metas cx) <=? 64)%nat with true by (symmetry; apply Nat.leb_le; exact Lm). cbn [check bind]. cbv zeta.
  assert (S0 : sub 0 64 (rs ++ [v]) = rs) by (unfold sub; cbn [skipn]; now apply firstn_app_exact). rewrite S0.
  assert (P1 : be (sub 0 32 rs) <? SECP_N = true) by (apply Z.ltb_lt; exact C1).
  assert (P2 : be (sub 32 32 rs) <= SECP_N / 2) by exact C2.
  assert (P3 : be (sub 32 32 rs) <? SECP_N = true).
  { apply Z.ltb_lt. eapply Z.le_lt_trans; [exact P2|]. reflexivity. }
  unfold sig_parses, sig_high. rewrite P1, P3. cbn [andb check bind].
  replace (SECP_N / 2 <? be (sub 32 32 rs)) with false by (symmetry; apply Z.ltb_ge; exact P2). cbn [negb check bind].
  assert (Bv : byte_at 64 (rs ++ [v]) = v) by (unfold byte_at; rewrite app_nth2 by lia; rewrite Lr; reflexivity). rewrite Bv.
  unfold prepare_k1 in Rc. unfold signed_bytes. rewrite Rc. cbn [ok_or bind].
  change (compress pub) with (compressed pub). rewrite Cp. change (sub 0 33 a) with (cred_key a). rewrite beq_refl. cbn [check bind].
  now rewrite counted_splice.
Qed.
Lemma root_runs plain session o r E cx payload signed : (plain = 3 /\ session = 4 \/ plain = 5 /\ session = 6 \/ plain = 7 /\ session = 8) ->
  root_type plain session o r ->
  (if starts_session o then authenticate else role_authenticate) E cx (r_aty r) (r_auth r) payload signed
  = authenticate E cx (r_aty r) (r_auth r) payload signed /\ (r_aty r = plain \/ r_aty r = session).
Proof.
  intros P [T|[T S]].
  - split; [|left; exact T]. destruct (starts_session o); [reflexivity|]. unfold role_authenticate.
    rewrite T. destruct P as [[-> _]|[[-> _]|[-> _]]]; reflexivity.
  - rewrite S. split; [reflexivity|right; exact T].
Qed.
Theorem passes_k1 E swig rid sign slot o ks x cx r : is_u32 rid -> in_range o ->
  built_k1 swig rid E sign slot (next_counter (r_auth r)) o ks x ->
  sent_exactly cx x -> (length (ix_metas x) <= 64)%nat -> root_type 3 4 o r ->
  (forall m, k1_signs E (cred_key (r_auth r)) (keccak E m) (sign (keccak E m))) ->
  is_u64 slot -> in_time (c_slot cx) slot -> passes E cx r (count_up (r_auth r)).
Proof.
  intros R G H [Sd Sm] L T K Us It. destruct (built_k1_shape _ _ _ _ _ _ _ _ _ R H G) as (ms & B & signed & -> & Rd & F & Am).
  cbn [by_k1 build ix_data ix_metas] in Sd, Sm, L. unfold passes. rewrite Sd.
  match goal with |- context [payload_of (B ++ ?p)] => destruct (Rd p) as (_ & _ & -> & -> & ->) end.
  destruct (root_runs 3 4 o r E cx (le_enc 8 slot ++ le_enc 4 (next_counter (r_auth r)) ++
     sign (prepare_k1 E slot (next_counter (r_auth r)) signed (accounts_payload ms) [])) signed) as [-> Ty]; [auto|exact T|].
  unfold authenticate.
  replace ((r_aty r =? T_Ed25519) || (r_aty r =? T_Ed25519Session)) with false by (destruct Ty as [-> | ->]; reflexivity).
  replace ((r_aty r =? T_Secp256k1) || (r_aty r =? T_Secp256k1Session)) with true by (destruct Ty as [-> | ->]; reflexivity).
  rewrite <- Sm in *. apply k1_accepted; try assumption. apply K.
Qed.

Lemma verify_reads msg sig pk : length pk = 33%nat -> length sig = 64%nat -> length msg = 32%nat ->
  verify_r1_data (ix_data (verify_ix msg sig pk)) pk msg = Ok tt.
Proof.
  intros Lp Ls Lm. cbn [verify_ix ix_data]. rewrite Lm.
  set (h := [1; 0] ++ le_enc 2 49 ++ le_enc 2 65535 ++ le_enc 2 16 ++ le_enc 2 65535
     ++ le_enc 2 113 ++ le_enc 2 (Z.of_nat 32) ++ le_enc 2 65535).
  match goal with |- verify_r1_data ?d _ _ = _ => replace d with (h ++ pk ++ sig ++ msg) by reflexivity end.
  set (d := h ++ pk ++ sig ++ msg).
  assert (Ld : length d = 145%nat) by (unfold d; rewrite !app_length, Lp, Ls, Lm; reflexivity).
  assert (S1 : sub 16 33 d = pk) by (unfold d; now apply sub_app_exact).
  assert (S2 : sub 113 32 d = msg).
  { unfold d. rewrite (app_assoc pk), (app_assoc h). pose proof (app_nil_r msg) as N. rewrite <- N at 1. apply sub_app_exact; [rewrite !app_length, Lp, Ls; reflexivity|exact Lm]. }
  unfold verify_r1_data, slice. rewrite Ld, Lm, S1, S2, !beq_refl.
  change (byte_at 0 d) with 1. change (u16_at 4 d) with 65535. change (u16_at 8 d) with 65535. change (u16_at 14 d) with 65535.
  change (u16_at 6 d) with 16. change (u16_at 10 d) with 113. change (u16_at 12 d) with 32.
  change (113 + 32 <=? 145)%nat with true. change (32 =? Z.of_nat 32) with true.
  change (16 <=? 145)%nat with true. change (145 <=? 145)%nat with true. cbn [check bind Z.eqb Pos.eqb]. now rewrite beq_refl.
Qed.
Lemma r1_accepted E cx a slot signed i sig pk : hashes_ok E -> is_u64 slot -> in_time (c_slot cx) slot -> (length (c_metas cx) <= 64)%nat ->
  pk = cred_key a -> length pk = 33%nat -> length sig = 64%nat ->
  previous cx (verify_ix (r1_hash E slot (next_counter a) (c_metas cx) signed) sig pk) ->
  option_map m_key (nth_error (c_metas cx) (nat_of i)) = Some INSTRUCTIONS_ID ->
  secp256r1_auth E cx a (le_enc 8 slot ++ le_enc 4 (next_counter a) ++ [i] ++ zeros 4) signed = Ok (count_up a).
Proof.
  intros He Us It Lm Hp Lp Ls (Pc & Pn) Ni. unfold secp256r1_auth.
  set (p := le_enc 8 slot ++ le_enc 4 (next_counter a) ++ [i] ++ zeros 4).
  change (length p) with 17%nat. change (check (17 <=? 17)%nat AInvalidAuthorityPayload) with (@Ok unit tt). cbv zeta. cbn [bind].
  change (u64_at 0 p) with (le (le_enc 8 slot)). rewrite (le8 slot Us).
  change (u32_at 8 p) with (le (le_enc 4 (next_counter a))). rewrite (le4 _ (next_u32 a)).
  change ((u32_at 36 a + 1) mod U32) with (next_counter a). rewrite Z.eqb_refl. cbn [check bind].
  change (skipn 17 p) with (@nil Z). change (byte_at 12 p) with i. unfold secp256r1_authenticate. cbv zeta.
  rewrite (time_ok _ _ It). cbn [check bind].
  replace (length (c_metas cx) <=? 64)%nat with true by (symmetry; apply Nat.leb_le; exact Lm). cbn [check bind r1_message].
  destruct (nth_error (c_metas cx) (nat_of i)) as [sv|]; [|discriminate]. cbn [option_map] in Ni. injection Ni as Ni.
  cbn [ok_or bind]. rewrite Ni, beq_refl. cbn [check bind].
  replace (c_cur cx =? 0)%nat with false by (symmetry; apply Nat.eqb_neq; lia). cbn [negb check bind].
  unfold find_ix. rewrite Pn. match goal with |- context [ix_data ?v] => change (ix_prog v) with SECP256R1_ID end. rewrite beq_refl.
  change (sub 0 33 a) with (cred_key a). rewrite <- Hp. unfold r1_hash in *. unfold signed_bytes.
  match goal with |- context [verify_r1_data (ix_data ?v) _ ?m] => pose proof (verify_reads m sig pk Lp Ls) as V end.
  cbn [check bind]. rewrite V by (apply He). cbn [bind]. now rewrite counted_splice.
Qed.
Theorem passes_r1 E swig rid sign pk slot o ks l v x cx r : hashes_ok E -> is_u32 rid -> in_range o ->
  built_r1 swig rid E sign pk slot (next_counter (r_auth r)) o ks l -> l = [v; x] ->
  sent_exactly cx x -> previous cx v -> (length (ix_metas x) <= 64)%nat -> root_type 5 6 o r ->
  pk = cred_key (r_auth r) -> length pk = 33%nat -> (forall m, length (sign (keccak E m)) = 64%nat) ->
  is_u64 slot -> in_time (c_slot cx) slot -> passes E cx r (count_up (r_auth r)).
Proof.
  intros He R G H El [Sd Sm] Pv L T Hp Lp Ls Us It.
  destruct (built_r1_shape _ _ _ _ _ _ _ _ _ _ R H G) as (ms & B & signed & i & -> & Rd & F & Am & Ni).
  unfold by_r1 in El. injection El as <- <-.
  cbn [build ix_data ix_metas] in Sd, Sm, L. unfold passes. rewrite Sd.
  match goal with |- context [payload_of (B ++ ?p)] => destruct (Rd p) as (_ & _ & -> & -> & ->) end.
  match goal with |- _ E cx _ _ ?p _ = _ => destruct (root_runs 5 6 o r E cx p signed) as [-> Ty]; [auto|exact T|] end.
  unfold authenticate.
  replace ((r_aty r =? T_Ed25519) || (r_aty r =? T_Ed25519Session)) with false by (destruct Ty as [-> | ->]; reflexivity).
  replace ((r_aty r =? T_Secp256k1) || (r_aty r =? T_Secp256k1Session)) with false by (destruct Ty as [-> | ->]; reflexivity).
  replace ((r_aty r =? T_Secp256r1) || (r_aty r =? T_Secp256r1Session)) with true by (destruct Ty as [-> | ->]; reflexivity).
  rewrite <- Sm in *. eapply (r1_accepted E cx (r_auth r) slot signed i (sign (r1_hash E slot (next_counter (r_auth r)) (c_metas cx) signed)) pk);
    try assumption. apply Ls.
Qed.

Lemma starts_take p l : starts_with p l -> sub 0 (length p) l = p /\ (length p <= length l)%nat.
Proof. intros (t & ->). split; [unfold sub; cbn [skipn]; now apply firstn_app_exact|]. rewrite app_length. lia. Qed.
Lemma exec_accepted cx a i tix pre c wl : length (firstn 80 a) = 80%nat -> length (m_key c) = 32%nat -> length (m_key wl) = 32%nat ->
  earlier cx (checked_place cx tix) pre -> right_call a pre (m_key c) (m_key wl) ->
  nth_error (c_metas cx) 0 = Some c -> nth_error (c_metas cx) 1 = Some wl ->
  option_map m_key (nth_error (c_metas cx) (nat_of i)) = Some INSTRUCTIONS_ID ->
  program_exec_authenticate cx (exec_payload i tix) (sub 0 32 a) (sub 40 40 a) (nat_of (byte_at 32 a)) = Ok tt.
Proof.
  intros La Lc Lw (Ec & En) (Rp & R2 & Rl & Rn & Rs & m0 & m1 & rest & Rm & K0 & K1) N0 N1 Ni.
  assert (L80 : (80 <= length a)%nat) by (rewrite firstn_length in La; lia).
  unfold program_exec_authenticate.
  assert (B0 : byte_at 0 (exec_payload i tix) = i) by (destruct tix; reflexivity). rewrite B0.
  destruct (nth_error (c_metas cx) (nat_of i)) as [sv|]; [|discriminate]. cbn [option_map] in Ni. injection Ni as Ni.
  cbn [ok_or bind]. rewrite Ni, beq_refl, N0, N1. cbn [check bind ok_or].
  match goal with |- bind ?e _ = _ => assert (Pl : e = Ok (checked_place cx tix)) end.
  { destruct tix as [t|]; cbn [exec_payload length Nat.eqb byte_at nth checked_place].
    - change (nat_of t) with (Z.to_nat t). unfold checked_place in Ec.
      replace (Z.to_nat t <? c_cur cx)%nat with true by (symmetry; apply Nat.ltb_lt; exact Ec). reflexivity.
    - replace (c_cur cx =? 0)%nat with false by (symmetry; apply Nat.eqb_neq; lia). reflexivity. }
  rewrite Pl. cbn [bind]. unfold find_ix. rewrite En.
  assert (Rh : raw_data_head cx (checked_place cx tix) pre = le (firstn 2 (ix_data pre))).
  { unfold raw_data_head, sub. cbn [skipn]. rewrite firstn_app. replace (2 - length (ix_data pre))%nat with 0%nat by lia.
    now rewrite firstn_O, app_nil_r. }
  rewrite Rh. replace (2 <=? le (firstn 2 (ix_data pre))) with true by (symmetry; apply Z.leb_le; exact R2). cbn [check bind].
  rewrite Rp. change (firstn 32 a) with (sub 0 32 a). rewrite beq_refl. cbn [check bind].
  set (n := nat_of (byte_at 32 a)). assert (Hn : (n <= 40)%nat) by (unfold n, nat_of, byte_at; lia).
  change (Z.to_nat (nth 32 a 0)) with n in Rs. destruct (starts_take _ _ Rs) as [S1 S2].
  assert (Ln : length (sub 40 n a) = n) by (apply sub_length; lia). rewrite Ln in S1, S2.
  replace (n <=? length (ix_data pre))%nat with true by (symmetry; apply Nat.leb_le; exact S2). cbn [check bind].
  rewrite sub_length by lia. replace (n <=? 40)%nat with true by (symmetry; apply Nat.leb_le; exact Hn). cbn [guard bind].
  rewrite S1, (sub_sub 40 40 0 n) by lia. rewrite Nat.add_0_r, beq_refl. cbn [check bind].
  destruct (raw_keys cx _ pre m0 m1 rest En Rm) as [Q0 Q1]; [congruence|congruence|].
  rewrite Q0, Q1, K0, K1, !beq_refl. reflexivity.
Qed.
Theorem passes_exec E swig rid pre tix o ks x cx r m1 : is_u32 rid -> in_range o -> built_exec swig rid pre tix o ks [pre; x] ->
  sent cx x -> (length (ix_metas x) <= 256)%nat -> Forall wf_meta (c_metas cx) -> root_type 7 8 o r -> (80 <= length (r_auth r))%nat ->
  earlier cx (checked_place cx tix) pre ->
  nth_error (ix_metas x) 1 = Some m1 -> right_call (r_auth r) pre swig (m_key m1) ->
  passes E cx r (r_auth r).
Proof.
  intros R G H [Sd Sm] L W T St Ea N1 Rc.
  destruct (built_exec_shape _ _ _ _ _ _ _ R H G) as (ms & B & signed & i & Ex & Rd & F & Am & Ni & L2).
  unfold by_exec in Ex. injection Ex as ->.
  cbn [build ix_data ix_metas] in Sd, Sm, L, N1. specialize (Ni L). unfold passes. rewrite Sd.
  destruct (Rd (exec_payload i tix)) as (_ & _ & -> & -> & ->).
  destruct (root_runs 7 8 o r E cx (exec_payload i tix) signed) as [-> Ty]; [auto|exact T|].
  unfold authenticate.
  replace ((r_aty r =? T_Ed25519) || (r_aty r =? T_Ed25519Session)) with false by (destruct Ty as [-> | ->]; reflexivity).
  replace ((r_aty r =? T_Secp256k1) || (r_aty r =? T_Secp256k1Session)) with false by (destruct Ty as [-> | ->]; reflexivity).
  replace ((r_aty r =? T_Secp256r1) || (r_aty r =? T_Secp256r1Session)) with false by (destruct Ty as [-> | ->]; reflexivity).
  replace ((r_aty r =? T_ProgramExec) || (r_aty r =? T_ProgramExecSession)) with true by (destruct Ty as [-> | ->]; reflexivity).
  replace (negb (length (exec_payload i tix) =? 0)%nat && (length (exec_payload i tix) <=? 2)%nat) with true by (destruct tix; reflexivity).
  cbn [check bind].
  unfold first_is in F. destruct (nth_error ms 0) as [c|] eqn:N0; [|discriminate]. cbn [option_map] in F. injection F as F.
  destruct (wider_nth _ _ _ _ Sm N0) as (c' & Nc & Kc & _). destruct (wider_nth _ _ _ _ Sm N1) as (w' & Nw & Kw & _).
  destruct (nth_error ms (nat_of i)) as [sv|] eqn:Ns; [|discriminate]. destruct (wider_nth _ _ _ _ Sm Ns) as (sv' & Nv & Kv & _).
  pose proof (proj1 (Forall_forall _ _) W) as Wf.
  rewrite (exec_accepted cx (r_auth r) i tix pre c' w'); [reflexivity|..].
  - rewrite firstn_length. lia.
  - apply (Wf c'). apply nth_error_In in Nc. exact Nc.
  - apply (Wf w'). apply nth_error_In in Nw. exact Nw.
  - exact Ea.
  - rewrite Kc, Kw, F. exact Rc.
  - exact Nc.
  - exact Nw.
  - rewrite Nv. cbn [option_map] in Ni |- *. now rewrite Kv.
Qed.
