(** * The credential checks meet their specification *)
From Verif Require Import BaseFacts Authority NewCredential.
From Verif Require Export SpecAuth.

Lemma session_same ty : session_based ty = is_session ty.
Proof. reflexivity. Qed.

Lemma ed_signed cx i pk u : ed25519_authenticate (c_metas cx) i pk = Ok u -> signed_by cx pk.
Proof.
  unfold ed25519_authenticate. destruct (nth_error _ _) as [m|] eqn:En; [|discriminate]. intros H.
  apply check_ok, andb_true_iff in H as [H1 H2]. apply beq_eq in H1. exists m. split; [eapply nth_error_In; exact En|].
  split; [congruence|exact H2].
Qed.

Lemma account_payload_line m : account_payload m = account_line m.
Proof. unfold account_payload, account_line, b2z. destruct (m_writable m), (m_signer m); reflexivity. Qed.
Lemma accounts_payload_lines ms : accounts_payload ms = concat (map account_line ms).
Proof. unfold accounts_payload. induction ms as [|m t IH]; [reflexivity|]. cbn [flat_map map concat]. rewrite account_payload_line, IH. reflexivity. Qed.
Lemma signed_request data ms t c : signed_bytes data ms t c = request data ms t c.
Proof. unfold signed_bytes, request. rewrite accounts_payload_lines. reflexivity. Qed.
Lemma hex_digit_char n : hex_digit n = hex_char n.
Proof. unfold hex_digit, hex_char. destruct (n <? 10); lia. Qed.
Lemma hex_same l : hex_encode l = hex l.
Proof.
  unfold hex_encode, hex. induction l as [|b t IH]; [reflexivity|]. cbn [flat_map map concat].
  rewrite IH, !hex_digit_char. reflexivity.
Qed.

Lemma le_enc_sub n o d : all_bytes d -> (o + n <= length d)%nat -> le_enc n (le (sub o n d)) = sub o n d.
Proof.
  intros A L. rewrite <- (sub_length o n d L) at 1. apply le_enc_le. apply all_bytes_sub. exact A.
Qed.
Lemma sub_app_split o n m (d : bytes) : sub o (n + m) d = sub o n d ++ sub (o + n) m d.
Proof. unfold sub. rewrite firstn_plus, skipn_plus. reflexivity. Qed.
Lemma head_payload d n : (12 + n <= length d)%nat -> all_bytes d ->
  d = le_enc 8 (u64_at 0 d) ++ le_enc 4 (u32_at 8 d) ++ sub 12 n d ++ skipn (12 + n) d.
Proof.
  intros L A. unfold u64_at, u32_at. rewrite !le_enc_sub by (assumption || lia).
  pose proof (sub_app_split 0 8 (4 + n) d) as H1. pose proof (sub_app_split 8 4 n d) as H2.
  change (0 + 8)%nat with 8%nat in H1. change (8 + 4)%nat with 12%nat in H2. rewrite H2 in H1.
  rewrite <- (firstn_skipn (12 + n) d) at 1. change (firstn (12 + n) d) with (sub 0 (8 + (4 + n)) d). rewrite H1.
  rewrite <- !app_assoc. reflexivity.
Qed.
Lemma u32_at_range o d : all_bytes d -> (o + 4 <= length d)%nat -> 0 <= u32_at o d < 2 ^ 32.
Proof. intros A L. apply u32_bound; assumption. Qed.

Lemma in_time_ok now t : negb ((now <? t) || (MAX_SIGNATURE_AGE <? now - t)) = true -> in_time now t.
Proof.
  intros H. apply negb_true_iff, orb_false_iff in H as [H1 H2]. apply Z.ltb_ge in H1, H2. unfold in_time, MAX_SIGNATURE_AGE in *. lia.
Qed.

Lemma sub_one o (d : bytes) : (o < length d)%nat -> sub o 1 d = [byte_at o d].
Proof.
  revert d. induction o as [|o IH]; intros [|x t] L; cbn in L; try lia; [reflexivity|]. apply (IH t). lia.
Qed.
Lemma byte_sub o n i (d : bytes) : (i < n)%nat -> (o + n <= length d)%nat -> byte_at i (sub o n d) = byte_at (o + i) d.
Proof.
  intros Hi L. assert (K : sub i 1 (sub o n d) = sub (o + i) 1 d) by (apply sub_sub; lia).
  rewrite !sub_one in K by (rewrite ?sub_length; lia). congruence.
Qed.

(** ** secp256k1 *)
Lemma k1_auth_ok E cx a payload data a' : all_bytes payload ->
  secp256k1_auth E a payload data (c_slot cx) (c_metas cx) = Ok a' ->
  a' = count_up a /\ exists t, in_time (c_slot cx) t /\ k1_signed E cx (cred_key a) payload data t (next_counter a).
Proof.
  intros Ab H. unfold secp256k1_auth in H. cbv zeta in H. peel H.
  apply Nat.leb_le in B. apply Z.eqb_eq in B0. injection H as <-. change U32 with (2 ^ 32) in B0.
  change ((u32_at 36 a + 1) mod 2 ^ 32) with (next_counter a) in B0.
  split. { unfold splice, count_up. rewrite le_enc_length, <- B0. reflexivity. }
  unfold secp256k1_authenticate in B1. cbv zeta in B1. peel B1.
  match goal with T : negb (_ || _) = true |- _ => apply in_time_ok in T; exists (u64_at 0 payload); split; [exact T|] end.
  match goal with R : recover _ _ _ _ = Some ?rk |- _ => 
    exists (sub 0 64 (sub 12 65 payload)), (byte_at 64 (sub 12 65 payload)), (skipn 77 payload), rk end.
  rewrite <- B0. split; [|split; [|split; [|split; [|split]]]].
  - rewrite (head_payload payload 65) at 1 by (assumption || lia). do 2 f_equal. rewrite (app_assoc (sub 0 64 _)). f_equal.
    change 65%nat with (64 + 1)%nat at 1. rewrite sub_app_split. rewrite sub_sub by lia. f_equal.
    rewrite byte_sub by lia. apply sub_one. lia.
  - apply sub_length. rewrite sub_length; lia.
  - apply u64_bound. exact Ab.
  - apply u32_bound. exact Ab.
  - rewrite <- signed_request, <- hex_same. assumption.
  - apply check_ok, beq_eq in B1. exact B1.
Qed.

(** ** secp256r1 *)
Lemma verify_ok d pk msg u : verify_r1_data d pk msg = Ok u -> verifies_one d pk msg.
Proof.
  intros H. unfold verify_r1_data in H. peel H. apply check_ok in H.
  repeat match goal with T : (_ =? _) = true |- _ => apply Z.eqb_eq in T end.
  match goal with S : slice _ _ _ = Ok _ |- _ => unfold slice in S; destruct (_ <=? _)%nat in S; [|discriminate]; injection S as <- end.
  repeat match goal with T : beq _ _ = true |- _ => apply beq_eq in T end.
  unfold u16_at in *. unfold verifies_one.
  repeat match goal with T : le (sub 6 2 d) = _ |- _ => rewrite T; clear T | T : le (sub 10 2 d) = _ |- _ => rewrite T; clear T end.
  repeat split; assumption.
Qed.

Definition cb n := nth (Z.to_nat n) b64_alphabet 0.
Lemma b64_same n : b64 n = cb n.
Proof. reflexivity. Qed.
Lemma b64url_same l : all_bytes l -> base64url l = b64url l.
Proof.
  assert (forall n, (length l <= n)%nat -> all_bytes l -> base64url l = b64url l) as K; [|intros A; eapply K; [reflexivity|exact A]].
  intros n. revert l. induction n as [|n IH]; intros l Ln A.
  { destruct l; [reflexivity|cbn in Ln; lia]. }
  destruct l as [|x [|y [|z t]]]; [reflexivity| | |].
  - inversion A as [|? ? X]; subst. cbn [base64url b64url]. fold (cb (x / 4)) (cb (x * 16 mod 64)). rewrite !b64_same.
    pose proof (Z.div_mod x 4 ltac:(lia)). pose proof (Z.mod_pos_bound x 4 ltac:(lia)).
    assert (E1 : x * 16 mod 64 = x mod 4 * 16).
    { replace (x * 16) with (x mod 4 * 16 + (x / 4) * 64) by lia. rewrite Z_mod_plus_full. apply Z.mod_small. lia. }
    rewrite E1. reflexivity.
  - inversion A as [|? ? X A1]; subst. inversion A1 as [|? ? Y]; subst. unfold is_byte in *. cbn [base64url b64url]. cbv zeta.
    fold (cb ((x * 256 + y) / 1024)) (cb ((x * 256 + y) / 16 mod 64)) (cb ((x * 256 + y) * 4 mod 64)). rewrite !b64_same.
    pose proof (Z.div_mod x 4 ltac:(lia)). pose proof (Z.mod_pos_bound x 4 ltac:(lia)).
    pose proof (Z.div_mod y 16 ltac:(lia)). pose proof (Z.mod_pos_bound y 16 ltac:(lia)).
    assert (0 <= y / 16 < 16) by (split; [apply Z.div_pos; lia|apply Z.div_lt_upper_bound; lia]).
    assert (0 <= x / 4 < 64) by (split; [apply Z.div_pos; lia|apply Z.div_lt_upper_bound; lia]).
    assert (E1 : (x * 256 + y) / 1024 = x / 4).
    { symmetry. apply Z.div_unique with (r := x mod 4 * 256 + y); lia. }
    assert (E2 : (x * 256 + y) / 16 mod 64 = x mod 4 * 16 + y / 16).
    { replace ((x * 256 + y) / 16) with (x mod 4 * 16 + y / 16 + (x / 4) * 64).
      - rewrite Z_mod_plus_full. apply Z.mod_small. lia.
      - apply Z.div_unique with (r := y mod 16); lia. }
    assert (E3 : (x * 256 + y) * 4 mod 64 = y mod 16 * 4).
    { replace ((x * 256 + y) * 4) with (y mod 16 * 4 + (x * 16 + y / 16) * 64) by lia.
      rewrite Z_mod_plus_full. apply Z.mod_small. lia. }
    rewrite E1, E2, E3. reflexivity.
  - inversion A as [|? ? X A1]; subst. inversion A1 as [|? ? Y A2]; subst. inversion A2 as [|? ? Z A3]; subst. unfold is_byte in *.
    cbn [base64url b64url]. cbv zeta. rewrite (IH t) by (cbn in Ln; assumption || lia).
    set (v := x * 65536 + y * 256 + z).
    fold (cb (v / 262144)) (cb (v / 4096 mod 64)) (cb (v / 64 mod 64)) (cb (v mod 64)). rewrite !b64_same.
    pose proof (Z.div_mod x 4 ltac:(lia)). pose proof (Z.mod_pos_bound x 4 ltac:(lia)).
    pose proof (Z.div_mod y 16 ltac:(lia)). pose proof (Z.mod_pos_bound y 16 ltac:(lia)).
    pose proof (Z.div_mod z 64 ltac:(lia)). pose proof (Z.mod_pos_bound z 64 ltac:(lia)).
    assert (0 <= y / 16 < 16) by (split; [apply Z.div_pos; lia|apply Z.div_lt_upper_bound; lia]).
    assert (0 <= z / 64 < 4) by (split; [apply Z.div_pos; lia|apply Z.div_lt_upper_bound; lia]).
    assert (0 <= x / 4 < 64) by (split; [apply Z.div_pos; lia|apply Z.div_lt_upper_bound; lia]).
    assert (E1 : v / 262144 = x / 4).
    { symmetry. apply Z.div_unique with (r := x mod 4 * 65536 + y * 256 + z); lia. }
    assert (E2 : v / 4096 mod 64 = x mod 4 * 16 + y / 16).
    { replace (v / 4096) with (x mod 4 * 16 + y / 16 + (x / 4) * 64).
      - rewrite Z_mod_plus_full. apply Z.mod_small. lia.
      - apply Z.div_unique with (r := y mod 16 * 256 + z); lia. }
    assert (E3 : v / 64 mod 64 = y mod 16 * 4 + z / 64).
    { replace (v / 64) with (y mod 16 * 4 + z / 64 + (x * 16 + y / 16) * 64).
      - rewrite Z_mod_plus_full. apply Z.mod_small. lia.
      - apply Z.div_unique with (r := z mod 64); lia. }
    assert (E4 : v mod 64 = z mod 64).
    { replace v with (z mod 64 + (x * 1024 + y * 4 + z / 64) * 64) by lia.
      rewrite Z_mod_plus_full. apply Z.mod_small. lia. }
    rewrite E1, E2, E3, E4. reflexivity.
Qed.

Lemma occurs_refl s : occurs s s.
Proof. exists [], []. rewrite app_nil_r. reflexivity. Qed.
Lemma occurs_app s a l b : occurs s l -> occurs s (a ++ l ++ b).
Proof. intros (p & q & ->). exists (a ++ p), (q ++ b). rewrite <- !app_assoc. reflexivity. Qed.
Lemma occurs_l s l b : occurs s l -> occurs s (l ++ b).
Proof. intros H. exact (occurs_app s [] l b H). Qed.
Lemma occurs_r s a l : occurs s l -> occurs s (a ++ l).
Proof. intros H. pose proof (occurs_app s a l [] H) as K. rewrite app_nil_r in K. exact K. Qed.
Lemma occurs_join x fs : In x fs -> occurs x (join_comma fs).
Proof.
  induction fs as [|y t IH]; [intros []|]. intros [<-|I].
  - destruct t as [|z t]; [apply occurs_refl|]. cbn [join_comma]. apply occurs_l, occurs_refl.
  - destruct t as [|z t]; [destruct I|]. change (join_comma (y :: z :: t)) with (y ++ [44] ++ join_comma (z :: t)).
    apply occurs_r, occurs_r, IH, I.
Qed.
Lemma fields_in o c order fs f x : fields_text o c order = Ok fs -> In f order -> field_text o c f = Ok [x] -> In x fs.
Proof.
  revert fs. induction order as [|g t IH]; intros fs H I Hx; [destruct I|]. cbn [fields_text] in H. peel H. injection H as <-.
  apply in_or_app. destruct I as [->|I].
  - left. rewrite Hx in B. injection B as <-. left. reflexivity.
  - right. eapply IH; eassumption.
Qed.
Lemma count_in x l : (0 < count_z x l)%nat -> In x l.
Proof.
  unfold count_z. intros H. destruct (filter (Z.eqb x) l) as [|y t] eqn:F; [cbn in H; lia|].
  assert (I : In y (filter (Z.eqb x) l)) by (rewrite F; left; reflexivity).
  apply filter_In in I as [I1 I2]. apply Z.eqb_eq in I2. subst. exact I1.
Qed.
Lemma client_json_pairs E order origin hash json : all_bytes hash -> field_order_ok order = true ->
  client_json E order origin hash = Ok json ->
  json_pair n_challenge (b64url hash) json /\ json_pair n_type v_get json.
Proof.
  intros A Ho H. unfold client_json in H. peel H. injection H as <-.
  unfold field_order_ok in Ho. apply andb_true_iff in Ho as [Ho H1]. apply andb_true_iff in Ho as [_ H2].
  apply Nat.eqb_eq in H1, H2.
  assert (I1 : In 1 order) by (apply count_in; lia). assert (I2 : In 2 order) by (apply count_in; lia).
  rewrite b64url_same in B0 by exact A.
  split; exists [], []; (split; [apply Forall_nil|]); (split; [apply Forall_nil|]); apply (occurs_app _ [123] _ [125]); apply occurs_join.
  - eapply fields_in; [exact B0|exact I2|]. reflexivity.
  - eapply fields_in; [exact B0|exact I1|]. reflexivity.
Qed.

Lemma skip_ws_split l : exists s, spaces s /\ l = s ++ skip_ws l.
Proof.
  induction l as [|b t (s & S & IH)]; [exists []; split; [constructor|reflexivity]|]. cbn [skip_ws]. destruct (is_ws b) eqn:W.
  - exists (b :: s). split; [constructor; [|exact S]|cbn; congruence].
    unfold is_ws in W. repeat apply orb_true_iff in W as [W|W]; apply Z.eqb_eq in W; subst; cbn; auto 6.
  - exists []. split; [constructor|reflexivity].
Qed.
Lemma read_string_split l s r : read_string l = Some (s, r) -> l = s ++ [34] ++ r.
Proof.
  revert s. induction l as [|b t IH]; intros s H; [discriminate|]. cbn [read_string] in H.
  destruct (b =? 34) eqn:B1; [apply Z.eqb_eq in B1; injection H as <- <-; subst; reflexivity|].
  destruct (b =? 92); [discriminate|]. destruct (read_string t) as [(s0 & r0)|]; [|discriminate]. injection H as <- <-.
  cbn. f_equal. apply IH. reflexivity.
Qed.
Lemma skip_string_split l r : skip_string l = Some r -> exists a, l = a ++ r.
Proof.
  induction l as [|b t IH]; intros H; cbn in H; [injection H as <-; exists []; reflexivity|].
  destruct (b =? 34); [injection H as <-; exists [b]; reflexivity|]. destruct (b =? 92); [discriminate|].
  destruct (IH H) as (a & ->). exists (b :: a). reflexivity.
Qed.
Lemma extract_pair fuel : forall depth l name v, extract_loop fuel depth l name = Ok v -> json_pair name v l.
Proof.
  assert (R : forall name v a l, json_pair name v l -> json_pair name v (a ++ l)).
  { intros name v a l (s1 & s2 & S1 & S2 & O). exists s1, s2. split; [exact S1|]. split; [exact S2|]. apply occurs_r, O. }
  induction fuel as [|f IH]; intros depth l name v H; [discriminate|]. cbn [extract_loop] in H.
  destruct l as [|b t]; [discriminate|].
  assert (C : forall d, extract_loop f d t name = Ok v -> json_pair name v (b :: t)) by (intros d Hd; apply (R name v [b]); eapply IH; exact Hd).
  destruct (b =? 123); [eapply C; exact H|]. destruct (b =? 125); [destruct depth; [discriminate|eapply C; exact H]|].
  destruct ((depth =? 1)%nat && (b =? 34)) eqn:Bq; [|eapply C; exact H].
  apply andb_true_iff in Bq as [_ Bq]. apply Z.eqb_eq in Bq. subst b. clear C.
  destruct (read_string t) as [(k & r)|] eqn:Rk; [|discriminate]. apply read_string_split in Rk.
  destruct (skip_ws_split r) as (s1 & S1 & E1). destruct (skip_ws r) as [|c r1]; [discriminate|].
  destruct (c =? 58) eqn:Bc; [|discriminate]. apply Z.eqb_eq in Bc. subst c.
  destruct (skip_ws_split r1) as (s2 & S2 & E2). destruct (skip_ws r1) as [|x r2]; [discriminate|].
  destruct (beq k name) eqn:Bk.
  - apply beq_eq in Bk. subst k. destruct (x =? 34) eqn:Bx; [|discriminate]. apply Z.eqb_eq in Bx. subst x.
    destruct (read_string r2) as [(s & r3)|] eqn:Rs; [|discriminate]. injection H as ->. apply read_string_split in Rs.
    exists s1, s2. split; [exact S1|]. split; [exact S2|]. exists [], r3. subst. unfold quoted. repeat progress (cbn [app]; rewrite <- ?app_assoc). reflexivity.
  - destruct (x =? 34) eqn:Bx.
    + destruct (skip_string r2) as [r3|] eqn:Rs; [|discriminate]. apply skip_string_split in Rs as (a & ->). apply IH in H.
      subst. change (json_pair name v ([34] ++ (k ++ [34] ++ s1 ++ 58 :: s2 ++ x :: a ++ r3))).
      replace ([34] ++ k ++ [34] ++ s1 ++ 58 :: s2 ++ x :: a ++ r3) with (([34] ++ k ++ [34] ++ s1 ++ 58 :: s2 ++ x :: a) ++ r3); [apply R, H|].
      repeat progress (cbn [app]; rewrite <- ?app_assoc). reflexivity.
    + apply IH in H. subst.
      replace (34 :: k ++ [34] ++ s1 ++ 58 :: s2 ++ x :: r2) with (([34] ++ k ++ [34] ++ s1 ++ 58 :: s2) ++ x :: r2); [apply R, H|].
      repeat progress (cbn [app]; rewrite <- ?app_assoc). reflexivity.
Qed.
Lemma extract_field_pair json name v : extract_field json name = Ok v -> json_pair name v json.
Proof.
  unfold extract_field. cbv zeta. destruct (skip_ws_split json) as (s & _ & E1). intros H.
  destruct (skip_ws json) as [|b t]; [discriminate|]. apply bind_ok in H as (u & _ & H). apply extract_pair in H.
  rewrite E1. destruct H as (s1 & s2 & S1 & S2 & O). exists s1, s2. split; [exact S1|]. split; [exact S2|]. apply occurs_r, O.
Qed.

(** the challenge of client data in the usual form *)
Definition texts (o c : bytes) (x : bytes) : Prop := exists f, field_text o c f = Ok [x].
Lemma fields_texts o c order fs : fields_text o c order = Ok fs -> Forall (texts o c) fs.
Proof.
  revert fs. induction order as [|f t IH]; intros fs H; cbn [fields_text] in H; [injection H as <-; constructor|].
  apply bind_ok in H as (x & B & H). apply bind_ok in H as (y & B0 & H). injection H as <-. apply Forall_app. split; [|apply IH; exact B0].
  assert (Q : x = [] \/ exists z, x = [z]).
  { unfold field_text in B. repeat (destruct (_ =? _) in B; [injection B as <-; eauto|]). discriminate. }
  destruct Q as [->|(z & ->)]; repeat constructor. exists f. exact B.
Qed.
Lemma texts_cases o c x : texts o c x -> x = quoted n_type ++ [58] ++ quoted v_get \/ x = quoted n_challenge ++ [58; 34] ++ c ++ [34]
  \/ (exists t, x = [34; 111] ++ t) \/ (exists t, x = [34; 99; 114] ++ t).
Proof.
  intros (f & H). unfold field_text in H. destruct (f =? 0); [discriminate|].
  destruct (f =? 1); [injection H as <-; left; reflexivity|]. destruct (f =? 2); [injection H as <-; right; left; reflexivity|].
  destruct (f =? 3); [injection H as <-; right; right; left; eexists; reflexivity|].
  destruct (f =? 4); [injection H as <-; right; right; right; eexists; reflexivity|discriminate].
Qed.
Lemma usual_fields o c fs rest : Forall (texts o c) fs -> [123] ++ join_comma fs ++ [125] = usual_start ++ rest ->
  (forall x y t, fs = x :: y :: t -> x = quoted n_type ++ [58] ++ quoted v_get -> x <> y) -> exists tl, rest = c ++ [34] ++ tl.
Proof.
  intros T H Nd. cbn [app] in H. destruct fs as [|x1 t]; [discriminate|]. inversion T as [|? ? T1 T']; subst. clear T.
  assert (E1 : x1 = quoted n_type ++ [58] ++ quoted v_get).
  { destruct (texts_cases _ _ _ T1) as [Q|[Q|[(u & Q)|(u & Q)]]]; [exact Q| | |]; exfalso; subst x1; destruct t; discriminate. }
  subst x1. destruct t as [|x2 t]; [discriminate|]. inversion T' as [|? ? T2 _]; subst. clear T'.
  assert (E2 : x2 = quoted n_challenge ++ [58; 34] ++ c ++ [34]).
  { destruct (texts_cases _ _ _ T2) as [Q|[Q|[(u & Q)|(u & Q)]]]; [|exact Q| |]; exfalso.
    - subst x2. eapply Nd; reflexivity.
    - subst x2. destruct t; discriminate.
    - subst x2. destruct t; discriminate. }
  subst x2. clear - H. destruct t as [|x3 t].
  - cbn in H. injection H as H. exists [125]. rewrite <- H, <- app_assoc. reflexivity.
  - change (join_comma ((quoted n_type ++ [58] ++ quoted v_get) :: (quoted n_challenge ++ [58; 34] ++ c ++ [34]) :: x3 :: t))
      with ((quoted n_type ++ [58] ++ quoted v_get) ++ [44] ++ (quoted n_challenge ++ [58; 34] ++ c ++ [34]) ++ [44] ++ join_comma (x3 :: t)) in H.
    cbn [quoted n_type v_get n_challenge usual_start app] in H. injection H as H. exists ([44] ++ join_comma (x3 :: t) ++ [125]).
    rewrite <- H. cbn [app]. rewrite <- !app_assoc. reflexivity.
Qed.
Lemma count_app x l l' : count_z x (l ++ l') = (count_z x l + count_z x l')%nat.
Proof. unfold count_z. rewrite filter_app, app_length. reflexivity. Qed.
(** the first two fields differ: the type occurs once *)
Lemma fields_once o c order fs : count_z 1 order = 1%nat -> fields_text o c order = Ok fs ->
  forall x y t, fs = x :: y :: t -> x = quoted n_type ++ [58] ++ quoted v_get -> x <> y.
Proof.
  assert (K : forall order fs, fields_text o c order = Ok fs ->
    count_z 1 order = length (filter (fun x => beq x (quoted n_type ++ [58] ++ quoted v_get)) fs)).
  { clear. intros order. induction order as [|f t IH]; intros fs H; cbn [fields_text] in H; [injection H as <-; reflexivity|].
    apply bind_ok in H as (x & B & H). apply bind_ok in H as (y & B0 & H). injection H as <-. rewrite filter_app, app_length, <- (IH _ B0). change (f :: t) with ([f] ++ t). rewrite count_app. f_equal.
    unfold field_text in B. unfold count_z. cbn [filter]. rewrite (Z.eqb_sym 1 f).
    destruct (f =? 0) eqn:F0; [injection B as <-; apply Z.eqb_eq in F0; subst; reflexivity|].
    destruct (f =? 1) eqn:F1; [injection B as <-; reflexivity|].
    destruct (f =? 2); [injection B as <-; reflexivity|].
    destruct (f =? 3); [injection B as <-; reflexivity|].
    destruct (f =? 4); [injection B as <-; reflexivity|discriminate]. }
  intros C1 H x y t -> Ex Exy. subst y. rewrite (K _ _ H) in C1. cbn [filter] in C1. rewrite Ex, beq_refl in C1. cbn in C1. lia.
Qed.
Lemma raw_usual rest v : extract_field (usual_start ++ rest) n_challenge = Ok v -> exists tl, rest = v ++ [34] ++ tl.
Proof.
  intros H. unfold extract_field in H. cbv zeta in H.
  change (skip_ws (usual_start ++ rest)) with (usual_start ++ rest) in H.
  cbn [usual_start quoted n_type v_get n_challenge app] in H.
  change (123 =? 123) with true in H. cbn [check bind guard length] in H. unfold check in H. cbn [bind] in H.
  repeat (cbn [extract_loop Z.eqb Pos.eqb Nat.eqb andb read_string skip_ws is_ws orb skip_string beq n_challenge] in H).
  destruct (read_string rest) as [(s & r)|] eqn:R; [|discriminate]. injection H as <-. apply read_string_split in R. eauto.
Qed.

Lemma r1_message_signs E extra hash msg : all_bytes hash -> r1_message E extra hash = Ok msg -> r1_signs E hash msg.
Proof.
  intros A H. unfold r1_message in H. destruct extra as [|e0 et]; [injection H as <-; left; reflexivity|].
  remember (e0 :: et) as extra. cbv zeta in H. apply bind_ok in H as (u & _ & H). right.
  destruct (u16_at 0 extra =? 1).
  - unfold webauthn_message in H. cbv zeta in H. peel H. injection H as <-. do 2 eexists. split; [reflexivity|].
    destruct (client_json_pairs _ _ _ _ _ A ltac:(eassumption) ltac:(eassumption)) as [J1 J2]. split; [exact J1|]. split; [exact J2|].
    intros rest Hr. match goal with T : client_json _ _ _ _ = Ok _, O : field_order_ok _ = true |- _ => rename T into Hj; rename O into Ho end.
    unfold client_json in Hj. peel Hj. injection Hj as Hj. rewrite b64url_same in * by exact A.
    unfold field_order_ok in Ho. apply andb_true_iff in Ho as [_ H1]. apply Nat.eqb_eq in H1.
    match goal with T : fields_text _ _ _ = Ok _ |- _ => rename T into Hfs end.
    eapply usual_fields; [eapply fields_texts; exact Hfs|exact (eq_trans Hj Hr)|eapply fields_once; eassumption].
  - destruct (u16_at 0 extra =? 2); [|discriminate]. unfold raw_json_message in H. cbv zeta in H. peel H. injection H as <-.
    repeat match goal with T : beq _ _ = true |- _ => apply beq_eq in T end.
    assert (U : forall j vv, extract_field j n_challenge = Ok vv -> forall rest, j = usual_start ++ rest -> exists tl, rest = vv ++ [34] ++ tl)
      by (intros j vv X rest ->; eapply raw_usual; exact X).
    match goal with T : extract_field _ _ = Ok ?c, Q : ?c = base64url _ |- _ => pose proof (U _ _ T) as Uc end.
    repeat match goal with T : extract_field _ _ = Ok _ |- _ => apply extract_field_pair in T end. subst.
    rewrite b64url_same in * by exact A.
    do 2 eexists. split; [reflexivity|]. split; [assumption|]. split; [assumption|]. exact Uc.
Qed.

Lemma r1_auth_ok E cx a payload data a' : hashes_ok E -> all_bytes payload ->
  secp256r1_auth E cx a payload data = Ok a' ->
  a' = count_up a /\ exists t, in_time (c_slot cx) t /\ r1_signed E cx (cred_key a) payload data t (next_counter a).
Proof.
  intros He Ab H. unfold secp256r1_auth in H. cbv zeta in H. peel H.
  apply Nat.leb_le in B. apply Z.eqb_eq in B0. injection H as <-. change U32 with (2 ^ 32) in B0.
  change ((u32_at 36 a + 1) mod 2 ^ 32) with (next_counter a) in B0.
  split. { unfold splice, count_up. rewrite le_enc_length, <- B0. reflexivity. }
  unfold secp256r1_authenticate in B1. cbv zeta in B1. peel B1.
  match goal with T : negb (_ || _) = true |- _ => apply in_time_ok in T; exists (u64_at 0 payload); split; [exact T|] end.
  destruct (find_ix cx (c_cur cx - 1)) as [x|] eqn:Fx; [|discriminate]. peel B1. apply verify_ok in B1.
  match goal with M : r1_message _ _ _ = Ok ?m |- _ => exists (sub 12 0 payload ++ skipn 12 payload), x, m; apply r1_message_signs in M; [|apply He] end.
  rewrite <- B0. split; [apply (head_payload payload 0); [lia|exact Ab]|].
  split; [apply u64_bound; exact Ab|]. split; [apply u32_bound; exact Ab|].
  split; [rewrite <- signed_request; assumption|].
  split. { split; [|exact Fx]. match goal with T : negb (_ =? 0)%nat = true |- _ => apply negb_true_iff, Nat.eqb_neq in T; lia end. }
  split; [|exact B1]. apply beq_eq. assumption.
Qed.

(** ** Program execution *)
Lemma raw_keys cx i x m0 m1 rest : nth_error (c_ixs cx) i = Some x -> ix_metas x = m0 :: m1 :: rest ->
  length (m_key m0) = 32%nat -> length (m_key m1) = 32%nat ->
  raw_meta_key cx i 0 = m_key m0 /\ raw_meta_key cx i 1 = m_key m1.
Proof.
  intros Hx Hm L0 L1. unfold raw_meta_key, raw_from.
  assert (Es : skipn i (c_ixs cx) = x :: skipn (S i) (c_ixs cx)).
  { clear - Hx. revert Hx. generalize (c_ixs cx). induction i as [|i IH]; intros [|y t] H; try discriminate; cbn in *; [congruence|apply IH; exact H]. }
  assert (Er : exists n f0 f1 R, flat_map raw_ix (skipn i (c_ixs cx)) ++ le_enc 2 (Z.of_nat (c_cur cx))
    = (le_enc 2 n ++ [f0]) ++ m_key m0 ++ [f1] ++ m_key m1 ++ R).
  { rewrite Es. cbn [flat_map]. unfold raw_ix at 1. rewrite Hm. cbn [flat_map]. unfold raw_meta at 1 2. do 4 eexists.
    repeat progress (cbn [app]; rewrite <- ?app_assoc). reflexivity. }
  destruct Er as (n & f0 & f1 & R & ->). split.
  - apply sub_app_exact; [rewrite app_length, le_enc_length; reflexivity|exact L0].
  - replace ((le_enc 2 n ++ [f0]) ++ m_key m0 ++ [f1] ++ m_key m1 ++ R) with (((le_enc 2 n ++ [f0]) ++ m_key m0 ++ [f1]) ++ m_key m1 ++ R)
      by (rewrite <- !app_assoc; reflexivity).
    apply sub_app_exact; [rewrite !app_length, le_enc_length, L0; reflexivity|exact L1].
Qed.

Lemma raw_key0 cx i x m0 rest : nth_error (c_ixs cx) i = Some x -> ix_metas x = m0 :: rest ->
  length (m_key m0) = 32%nat -> raw_meta_key cx i 0 = m_key m0.
Proof.
  intros Hx Hm L0. unfold raw_meta_key, raw_from.
  assert (Es : skipn i (c_ixs cx) = x :: skipn (S i) (c_ixs cx)).
  { clear - Hx. revert Hx. generalize (c_ixs cx). induction i as [|i IH]; intros [|y t] H; try discriminate; cbn in *; [congruence|apply IH; exact H]. }
  assert (Er : exists n f0 R, flat_map raw_ix (skipn i (c_ixs cx)) ++ le_enc 2 (Z.of_nat (c_cur cx)) = (le_enc 2 n ++ [f0]) ++ m_key m0 ++ R).
  { rewrite Es. cbn [flat_map]. unfold raw_ix at 1. rewrite Hm. cbn [flat_map]. unfold raw_meta at 1. do 3 eexists.
    repeat progress (cbn [app]; rewrite <- ?app_assoc). reflexivity. }
  destruct Er as (n & f0 & R & ->). apply sub_app_exact; [rewrite app_length, le_enc_length; reflexivity|exact L0].
Qed.

Lemma exec_ok cx a payload u : length (firstn 80 a) = 80%nat ->
  program_exec_authenticate cx payload (sub 0 32 a) (sub 40 40 a) (nat_of (byte_at 32 a)) = Ok u -> program_ran cx a.
Proof.
  intros La H. unfold program_exec_authenticate in H. cbv zeta in H. peel H.
  match goal with T : (if _ then _ else _) = Ok ?i |- _ => assert (Hi : (i < c_cur cx)%nat); [destruct (length payload =? 2)%nat|] end.
  - match goal with T : bind (check _ _) _ = Ok _ |- _ => peel T; injection T as <- end. apply Nat.ltb_lt. assumption.
  - match goal with T : bind (check _ _) _ = Ok _ |- _ => peel T; injection T as <- end.
    match goal with T : negb (_ =? 0)%nat = true |- _ => apply negb_true_iff, Nat.eqb_neq in T; lia end.
  - match goal with T : (if _ then _ else _) = Ok ?i |- _ => clear T; rename i into j end.
    destruct (find_ix cx j) as [x|] eqn:Fx; [|discriminate]. peel H. apply check_ok in H. unfold find_ix in Fx.
    repeat match goal with T : beq _ _ = true |- _ => apply beq_eq in T end.
    repeat match goal with T : (_ <=? _)%nat = true |- _ => apply Nat.leb_le in T end.
    assert (L : (80 <= length a)%nat) by (rewrite firstn_length in La; lia).
    rewrite sub_length in * by lia. unfold byte_at in *.
    exists j, x. do 2 eexists. split; [exact Hi|]. split; [exact Fx|].
    split. { match goal with T : ix_prog x = _ |- _ => exact T end. }
    split.
    { match goal with T : sub 0 _ (ix_data x) = _ |- _ => rename T into Tp end.
      rewrite sub_sub in Tp by lia. rewrite Nat.add_0_r in Tp.
      exists (skipn (nat_of (nth 32 a 0)) (ix_data x)). unfold nat_of in *. rewrite <- Tp. unfold sub. cbn [skipn]. symmetry. apply firstn_skipn. }
    split; [eassumption|]. split; [eassumption|]. split.
    + intros Fk m0 rest Em. rewrite Em in Fk. inversion Fk as [|? ? K0 Fk1]; subst. split.
      * pose proof (raw_key0 cx j x m0 rest Fx Em K0). congruence.
      * intros m1 rest' ->. inversion Fk1 as [|? ? K1 _]; subst.
        destruct (raw_keys cx j x m0 m1 rest' Fx Em K0 K1) as [_ R1]. congruence.
    + intros L2. match goal with T : (2 <=? raw_data_head _ _ _) = true |- _ => apply Z.leb_le in T; unfold raw_data_head, sub in T; cbn [skipn] in T;
        rewrite firstn_app in T; replace (2 - length (ix_data x))%nat with 0%nat in T by lia; rewrite firstn_O, app_nil_r in T; exact T end.
Qed.

(** ** All types together *)
Ltac ty_cases ty H := 
  repeat match type of H with
  | (if ?b || ?c then _ else _) = _ => let e := fresh "Ety" in destruct (b || c) eqn:e;
      [apply orb_true_iff in e as [e|e]; apply Z.eqb_eq in e|]
  end.

Theorem authenticate_ok E cx ty a payload data a' : hashes_ok E -> authority_len ty = Some (length a) -> all_bytes payload ->
  authenticate E cx ty a payload data = Ok a' -> approves E cx ty a payload data a'.
Proof.
  intros He La Ab H. unfold authenticate in H. ty_cases ty H; try discriminate; subst ty.
  1,2: apply bind_ok in H as (u & _ & H); apply bind_ok in H as (u2 & H1 & H); injection H as <-;
    apply ed_signed in H1; left; auto.
  1,2: apply k1_auth_ok in H as (-> & H); [|exact Ab]; right; left; auto.
  1,2: apply r1_auth_ok in H as (-> & H); [|assumption..]; right; right; left; auto.
  all: apply bind_ok in H as (u & _ & H); apply bind_ok in H as (u2 & H1 & H); injection H as <-;
    apply exec_ok in H1; [right; right; right; auto|]; injection La as La; rewrite firstn_length, <- La; reflexivity.
Qed.

Theorem role_authenticate_ok E cx ty a payload data a' : hashes_ok E -> authority_len ty = Some (length a) -> all_bytes payload ->
  role_authenticate E cx ty a payload data = Ok a' -> may_act E cx ty a payload data a'.
Proof.
  intros He La Ab H. unfold role_authenticate in H. unfold may_act. rewrite <- session_same. destruct (session_based ty) eqn:S.
  - apply bind_ok in H as (u & H & Ha). injection Ha as <-. unfold authenticate_session in H.
    assert (Eo : exists mo, session_offsets ty = Some (session_at ty, mo, (session_at ty + 40)%nat)).
    { unfold session_based in S. repeat apply orb_true_iff in S as [S|S]; apply Z.eqb_eq in S; subst ty; eexists; reflexivity. }
    destruct Eo as (mo & Eo). rewrite Eo in H.
    apply bind_ok in H as (u1 & _ & H). peel H. apply ed_signed in H.
    split; [exact H|]. split; [|reflexivity]. apply Z.leb_le. assumption.
  - apply authenticate_ok; assumption.
Qed.

(** What a successful check leaves behind *)
Lemma authenticate_leaves E cx ty a payload data a' : authenticate E cx ty a payload data = Ok a' ->
  a' = if is_secp ty then count_up a else a.
Proof.
  intros H. unfold authenticate in H. ty_cases ty H; try discriminate; subst ty.
  1,2,7,8: apply bind_ok in H as (u & _ & H); apply bind_ok in H as (u2 & H1 & H); injection H as <-; reflexivity.
  all: cbn [is_secp]; unfold secp256k1_auth, secp256r1_auth in H; cbv zeta in H; peel H; injection H as <-;
    match goal with T : (u32_at 8 _ =? _) = true |- _ => apply Z.eqb_eq in T; rewrite T end;
    unfold splice, count_up; rewrite le_enc_length; reflexivity.
Qed.
Lemma role_authenticate_leaves E cx ty a payload data a' : role_authenticate E cx ty a payload data = Ok a' ->
  a' = if (ty =? 3) || (ty =? 5) then count_up a else a.
Proof.
  intros H. unfold role_authenticate in H. destruct (session_based ty) eqn:S.
  - apply bind_ok in H as (u & _ & H). injection H as <-. 
    unfold session_based in S. repeat apply orb_true_iff in S as [S|S]; apply Z.eqb_eq in S; subst ty; reflexivity.
  - apply authenticate_leaves in H. rewrite H. unfold is_secp.
    unfold session_based in S. repeat (apply orb_false_iff in S as [S ?]).
    change T_Secp256k1Session with 4 in *. change T_Secp256r1Session with 6 in *.
    repeat match goal with T : (ty =? _) = false |- _ => rewrite T end.
    destruct (ty =? 3), (ty =? 5); reflexivity.
Qed.

(** ** Sessions *)
Lemma session_len ty (a : bytes) : is_session ty = true -> authority_len ty = Some (length a) -> length a = (session_at ty + 48)%nat.
Proof.
  intros S. unfold is_session in S. repeat apply orb_true_iff in S as [S|S]; apply Z.eqb_eq in S; subst ty; intros H; injection H as <-; reflexivity.
Qed.
Lemma start_session_ok ty a k slot dur a' : authority_len ty = Some (length a) -> length k = 32%nat ->
  start_session ty a k slot dur = Ok a' ->
  is_session ty = true /\ dur <= session_max ty a /\ a' = with_session ty k ((slot + dur) mod 2 ^ 64) a.
Proof.
  intros La Lk H. unfold start_session in H.
  assert (Hs : is_session ty = true /\ session_offsets ty = Some (session_at ty, (session_at ty + 32)%nat, (session_at ty + 40)%nat)).
  { unfold session_offsets in *. destruct (ty =? T_Ed25519Session) eqn:E1; [apply Z.eqb_eq in E1; subst ty; auto|].
    destruct ((ty =? T_Secp256k1Session) || (ty =? T_Secp256r1Session)) eqn:E2;
      [apply orb_true_iff in E2 as [E2|E2]; apply Z.eqb_eq in E2; subst ty; auto|].
    destruct (ty =? T_ProgramExecSession) eqn:E3; [apply Z.eqb_eq in E3; subst ty; auto|discriminate]. }
  destruct Hs as (S & O). rewrite O in H. peel H. injection H as <-. split; [exact S|].
  split; [apply Z.leb_le; assumption|].
  pose proof (session_len ty a S La) as L. set (o := session_at ty) in *.
  unfold with_session. fold o. change U64 with (2 ^ 64).
  set (b := le_enc 8 ((slot + dur) mod 2 ^ 64)). assert (Lb : length b = 8%nat) by apply le_enc_length.
  unfold splice. rewrite Lk, Lb.
  rewrite (skipn_all2 a) by lia. rewrite app_nil_r.
  rewrite firstn_app. replace (o - length (firstn (o + 40) a))%nat with 0%nat by (rewrite firstn_length; lia).
  rewrite firstn_O, app_nil_r, firstn_firstn. replace (Nat.min o (o + 40)) with o by lia. f_equal. f_equal.
  rewrite skipn_app. replace (o + 32 - length (firstn (o + 40) a))%nat with 0%nat by (rewrite firstn_length; lia).
  rewrite skipn_O. f_equal. unfold sub. rewrite skipn_firstn_comm. f_equal. lia.
Qed.
Lemma with_session_reads ty k fin a : is_session ty = true -> length a = (session_at ty + 48)%nat -> length k = 32%nat ->
  0 <= fin < 2 ^ 64 ->
  let a' := with_session ty k fin a in
  session_key ty a' = k /\ session_end ty a' = fin /\ session_max ty a' = session_max ty a
  /\ firstn (session_at ty) a' = firstn (session_at ty) a /\ length a' = length a.
Proof.
  intros S L Lk Hf a'. unfold a', with_session, session_key, session_end, session_max. set (o := session_at ty) in *.
  assert (Lo : length (firstn o a) = o) by (rewrite firstn_length; lia).
  assert (Lm : length (sub (o + 32) 8 a) = 8%nat) by (apply sub_length; lia).
  split; [|split; [|split; [|split]]].
  - apply sub_app_exact; [exact Lo|exact Lk].
  - replace (firstn o a ++ k ++ sub (o + 32) 8 a ++ le_enc 8 fin) with ((firstn o a ++ k ++ sub (o + 32) 8 a) ++ le_enc 8 fin ++ [])
      by (rewrite app_nil_r, <- !app_assoc; reflexivity).
    rewrite sub_app_exact; [apply le_le_enc; exact Hf| |apply le_enc_length].
    rewrite !app_length, Lo, Lk, Lm. lia.
  - f_equal. rewrite (app_assoc (firstn o a) k). apply sub_app_exact; [rewrite app_length; lia|exact Lm].
  - rewrite firstn_app, Lo, Nat.sub_diag, firstn_O, app_nil_r. apply firstn_all2. lia.
  - rewrite !app_length, Lo, Lk, Lm, le_enc_length. lia.
Qed.
