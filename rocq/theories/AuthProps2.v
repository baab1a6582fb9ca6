(** * What signatures commit to: proofs *)
From Verif Require Import BaseFacts SpecConfig ConfigFacts ConfigEdit ConfigEdit2 ConfigEdit3.
From Verif Require Export AuthProps.

Lemma app_len_l {A} (a b a' b' : list A) : length a = length a' -> a ++ b = a' ++ b' -> a = a' /\ b = b'.
Proof.
  revert a'. induction a as [|x a IH]; intros [|x' a'] L H; try discriminate L; [auto|].
  cbn in *. injection H as <- H. destruct (IH a') as [-> ->]; auto.
Qed.
Lemma app_len_r {A} (a b a' b' : list A) : length b = length b' -> a ++ b = a' ++ b' -> a = a' /\ b = b'.
Proof.
  intros L H. apply app_len_l; [|exact H]. apply (f_equal (@length A)) in H. rewrite !app_length in H. lia.
Qed.

(** ** Requests *)
Definition key32 (m : meta) : Prop := length (m_key m) = 32%nat.
Lemma lines_length ms : Forall key32 ms -> length (concat (map account_line ms)) = (40 * length ms)%nat.
Proof.
  induction 1 as [|m t K _ IH]; [reflexivity|]. cbn [map concat length]. rewrite app_length, IH. unfold account_line. rewrite app_length, K. cbn. lia.
Qed.
Lemma line_inj m m' : key32 m -> key32 m' -> account_line m = account_line m' -> m = m'.
Proof.
  intros K K' H. unfold account_line in H. apply app_len_l in H as [H1 H2]; [|congruence].
  destruct m as [k s w], m' as [k' s' w']; cbn in *. subst k'. destruct s, s', w, w'; try reflexivity; discriminate.
Qed.
Lemma lines_inj ms : forall ms', Forall key32 ms -> Forall key32 ms' -> length ms = length ms' ->
  concat (map account_line ms) = concat (map account_line ms') -> ms = ms'.
Proof.
  induction ms as [|m t IH]; intros [|m' t'] F F' L H; try discriminate L; [reflexivity|].
  inversion F as [|? ? K Ft]; subst. inversion F' as [|? ? K' Ft']; subst. cbn [map concat] in H.
  apply app_len_l in H as [H1 H2]; [|unfold account_line; rewrite !app_length, K, K'; reflexivity].
  f_equal; [apply line_inj; assumption|]. apply IH; auto.
Qed.
Lemma request_inj d ms t c d' ms' t' c' : Forall key32 ms -> Forall key32 ms' -> length ms = length ms' ->
  0 <= t < 2 ^ 64 -> 0 <= t' < 2 ^ 64 -> 0 <= c < 2 ^ 32 -> 0 <= c' < 2 ^ 32 ->
  request d ms t c = request d' ms' t' c' -> d = d' /\ ms = ms' /\ t = t' /\ c = c'.
Proof.
  intros K K' L T T' C C' H. unfold request in H.
  apply app_len_r in H as [-> H].
  - apply app_len_l in H as [H1 H]; [|rewrite !lines_length by assumption; lia].
    apply app_len_l in H as [H2 H3]; [|rewrite !le_enc_length; reflexivity].
    split; [reflexivity|]. split; [apply lines_inj; assumption|].
    apply (f_equal le) in H2, H3. rewrite !le_le_enc in H2 by assumption. rewrite !le_le_enc in H3 by assumption. auto.
  - rewrite !app_length, !le_enc_length, !lines_length by assumption. lia.
Qed.
(** moving an account line into the payload keeps the message *)
Lemma request_shift d m ms t c : request (d ++ account_line m) ms t c = request d (m :: ms) t c.
Proof. unfold request. cbn [map concat]. rewrite <- !app_assoc. reflexivity. Qed.

(** ** base64url *)
Lemma alphabet_inj i j : 0 <= i < 64 -> 0 <= j < 64 -> nth (Z.to_nat i) b64_alphabet 0 = nth (Z.to_nat j) b64_alphabet 0 -> i = j.
Proof.
  intros Hi Hj H. assert (N : NoDup b64_alphabet).
  { apply (NoDup_count_occ' Z.eq_dec). intros x I. cbn in I. repeat destruct I as [<-|I]; try reflexivity. contradiction. }
  apply Z2Nat.inj; try lia. rewrite NoDup_nth in N. apply (N (Z.to_nat i) (Z.to_nat j)) in H; [exact H| |]; change (length b64_alphabet) with 64%nat; lia.
Qed.
Lemma b64url_inj n : forall l l', (length l <= n)%nat -> all_bytes l -> all_bytes l' -> length l = length l' -> b64url l = b64url l' -> l = l'.
Proof.
  assert (M : forall v, 0 <= v mod 64 < 64) by (intros v; apply Z.mod_pos_bound; lia).
  induction n as [|n IH]; intros l l' Ln A A' L H.
  { destruct l; [|cbn in Ln; lia]. destruct l'; [reflexivity|discriminate L]. }
  destruct l as [|x [|y [|z t]]], l' as [|x' [|y' [|z' t']]]; try discriminate L; [reflexivity| | |].
  - apply Forall_cons_iff in A as [X _]. apply Forall_cons_iff in A' as [X' _]. unfold is_byte in *. cbn [b64url] in H. injection H as H1 H2.
    apply alphabet_inj in H1; [|Z.div_mod_to_equations; lia..]. apply alphabet_inj in H2; [|apply M..]. f_equal. Z.div_mod_to_equations. lia.
  - apply Forall_cons_iff in A as [X A]. apply Forall_cons_iff in A' as [X' A']. apply Forall_cons_iff in A as [Y _]. apply Forall_cons_iff in A' as [Y' _].
    unfold is_byte in *. cbn [b64url] in H. injection H as H1 H2 H3.
    apply alphabet_inj in H1; [|Z.div_mod_to_equations; lia..]. apply alphabet_inj in H2; [|apply M..]. apply alphabet_inj in H3; [|apply M..].
    assert (V : x * 256 + y = x' * 256 + y') by (Z.div_mod_to_equations; lia).
    assert (x = x') by lia. assert (y = y') by lia. subst. reflexivity.
  - apply Forall_cons_iff in A as [X A]. apply Forall_cons_iff in A' as [X' A']. apply Forall_cons_iff in A as [Y A]. apply Forall_cons_iff in A' as [Y' A'].
    apply Forall_cons_iff in A as [Z A]. apply Forall_cons_iff in A' as [Z' A'].
    unfold is_byte in *. cbn [b64url] in H. injection H as H1 H2 H3 H4 H5.
    apply alphabet_inj in H1; [|Z.div_mod_to_equations; lia..]. apply alphabet_inj in H2; [|apply M..]. apply alphabet_inj in H3; [|apply M..].
    apply alphabet_inj in H4; [|apply M..].
    assert (V : x * 65536 + y * 256 + z = x' * 65536 + y' * 256 + z') by (Z.div_mod_to_equations; lia).
    assert (x = x') by lia. assert (y = y') by lia. assert (z = z') by lia. subst. do 3 f_equal.
    apply IH; try assumption; cbn in *; lia.
Qed.

(** ** Digests *)
Lemma hex_char_inj a b : 0 <= a < 16 -> 0 <= b < 16 -> hex_char a = hex_char b -> a = b.
Proof. unfold hex_char. intros Ha Hb. destruct (a <? 10) eqn:Qa, (b <? 10) eqn:Qb; lia. Qed.
Lemma hex_length l : length (hex l) = (2 * length l)%nat.
Proof. unfold hex. induction l as [|x t IH]; [reflexivity|]. cbn [map concat]. rewrite app_length, IH. cbn [length]. lia. Qed.
Lemma hex_inj l : forall l', all_bytes l -> all_bytes l' -> hex l = hex l' -> l = l'.
Proof.
  induction l as [|x t IH]; intros [|x' t'] A A' H; try discriminate; [reflexivity|].
  apply Forall_cons_iff in A as [X A]. apply Forall_cons_iff in A' as [X' A']. unfold is_byte in *.
  unfold hex in H. cbn [map concat app] in H. injection H as H1 H2 H3. f_equal; [|apply IH; assumption].
  apply hex_char_inj in H1; [|Z.div_mod_to_equations; lia..]. apply hex_char_inj in H2; [|Z.div_mod_to_equations; lia..].
  Z.div_mod_to_equations. lia.
Qed.
Definition collides (h : bytes -> bytes) : Prop := exists x y, x <> y /\ h x = h y.
Lemma k1_digest E p p' m m' : hashes_ok E -> keccak E (p ++ hex (sha256 E m)) = keccak E (p' ++ hex (sha256 E m')) ->
  (p = p' /\ m = m') \/ collides (keccak E) \/ collides (sha256 E).
Proof.
  intros He H. destruct (bytes_dec (p ++ hex (sha256 E m)) (p' ++ hex (sha256 E m'))) as [Q|Q].
  - destruct (He m) as (L & B & _), (He m') as (L' & B' & _).
    apply app_len_r in Q as [-> Q]; [|rewrite !hex_length; lia]. apply hex_inj in Q; [|assumption..].
    destruct (bytes_dec m m') as [->|N]; [left; auto|right; right]. exists m, m'. auto.
  - right. left. do 2 eexists. split; [exact Q|exact H].
Qed.
Lemma r1_digest E m m' : keccak E m = keccak E m' -> m = m' \/ collides (keccak E).
Proof. intros H. destruct (bytes_dec m m') as [->|N]; [left; reflexivity|right; exists m, m'; auto]. Qed.

(** ** WebAuthn *)
Lemma b64url_length n : forall l, (length l <= n)%nat -> length (b64url l) = ((4 * length l + 2) / 3)%nat.
Proof.
  induction n as [|n IH]; intros l L; [destruct l; [reflexivity|cbn in L; lia]|].
  destruct l as [|x [|y [|z t]]]; try reflexivity. cbn [b64url length] in *. rewrite IH by lia.
  replace (4 * S (S (S (length t))) + 2)%nat with ((4 * length t + 2) + 4 * 3)%nat by lia. rewrite Nat.div_add by lia. lia.
Qed.
Lemma webauthn_bound E d d' authdata json tl : length d = 32%nat -> all_bytes d -> length d' = 32%nat -> all_bytes d' -> hashes_ok E ->
  authdata <> [] -> json = usual_start ++ b64url d ++ [34] ++ tl -> r1_signs E d' (authdata ++ sha256 E json) ->
  d' = d \/ collides (sha256 E).
Proof.
  intros L A L' A' He N J [H|(ad & j & M & _ & _ & U)].
  - exfalso. destruct (He json) as (Lh & _). apply (f_equal (@length Z)) in H. rewrite app_length, Lh in H. destruct authdata; [contradiction|cbn in H; lia].
  - destruct (He json) as (Lh & _), (He j) as (Lh' & _). apply app_len_r in M as [_ M]; [|congruence].
    destruct (bytes_dec json j) as [<-|Nj]; [left|right; exists json, j; auto].
    destruct (U _ J) as (tl' & Q). apply app_len_l in Q as [Q _].
    + symmetry. apply (b64url_inj 32); try assumption; [lia|congruence].
    + rewrite !(b64url_length 32) by lia. congruence.
Qed.

(** reconstructed client data with the same field order *)
Fixpoint sum_len (fs : list bytes) : nat := match fs with [] => 0%nat | x :: t => (length x + sum_len t)%nat end.
Lemma sum_app a b : sum_len (a ++ b) = (sum_len a + sum_len b)%nat.
Proof. induction a as [|x t IH]; cbn; [reflexivity|rewrite IH; lia]. Qed.
Lemma join_length fs : length (join_comma fs) = (sum_len fs + (length fs - 1))%nat.
Proof.
  induction fs as [|x [|y t] IH]; [reflexivity|cbn; lia|].
  change (join_comma (x :: y :: t)) with (x ++ [44] ++ join_comma (y :: t)). rewrite !app_length, IH. cbn. lia.
Qed.
Lemma join_inj fs : forall fs', Forall2 (fun a b => length a = length b) fs fs' -> join_comma fs = join_comma fs' -> fs = fs'.
Proof.
  induction fs as [|x [|y t] IH]; intros fs' F H; inversion F as [|? x' ? t' Lx Ft]; subst; [reflexivity| |].
  - inversion Ft; subst. cbn in H. congruence.
  - inversion Ft as [|? y' ? t'' Ly Ft']; subst.
    change (join_comma (x :: y :: t)) with (x ++ [44] ++ join_comma (y :: t)) in H.
    change (join_comma (x' :: y' :: t'')) with (x' ++ [44] ++ join_comma (y' :: t'')) in H.
    apply app_len_l in H as [-> H]; [|exact Lx]. f_equal. apply IH; [exact Ft|]. injection H as H. exact H.
Qed.
Lemma field_shape o c f fs : field_text o c f = Ok fs ->
  (f = 0 /\ fs = []) \/ (f = 1 /\ fs = [quoted n_type ++ [58] ++ quoted v_get])
  \/ (f = 2 /\ fs = [quoted n_challenge ++ [58; 34] ++ c ++ [34]]) \/ (exists h, f = 3 /\ length h = 10%nat /\ (forall o c, field_text o c 3 = Ok [h ++ o ++ [34]]) /\ fs = [h ++ o ++ [34]])
  \/ (exists x, f = 4 /\ (forall o c, field_text o c 4 = Ok [x]) /\ fs = [x]).
Proof.
  unfold field_text. intros H.
  destruct (f =? 0) eqn:F0; [injection H as <-; left; split; [lia|reflexivity]|].
  destruct (f =? 1) eqn:F1; [injection H as <-; right; left; split; [lia|reflexivity]|].
  destruct (f =? 2) eqn:F2; [injection H as <-; right; right; left; split; [lia|reflexivity]|].
  destruct (f =? 3) eqn:F3; [injection H as <-; right; right; right; left; eexists; split; [lia|]; split; [|split; [intros; reflexivity|reflexivity]]; reflexivity|].
  destruct (f =? 4) eqn:F4; [injection H as <-; right; right; right; right; eexists; split; [lia|]; split; [intros; reflexivity|reflexivity]|discriminate].
Qed.
Lemma fields_same_len o o' c c' order : length o = length o' -> length c = length c' -> forall fs fs',
  fields_text o c order = Ok fs -> fields_text o' c' order = Ok fs' -> Forall2 (fun a b : bytes => length a = length b) fs fs'.
Proof.
  intros Lo Lc. induction order as [|f t IH]; intros fs fs' H H'; cbn [fields_text] in H, H'.
  { injection H as <-. injection H' as <-. constructor. }
  apply bind_ok in H as (x & B & H). apply bind_ok in H as (y & B0 & H). injection H as <-.
  apply bind_ok in H' as (x' & B' & H'). apply bind_ok in H' as (y' & B0' & H'). injection H' as <-.
  apply Forall2_app; [|apply IH; assumption].
  destruct (field_shape _ _ _ _ B) as [(-> & ->)|[(-> & ->)|[(-> & ->)|[(h & -> & _ & S & ->)|(z & -> & S & ->)]]]].
  - injection B' as <-. constructor.
  - injection B' as <-. repeat constructor.
  - injection B' as <-. repeat constructor. cbn [app quoted n_challenge length]. rewrite !app_length, Lc. reflexivity.
  - rewrite S in B'. injection B' as <-. repeat constructor. rewrite !app_length, Lo. reflexivity.
  - rewrite S in B'. injection B' as <-. repeat constructor.
Qed.
Lemma fields_sum o o' c c' order : length c = length c' -> forall fs fs',
  fields_text o c order = Ok fs -> fields_text o' c' order = Ok fs' ->
  length fs = length fs' /\ Z.of_nat (sum_len fs) - Z.of_nat (sum_len fs') = Z.of_nat (count_z 3 order) * (Z.of_nat (length o) - Z.of_nat (length o')).
Proof.
  intros Lc. induction order as [|f t IH]; intros fs fs' H H'; cbn [fields_text] in H, H'.
  { injection H as <-. injection H' as <-. split; reflexivity. }
  apply bind_ok in H as (x & B & H). apply bind_ok in H as (y & B0 & H). injection H as <-.
  apply bind_ok in H' as (x' & B' & H'). apply bind_ok in H' as (y' & B0' & H'). injection H' as <-.
  destruct (IH _ _ B0 B0') as [I1 I2]. rewrite !app_length, !sum_app.
  change (f :: t) with ([f] ++ t). rewrite count_app, !Nat2Z.inj_add, Z.mul_add_distr_r. set (P := Z.of_nat (count_z 3 t) * _) in *. clearbody P.
  destruct (field_shape _ _ _ _ B) as [(-> & ->)|[(-> & ->)|[(-> & ->)|[(h & -> & _ & S & ->)|(z & -> & S & ->)]]]].
  - injection B' as <-. cbn [sum_len length]. change (count_z 3 [0]) with 0%nat. split; lia.
  - assert (Q : x' = [quoted n_type ++ [58] ++ quoted v_get]) by (injection B' as <-; reflexivity). subst x'. change (count_z 3 [1]) with 0%nat. split; cbn [length sum_len]; lia.
  - assert (Q : x' = [quoted n_challenge ++ [58; 34] ++ c' ++ [34]]) by (injection B' as <-; reflexivity). subst x'. change (count_z 3 [2]) with 0%nat. cbn [length sum_len]. rewrite !app_length. cbn [length]. split; lia.
  - rewrite S in B'. injection B' as <-. change (count_z 3 [3]) with 1%nat. cbn [length sum_len]. rewrite !app_length. cbn [length]. split; rewrite ?Nat2Z.inj_0; lia.
  - rewrite S in B'. injection B' as <-. change (count_z 3 [4]) with 0%nat. split; rewrite ?Nat2Z.inj_0; cbn [length sum_len]; lia.
Qed.
Lemma fields_no_origin o o' c order : count_z 3 order = 0%nat -> fields_text o c order = fields_text o' c order.
Proof.
  induction order as [|f t IH]; [reflexivity|]. change (f :: t) with ([f] ++ t) at 1. rewrite count_app. intros H. cbn [fields_text].
  rewrite IH by lia. replace (field_text o c f) with (field_text o' c f); [reflexivity|].
  unfold field_text. destruct (f =? 0), (f =? 1), (f =? 2); try reflexivity. destruct (f =? 3) eqn:Q; [|reflexivity].
  exfalso. unfold count_z in H. cbn [filter] in H. rewrite Z.eqb_sym, Q in H. cbn in H. lia.
Qed.
Lemma Forall2_len {A B} (R : A -> B -> Prop) l l' : Forall2 R l l' -> length l = length l'.
Proof. induction 1; cbn; congruence. Qed.
Lemma challenge_same o c c' order : In 2 order -> forall fs, fields_text o c order = Ok fs -> length c = length c' ->
  forall o', length o = length o' -> fields_text o' c' order = Ok fs -> c = c'.
Proof.
  intros I. induction order as [|f t IH]; intros fs H Lc o' Lo H'; [destruct I|]. cbn [fields_text] in H, H'.
  apply bind_ok in H as (x & B & H). apply bind_ok in H as (y & B0 & H). injection H as H.
  apply bind_ok in H' as (x' & B' & H'). apply bind_ok in H' as (y' & B0' & H'). injection H' as H'.
  assert (Fx : fields_text o c [f] = Ok x) by (cbn [fields_text]; rewrite B; cbn [bind]; rewrite app_nil_r; reflexivity).
  assert (Fx' : fields_text o' c' [f] = Ok x') by (cbn [fields_text]; rewrite B'; cbn [bind]; rewrite app_nil_r; reflexivity).
  assert (Ll : length x = length x') by (eapply Forall2_len, fields_same_len; [exact Lo|exact Lc|exact Fx|exact Fx']).
  rewrite <- H' in H. apply app_len_l in H as [-> ->]; [|exact Ll].
  destruct I as [->|I].
  - cbn in B, B'. rewrite <- B' in B. injection B as B. apply app_inv_tail in B. exact B.
  - eapply IH; eassumption.
Qed.
Lemma client_json_inj E order o o' h h' json : length h = length h' -> all_bytes h -> all_bytes h' -> field_order_ok order = true ->
  client_json E order o h = Ok json -> client_json E order o' h' = Ok json -> h = h'.
Proof.
  intros L A A' Ho H H'. unfold client_json in H, H'. peel H. peel H'. injection H as H. injection H' as H'.
  match goal with T : fields_text o _ order = Ok ?x |- _ => rename T into T1; rename x into x0 end.
  match goal with T : fields_text o' _ order = Ok ?x |- _ => rename T into T2; rename x into x2 end.
  rewrite b64url_same in T1, T2 by assumption.
  assert (Lc : length (b64url h) = length (b64url h')) by (rewrite !(b64url_length (length h)) by lia; congruence).
  assert (J : join_comma x0 = join_comma x2) by (rewrite <- H' in H; injection H as H; apply app_inv_tail in H; exact H).
  unfold field_order_ok in Ho. apply andb_true_iff in Ho as [Ho _]. apply andb_true_iff in Ho as [_ H2]. apply Nat.eqb_eq in H2.
  assert (I2 : In 2 order) by (apply count_in; lia).
  apply (b64url_inj (length h)); try assumption; [lia|].
  destruct (fields_sum _ _ _ _ _ Lc _ _ T1 T2) as [Ln Su].
  pose proof (f_equal (@length Z) J) as Jl. rewrite !join_length in Jl.
  destruct (Nat.eq_dec (count_z 3 order) 0) as [Z3|N3].
  - rewrite (fields_no_origin o' o _ _ Z3) in T2.
    pose proof (join_inj _ _ (fields_same_len _ _ _ _ _ eq_refl Lc _ _ T1 T2) J) as Q. subst x2.
    eapply challenge_same; [exact I2|exact T1|exact Lc|reflexivity|exact T2].
  - assert (Lo : length o = length o') by nia.
    pose proof (join_inj _ _ (fields_same_len _ _ _ _ _ Lo Lc _ _ T1 T2) J) as Q. subst x2.
    eapply challenge_same; [exact I2|exact T1|exact Lc|exact Lo|exact T2].
Qed.

(** ** Acting, by type of credential *)
Lemma acts_k1 E cx s r : acts E cx s r -> by_counter cx r -> r_aty r = 3 \/ r_aty r = 4 ->
  exists t, in_time (c_slot cx) t
    /\ k1_signed E cx (cred_key (r_auth r)) (payload_of (c_data cx)) (signed_of (c_data cx)) t (next_counter (r_auth r)).
Proof.
  intros (_ & a & A) (_ & B) T.
  assert (Q : approves E cx (r_aty r) (r_auth r) (payload_of (c_data cx)) (signed_of (c_data cx)) a).
  { destruct (tag (c_data cx) =? 5); [exact A|]. unfold may_act in A. rewrite B in A. exact A. }
  destruct Q as [(X & _)|[(_ & _ & X)|[(X & _)|(X & _)]]]; try (exfalso; lia). exact X.
Qed.
Lemma acts_r1 E cx s r : acts E cx s r -> by_counter cx r -> r_aty r = 5 \/ r_aty r = 6 ->
  exists t, in_time (c_slot cx) t
    /\ r1_signed E cx (cred_key (r_auth r)) (payload_of (c_data cx)) (signed_of (c_data cx)) t (next_counter (r_auth r)).
Proof.
  intros (_ & a & A) (_ & B) T.
  assert (Q : approves E cx (r_aty r) (r_auth r) (payload_of (c_data cx)) (signed_of (c_data cx)) a).
  { destruct (tag (c_data cx) =? 5); [exact A|]. unfold may_act in A. rewrite B in A. exact A. }
  destruct Q as [(X & _)|[(X & _)|[(_ & _ & X)|(X & _)]]]; try (exfalso; lia). exact X.
Qed.
Lemma acts_exec E cx s r : acts E cx s r -> r_aty r = 7 \/ (r_aty r = 8 /\ tag (c_data cx) = 5) -> program_ran cx (r_auth r).
Proof.
  intros (_ & a & A) T.
  assert (Q : approves E cx (r_aty r) (r_auth r) (payload_of (c_data cx)) (signed_of (c_data cx)) a).
  { destruct T as [T|[_ T5]]; [|rewrite T5 in A; exact A]. rewrite T in *. destruct (tag (c_data cx) =? 5); exact A. }
  destruct Q as [(X & _)|[(X & _)|[(X & _)|(_ & X & _)]]]; try (exfalso; lia). exact X.
Qed.
(** a prefix that starts with the two-byte number 0 or 1 *)
Lemma dead_prefix cx a p q rest : program_ran cx a -> sub 40 (Z.to_nat (nth 32 a 0)) a = p :: q :: rest -> 2 <= p + 256 * q.
Proof.
  intros (i & x & c & wl & _ & _ & _ & (t & St) & _ & _ & _ & D) Hp. rewrite Hp in St. rewrite St in D. cbn in D. lia.
Qed.

(** ** New session roles *)
Lemma new_session_end ty c : is_session ty = true -> authority_len ty = Some (length (new_credential ty c)) -> session_end ty (new_credential ty c) = 0.
Proof.
  intros S L. pose proof (session_len ty _ S L) as Ln. unfold session_end.
  assert (Q : exists h, new_credential ty c = h ++ zeros 8).
  { unfold is_session in S. repeat apply orb_true_iff in S as [S|S]; apply Z.eqb_eq in S; subst ty; cbn [new_credential].
    - eexists; reflexivity.
    - eexists. rewrite !app_assoc. reflexivity.
    - eexists. rewrite !app_assoc. reflexivity.
    - eexists. rewrite !app_assoc. reflexivity. }
  destruct Q as (h & Q). rewrite Q in *. rewrite app_length in Ln. change (length (zeros 8)) with 8%nat in Ln.
  rewrite <- (app_nil_r (zeros 8)). rewrite sub_app_exact; [reflexivity|lia|reflexivity].
Qed.

Lemma find_added s nr : wf_config s -> r_id nr = s_counter s -> find_role (s_counter s) (add_to s nr) = Some nr.
Proof.
  intros W I. unfold find_role. cbn [s_roles add_to].
  assert (N : find (fun r => r_id r =? s_counter s) (s_roles s) = None).
  { destruct (find _ (s_roles s)) as [x|] eqn:Q; [|reflexivity]. exfalso. apply find_some in Q as [Q1 Q2]. apply Z.eqb_eq in Q2.
    assert (In (r_id x) (ids s)) by (apply in_map; exact Q1). pose proof (wf_ids_below _ _ W H). lia. }
  induction (s_roles s) as [|x t IH]; cbn [app find] in *; [rewrite I, Z.eqb_refl; reflexivity|].
  destruct (r_id x =? s_counter s); [discriminate|auto].
Qed.
Lemma new_session_unusable E cx1 cx2 w w1 w2 w3 s s2 r2 :
  foreign_ok E -> hashes_ok E -> good_world E w ->
  admissible E w (Call cx1) -> is_cfg (w (acct cx1 0)) s -> succeeds E cx1 w w1 -> tag (c_data cx1) = 1 ->
  reach E w1 w2 ->
  admissible E w2 (Call cx2) -> is_cfg (w2 (acct cx2 0)) s2 -> succeeds E cx2 w2 w3 -> auth_layout (c_data cx2) <> None -> tag (c_data cx2) <> 5 ->
  acct cx2 0 = acct cx1 0 -> actor_of (c_data cx2) = s_counter s -> find_role (actor_of (c_data cx2)) s2 = Some r2 ->
  is_session (u16_at 6 (c_data cx1)) = true -> 0 < c_slot cx2 ->
  exists s' ts, is_cfg (w1 (acct cx1 0)) s' /\ path E (acct cx1 0) ts s' s2
    /\ (Exists (opens (s_counter s)) ts \/ Exists (rotates (s_counter s)) ts).
Proof.
  intros F He G Ad1 S1 H1 T1 R Ad2 S2 H2 L2 N5 K I F2 Ss Sl.
  pose proof (call_room E cx1 w s Ad1 S1) as Rm.
  destruct (add_ok E cx1 w w1 s He (proj1 Ad1) S1 H1 T1 Rm) as (r & nr & _ & _ & Ni & Nt & _ & Na & _ & C' & _).
  set (s1 := used (actor_of (c_data cx1)) s) in *. exists (add_to s1 nr).
  assert (G1 : good_world E w1) by (eapply good1; eassumption).
  assert (W1 : wf_config s1) by (apply used_wf; apply S1).
  assert (F1 : find_role (s_counter s) (add_to s1 nr) = Some nr) by (apply (find_added s1); [exact W1|exact Ni]).
  pose proof (call_acts E cx2 w2 w3 s2 r2 He Ad2 S2 H2 L2 F2) as A2.
  rewrite K in S2. rewrite I in F2. rewrite <- Nt in Ss.
  destruct (session_stays E w1 w2 (acct cx1 0) _ s2 _ nr r2 F G1 R C' S2 F1 F2 Ss) as (ts & P & Q).
  exists ts. split; [exact C'|]. split; [exact P|]. destruct Q as [Q|[Q|[T A]]]; [auto|auto|exfalso].
  apply acts_session in A2 as [_ A2]; [|exact N5|rewrite T; exact Ss]. rewrite T, A, Na in A2.
  rewrite new_session_end in A2; [lia|exact Ss|]. rewrite <- Na. apply (wf_find _ _ _ (proj2 (proj2 C')) F1).
Qed.

(** ** Sessions end on time *)
Lemma session_on_time E cx1 cx2 w w1 w2 w3 s s2 r1 r2 :
  foreign_ok E -> hashes_ok E -> good_world E w ->
  admissible E w (Call cx1) -> is_cfg (w (acct cx1 0)) s -> succeeds E cx1 w w1 -> tag (c_data cx1) = 5 ->
  find_role (actor_of (c_data cx1)) s = Some r1 -> 0 <= c_slot cx1 ->
  reach E w1 w2 ->
  admissible E w2 (Call cx2) -> is_cfg (w2 (acct cx2 0)) s2 -> succeeds E cx2 w2 w3 -> auth_layout (c_data cx2) <> None -> tag (c_data cx2) <> 5 ->
  acct cx2 0 = acct cx1 0 -> actor_of (c_data cx2) = actor_of (c_data cx1) -> find_role (actor_of (c_data cx2)) s2 = Some r2 ->
  acts E cx1 s r1 /\ is_session (r_aty r1) = true /\ u64_at 8 (c_data cx1) <= session_max (r_aty r1) (r_auth r1)
  /\ exists s' ts, is_cfg (w1 (acct cx1 0)) s' /\ path E (acct cx1 0) ts s' s2
       /\ (Exists (opens (actor_of (c_data cx1))) ts \/ Exists (rotates (actor_of (c_data cx1))) ts
           \/ (signed_by cx2 (sub 16 32 (c_data cx1)) /\ c_slot cx2 <= c_slot cx1 + u64_at 8 (c_data cx1))).
Proof.
  intros F He G Ad1 S1 H1 T1 F1 P1 R Ad2 S2 H2 L2 N5 K I F2.
  assert (L1 : auth_layout (c_data cx1) <> None) by (unfold auth_layout; rewrite T1; discriminate).
  split; [eapply call_acts; eassumption|].
  destruct (session_bound E cx1 cx2 w w1 w2 w3 s s2 r1 r2 F He G Ad1 S1 H1 R Ad2 S2 H2 K I F1 L2 F2 T1 N5) as (Q1 & Q2 & s' & ts & C' & P & Q).
  split; [exact Q1|]. split; [exact Q2|]. exists s', ts. split; [exact C'|]. split; [exact P|].
  destruct Q as [Q|[Q|(Q3 & Q4)]]; [auto|auto|]. right. right. split; [exact Q3|].
  pose proof (u64_bound 8 (c_data cx1) (proj1 (proj1 Ad1))) as B.
  etransitivity; [exact Q4|]. apply Z.mod_le; [|reflexivity]. destruct B. lia.
Qed.

(** ** Assembled for the property file *)
Lemma signature_counts E cx w w' s r : foreign_ok E -> hashes_ok E -> good_world E w -> admissible E w (Call cx) ->
  is_cfg (w (acct cx 0)) s -> succeeds E cx w w' -> auth_layout (c_data cx) <> None ->
  find_role (actor_of (c_data cx)) s = Some r -> by_counter cx r ->
  u32_at 8 (payload_of (c_data cx)) = next_counter (r_auth r) /\ in_time (c_slot cx) (u64_at 0 (payload_of (c_data cx)))
  /\ (is_closed (w' (acct cx 0)) \/ exists s' ts, is_cfg (w' (acct cx 0)) s' /\ path E (acct cx 0) ts s s'
       /\ (Exists (rotates (actor_of (c_data cx))) ts \/ forall r', find_role (actor_of (c_data cx)) s' = Some r' ->
             cred_key (r_auth r') = cred_key (r_auth r)
             /\ exists m, (m <= steps_by (actor_of (c_data cx)) ts)%nat /\ cred_counter (r_auth r') = (cred_counter (r_auth r) + 1 + Z.of_nat m) mod 2 ^ 32)).
Proof.
  intros F He G Ad C H La Fr B. pose proof (call_acts E cx w w' s r He Ad C H La Fr) as (_ & a & A).
  pose proof (wf_find _ _ _ (proj2 (proj2 C)) Fr) as (_ & _ & Ba & _).
  destruct (payload_counter E cx r a Ba B A) as (Q1 & t & Q2 & Q3).
  split; [exact Q1|]. split; [rewrite Q3; exact Q2|]. eapply call_counts; eassumption.
Qed.
Lemma k1_commits E d ms t c p d' ms' t' c' p' : hashes_ok E ->
  Forall (fun m => length (m_key m) = 32%nat) ms -> Forall (fun m => length (m_key m) = 32%nat) ms' -> length ms = length ms' ->
  0 <= t < 2 ^ 64 -> 0 <= t' < 2 ^ 64 -> 0 <= c < 2 ^ 32 -> 0 <= c' < 2 ^ 32 ->
  keccak E (p ++ hex (sha256 E (request d ms t c))) = keccak E (p' ++ hex (sha256 E (request d' ms' t' c'))) ->
  (d = d' /\ ms = ms' /\ t = t' /\ c = c' /\ p = p') \/ collides (keccak E) \/ collides (sha256 E).
Proof.
  intros He K K' L T T' C C' H. apply k1_digest in H as [(-> & H)|H]; [left|right; exact H|exact He].
  apply request_inj in H as (-> & -> & -> & ->); auto.
Qed.
Lemma r1_commits E d ms t c d' ms' t' c' :
  Forall (fun m => length (m_key m) = 32%nat) ms -> Forall (fun m => length (m_key m) = 32%nat) ms' -> length ms = length ms' ->
  0 <= t < 2 ^ 64 -> 0 <= t' < 2 ^ 64 -> 0 <= c < 2 ^ 32 -> 0 <= c' < 2 ^ 32 ->
  keccak E (request d ms t c) = keccak E (request d' ms' t' c') ->
  (d = d' /\ ms = ms' /\ t = t' /\ c = c') \/ collides (keccak E).
Proof.
  intros K K' L T T' C C' H. apply r1_digest in H as [H|H]; [left|right; exact H].
  apply request_inj in H as (-> & -> & -> & ->); auto.
Qed.
Lemma precompile E cx w w' s r : hashes_ok E -> admissible E w (Call cx) ->
  is_cfg (w (acct cx 0)) s -> succeeds E cx w w' -> auth_layout (c_data cx) <> None ->
  find_role (actor_of (c_data cx)) s = Some r -> by_counter cx r -> r_aty r = 5 \/ r_aty r = 6 ->
  exists t x msg, in_time (c_slot cx) t
    /\ previous cx x /\ ix_prog x = SECP256R1_ID /\ verifies_one (ix_data x) (cred_key (r_auth r)) msg
    /\ r1_signs E (keccak E (request (signed_of (c_data cx)) (c_metas cx) t (next_counter (r_auth r)))) msg.
Proof.
  intros He Ad C H La Fr B T. pose proof (call_acts E cx w w' s r He Ad C H La Fr) as A.
  destruct (acts_r1 _ _ _ _ A B T) as (t & It & rest & x & msg & _ & _ & _ & S & P & Ip & V).
  exists t, x, msg. auto 6.
Qed.
Lemma ran_before E cx w w' s r : hashes_ok E -> admissible E w (Call cx) ->
  is_cfg (w (acct cx 0)) s -> succeeds E cx w w' -> auth_layout (c_data cx) <> None ->
  find_role (actor_of (c_data cx)) s = Some r -> r_aty r = 7 \/ (r_aty r = 8 /\ tag (c_data cx) = 5) ->
  exists i x, (i < c_cur cx)%nat /\ nth_error (c_ixs cx) i = Some x
    /\ ix_prog x = firstn 32 (r_auth r)
    /\ starts_with (sub 40 (Z.to_nat (nth 32 (r_auth r) 0)) (r_auth r)) (ix_data x)
    /\ (Forall (fun m => length (m_key m) = 32%nat) (ix_metas x) -> forall m0 rest, ix_metas x = m0 :: rest ->
          m_key m0 = acct cx 0 /\ forall m1 rest', rest = m1 :: rest' -> m_key m1 = acct cx 1).
Proof.
  intros He Ad C H La Fr T. pose proof (call_acts E cx w w' s r He Ad C H La Fr) as A.
  destruct (acts_exec _ _ _ _ A T) as (i & x & c & wl & Li & Nx & Px & Sx & N0 & N1 & Kx & _).
  exists i, x. split; [exact Li|]. split; [exact Nx|]. split; [exact Px|]. split; [exact Sx|]. intros Fk m0 rest Em.
  unfold acct, mkey. rewrite (nth_error_nth _ _ _ N0), (nth_error_nth _ _ _ N1). exact (Kx Fk m0 rest Em).
Qed.
