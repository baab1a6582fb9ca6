(** * Properties of credentials: proofs *)
From Verif Require Import BaseFacts SpecConfig ConfigFacts ConfigEdit ConfigEdit2 ConfigEdit3.
From Verif Require Export Creds.

(** ** Counters *)
Lemma secp_len ty (a : bytes) : authority_len ty = Some (length a) -> is_secp ty = true -> (40 <= length a)%nat.
Proof.
  intros L S. unfold is_secp in S. repeat apply orb_true_iff in S as [S|S]; apply Z.eqb_eq in S; subst ty; injection L as <-; lia.
Qed.
Lemma secp_at ty : is_secp ty = true -> is_session ty = true -> session_at ty = 40%nat.
Proof.
  intros S. unfold is_secp in S. repeat apply orb_true_iff in S as [S|S]; apply Z.eqb_eq in S; subst ty; try discriminate; reflexivity.
Qed.
Lemma next_bound a : 0 <= next_counter a < 2 ^ 32.
Proof. apply Z.mod_pos_bound. lia. Qed.
Lemma counter_up a : (40 <= length a)%nat -> cred_counter (count_up a) = next_counter a.
Proof.
  intros L. unfold cred_counter, count_up. rewrite sub_app_exact; [apply le_le_enc; apply next_bound| |apply le_enc_length].
  rewrite firstn_length. lia.
Qed.
Lemma key_up a : (40 <= length a)%nat -> cred_key (count_up a) = cred_key a.
Proof. intros L. apply count_up_head; lia. Qed.
Lemma counter_bound a : all_bytes a -> (40 <= length a)%nat -> 0 <= cred_counter a < 2 ^ 32.
Proof. intros B L. apply (u32_bound 36 a B). Qed.
Lemma session_head ty key fin a n : is_session ty = true -> length a = (session_at ty + 48)%nat -> (n <= session_at ty)%nat ->
  firstn n (with_session ty key fin a) = firstn n a.
Proof.
  intros S L N. unfold with_session. rewrite firstn_app, firstn_firstn, firstn_length.
  replace (n - Nat.min (session_at ty) (length a))%nat with 0%nat by lia.
  rewrite firstn_O, app_nil_r. f_equal. lia.
Qed.
Lemma counter_head a b : firstn 40 a = firstn 40 b -> cred_counter a = cred_counter b /\ cred_key a = cred_key b.
Proof.
  intros H. unfold cred_counter, cred_key, sub. split.
  - f_equal. change 4%nat with (40 - 36)%nat. rewrite <- !skipn_firstn_comm. rewrite H. reflexivity.
  - change 33%nat with (Nat.min 33 40). rewrite <- !firstn_firstn. rewrite H. reflexivity.
Qed.

(** same key, counter moved by at most [n] *)
Definition counted (n : nat) (ty : Z) (a b : bytes) : Prop :=
  is_secp ty = true -> cred_key b = cred_key a
    /\ exists m, (m <= n)%nat /\ cred_counter b mod 2 ^ 32 = (cred_counter a + Z.of_nat m) mod 2 ^ 32.
Lemma counted_0 ty a : counted 0 ty a a.
Proof. intros _. split; [reflexivity|]. exists 0%nat. rewrite Z.add_0_r. auto. Qed.
Lemma counted_le n m ty a b : (n <= m)%nat -> counted n ty a b -> counted m ty a b.
Proof. intros L C S. destruct (C S) as (K & x & Lx & Q). split; [exact K|]. exists x. split; [lia|exact Q]. Qed.
Lemma counted_tr n m ty a b c : counted n ty a b -> counted m ty b c -> counted (n + m) ty a c.
Proof.
  intros C1 C2 S. destruct (C1 S) as (K1 & x & Lx & Q1), (C2 S) as (K2 & y & Ly & Q2). split; [congruence|].
  exists (x + y)%nat. split; [lia|]. rewrite Q2. rewrite <- Zplus_mod_idemp_l, Q1, Zplus_mod_idemp_l. f_equal. lia.
Qed.
Lemma counted_up n ty a : (1 <= n)%nat -> (40 <= length a)%nat -> counted n ty a (count_up a).
Proof.
  intros N L S. split; [apply key_up; exact L|]. exists 1%nat. split; [exact N|]. rewrite counter_up by exact L.
  unfold next_counter. rewrite Z.mod_mod by lia. reflexivity.
Qed.
Lemma counted_use ty a : stored ty a -> ty = 3 \/ ty = 5 -> counted 1 ty a (count_up a).
Proof. intros (L & _) T. apply counted_up; [lia|]. eapply secp_len; [exact L|]. destruct T as [->| ->]; reflexivity. Qed.
Lemma counted_head ty a b : firstn 40 a = firstn 40 b -> counted 0 ty b a.
Proof. intros H S. destruct (counter_head _ _ H) as [-> ->]. split; [reflexivity|]. exists 0%nat. rewrite Z.add_0_r. auto. Qed.
Lemma session_head_40 ty key fin a : authority_len ty = Some (length a) -> is_session ty = true -> is_secp ty = true ->
  firstn 40 (with_session ty key fin a) = firstn 40 a.
Proof. intros L Ss S. apply session_head; [exact Ss|apply session_len; assumption|rewrite (secp_at _ S Ss); lia]. Qed.
Lemma counted_ses ty a key fin : stored ty a -> is_session ty = true ->
  counted 1 ty a (with_session ty key fin (if is_secp ty then count_up a else a)).
Proof.
  intros (L & B) Ss S. rewrite S. pose proof (secp_len _ _ L S) as L40. pose proof (count_up_bytes _ L40 B) as [Lu _].
  refine (counted_tr 1 0 ty a (count_up a) _ _ _ S); [apply counted_up; lia|]. apply counted_head.
  apply session_head_40; [rewrite Lu|..]; assumption.
Qed.

Lemma rotates_dec i ds : Exists (rotates i) ds \/ ~ Exists (rotates i) ds.
Proof.
  destruct (Exists_dec (rotates i) ds) as [X|X]; [|auto|auto].
  intros d. unfold rotates. destruct (Z.eq_dec (tag d) 16), (Z.eq_dec (u32_at 8 d) i); (left; tauto) || (right; tauto).
Qed.
Lemma opens_dec i ds : Exists (opens i) ds \/ ~ Exists (opens i) ds.
Proof.
  destruct (Exists_dec (opens i) ds) as [X|X]; [|auto|auto].
  intros d. unfold opens. destruct (Z.eq_dec (tag d) 5), (Z.eq_dec (actor_of d) i); (left; tauto) || (right; tauto).
Qed.
Lemma counted_path E k i ts s s' : path E k ts s s' -> wf_config s -> ~ Exists (rotates i) ts -> goes i counted (steps_by i ts) s s'.
Proof.
  intros P W N. apply (goes_path i counted (fun d => ~ rotates i d)) with (E := E) (k := k).
  - exact counted_0.
  - exact counted_le.
  - exact counted_tr.
  - exact counted_use.
  - intros d _ _ ty a key fin St Ss _ _. apply counted_ses; assumption.
  - intros d X Y. contradiction.
  - exact P.
  - exact W.
  - apply Forall_Exists_neg. exact N.
Qed.

(** ** The payload names the counter *)
Lemma payload_counter E cx r a' : all_bytes (r_auth r) -> by_counter cx r ->
  (if tag (c_data cx) =? 5 then approves else may_act) E cx (r_aty r) (r_auth r) (payload_of (c_data cx)) (signed_of (c_data cx)) a' ->
  u32_at 8 (payload_of (c_data cx)) = next_counter (r_auth r)
  /\ exists t, in_time (c_slot cx) t /\ u64_at 0 (payload_of (c_data cx)) = t.
Proof.
  intros B (S & Ss) A.
  assert (A' : approves E cx (r_aty r) (r_auth r) (payload_of (c_data cx)) (signed_of (c_data cx)) a').
  { destruct (tag (c_data cx) =? 5); [exact A|]. unfold may_act in A. rewrite Ss in A. exact A. }
  assert (Q : exists t, in_time (c_slot cx) t /\ 0 <= t < 2 ^ 64 /\ exists rest, payload_of (c_data cx) = le_enc 8 t ++ le_enc 4 (next_counter (r_auth r)) ++ rest).
  { destruct A' as [(T & _)|[(_ & _ & t & It & K)|[(_ & _ & t & It & K)|(T & _)]]].
    - destruct T as [T|T]; rewrite T in S; discriminate S.
    - exists t. destruct K as (sig & v & pre & pub & P & _ & Bt & _). split; [exact It|]. split; [exact Bt|]. eauto.
    - exists t. destruct K as (rest & x & msg & P & Bt & _). split; [exact It|]. split; [exact Bt|]. eauto.
    - destruct T as [T|T]; rewrite T in S; discriminate S. }
  destruct Q as (t & It & Bt & rest & P). rewrite P. split.
  - unfold u32_at. rewrite sub_app_exact by apply le_enc_length. apply le_le_enc. apply next_bound.
  - exists t. split; [exact It|]. unfold u64_at. change (le_enc 8 t ++ ?x) with ([] ++ le_enc 8 t ++ x).
    rewrite sub_app_exact; [apply le_le_enc; exact Bt|reflexivity|apply le_enc_length].
Qed.

(** ** One call *)
Section Call.
Variables (E : env) (cx : ctx) (w w' : world) (s : config) (r : role).
Hypothesis (F : foreign_ok E) (He : hashes_ok E) (G : good_world E w) (Ad : admissible E w (Call cx)).
Hypothesis (S : is_cfg (w (acct cx 0)) s) (H : succeeds E cx w w').
Hypothesis (La : auth_layout (c_data cx) <> None) (Fr : find_role (actor_of (c_data cx)) s = Some r).
Notation k := (acct cx 0).
Notation data := (c_data cx).

Lemma call_room : room 1 s.
Proof. destruct Ad as (_ & _ & R & _). destruct (R _ _ S). split; lia. Qed.
Lemma call_acts : acts E cx s r.
Proof.
  destruct (process_acts E cx w w' s He (proj1 Ad) S call_room H La) as (x & A). pose proof A as (Fx & _).
  rewrite Fr in Fx. injection Fx as <-. exact A.
Qed.

(** after the call the counter has moved by one, and then by the rest of the call *)
Lemma call_counts : by_counter cx r ->
  is_closed (w' k) \/ exists s' ts, is_cfg (w' k) s' /\ path E k ts s s'
    /\ (Exists (rotates (actor_of data)) ts \/ forall r', find_role (actor_of data) s' = Some r' ->
          cred_key (r_auth r') = cred_key (r_auth r)
          /\ exists m, (m <= steps_by (actor_of data) ts)%nat /\ cred_counter (r_auth r') = (cred_counter (r_auth r) + 1 + Z.of_nat m) mod 2 ^ 32).
Proof.
  intros By. pose proof S as (So & Sd & Sw). pose proof (wf_find _ _ _ Sw Fr) as (_ & Lr & Br & _).
  pose proof By as (Hs & Hss). pose proof (secp_len _ _ Lr Hs) as L40. set (i := actor_of data) in *.
  pose proof (find_role_in _ _ _ Fr) as [_ Hi].
  destruct (Z.eq_dec (tag data) 5) as [T5|T5].
  - destruct (session_ok E cx w w' s He (proj1 Ad) S H T5) as (x & (Fx & _) & Sx & _ & C' & _).
    fold i in Fx. rewrite Fr in Fx. injection Fx as <-. rewrite Hs in C'. rewrite Hi in C'. right.
    destruct (lift_event E (follows E) F (follows_refl E) (follows_trans E) (fun c a b _ => follows_change E c a b) w (Call cx) G Ad k) as [_ Fo].
    cbn [step] in Fo. unfold succeeds in H. rewrite H in Fo. destruct (Fo s S) as [Cl|(s' & ts & C2 & P)].
    + exfalso. destruct Cl as [_ Cl], C' as (_ & C' & _). rewrite Cl in C'. apply (f_equal (byte_at 0)) in C'.
      rewrite enc_config_byte in C'. discriminate C'.
    + exists s', ts. split; [exact C2|]. split; [exact P|]. right. intros r' F'. rewrite (is_cfg_inj _ _ _ C2 C') in F'.
      rewrite find_role_on, Fr in F' by reflexivity. cbn [option_map] in F'. rewrite Hi, Z.eqb_refl in F'.
      assert (Er : r_auth r' = with_session (r_aty r) (sub 16 32 data) ((c_slot cx + u64_at 8 data) mod 2 ^ 64) (count_up (r_auth r)))
        by (apply (f_equal (fun x => match x with Some y => r_auth y | None => [] end)) in F'; symmetry; exact F').
      rewrite Er.
      pose proof (count_up_bytes _ L40 Br) as [Lu _].
      assert (Hd : firstn 40 (with_session (r_aty r) (sub 16 32 data) ((c_slot cx + u64_at 8 data) mod 2 ^ 64) (count_up (r_auth r)))
                   = firstn 40 (count_up (r_auth r))) by (apply session_head_40; [rewrite Lu|..]; assumption).
      apply counter_head in Hd as [-> ->]. split; [apply key_up; exact L40|]. exists 0%nat. split; [lia|].
      rewrite counter_up by exact L40. unfold next_counter. f_equal. lia.
  - destruct (process_outcome E cx w w' s F G Ad S H La T5) as (x & s1 & A & Out). pose proof A as (Fx & _). fold i in Fx. rewrite Fr in Fx.
    injection Fx as <-. destruct (acted_wf _ _ _ _ _ Sw A) as [U W1]. fold i in U.
    apply Z.eqb_neq in T5 as T5b. rewrite T5b in Hss.
    assert (F1 : find_role i s1 = Some (with_auth r (count_up (r_auth r)))).
    { rewrite U, find_used, Fr. cbn. rewrite Hi, Z.eqb_refl. f_equal. unfold after_use. 
      unfold is_secp, is_session in Hs, Hss. destruct (r_aty r =? 3), (r_aty r =? 5); try reflexivity. cbn in *.
      destruct (r_aty r =? 2), (r_aty r =? 4), (r_aty r =? 6); discriminate. }
    destruct Out as [(s' & Ed & C')|[(T & w0 & n & D & _ & G0 & Tr)|(_ & Cl)]]; [right| |left; exact Cl].
    + exists s', ([] ++ [data]). split; [exact C'|]. split.
      { eapply path_step; [constructor|exact S| |apply C']. eapply by_role; [reflexivity|exact A|exact Ed]. }
      destruct (rotates_dec i [data]) as [T16|T16]; [left; exact T16|right].
      intros r' F'. destruct (edit_auth _ _ _ _ _ _ _ _ i _ _ Ed W1 (fun q => T16 (Exists_cons_hd _ _ _ q)) F1 F') as [T A']. cbn [with_auth r_auth r_aty] in T, A'. rewrite A'.
      split; [apply key_up; exact L40|]. exists 0%nat. split; [lia|]. rewrite counter_up by exact L40. unfold next_counter. f_equal. lia.
    + pose proof (only_data_cfg _ _ _ _ _ S D W1) as C1.
      destruct (trace_path E cx n w0 w' Tr G0 k) as [_ Fo]. destruct (Fo s1 C1) as [Cl|(s' & ts & C' & P)]; [left; exact Cl|right].
      exists s', (([] ++ [data]) ++ ts). split; [exact C'|]. split.
      { eapply path_app; [|exact P]. eapply path_step; [constructor|exact S| |exact W1]. eapply by_role; [reflexivity|exact A|].
        apply ed_use. cbn in T |- *. tauto. }
      destruct (rotates_dec i ts) as [I16|N16]; [left; apply Exists_app; auto|right]. intros r' F'.
      destruct (counted_path _ _ i _ _ _ P W1 N16) as [_ Go]. destruct (Go _ r' F1 F') as [T' C2]. cbn [with_auth r_auth r_aty] in T', C2.
      destruct (C2 Hs) as (K & m & Lm & Q). rewrite K, key_up by exact L40. split; [reflexivity|].
      exists m. split; [rewrite steps_app; lia|]. pose proof (wf_find _ _ _ (proj2 (proj2 C')) F') as (_ & L' & B' & _). rewrite T' in L'.
      pose proof (counter_bound _ B' (secp_len _ _ L' Hs)) as Bc. rewrite Z.mod_small in Q by exact Bc. rewrite Q.
      rewrite counter_up by exact L40. unfold next_counter. rewrite Zplus_mod_idemp_l. f_equal.
Qed.
End Call.

(** ** Sessions *)
Definition quiet (i : Z) (d : bytes) : Prop := ~ opens i d /\ ~ rotates i d.
Definition session_kept (n : nat) (ty : Z) (a b : bytes) : Prop := is_session ty = true -> b = a.
Lemma session_path E k i ts s s' : path E k ts s s' -> wf_config s -> ~ Exists (opens i) ts -> ~ Exists (rotates i) ts ->
  goes i session_kept (steps_by i ts) s s'.
Proof.
  intros P W N5 N16. apply (goes_path i session_kept (quiet i)) with (E := E) (k := k).
  - intros ty a _. reflexivity.
  - intros n m ty a b _ C S. exact (C S).
  - intros n m ty a b c C1 C2 S. rewrite (C2 S). exact (C1 S).
  - intros ty a _ T S. destruct T as [->| ->]; discriminate S.
  - intros d Y [X _]. exfalso. exact (X Y).
  - intros d Y [_ X]. exact (X Y).
  - exact P.
  - exact W.
  - apply Forall_Exists_neg in N5, N16. rewrite Forall_forall in *. intros t I. split; auto.
Qed.
(** a session role keeps its credential while nobody opens a session or rotates *)
Lemma session_stays E w w' k s s' i r r' : foreign_ok E -> good_world E w -> reach E w w' -> is_cfg (w k) s -> is_cfg (w' k) s' ->
  find_role i s = Some r -> find_role i s' = Some r' -> is_session (r_aty r) = true ->
  exists ts, path E k ts s s' /\ (Exists (opens i) ts \/ Exists (rotates i) ts \/ (r_aty r' = r_aty r /\ r_auth r' = r_auth r)).
Proof.
  intros F G R C C' F1 F2 S. destruct (reach_path E w w' F G R k) as [_ Fo]. destruct (Fo s C) as [Cl|(s2 & ts & C2 & P)].
  - exfalso. destruct Cl as [_ Cl], C' as (_ & C' & _). rewrite Cl in C'. apply (f_equal (byte_at 0)) in C'.
    rewrite enc_config_byte in C'. discriminate C'.
  - rewrite <- (is_cfg_inj _ _ _ C' C2) in P. exists ts. split; [exact P|].
    destruct (opens_dec i ts) as [I|N5]; [auto|]. destruct (rotates_dec i ts) as [I|N16]; [auto|]. right. right.
    destruct (session_path _ _ i _ _ _ P (proj2 (proj2 C)) N5 N16) as [_ Go]. destruct (Go r r' F1 F2) as [T A]. auto.
Qed.
Lemma acts_session E cx s r : acts E cx s r -> tag (c_data cx) <> 5 -> is_session (r_aty r) = true ->
  signed_by cx (session_key (r_aty r) (r_auth r)) /\ c_slot cx <= session_end (r_aty r) (r_auth r).
Proof.
  intros (_ & a & A) N S. apply Z.eqb_neq in N. rewrite N in A. unfold may_act in A. rewrite S in A. tauto.
Qed.
Lemma acts_plain E cx s r : wf_config s -> acts E cx s r -> r_aty r = 1 -> signed_by cx (r_auth r).
Proof.
  intros W (Fr & a & A) T. pose proof (wf_find _ _ _ W Fr) as (_ & L & _). assert (Q : approves E cx (r_aty r) (r_auth r) (payload_of (c_data cx)) (signed_of (c_data cx)) a).
  { destruct (tag (c_data cx) =? 5); [exact A|]. unfold may_act in A. rewrite T in *. exact A. }
  rewrite T in Q, L. injection L as L. destruct Q as [(_ & Q & _)|[(X & _)|[(X & _)|(X & _)]]]; try (exfalso; lia).
  rewrite firstn_all2 in Q by lia. exact Q.
Qed.
Lemma acts_root E cx s r : acts E cx s r -> r_aty r = 2 -> tag (c_data cx) = 5 -> signed_by cx (firstn 32 (r_auth r)).
Proof.
  intros (_ & a & A) T T5. rewrite T5 in A. cbn [Z.eqb Pos.eqb] in A. rewrite T in A.
  destruct A as [(_ & Q & _)|[(X & _)|[(X & _)|(X & _)]]]; try (exfalso; lia). exact Q.
Qed.

(** ** Two calls *)
Section Two.
Variables (E : env) (cx1 cx2 : ctx) (w w1 w2 w3 : world) (s s2 : config) (r1 r2 : role).
Hypothesis (F : foreign_ok E) (He : hashes_ok E) (G : good_world E w).
Hypothesis (Ad1 : admissible E w (Call cx1)) (S1 : is_cfg (w (acct cx1 0)) s) (H1 : succeeds E cx1 w w1).
Hypothesis (R : reach E w1 w2).
Hypothesis (Ad2 : admissible E w2 (Call cx2)) (S2 : is_cfg (w2 (acct cx2 0)) s2) (H2 : succeeds E cx2 w2 w3).
Hypothesis (K : acct cx2 0 = acct cx1 0) (I : actor_of (c_data cx2) = actor_of (c_data cx1)).
Hypothesis (L1 : auth_layout (c_data cx1) <> None) (F1 : find_role (actor_of (c_data cx1)) s = Some r1).
Hypothesis (L2 : auth_layout (c_data cx2) <> None) (F2 : find_role (actor_of (c_data cx2)) s2 = Some r2).

Lemma good1 : good_world E w1.
Proof. pose proof (event_good E w (Call cx1) F G Ad1) as Q. cbn in Q. unfold succeeds in H1. rewrite H1 in Q. exact Q. Qed.
Lemma closed_no a sx : is_closed a -> is_cfg a sx -> False.
Proof.
  intros [_ Cl] (_ & C' & _). rewrite Cl in C'. apply (f_equal (byte_at 0)) in C'. rewrite enc_config_byte in C'. discriminate C'.
Qed.

Lemma counters_differ : by_counter cx1 r1 -> by_counter cx2 r2 ->
  exists ts, path E (acct cx1 0) ts s s2
    /\ (Exists (rotates (actor_of (c_data cx1))) ts \/ 2 ^ 32 <= Z.of_nat (steps_by (actor_of (c_data cx1)) ts) + 1
        \/ u32_at 8 (payload_of (c_data cx1)) <> u32_at 8 (payload_of (c_data cx2))).
Proof.
  intros B1 B2. pose proof (call_acts E cx1 w w1 s r1 He Ad1 S1 H1 L1 F1) as (_ & a1 & A1).
  pose proof (call_acts E cx2 w2 w3 s2 r2 He Ad2 S2 H2 L2 F2) as (_ & a2 & A2).
  pose proof (wf_find _ _ _ (proj2 (proj2 S1)) F1) as (_ & La1 & Ba1 & _). pose proof (wf_find _ _ _ (proj2 (proj2 S2)) F2) as (_ & La2 & Ba2 & _).
  apply payload_counter in A1 as [P1 _]; try assumption. apply payload_counter in A2 as [P2 _]; try assumption.
  rewrite P1, P2. rewrite K in S2. rewrite I in F2. pose proof (reach_path E w1 w2 F good1 R (acct cx1 0)) as [Cl0 Fo].
  destruct (call_counts E cx1 w w1 s r1 F He G Ad1 S1 H1 L1 F1 B1) as [Cl|(s' & t1 & C' & Pa & Cn)].
  - exfalso. eapply closed_no; [apply Cl0; exact Cl|exact S2].
  - destruct (Fo s' C') as [Cl|(s2' & t2 & C2 & Pb)]; [exfalso; eapply closed_no; eassumption|].
    rewrite <- (is_cfg_inj _ _ _ S2 C2) in Pb. clear C2 s2'. exists (t1 ++ t2). split; [eapply path_app; eassumption|].
    set (i := actor_of (c_data cx1)) in *.
    destruct Cn as [I16|Cn]; [left; apply Exists_app; auto|]. destruct (rotates_dec i t2) as [I16|N16]; [left; apply Exists_app; auto|right].
    destruct (Z_le_gt_dec (2 ^ 32) (Z.of_nat (steps_by i (t1 ++ t2)) + 1)) as [Big|Small]; [left; exact Big|right].
    assert (O : id_order s s').
    { eapply (path_rel E (acct cx1 0) id_order (fun _ => True)); [| | |exact Pa|apply Forall_forall; auto].
      - intros x. split; [lia|auto].
      - exact id_order_trans.
      - intros cx wa x y _ _ St _. apply step_ids in St as (Q1 & Q2 & _). split; assumption. }
    destruct (counted_path _ _ i _ _ _ Pb (proj2 (proj2 C')) N16) as [O2 Go].
    assert (Ib : In i (ids s')).
    { destruct O2 as [_ O2]. destruct (O2 _ (find_ids _ _ _ F2)) as [X|X]; [exact X|].
      pose proof (wf_ids_below _ _ (proj2 (proj2 S1)) (find_ids _ _ _ F1)). destruct O. lia. }
    apply ids_find in Ib as (r' & F'). destruct (Cn r' F') as (_ & m & Lm & Q1). destruct (Go r' r2 F' F2) as [T2 C2].
    destruct B2 as [Hs2 _]. rewrite T2 in Hs2. destruct (C2 Hs2) as (_ & m2 & Lm2 & Q2).
    assert (Q : cred_counter (r_auth r2) mod 2 ^ 32 = (cred_counter (r_auth r1) + 1 + Z.of_nat m + Z.of_nat m2) mod 2 ^ 32).
    { rewrite Q2, Q1. rewrite Zplus_mod_idemp_l. reflexivity. }
    unfold next_counter. intros X. rewrite <- (Zplus_mod_idemp_l (cred_counter (r_auth r2))) in X. rewrite Q, Zplus_mod_idemp_l in X.
    rewrite steps_app in Small. clear - X Small Lm Lm2.
    assert (Y : (1 + Z.of_nat m + Z.of_nat m2) mod 2 ^ 32 = 0).
    { replace (1 + Z.of_nat m + Z.of_nat m2) with ((cred_counter (r_auth r1) + 1 + Z.of_nat m + Z.of_nat m2 + 1) - (cred_counter (r_auth r1) + 1)) by lia.
      rewrite Zminus_mod, <- X, Z.sub_diag. reflexivity. }
    rewrite Z.mod_small in Y by lia. lia.
Qed.

Lemma session_bound : tag (c_data cx1) = 5 -> tag (c_data cx2) <> 5 ->
  let fin := (c_slot cx1 + u64_at 8 (c_data cx1)) mod 2 ^ 64 in
  is_session (r_aty r1) = true /\ u64_at 8 (c_data cx1) <= session_max (r_aty r1) (r_auth r1)
  /\ exists s' ts, is_cfg (w1 (acct cx1 0)) s' /\ path E (acct cx1 0) ts s' s2
       /\ (Exists (opens (actor_of (c_data cx1))) ts \/ Exists (rotates (actor_of (c_data cx1))) ts \/ (signed_by cx2 (sub 16 32 (c_data cx1)) /\ c_slot cx2 <= fin)).
Proof.
  intros T5 N5 fin.
  destruct (session_ok E cx1 w w1 s He (proj1 Ad1) S1 H1 T5) as (x & (Fx & _) & Sx & Mx & C' & _).
  rewrite F1 in Fx. injection Fx as <-. split; [exact Sx|]. split; [exact Mx|]. fold fin in C'.
  pose proof (find_role_in _ _ _ F1) as [_ Hi]. rewrite Hi in C'. pose proof (wf_find _ _ _ (proj2 (proj2 S1)) F1) as (_ & La1 & Ba1 & _).
  set (a := if is_secp (r_aty r1) then count_up (r_auth r1) else r_auth r1) in *.
  match type of C' with is_cfg _ ?x => set (s' := x) in * end. rewrite K in S2. rewrite I in F2.
  pose proof (reach_path E w1 w2 F good1 R (acct cx1 0)) as [_ Fo].
  assert (F' : find_role (actor_of (c_data cx1)) s' = Some (with_auth r1 (with_session (r_aty r1) (sub 16 32 (c_data cx1)) fin a))).
  { unfold s'. rewrite find_role_on, F1 by reflexivity. cbn [option_map]. rewrite Hi, Z.eqb_refl. reflexivity. }
  destruct (session_stays E w1 w2 (acct cx1 0) s' s2 _ _ r2 F good1 R C' S2 F' F2 Sx) as (ts & P & Q).
  exists s', ts. split; [exact C'|]. split; [exact P|]. destruct Q as [Q|[Q|[T A]]]; [auto|auto|]. right. right.
  cbn [with_auth r_auth r_aty] in T, A. pose proof S2 as S2'. pose proof F2 as F2'. rewrite <- K in S2'. rewrite <- I in F2'.
  pose proof (call_acts E cx2 w2 w3 s2 r2 He Ad2 S2' H2 L2 F2') as A2.
  assert (L48 : (48 <= length (c_data cx1))%nat).
  { pose proof H1 as X. pose proof T5 as X5. by_tag X X5. destruct S1 as (_ & Sd & Sw).
    destruct (create_session_spec _ _ _ _ _ (proj1 Ad1) X Sd Sw) as (r & b & b' & _ & _ & X3 & _). exact X3. }
  apply acts_session in A2; [|exact N5|rewrite T; exact Sx]. rewrite T, A in A2.
  assert (Lk : length (sub 16 32 (c_data cx1)) = 32%nat) by (apply sub_length; lia).
  assert (Lx : length a = length (r_auth r1)).
  { unfold a. destruct (is_secp (r_aty r1)) eqn:Q; [|reflexivity]. apply count_up_bytes; [|exact Ba1]. eapply secp_len; eassumption. }
  destruct (with_session_reads (r_aty r1) (sub 16 32 (c_data cx1)) fin a Sx) as (Q1 & Q2 & _); [|exact Lk|apply Z.mod_pos_bound; lia|].
  { rewrite Lx. apply session_len; assumption. }
  rewrite Q1, Q2 in A2. exact A2.
Qed.
End Two.
