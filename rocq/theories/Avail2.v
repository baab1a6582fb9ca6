(** * A manager can add roles *)
From Verif Require Import BaseFacts SpecConfig ConfigFacts ConfigEdit NewCredential ConfigEdit2 ConfigEdit3.
From Verif Require Import Frame HandlerRoles HandlerRoles2 Actors ConfigProps AuthFacts SpecAvail Avail.

(** ** Classification *)
Lemma scopes_at l : forall fuel st o buf, actions_at st o buf l -> length buf = (o + acts_len l)%nat -> (length l < fuel)%nat ->
  Forall wf_action l ->
  scopes_loop fuel buf o = map ac_data (filter (fun a => ac_ty a =? 4) l).
Proof.
  induction l as [|a t IH]; intros [|f] st o buf H L Hf W; cbn [length] in *; try lia; cbn [scopes_loop map filter].
  - cbn in L. replace (o + 8 <=? length buf)%nat with false by lia. reflexivity.
  - cbn in H. destruct H as [H1 H2]. cbn [acts_len] in L. inversion W as [|? ? Wa Wt]; subst.
    replace (o + 8 <=? length buf)%nat with true by lia.
    rewrite (afld_len st o buf a), (afld_ty st o buf a) by assumption.
    replace (o + 8 + length (ac_data a) <=? length buf)%nat with true by lia.
    rewrite (IH f (st + 8 + length (ac_data a))%nat (o + 8 + length (ac_data a))%nat buf) by (try assumption; lia).
    unfold P_ProgramScope. destruct (ac_ty a =? 4) eqn:Q.
    + apply Z.eqb_eq in Q. destruct Wa as [Wa _]. rewrite Q in Wa. unfold action_len in Wa. cbn in Wa.
      replace (length (ac_data a) =? SCOPE_LEN)%nat with true by (unfold SCOPE_LEN; injection Wa as <-; reflexivity).
      cbn [andb app map]. rewrite (afld_data st o buf a) by assumption. reflexivity.
    + reflexivity.
Qed.
Lemma scopes_enc r : wf_role r ->
  scopes_loop (S (length (enc_actions 0 (r_acts r)))) (enc_actions 0 (r_acts r)) 0
  = map ac_data (filter (fun a => ac_ty a =? 4) (r_acts r)).
Proof.
  intros W. pose proof (enc_actions_length 0 (r_acts r)) as L. pose proof (acts_len_ge (r_acts r)).
  apply (scopes_at _ _ 0%nat); try lia.
  - pose proof (actions_at_app 0 0 [] (r_acts r) [] eq_refl) as A. cbn [app] in A. rewrite app_nil_r in A. exact A.
  - destruct W as (_ & _ & _ & _ & _ & (_ & W & _)). exact W.
Qed.

(** the program scopes of a wallet, by role id *)
Definition scope_list (s : config) : list bytes :=
  flat_map (fun i => match find_role (Z.of_nat i) s with
                     | Some r => map ac_data (filter (fun a => ac_ty a =? 4) (r_acts r))
                     | None => []
                     end) (seq 0 (nat_of (s_counter s))).
Lemma find_role_wf i s r : wf_config s -> find_role i s = Some r -> wf_role r /\ In r (s_roles s) /\ r_id r = i.
Proof.
  intros W F. apply find_role_in in F as [I Q]. split; [|split; [exact I|exact Q]].
  destruct W as (_ & _ & _ & _ & _ & _ & _ & W8 & _). rewrite Forall_forall in W8. auto.
Qed.
Lemma find_role_mine s r : wf_config s -> In r (s_roles s) -> find_role (r_id r) s = Some r.
Proof.
  intros W I. destruct (find_role (r_id r) s) as [x|] eqn:F.
  - rewrite (find_role_unique _ _ _ _ W F I eq_refl). reflexivity.
  - unfold find_role in F. apply (find_none _ _ F) in I. lia.
Qed.
Lemma get_mut_find i s : wf_config s -> get_mut_role i (enc_roles 0 (s_roles s))
  = Ok (match pos_of i 0 (s_roles s) with Some (o, r) => Some (view_of o r) | None => None end)
  /\ find_role i s = match pos_of i 0 (s_roles s) with Some (_, r) => Some r | None => None end.
Proof.
  intros W. pose proof (wf_roles_small s W). pose proof W as (_ & _ & _ & _ & _ & _ & _ & W8 & _).
  rewrite get_mut_role_enc by (try assumption; lia). unfold find_role. rewrite <- (pos_of_find i 0).
  destruct (pos_of i 0 (s_roles s)) as [[o r]|]; split; reflexivity.
Qed.
Lemma scope_cache_enc s : wf_config s -> scope_cache (enc_config s) = Some (scope_list s).
Proof.
  intros W. unfold scope_cache. rewrite split_parts_enc by exact W.
  assert (C : h_counter (enc_header s) = s_counter s).
  { pose proof W as (W1 & (W2 & W2') & W3 & W4 & W5 & _). rewrite <- (app_nil_r (enc_header s)). apply hf_counter; assumption. }
  rewrite C. unfold scope_list. f_equal. apply flat_map_ext. intros i.
  destruct (get_mut_find (Z.of_nat i) s W) as [G F]. rewrite G, F.
  destruct (pos_of (Z.of_nat i) 0 (s_roles s)) as [[o r]|] eqn:P; [|reflexivity].
  cbn [rv_acts view_of]. apply scopes_enc. eapply find_role_wf; [exact W|]. rewrite F. reflexivity.
Qed.
Lemma scope_list_in s p : wf_config s -> In p (scope_list s) <->
  exists r a, In r (s_roles s) /\ In a (r_acts r) /\ ac_ty a = 4 /\ ac_data a = p.
Proof.
  intros W. unfold scope_list. rewrite in_flat_map. split.
  - intros (i & _ & H). destruct (find_role (Z.of_nat i) s) as [r|] eqn:F; [|destruct H].
    apply in_map_iff in H as (a & <- & H). apply filter_In in H as [H Q]. apply find_role_wf in F as (_ & F & _); [|exact W].
    exists r, a. split; [exact F|]. split; [exact H|]. split; [lia|reflexivity].
  - intros (r & a & I & J & Q & <-). pose proof W as (_ & _ & _ & _ & _ & _ & _ & W8 & W9 & W10 & _).
    rewrite Forall_forall in W8. destruct (W8 r I) as ([U0 U1] & _).
    assert (Hi : In (r_id r) (ids s)) by (apply in_map; exact I). apply W10 in Hi.
    exists (nat_of (r_id r)). split; [apply in_seq; unfold nat_of; lia|].
    unfold nat_of. rewrite Z2Nat.id by lia.
    assert (F : find_role (r_id r) s = Some r) by (apply find_role_mine; assumption).
    rewrite F. apply in_map. apply filter_In. split; [exact J|lia].
Qed.

Section Classify.
Variables (w : world) (s : config) (k0 : key).
Hypothesis (C : is_cfg (w k0) s).
Lemma cfg_is_config : is_config w k0 = true.
Proof.
  destruct C as (O & D & W). unfold is_config. rewrite O, D, beq_refl. pose proof (enc_config_length s W) as L.
  replace (HDR <=? length (enc_config s))%nat with true by lia. reflexivity.
Qed.
Lemma classify_can k1 wal i k : ordinary w s k -> (1 <= i)%nat -> can (classify w (Some (scope_list s)) k0 k1 wal i k).
Proof.
  intros (O & N) I. unfold classify. cbv zeta. rewrite cfg_is_config. replace (i =? 0)%nat with false by lia.
  destruct (beq (a_owner (w k)) SELF). { destruct (negb _); apply can_ok. }
  destruct (beq (a_owner (w k)) SYSTEM && (i =? 1)%nat); [apply can_ok|].
  apply beq_neq in O. rewrite O. destruct (_ && _ && _). { destruct (_ || _); apply can_ok. }
  destruct (find_scope (scope_list s) k) as [p|] eqn:F; [|apply can_ok].
  unfold find_scope in F. apply find_some in F as [F Q]. apply scope_list_in in F as (r & a & H1 & H2 & H3 & <-); [|apply C].
  destruct (N r a H1 H2). split; [exact H3|]. apply beq_eq in Q. exact Q.
Qed.
Lemma classify_from_can k1 ms : forall wal i, (forall m, In m ms -> ordinary w s (m_key m)) -> (1 <= i)%nat ->
  can (classify_from w (Some (scope_list s)) k0 k1 wal i ms).
Proof.
  induction ms as [|m t IH]; intros wal i H I; cbn [classify_from]; [apply can_ok|].
  apply can_then; [apply classify_can; [apply H; left; reflexivity|exact I]|]. intros c _.
  apply can_then; [apply IH; [intros m' Hm; apply H; right; exact Hm|lia]|]. intros; apply can_ok.
Qed.
Lemma classify_all_can ms : mkey ms 0 = k0 -> (1 <= length ms <= 254)%nat ->
  (forall m, In m (tl ms) -> ordinary w s (m_key m)) -> can (classify_all w ms).
Proof.
  intros K L H. unfold classify_all, MAX_ACCOUNTS. apply can_check; [lia|]. apply can_check; [lia|]. cbv zeta.
  rewrite K, cfg_is_config. destruct C as (O & D & W). rewrite D, scope_cache_enc by exact W.
  destruct ms as [|m t]; [cbn in L; lia|]. cbn [classify_from tl] in *. unfold mkey in K. cbn [nth] in K. rewrite K.
  apply (can_bind _ _ CThisSwig).
  - unfold classify. cbv zeta. rewrite O, beq_refl, cfg_is_config. reflexivity.
  - apply can_then; [apply classify_from_can; [exact H|lia]|]. intros; apply can_ok.
Qed.
End Classify.

(** ** The shared opening *)
Lemma shows_auth E cx r i sdata : wf_role r -> shows cx r i ->
  role_authenticate E cx (r_aty r) (r_auth r) [i] sdata = Ok (r_auth r).
Proof.
  intros (_ & L & _) (B & m & N & S & D). unfold role_authenticate.
  destruct D as [(T & K)|(T & K & X)].
  - rewrite T in *. cbn [session_based Z.eqb Pos.eqb orb T_Ed25519Session T_Secp256k1Session T_Secp256r1Session T_ProgramExecSession].
    unfold authenticate. cbn [Z.eqb Pos.eqb orb T_Ed25519 length Nat.eqb check bind]. unfold ed25519_authenticate, nat_of, byte_at.
    cbn [nth]. rewrite N, S, K. cbn in L. injection L as L.
    replace (sub 0 32 (r_auth r)) with (r_auth r) by (unfold sub; cbn [skipn]; rewrite firstn_all2 by lia; reflexivity).
    rewrite beq_refl. reflexivity.
  - assert (D : r_aty r = 2 \/ r_aty r = 4 \/ r_aty r = 6 \/ r_aty r = 8) by (unfold is_session in T; lia).
    unfold session_key, session_end, session_at in *.
    destruct D as [D|[D|[D|D]]]; rewrite D in *; cbn [Z.eqb Pos.eqb orb Nat.add] in K, X;
      cbn [session_based Z.eqb Pos.eqb orb T_Ed25519Session T_Secp256k1Session T_Secp256r1Session T_ProgramExecSession];
      unfold authenticate_session, session_offsets;
      cbn [Z.eqb Pos.eqb orb T_Ed25519Session T_Secp256k1Session T_Secp256r1Session T_ProgramExecSession length Nat.eqb check bind guard negb];
      unfold u64_at; (replace (c_slot cx <=? _) with true by (symmetry; apply Z.leb_le; exact X));
      cbn [check bind]; unfold ed25519_authenticate, nat_of, byte_at; cbn [nth]; rewrite N, S, K, beq_refl; reflexivity.
Qed.
Lemma open_can E cx s rid r payload sdata a : wf_config s -> find_role rid s = Some r ->
  role_authenticate E cx (r_aty r) (r_auth r) payload sdata = Ok a ->
  can (open_role E cx (enc_config s) rid payload sdata).
Proof.
  intros W F A. unfold open_role, open_with. rewrite split_parts_enc by exact W. cbn [bind].
  destruct (get_mut_find rid s W) as [G Q]. rewrite G. rewrite F in Q. destruct (pos_of rid 0 (s_roles s)) as [[o r']|]; [|discriminate Q].
  injection Q as <-. cbn [bind ok_or view_of rv_ty rv_auth]. rewrite A. apply can_ok.
Qed.
Lemma on_role_same s r : wf_config s -> find_role (r_id r) s = Some r -> on_role (r_id r) (fun r0 => with_auth r0 (r_auth r)) s = s.
Proof.
  intros W F. unfold on_role. destruct s as [a b c d e f l g]. unfold with_roles. cbn [s_bump s_id s_counter s_wbump s_pad s_subctr s_roles s_claimer] in *.
  f_equal. rewrite <- (map_id l) at 2. apply map_ext_in. intros x I. destruct (r_id x =? r_id r) eqn:Q; [|reflexivity].
  assert (X : find_role (r_id x) (mk_config a b c d e f l g) = Some x) by (apply find_role_mine; assumption).
  apply Z.eqb_eq in Q. rewrite Q, F in X. injection X as ->. destruct x; reflexivity.
Qed.
Lemma cred_size ty c : credential_ok ty c -> authority_len ty = Some (length (new_credential ty c)).
Proof.
  intros H. destruct (credential_type _ _ H) as (_ & n & L). destruct (set_can ty c (zeros n) H) as [a A].
  assert (L' : authority_len ty = Some (length (zeros n))) by (rewrite zeros_length; exact L).
  pose proof (set_into_bytes_length _ _ _ _ A L') as La.
  rewrite (set_into_bytes_new _ _ _ _ (n - 24) A L') in La by (rewrite skipn_zeros; reflexivity).
  rewrite La. exact L'.
Qed.
