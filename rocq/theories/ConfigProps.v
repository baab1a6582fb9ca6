(** * Configuration properties: proofs *)
From Verif Require Import BaseFacts SpecConfig ConfigFacts ConfigEdit ConfigEdit2 ConfigEdit3 NewCredential.
From Verif Require Export Actors.

(** ** Permissions *)
Definition plain (p : Z) : Prop := forall q d, action_matches p q d = true.
Lemma has_holds p q r : plain p -> has p q r = true <-> holds p r.
Proof.
  intros P. unfold has, holds. rewrite existsb_exists. split.
  - intros (a & I & H). apply andb_prop in H as [H _]. apply Z.eqb_eq in H. eauto.
  - intros (a & I & H). exists a. split; [exact I|]. rewrite H, Z.eqb_refl. apply P.
Qed.
Lemma plain_all : plain 7. Proof. intros q d. reflexivity. Qed.
Lemma plain_manage : plain 8. Proof. intros q d. reflexivity. Qed.
Lemma plain_close : plain 20. Proof. intros q d. reflexivity. Qed.
Lemma plain_v2create : plain 22. Proof. intros q d. reflexivity. Qed.
Lemma le4_firstn n d : is_u32 n -> (4 <= length d)%nat -> all_bytes d -> beq (sub 0 4 d) (le_enc 4 n) = true <-> le (firstn 4 d) = n.
Proof.
  intros Hn L B. unfold sub. cbn [skipn]. rewrite beq_eq. split.
  - intros ->. apply le_le_enc. exact Hn.
  - intros <-. symmetry. replace 4%nat with (length (firstn 4 d)) at 1 by (rewrite firstn_length; lia).
    apply le_enc_le. apply all_bytes_firstn. exact B.
Qed.
Lemma has_holds_for p n r : In p [21; 23; 24; 25; 26] -> is_u32 n -> wf_role r -> has p (le_enc 4 n) r = true <-> holds_for p n r.
Proof.
  intros P Hn (_ & _ & _ & _ & _ & _ & W & _). unfold has, holds_for. rewrite existsb_exists.
  assert (M : forall a, In a (r_acts r) -> ac_ty a = p ->
            action_matches p (le_enc 4 n) (ac_data a) = true <-> le (firstn 4 (ac_data a)) = n).
  { intros a I T. rewrite Forall_forall in W. destruct (W a I) as [W1 W2]. rewrite T in W1.
    assert (L : length (ac_data a) = 8%nat).
    { cbn in P. repeat destruct P as [P|P]; try contradiction; rewrite <- P in W1; injection W1 as W1; symmetry; exact W1. }
    rewrite <- le4_firstn by (try assumption; lia).
    cbn in P. repeat destruct P as [P|P]; try contradiction; rewrite <- P; unfold action_matches; cbn [Z.eqb Pos.eqb orb];
      rewrite le_enc_length; reflexivity. }
  split.
  - intros (a & I & H). apply andb_prop in H as [H1 H2]. apply Z.eqb_eq in H1. exists a. split; [exact I|]. split; [exact H1|].
    apply M; assumption.
  - intros (a & I & H1 & H2). exists a. split; [exact I|]. apply andb_true_intro. split; [apply Z.eqb_eq; exact H1|]. apply M; assumption.
Qed.
Lemma can_manage_holds r : can_manage r = true <-> manager r.
Proof. unfold can_manage, manager. rewrite orb_true_iff, !has_holds; [reflexivity|exact plain_manage|exact plain_all]. Qed.
Lemma can_claim_holds r : can_claim r = true <-> holds 7 r \/ holds 20 r.
Proof. unfold can_claim. rewrite orb_true_iff, !has_holds; [reflexivity|exact plain_close|exact plain_all]. Qed.
Lemma can_close_holds r : can_close r = true <-> holds 7 r \/ holds 8 r \/ holds 20 r.
Proof.
  unfold can_close. rewrite !orb_true_iff, !has_holds; [tauto|exact plain_close|exact plain_manage|exact plain_all].
Qed.
Lemma can_replace_holds n r : is_u32 n -> wf_role r -> can_replace n r = true <-> manager r \/ holds_for 21 n r.
Proof.
  intros Hn W. unfold can_replace, manager. rewrite !orb_true_iff, (has_holds P_All _ _ plain_all), (has_holds P_ManageAuthority _ _ plain_manage), has_holds_for;
    [tauto|cbn; tauto|exact Hn|exact W].
Qed.
Lemma scoped_holds p n r : In p [24; 25; 26] -> is_u32 n -> wf_role r -> scoped p n r = true <-> holds_for p n r \/ holds_for 23 n r.
Proof.
  intros P Hn W. unfold scoped. rewrite orb_true_iff, !has_holds_for; [reflexivity| | | | | |]; try assumption; cbn in P |- *; tauto.
Qed.

(** ** Sizes *)
Lemma kinds_ok ty n : action_len ty = Some n <-> In (ty, Z.of_nat n) kinds.
Proof.
  split.
  - unfold action_len. repeat match goal with |- context [if ?b then _ else _] => destruct b eqn:?H end; try discriminate;
      match goal with E : (_ =? _) = true |- _ => apply Z.eqb_eq in E; subst ty end; intros [= <-]; cbn; tauto.
  - unfold kinds. cbn [In]. intros H. repeat destruct H as [H|H]; try contradiction; injection H as <- H; replace n with (Z.to_nat (Z.of_nat n)) by apply Nat2Z.id; rewrite <- H; reflexivity.
Qed.
Lemma credentials_ok ty n : authority_len ty = Some n <-> In (ty, Z.of_nat n) credentials.
Proof.
  split.
  - unfold authority_len. repeat match goal with |- context [if ?b then _ else _] => destruct b eqn:?H end; try discriminate;
      match goal with E : (_ =? _) = true |- _ => apply Z.eqb_eq in E; subst ty end; intros [= <-]; cbn; tauto.
  - unfold credentials. cbn [In]. intros H. repeat destruct H as [H|H]; try contradiction; injection H as <- H; replace n with (Z.to_nat (Z.of_nat n)) by apply Nat2Z.id; rewrite <- H; reflexivity.
Qed.

(** ** Lookup *)
Lemma ans_empty (p : Z) (q : bytes) (Q : Prop) : length q = length (@nil Z) -> (true = true <-> p = p /\ ([] = q \/ Q)).
Proof. intros L. apply length_zero_iff_nil in L. subst q. tauto. Qed.
Lemma ans_slice (p : Z) (q X Y : bytes) n (Q : Prop) : length q = length X -> length X = n -> Y = X -> ~ Q ->
  ((n <=? length q)%nat && beq (sub 0 n q) Y = true <-> p = p /\ (X = q \/ Q)).
Proof.
  intros L1 L2 -> N. replace (n <=? length q)%nat with true by lia. cbn [andb].
  unfold sub. cbn [skipn]. rewrite firstn_all2 by lia. rewrite beq_eq. split; [intros ->; auto|intros [_ [->|H]]; [reflexivity|contradiction]].
Qed.
Lemma ans_four (p : Z) (q X Y : bytes) n (Q : Prop) : length q = length X -> length X = n -> Y = X -> ~ Q ->
  ((length q =? n)%nat && beq Y q = true <-> p = p /\ (X = q \/ Q)).
Proof.
  intros L1 L2 -> N. replace (length q =? n)%nat with true by lia. cbn [andb].
  rewrite beq_eq. split; [intros ->; auto|intros [_ [->|H]]; [reflexivity|contradiction]].
Qed.
Lemma matches_answers p q a : wf_action a -> ac_ty a = p -> length q = length (target_of a) \/ (p = 9 /\ q = []) ->
  action_matches p q (ac_data a) = true <-> answers p q a.
Proof.
  intros [W _] T Lq. rewrite T in W. apply kinds_ok in W. unfold kinds in W. cbn [In] in W.
  unfold answers, action_matches. unfold target_of in *. rewrite T in *.
  repeat destruct W as [W|W]; try contradiction; injection W as <- W;
    cbn [Z.eqb Pos.eqb orb P_Program P_TokenLimit P_TokenRecurringLimit P_SolDestinationLimit P_SolRecurringDestinationLimit
         P_ProgramScope P_TokenDestinationLimit P_TokenRecurringDestinationLimit P_SubAccount P_ReplaceAuthority
         P_SubAccountV2All P_SubAccountV2Sign P_SubAccountV2Withdraw P_SubAccountV2Toggle] in *;
    (destruct Lq as [Lq|[Lq Lq']]; [|try discriminate Lq]).
  all: try solve [apply ans_empty; exact Lq].
  all: try solve [apply ans_slice; [exact Lq| |reflexivity|intros [H _]; discriminate H];
                  rewrite ?firstn_length, ?sub_length by lia; lia].
  all: try solve [apply ans_four; [exact Lq| |reflexivity|intros [H _]; discriminate H];
                  rewrite ?firstn_length; lia].
  - destruct q as [|x t].
    { rewrite firstn_length in Lq. cbn [length] in Lq. lia. }
    apply ans_four; [exact Lq| |reflexivity|intros (_ & H & _); discriminate H]. rewrite firstn_length. lia.
  - subst q. rewrite beq_eq. unfold sub. cbn [skipn]. split; [intros ->; auto|].
    intros [_ [H|(_ & _ & H)]]; [|exact H]. exfalso. apply (f_equal (@length Z)) in H. rewrite firstn_length in H. cbn [length] in H. lia.
Qed.

Lemma first_of_answers p q l : Forall wf_action l ->
  (forall a, In a l -> ac_ty a = p -> length q = length (target_of a) \/ (p = 9 /\ q = [])) ->
  match first_of p q l with
  | None => forall a, In a l -> ~ answers p q a
  | Some d => exists before a after, l = before ++ a :: after /\ (forall b, In b before -> ~ answers p q b)
      /\ answers p q a /\ ac_data a = d
  end.
Proof.
  induction 1 as [|a t W Ws IH]; intros L; cbn [first_of]; [intros a []|].
  assert (M : (ac_ty a =? p) && action_matches p q (ac_data a) = true <-> answers p q a).
  { rewrite andb_true_iff, Z.eqb_eq. split.
    - intros [T H]. apply matches_answers in H; auto. apply L; [left; reflexivity|exact T].
    - intros H. pose proof H as [T _]. split; [exact T|]. apply matches_answers; auto. apply L; [left; reflexivity|exact T]. }
  destruct (_ && _).
  - exists [], a, t. split; [reflexivity|]. split; [intros b []|]. split; [apply M; reflexivity|reflexivity].
  - assert (N : ~ answers p q a) by (rewrite <- M; discriminate).
    specialize (IH (fun b Ib => L b (or_intror Ib))). destruct (first_of p q t) as [d|].
    + destruct IH as (b & x & c & -> & H1 & H2 & H3). exists (a :: b), x, c. split; [reflexivity|]. split; [|auto].
      intros y [<-|Hy]; [exact N|apply H1; exact Hy].
    + intros y [<-|Hy]; [exact N|apply IH; exact Hy].
Qed.
Lemma lookup_finds p q r n : wf_role r -> In (p, Z.of_nat n) kinds ->
  (forall a, wf_action a -> ac_ty a = p -> length q = length (target_of a) \/ (p = 9 /\ q = [])) ->
  finds p q r n (get_action p q (enc_actions 0 (r_acts r))).
Proof.
  intros W K L. apply kinds_ok in K. destruct (get_action_role p q r n W K) as (o & -> & H).
  destruct W as (_ & _ & _ & _ & _ & _ & Wa & _).
  pose proof (first_of_answers p q (r_acts r) Wa) as F. rewrite Forall_forall in Wa.
  specialize (F (fun a Ia T => L a (Wa a Ia) T)). destruct o as [o|].
  - destruct H as (d & F1 & H). rewrite F1 in F. destruct F as (b & a & c & F2 & F3 & F4 & F5). right.
    exists o, b, a, c. subst d. auto 6.
  - rewrite H in F. left. auto.
Qed.

(** ** Roles after an edit *)
Lemma target_length a : wf_action a -> length (target_of a) = target_len (ac_ty a).
Proof.
  intros [L _]. apply kinds_ok in L. destruct a as [ty d]. cbn [ac_ty ac_data] in *. unfold kinds in L. cbn [In] in L.
  repeat destruct L as [L|L]; try contradiction; injection L as Q1 Q2; subst ty; unfold target_of, target_len; cbn [ac_ty ac_data Z.eqb Pos.eqb orb existsb];
    try reflexivity; try (unfold sub; rewrite firstn_length; lia); rewrite ?sub_length; lia.
Qed.
Lemma lookup_answer p q r n : wf_role r -> In (p, Z.of_nat n) kinds -> length q = target_len p \/ (p = 9 /\ q = []) ->
  finds p q r n (get_action p q (enc_actions 0 (r_acts r))).
Proof.
  intros W K Q. apply lookup_finds; [exact W|exact K|]. intros a Wa T. rewrite target_length by exact Wa. rewrite T. exact Q.
Qed.

Lemma lookup_both p q r : wf_role r -> get_action_mut p q (enc_actions 0 (r_acts r)) = get_action p q (enc_actions 0 (r_acts r)).
Proof.
  intros W. pose proof (wf_role_acts_small _ W) as Sm. destruct W as (_ & _ & _ & _ & _ & L & Wa & _).
  rewrite get_action_mut_enc by assumption. destruct (r_acts r) as [|a t]; [cbn in L; lia|]. rewrite get_action_enc; [reflexivity|discriminate|exact Wa|exact Sm].
Qed.

Lemma find_role_on i j f s : (forall r, r_id (f r) = r_id r) ->
  find_role i (on_role j f s) = option_map (fun r => if r_id r =? j then f r else r) (find_role i s).
Proof.
  intros Hf. unfold find_role, on_role. cbn [s_roles with_roles]. induction (s_roles s) as [|r t IH]; [reflexivity|].
  cbn [map find]. assert (R : r_id (if r_id r =? j then f r else r) = r_id r) by (destruct (r_id r =? j); [apply Hf|reflexivity]).
  rewrite R. destruct (r_id r =? i); [reflexivity|exact IH].
Qed.
Lemma after_use_id r : r_id (after_use r) = r_id r.
Proof. unfold after_use. destruct (_ || _); reflexivity. Qed.
Lemma after_use_acts r : r_acts (after_use r) = r_acts r.
Proof. unfold after_use. destruct (_ || _); reflexivity. Qed.
Lemma after_use_aty r : r_aty (after_use r) = r_aty r.
Proof. unfold after_use. destruct (_ || _); reflexivity. Qed.
Lemma find_used i j s : find_role i (used j s) = option_map (fun r => if r_id r =? j then after_use r else r) (find_role i s).
Proof. apply find_role_on. exact after_use_id. Qed.
Lemma find_used_some i j s r1 : find_role i (used j s) = Some r1 ->
  exists r, find_role i s = Some r /\ r_acts r1 = r_acts r /\ r_aty r1 = r_aty r
    /\ (r1 = r \/ (i = j /\ r1 = after_use r)).
Proof.
  rewrite find_used. destruct (find_role i s) as [r|] eqn:Fi; [|discriminate]. cbn. intros [= <-].
  exists r. split; [reflexivity|]. apply find_role_in in Fi as [_ Fi].
  destruct (r_id r =? j) eqn:Q; [|auto]. apply Z.eqb_eq in Q. rewrite after_use_acts, after_use_aty. repeat split. right. split; [lia|reflexivity].
Qed.

Lemma count_up_bytes a : (40 <= length a)%nat -> all_bytes a -> length (count_up a) = length a /\ all_bytes (count_up a).
Proof.
  intros L B. unfold count_up. split.
  - rewrite !app_length, firstn_length, skipn_length, le_enc_length. lia.
  - rewrite !all_bytes_app. split; [apply all_bytes_firstn; exact B|]. split; [apply le_enc_bytes|apply all_bytes_skipn; exact B].
Qed.
Lemma after_use_auth r : wf_role r -> length (r_auth (after_use r)) = length (r_auth r) /\ all_bytes (r_auth (after_use r)).
Proof.
  intros (_ & La & B & _). unfold after_use. destruct (_ || _) eqn:Q; [|auto]. apply count_up_bytes; [|exact B].
  eapply authority_len_40; [exact La|]. apply orb_prop in Q. rewrite !Z.eqb_eq in Q. lia.
Qed.
Lemma used_wf i s : wf_config s -> wf_config (used i s).
Proof.
  intros W. destruct (find_role i s) as [r|] eqn:F.
  - unfold used. rewrite (on_role_ext i after_use (fun r0 => with_auth r0 (r_auth (after_use r))) s r W F).
    + destruct (find_split _ _ _ F) as (l1 & l2 & _ & _ & P). destruct (after_use_auth r (wf_find _ _ _ W F)) as [L B].
      eapply set_auth_enc; eassumption.
    + unfold after_use. destruct (_ || _); [reflexivity|symmetry; apply with_auth_same].
  - unfold used, on_role. rewrite map_ext_in with (g := fun r => r); [rewrite map_id; destruct s; exact W|].
    intros r I. unfold find_role in F. pose proof (find_none _ _ F r I) as N. cbv beta in N. rewrite N. reflexivity.
Qed.

(** ** Rotation *)
Lemma normalize_new ty c pk : normalize_signer ty c = Ok pk -> 1 <= ty <= 6 /\ pk = new_key ty c /\
  length pk = (if (ty =? 1) || (ty =? 2) then 32%nat else 33%nat) /\ (length c = length pk \/ (length c = 64%nat /\ (ty = 3 \/ ty = 4))).
Proof.
  unfold normalize_signer, new_key, key33, T_Ed25519, T_Ed25519Session, T_Secp256k1, T_Secp256k1Session, T_Secp256r1, T_Secp256r1Session.
  destruct ((ty =? 1) || (ty =? 2)) eqn:E1.
  { intros Q. peel Q. apply ok_inj in Q. subst pk. apply orb_prop in E1. rewrite !Z.eqb_eq in E1. repeat split; try lia; auto. }
  destruct ((ty =? 3) || (ty =? 4)) eqn:E2.
  { apply orb_prop in E2. rewrite !Z.eqb_eq in E2. destruct (length c =? 33)%nat eqn:L; intros Q.
    - apply ok_inj in Q. subst pk. repeat split; try lia; auto.
    - peel Q. apply ok_inj in Q. subst pk. split; [lia|].
      split; [rewrite compress_key33 by lia; unfold key33; rewrite L; reflexivity|]. split; [apply compress_length; lia|right; lia]. }
  destruct ((ty =? 5) || (ty =? 6)) eqn:E3; [|discriminate].
  apply orb_prop in E3. rewrite !Z.eqb_eq in E3. intros Q. peel Q. apply ok_inj in Q. subst pk.
  match goal with L : (length c =? 33)%nat = true |- _ => rewrite L end. repeat split; try lia; auto.
Qed.
Lemma cut3 a b (d : bytes) : d = sub 0 a d ++ sub a b d ++ skipn (a + b) d.
Proof. unfold sub. cbn [skipn]. rewrite <- skipn_plus. rewrite firstn_skipn, firstn_skipn. reflexivity. Qed.
Lemma splice_start b c new : length b = length new -> splice 0 new (b ++ c) = new ++ c.
Proof. intros L. apply (splice_app_exact 0 [] b c new eq_refl L). Qed.
Lemma splice_end o a b new : length a = o -> length b = length new -> splice o new (a ++ b) = a ++ new.
Proof. intros L1 L2. pose proof (splice_app_exact o a b [] new L1 L2) as Q. rewrite !app_nil_r in Q. exact Q. Qed.
Lemma rotated_ok ty a pk : authority_len ty = Some (length a) -> 1 <= ty <= 6 ->
  length pk = (if (ty =? 1) || (ty =? 2) then 32%nat else 33%nat) -> replaced_authority ty a pk = rotated ty a pk.
Proof.
  intros La Ht Lp. apply credentials_ok in La. unfold credentials in La. cbn [In] in La.
  repeat destruct La as [La|La]; try contradiction; injection La as <- La; try lia; cbn [Z.eqb Pos.eqb orb] in Lp;
    unfold replaced_authority, rotated, session_offsets, T_Ed25519, T_Ed25519Session, T_Secp256k1, T_Secp256k1Session, T_Secp256r1, T_Secp256r1Session,
      T_ProgramExecSession; cbn [Z.eqb Pos.eqb orb].
  1: { unfold splice. cbn [firstn app]. rewrite skipn_all2 by lia. apply app_nil_r. }
  1: { assert (D : a = sub 0 32 a ++ sub 32 32 a ++ sub 64 8 a ++ sub 72 8 a).
       { rewrite (cut3 32 32 a) at 1. f_equal. f_equal. cbn [Nat.add]. rewrite <- (sub_app_split 64 8 8). unfold sub. rewrite firstn_all2; [reflexivity|].
         rewrite skipn_length. lia. }
       assert (L1 : length (sub 0 32 a) = 32%nat) by (apply sub_length; lia). assert (L2 : length (sub 32 32 a) = 32%nat) by (apply sub_length; lia).
       assert (L3 : length (sub 64 8 a) = 8%nat) by (apply sub_length; lia). assert (L4 : length (sub 72 8 a) = 8%nat) by (apply sub_length; lia).
       revert D L1 L2 L3 L4. generalize (sub 0 32 a) as x1, (sub 32 32 a) as x2, (sub 64 8 a) as x3, (sub 72 8 a) as x4. intros x1 x2 x3 x4 -> L1 L2 L3 L4.
       rewrite splice_start by congruence. rewrite (splice_app_exact 32 pk x2) by (rewrite ?zeros_length; congruence).
       rewrite (app_assoc (zeros 32)), (app_assoc pk). rewrite splice_end; [rewrite <- !app_assoc; reflexivity| |rewrite zeros_length; exact L4].
       rewrite !app_length, zeros_length. lia. }
  1, 3: assert (D : a = sub 0 33 a ++ sub 33 3 a ++ sub 36 4 a)
          by (rewrite (cut3 33 3 a) at 1; f_equal; f_equal; cbn [Nat.add]; unfold sub; rewrite firstn_all2; [reflexivity|rewrite skipn_length; lia]);
        assert (L1 : length (sub 0 33 a) = 33%nat) by (apply sub_length; lia); assert (L2 : length (sub 33 3 a) = 3%nat) by (apply sub_length; lia);
        assert (L3 : length (sub 36 4 a) = 4%nat) by (apply sub_length; lia);
        revert D L1 L2 L3; generalize (sub 0 33 a) as x1, (sub 33 3 a) as x2, (sub 36 4 a) as x3; intros x1 x2 x3 -> L1 L2 L3;
        rewrite splice_start by congruence; rewrite (app_assoc pk); rewrite splice_end; [rewrite <- !app_assoc; reflexivity| |rewrite zeros_length; exact L3];
        rewrite app_length; lia.
  all: assert (D : a = sub 0 33 a ++ sub 33 3 a ++ sub 36 4 a ++ sub 40 32 a ++ sub 72 8 a ++ sub 80 8 a)
          by (rewrite (cut3 33 3 a) at 1; f_equal; f_equal; cbn [Nat.add];
              rewrite <- (sub_app_split 72 8 8), <- (sub_app_split 40 32 16), <- (sub_app_split 36 4 48);
              unfold sub; rewrite firstn_all2; [reflexivity|rewrite skipn_length; lia]);
        assert (L1 : length (sub 0 33 a) = 33%nat) by (apply sub_length; lia); assert (L2 : length (sub 33 3 a) = 3%nat) by (apply sub_length; lia);
        assert (L3 : length (sub 36 4 a) = 4%nat) by (apply sub_length; lia); assert (L4 : length (sub 40 32 a) = 32%nat) by (apply sub_length; lia);
        assert (L5 : length (sub 72 8 a) = 8%nat) by (apply sub_length; lia); assert (L6 : length (sub 80 8 a) = 8%nat) by (apply sub_length; lia);
        revert D L1 L2 L3 L4 L5 L6;
        generalize (sub 0 33 a) as x1, (sub 33 3 a) as x2, (sub 36 4 a) as x3, (sub 40 32 a) as x4, (sub 72 8 a) as x5, (sub 80 8 a) as x6;
        intros x1 x2 x3 x4 x5 x6 -> L1 L2 L3 L4 L5 L6;
        rewrite splice_start by congruence; rewrite (app_assoc pk);
        rewrite (splice_app_exact 36) by (rewrite ?app_length, ?zeros_length; lia);
        rewrite (app_assoc (pk ++ x2)); rewrite (splice_app_exact 40) by (rewrite ?app_length, ?zeros_length; lia);
        rewrite !app_assoc; rewrite splice_end by (rewrite ?app_length, ?zeros_length; lia); rewrite <- !app_assoc; reflexivity.
Qed.

Lemma count_up_head n a : (n <= 36)%nat -> (36 <= length a)%nat -> firstn n (count_up a) = firstn n a.
Proof.
  intros L1 L2. unfold count_up. rewrite firstn_app, firstn_firstn, firstn_length.
  replace (n - Nat.min 36 (length a))%nat with 0%nat by lia. rewrite firstn_O, app_nil_r. f_equal. lia.
Qed.
Lemma count_up_tail o n a : (40 <= o)%nat -> (40 <= length a)%nat -> sub o n (count_up a) = sub o n a.
Proof.
  intros L1 L2. unfold sub. f_equal. unfold count_up. rewrite app_assoc, skipn_app, skipn_all2;
    rewrite app_length, firstn_length, le_enc_length; [|lia]. cbn [app].
  replace (o - (Nat.min 36 (length a) + 4))%nat with (o - 40)%nat by lia. rewrite skipn_plus. f_equal. lia.
Qed.
Lemma session_max_up ty a : authority_len ty = Some (length a) -> is_session ty = true ->
  session_max ty (if is_secp ty then count_up a else a) = session_max ty a.
Proof.
  intros L Ss. destruct (is_secp ty) eqn:Q; [|reflexivity]. unfold session_max. f_equal.
  assert (T : ty = 4 \/ ty = 6).
  { unfold is_session, is_secp in *. rewrite !orb_true_iff, !Z.eqb_eq in *. lia. }
  apply count_up_tail; [|eapply authority_len_40; [exact L|lia]]. destruct T as [-> | ->]; cbn; lia.
Qed.
Lemma after_use_head n r : wf_role r -> (n <= 36)%nat -> firstn n (r_auth (after_use r)) = firstn n (r_auth r).
Proof.
  intros (_ & La & _) L. unfold after_use. destruct (_ || _) eqn:Q; [|reflexivity]. cbn [r_auth with_auth].
  apply orb_prop in Q. rewrite !Z.eqb_eq in Q. apply authority_len_40 in La; [|lia]. apply count_up_head; lia.
Qed.
Lemma load_proof_shown E cx payload actor target ty cur new wal :
  wf_ctx cx -> hashes_ok E ->
  load_proof E cx payload = Ok (wal, proof_hash E (acct cx 0) wal actor target ty cur new) ->
  replacement_shown E cx actor target ty cur new.
Proof.
  intros Hc He H. unfold load_proof in H. cbv zeta in H. peel H.
  match type of H with match find_ix cx ?i with _ => _ end = _ => destruct (find_ix cx i) as [x|] eqn:Fx; [|discriminate] end.
  peel H. apply ok_inj in H. apply pair_equal_spec in H as [H1 H2].
  repeat match goal with B : andb _ _ = true |- _ => apply andb_prop in B as [? B] end.
  apply beq_eq in B5, B8, B9. destruct (ix_metas x) as [|y0 [|y1 yr]] eqn:Mx; try discriminate.
  injection B6 as ->. injection B7 as ->.
  assert (Hv : acct cx 1 = m_key v) by (unfold acct, mkey; rewrite (nth_error_nth _ _ _ B); reflexivity).
  exists v1, x, v2, v3, yr. split.
  { destruct (_ =? 2)%nat; peel B4; apply ok_inj in B4; subst v1; lia. }
  split; [exact Fx|]. split; [exact Mx|]. split; [exact B8|]. split; [congruence|].
  apply Nat.eqb_eq in H. rewrite Hv, H1. unfold proof_hash in H2.
  change (PROOF_DOMAIN ++ ?r) with (proof_domain ++ r) in H2. rewrite <- H2.
  change proof_tag with PROOF_TAG. rewrite <- B5. rewrite <- (sub_app_split 0 8 32). unfold sub. cbn [skipn].
  rewrite firstn_all2 by lia. reflexivity.
Qed.

Section One.
Variables (E : env) (cx : ctx) (w w' : world) (s : config).
Hypothesis (He : hashes_ok E) (Hc : wf_ctx cx) (S : is_cfg (w (acct cx 0)) s) (H : succeeds E cx w w').
Notation data := (c_data cx).
Notation k := (acct cx 0).
Notation s1 := (used (actor_of (c_data cx)) s).

Lemma only_data_others d : only_data w w' k d -> others_kept w w' k.
Proof. intros (_ & _ & O) k' N. destruct (O k' N). split; assumption. Qed.

Ltac acting_role Ht A Ax r s1' := (* A : acts_as .. r s1' ; get acts and s1' = used *)
  assert (Ax : acted E cx s r s1') by acted_by Ht A;
  let U := fresh "U" in pose proof (acted_used _ _ _ _ _ (proj2 (proj2 S)) Ax) as [U _]; subst s1';
  apply acted_acts in Ax; [|exact He|exact Hc|apply S|unfold tag; rewrite Ht; discriminate].

Lemma add_ok : tag data = 1 -> room 1 s ->
  exists r nr, acts E cx s r /\ manager r
    /\ r_id nr = s_counter s /\ r_aty nr = u16_at 6 data /\ r_pad nr = zeros 2
    /\ r_auth nr = new_credential (r_aty nr) (sub 16 (arg_len data) data)
    /\ parses (sub (16 + arg_len data) (nat_of (u16_at 4 data)) data) (r_acts nr)
    /\ is_cfg (w' k) (add_to s1 nr) /\ others_kept w w' k.
Proof.
  intros Ht R. pose proof S as (So & Sd & Sw). pose proof H as P. by_tag P Ht.
  destruct (add_authority_spec _ _ _ _ _ Hc P Sd Sw R) as (r & s1' & nr & A & M & N1 & N2 & N3 & N4 & N5 & O & D & W' & _).
  acting_role Ht A Ax r s1'. exists r, nr. apply can_manage_holds in M.
  repeat (split; [assumption|]).
  split; [|eapply only_data_others; exact D]. eapply only_data_cfg; eassumption.
Qed.

Lemma remove_ok : tag data = 2 ->
  exists r tr, acts E cx s r /\ (manager r \/ r_id r = u32_at 12 data)
    /\ u32_at 12 data <> 0 /\ find_role (u32_at 12 data) s = Some tr
    /\ is_cfg (w' k) (drop_role (u32_at 12 data) s1) /\ others_kept w w' k.
Proof.
  intros Ht. pose proof S as (So & Sd & Sw). pose proof H as P. by_tag P Ht.
  destruct (remove_authority_spec _ _ _ _ _ P Sd Sw) as (r & s1' & tr & A & M & N1 & N2 & O & D & W').
  acting_role Ht A Ax r s1'. exists r, tr. split; [exact Ax|]. split.
  - rewrite can_manage_holds in M. destruct M as [M|M]; [left; exact M|right].
    destruct Ax as (F & _). apply find_role_in in F as [_ F]. rewrite F. unfold actor_of.
    assert (La : auth_layout data = Some (8, 0, 16)%nat) by lay Ht. rewrite La. exact M.
  - split; [exact N1|]. split; [exact N2|]. split; [|eapply only_data_others; exact D]. eapply only_data_cfg; eassumption.
Qed.

Lemma laid_unspent l : laid_out l -> Forall unspent l.
Proof.
  apply Forall_impl. intros [t d] L. unfold unspent. cbn [ac_ty ac_data] in *. unfold validate_layout in L.
  unfold P_SolRecurringLimit, P_StakeRecurringLimit, P_TokenRecurringLimit, P_SolRecurringDestinationLimit, P_TokenRecurringDestinationLimit, P_SubAccount in L.
  assert (C : forall a b : bool, Ok (a && b) = Ok true -> a = true /\ b = true) by (intros [|] [|] Q; cbn in Q; split; congruence).
  split; [|split; [|split; [|split]]]; intros Q; try (destruct Q as [Q|[Q|[]]]); subst t; cbn [Z.eqb Pos.eqb orb] in L;
    try (apply bind_ok in L as (? & _ & L)).
  1,2,3: apply C in L as [L _]; apply andb_prop in L as [L1 L2]; split; apply beq_eq; assumption.
  1,2: apply C in L as [L L3]; apply andb_prop in L as [L1 L2]; split; lia.
  apply C in L as [_ L]. apply beq_eq. exact L.
Qed.

Lemma update_ok : tag data = 3 ->
  let target := u32_at 12 data in
  exists r tr l', acts E cx s r /\ manager r /\ find_role target s = Some tr
    /\ upd_result (fst (update_op data)) (snd (update_op data)) (r_acts tr) l'
    /\ is_cfg (w' k) (on_role target (fun r => with_acts r l') s1) /\ others_kept w w' k /\ Forall unspent l'.
Proof.
  intros Ht target. pose proof S as (So & Sd & Sw). pose proof H as P. by_tag P Ht.
  destruct (update_authority_spec _ _ _ _ _ Hc P Sd Sw) as (r & s1' & tr & l' & A & M & N1 & N2 & N3 & O & D & W' & Lo).
  acting_role Ht A Ax r s1'. apply find_used_some in N1 as (tr0 & N1 & Ta & _ & _).
  exists r, tr0, l'. split; [exact Ax|]. split; [apply can_manage_holds; exact M|]. split; [exact N1|].
  split; [rewrite <- Ta; exact N2|]. split; [eapply only_data_cfg; eassumption|]. split; [eapply only_data_others; exact D|].
  apply laid_unspent. exact Lo.
Qed.


Lemma replace_ok : tag data = 16 ->
  let target := u32_at 8 data in let c := sub 16 (nat_of (u16_at 12 data)) data in
  exists r tr, let pk := new_key (r_aty tr) c in
    acts E cx s r /\ (manager r \/ holds_for 21 target r) /\ find_role target s = Some tr
    /\ 1 <= r_aty tr <= 6 /\ firstn (length pk) (r_auth tr) <> pk
    /\ (length c = length pk \/ (length c = 64%nat /\ (r_aty tr = 3 \/ r_aty tr = 4)))
    /\ (r_aty r = 7 -> replacement_shown E cx (actor_of data) target (r_aty tr) (firstn (length pk) (r_auth tr)) pk)
    /\ is_cfg (w' k) (on_role target (fun r => with_auth r (rotated (r_aty r) (r_auth r) pk)) s1) /\ others_kept w w' k.
Proof.
  intros Ht target c. pose proof S as (So & Sd & Sw). pose proof H as P. by_tag P Ht.
  destruct (replace_authority_spec _ _ _ _ _ Hc P Sd Sw) as (r & s1' & tr & pk & A & M & N1 & N2 & N3 & N4 & O & D & W').
  assert (Ax : acted E cx s r s1') by acted_by Ht A.
  pose proof (acted_used _ _ _ _ _ Sw Ax) as [U _]. subst s1'.
  assert (W1 : wf_config s1) by (apply used_wf; exact Sw).
  apply acted_acts in Ax; [|exact He|exact Hc|exact Sw|unfold tag; rewrite Ht; discriminate].
  pose proof (find_used_some _ _ _ _ N1) as (tr0 & F0 & _ & Ty & Wh).
  pose proof (wf_find _ _ _ W1 N1) as (_ & La & _). 
  destruct (normalize_new _ _ _ N2) as (T6 & Pk & Lp & Lc). subst pk.
  assert (Hd : firstn (length (new_key (r_aty tr) c)) (r_auth tr) = firstn (length (new_key (r_aty tr) c)) (r_auth tr0)).
  { destruct Wh as [->|[_ ->]]; [reflexivity|]. apply after_use_head; [exact (wf_find _ _ _ Sw F0)|].
    fold c in Lp. rewrite Lp. destruct (_ || _); lia. }
  exists r, tr0. rewrite <- Ty. cbv zeta. split; [exact Ax|]. split.
  { apply can_replace_holds in M; [exact M| |].
    - apply u32_bound. apply Hc.
    - destruct Ax as (F & _). exact (wf_find _ _ _ Sw F). }
  split; [exact F0|]. split; [exact T6|]. fold c in N3, N4. change (sub 0 ?n (r_auth tr)) with (firstn n (r_auth tr)) in N3, N4. rewrite Hd in N3. split; [exact N3|].
  split; [exact Lc|]. split.
  { intros T7. destruct (N4 T7) as (wal & L). rewrite Hd in L. eapply load_proof_shown; [exact Hc|exact He|].
    assert (Ly : auth_layout data = Some (4, 0, 16 + nat_of (u16_at 12 data))%nat) by lay Ht.
    unfold actor_of. rewrite Ly. exact L. }
  split; [|eapply only_data_others; exact D].
  assert (Eq : on_role target (fun r => with_auth r (rotated (r_aty r) (r_auth r) (new_key (r_aty tr) c))) s1
             = on_role target (fun r => with_auth r (replaced_authority (r_aty tr) (r_auth tr) (new_key (r_aty tr) c))) s1).
  { apply (on_role_ext _ _ _ _ tr); [exact W1|exact N1|]. cbv beta. f_equal. symmetry. apply rotated_ok; assumption. }
  rewrite Eq. eapply only_data_cfg; [exact S|exact D|exact W'].
Qed.

Lemma session_ok : tag data = 5 ->
  exists r, let a := if is_secp (r_aty r) then count_up (r_auth r) else r_auth r in
    let fin := (c_slot cx + u64_at 8 data) mod 2 ^ 64 in
    acts E cx s r /\ is_session (r_aty r) = true /\ u64_at 8 data <= session_max (r_aty r) (r_auth r)
    /\ is_cfg (w' k) (on_role (r_id r) (fun r => with_auth r (with_session (r_aty r) (sub 16 32 data) fin a)) s) /\ others_kept w w' k.
Proof.
  intros Ht. pose proof S as (So & Sd & Sw). pose proof H as P. by_tag P Ht.
  destruct (create_session_spec _ _ _ _ _ Hc P Sd Sw) as (r & a & a' & F & Ss & L48 & A & St & O & D & W').
  assert (La : auth_layout data = Some (4, 0, 48)%nat) by lay Ht.
  pose proof (wf_find _ _ _ Sw F) as Wr. pose proof Wr as (_ & Wl & Wb & _).
  pose proof (authenticate_leaves _ _ _ _ _ _ _ A) as Aa.
  exists r. cbv zeta. rewrite <- Aa.
  assert (Q : start_session (r_aty r) a (sub 16 32 data) (c_slot cx) (u64_at 8 data) = Ok a') by exact St.
  assert (Lk : length (sub 16 32 data) = 32%nat) by (apply sub_length; lia).
  assert (Wl' : authority_len (r_aty r) = Some (length a)).
  { destruct (authenticate_size _ _ _ _ _ _ _ A Wl Wb) as [L _]. rewrite L. exact Wl. }
  destruct (start_session_ok _ _ _ _ _ _ Wl' Lk Q) as (Q1 & Q2 & Q3). pose proof (find_role_in _ _ _ F) as [_ Fid].
  split; [|split; [exact Q1|split]].
  - unfold acts. cbv zeta. unfold tag. rewrite Ht. cbn [Z.eqb Pos.eqb]. unfold actor_of, payload_of, signed_of. rewrite La.
    split; [exact F|]. exists a. apply authenticate_ok; [exact He|exact Wl|apply all_bytes_skipn; apply Hc|exact A].
  - rewrite Aa, session_max_up in Q2 by assumption. exact Q2.
  - rewrite Fid. split; [|eapply only_data_others; exact D].
    erewrite on_role_ext; [|exact Sw|exact F|].
    + eapply only_data_cfg; [exact S|exact D|exact W'].
    + cbv beta. rewrite <- Q3. reflexivity.
Qed.

Lemma claimer_ok : tag data = 17 -> let c := sub 8 32 data in
  exists r, acts E cx s r /\ (holds 7 r \/ holds 20 r) /\ s_claimer s = None
    /\ c <> zeros 32 /\ c <> k /\ pda E (seeds_wallet k (s_wbump s)) <> Some c
    /\ is_cfg (w' k) (set_claimer s1 c) /\ others_kept w w' k.
Proof.
  intros Ht c. pose proof S as (So & Sd & Sw). pose proof H as P. by_tag P Ht.
  destruct (set_rent_claimer_spec _ _ _ _ _ Hc P Sd Sw) as (r & s1' & A & M & N1 & N2 & N3 & N4 & O & D & W').
  acting_role Ht A Ax r s1'. exists r. apply can_claim_holds in M.
  repeat (split; [assumption|]). split; [|eapply only_data_others; exact D]. eapply only_data_cfg; eassumption.
Qed.
Lemma only_managers : tag data = 1 /\ room 1 s \/ tag data = 2 \/ tag data = 3 ->
  exists r, acts E cx s r /\ (manager r \/ (tag data = 2 /\ r_id r = u32_at 12 data)).
Proof.
  intros [(T & R)|[T|T]].
  - destruct (add_ok T R) as (r & nr & A & M & _). eauto.
  - destruct (remove_ok T) as (r & nr & A & M & _). exists r. tauto.
  - destruct (update_ok T) as (r & nr & l' & A & M & _). eauto.
Qed.
End One.
