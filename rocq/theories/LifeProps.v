(** * The life of a wallet: claimer, closing, creation.  Proofs *)
From Verif Require Import BaseFacts SpecConfig ConfigFacts ConfigEdit ConfigEdit2 ConfigEdit3 NewCredential.
From Verif Require Import AuthProps HandlerRoles2 HandlerSub HandlerLife HandlerV2 HandlerAssets SignSpec.
From Verif Require Export SpecLife HistoryProps Outcome.

(** ** The rent claimer *)
Definition keeps_claimer (s s' : config) : Prop := forall c, s_claimer s = Some c -> s_claimer s' = Some c.
Lemma edit_claimer E cx k w s r s1 s' : s_claimer s1 = s_claimer s -> edit E cx k w s r s1 s' -> keeps_claimer s1 s'.
Proof.
  intros Q Ed c C. destruct Ed; try exact C.
  - rewrite Q in C. congruence.
  - cbv zeta. destruct (has P_SubAccountV2All _ _); exact C.
Qed.
Lemma step_claimer E cx k w s s' : config_step E cx k w s s' -> keeps_claimer s s'.
Proof.
  intros H. destruct H as [r s1 s' _ A Ed|r a a' _ _ _ _ _ _|r s0 l _ _ _ _ _]; [|intros c C; exact C..].
  destruct A as (_ & a & _ & ->). intros c C. eapply edit_claimer; [|exact Ed|exact C]. reflexivity.
Qed.
Lemma claimer_stays E w w' k s c : foreign_ok E -> good_world E w -> reach E w w' -> is_cfg (w k) s -> s_claimer s = Some c ->
  is_closed (w' k) \/ exists s', is_cfg (w' k) s' /\ s_claimer s' = Some c.
Proof.
  intros F G R C Q. destruct (reach_path E w w' F G R k) as [_ P]. destruct (P s C) as [Cl|(s2 & ts & C2 & Pa)]; [left; exact Cl|right].
  exists s2. split; [exact C2|]. revert Q. apply (path_rel E k keeps_claimer (fun _ => True)) with (ts := ts).
  - intros x y H. exact H.
  - intros x y z H1 H2 c0 H. apply H2, H1, H.
  - intros cx wa x y _ _ St _. eapply step_claimer; exact St.
  - exact Pa.
  - apply Forall_forall. auto.
Qed.
Lemma claimer_binds E cx w w' s c : is_cfg (w (acct cx 0)) s -> In (tag (c_data cx)) [14; 15] -> succeeds E cx w w' ->
  s_claimer s = Some c -> acct cx 2 = c.
Proof.
  intros (So & Sd & Sw) T H C. unfold succeeds in H. cbn in T. destruct T as [T|[T|[]]]; symmetry in T; by_tag H T.
  - destruct (close_token_spec _ _ _ _ _ H Sd Sw) as (r & s1 & w1 & _ & _ & A & _). exact (A _ C).
  - destruct (close_swig_spec _ _ _ _ _ H Sd Sw) as (r & s1 & _ & _ & A & _). exact (A _ C).
Qed.

(** ** Closing *)
Lemma close_swig_paid E cx w w' s : close_swig_v1 E cx w = Ok w' ->
  let swig := mkey (c_metas cx) 0 in let wallet := mkey (c_metas cx) 1 in let dest := mkey (c_metas cx) 2 in
  a_data (w swig) = enc_config s -> wf_config s -> 0 <= rent E 1 -> 0 <= a_lamports (w wallet) -> dest <> swig -> dest <> wallet ->
  a_lamports (w' dest) = a_lamports (w dest) + a_lamports (w wallet) + (a_lamports (w swig) - rent E 1)
  /\ a_lamports (w' wallet) = 0 /\ a_lamports (w' swig) = rent E 1
  /\ forall k, k <> swig -> k <> wallet -> k <> dest -> a_lamports (w' k) = a_lamports (w k).
Proof.
  intros H swig wallet dest Hd W R0 L0 N1 N2.
  unfold close_swig_v1 in H. cbv zeta in H. fold swig wallet dest in H.
  peel H.
  grab ((if 0 <? _ then _ else _) = Ok _) as Bt. grab (pay_out _ _ _ _ _ _ = Ok _) as Bp.
  apply write_data_only in H as (_ & _ & _ & Hl). apply pay_out_ok in Bp as (_ & _ & P1 & _ & P3). apply beq_eq in B0.
  destruct (P1 ltac:(congruence)) as (Q1 & Q2 & Q3). rewrite !Hl.
  assert (T : a_lamports (v3 dest) = a_lamports (w dest) + a_lamports (w wallet) /\ a_lamports (v3 wallet) = 0
              /\ a_lamports (v3 swig) = a_lamports (w swig) /\ (forall k, k <> wallet -> k <> dest -> a_lamports (v3 k) = a_lamports (w k))).
  { destruct (0 <? a_lamports (w wallet)) eqn:Z0.
    - apply sys_transfer_moved in Bt as ((_ & _ & M) & O & _). destruct (M ltac:(congruence)) as (M1 & M2 & M3).
      assert (wallet <> swig) by (intros X; rewrite X, B0 in O; discriminate O).
      split; [lia|]. split; [lia|]. split; [apply M3; congruence|exact M3].
    - apply ok_inj in Bt. subst v3. split; [lia|]. split; [lia|]. split; reflexivity. }
  destruct T as (T1 & T2 & T3 & T4).
  unfold sat_sub in *. split; [lia|]. split; [|split; [exact Q1|]].
  - destruct (bytes_dec wallet swig) as [X|X]; [|rewrite P3 by congruence; exact T2].
    change (mkey (c_metas cx) 1) with wallet. rewrite X in *. unfold sat_sub in *. lia.
  - intros k K1 K2 K3. rewrite Hl, P3 by assumption. apply T4; assumption.
Qed.


Lemma sub_mid (a b c : bytes) o n : length a = o -> length b = n -> sub o n (a ++ b ++ c) = b.
Proof.
  intros <- <-. unfold sub. rewrite skipn_app, skipn_all, Nat.sub_diag. change (skipn 0 (b ++ c)) with (b ++ c). cbn [app].
  rewrite firstn_app, firstn_all, Nat.sub_diag. change (firstn 0 c) with (@nil Z). apply app_nil_r.
Qed.

Lemma first_of_in ty q l d : first_of ty q l = Some d -> exists a, In a l /\ ac_ty a = ty /\ ac_data a = d /\ action_matches ty q d = true.
Proof.
  induction l as [|a t IH]; cbn [first_of]; [discriminate|].
  destruct ((ac_ty a =? ty) && action_matches ty q (ac_data a)) eqn:Q.
  - intros [= <-]. apply andb_prop in Q as [Q1 Q2]. apply Z.eqb_eq in Q1. exists a. split; [left; reflexivity|auto].
  - intros Fs. destruct (IH Fs) as (b & I & B). exists b. split; [right; exact I|exact B].
Qed.
Lemma first_of_owns s r sa p : wf_key sa -> first_of 9 sa (r_acts r) = Some p -> sa_swig_id p = s_id s -> sa_role p = r_id r ->
  sa_enabled p <> 0 -> owns_sub s r sa (sa_bump p).
Proof.
  intros [Ls _] Fs A B C. destruct (first_of_in _ _ _ _ Fs) as (a & I & T & D & M). subst p. exists a.
  split; [exact I|]. split; [exact T|]. split; [|auto].
  unfold action_matches in M. cbn [Z.eqb Pos.eqb orb] in M. destruct sa as [|z t]; [discriminate|].
  apply andb_prop in M as [_ M]. apply beq_eq in M. exact M.
Qed.

Definition scope_is (p : Z * Z) (a : action) : bool := (ac_ty a =? fst p) && (le (firstn 4 (ac_data a)) =? snd p).
Lemma scopes_filter n l : ~ In (23, n) (v2_scopes l) -> filter (scope_is (23, n)) l = [].
Proof.
  induction l as [|a t IH]; intros N; [reflexivity|]. cbn [filter]. unfold scope_is at 1. cbn [fst snd].
  cbn [v2_scopes] in N. unfold v2_scope in N.
  destruct (ac_ty a =? 23) eqn:Q; cbn [andb].
  - apply Z.eqb_eq in Q. rewrite Q in N. cbn [Z.eqb Pos.eqb Z.leb Z.compare Pos.compare Pos.compare_cont andb] in N. cbn [In] in N.
    destruct (_ =? n) eqn:Q2; [apply Z.eqb_eq in Q2; exfalso; apply N; left; congruence|]. apply IH. tauto.
  - apply IH. intros I. apply N. destruct (_ =? 22); [right; exact I|]. destruct (_ && _); [right; exact I|exact I].
Qed.
Lemma grants_once n r : wf_role r -> holds_for 23 n r -> grants n r = 1%nat.
Proof.
  intros (_ & _ & _ & _ & _ & _ & _ & N) (a & I & T & V). unfold grants. change (fun a => _) with (scope_is (23, n)).
  induction (r_acts r) as [|b t IH]; [destruct I|]. cbn [filter]. cbn [v2_scopes] in N.
  destruct (scope_is (23, n) b) eqn:Q.
  - assert (Q' := Q). unfold scope_is in Q. cbn [fst snd] in Q. apply andb_prop in Q as [Q1 Q2]. apply Z.eqb_eq in Q1, Q2.
    unfold v2_scope in N. rewrite Q1 in N. cbn [Z.eqb Pos.eqb Z.leb Z.compare Pos.compare Pos.compare_cont andb] in N. rewrite Q2 in N. apply NoDup_cons_iff in N as [N _].
    rewrite scopes_filter by assumption. reflexivity.
  - destruct I as [->|I].
    + unfold scope_is in Q. cbn [fst snd] in Q. rewrite T, V, !Z.eqb_refl in Q. discriminate Q.
    + apply IH; [|exact I]. destruct (v2_scope b); [inversion N; assumption|exact N].
Qed.

Section One.
Variables (E : env) (cx : ctx) (w w' : world) (s : config).
Hypothesis (He : hashes_ok E) (Hc : wf_ctx cx) (S : is_cfg (w (acct cx 0)) s) (H : succeeds E cx w w').
Notation data := (c_data cx).
Notation k := (acct cx 0).
Notation s1 := (used (actor_of (c_data cx)) s).

Ltac acting_role Ht A Ax r s1' := (* A : acts_as .. r s1' ; get acts and s1' = used *)
  assert (Ax : acted E cx s r s1') by acted_by Ht A;
  let U := fresh "U" in pose proof (acted_used _ _ _ _ _ (proj2 (proj2 S)) Ax) as [U _]; subst s1';
  apply acted_acts in Ax; [|exact He|exact Hc|apply S|unfold tag; rewrite Ht; discriminate].

Lemma close_ok : tag data = 15 ->
  exists r, acts E cx s r /\ (holds 7 r \/ holds 8 r \/ holds 20 r)
    /\ acct cx 1 = fst (find_pda E (seeds_wallet0 (acct cx 0)))
    /\ a_lamports (w (acct cx 0)) <= rent E (length (a_data (w (acct cx 0)))) /\ a_lamports (w (acct cx 1)) <= rent E 0
    /\ is_closed (w' (acct cx 0)) /\ others_kept w w' (acct cx 0)
    /\ (0 <= rent E 1 -> 0 <= a_lamports (w (acct cx 1)) -> acct cx 2 <> acct cx 0 -> acct cx 2 <> acct cx 1 ->
          a_lamports (w' (acct cx 2)) = a_lamports (w (acct cx 2)) + a_lamports (w (acct cx 1)) + (a_lamports (w (acct cx 0)) - rent E 1)
          /\ a_lamports (w' (acct cx 1)) = 0 /\ a_lamports (w' (acct cx 0)) = rent E 1
          /\ forall k, k <> acct cx 0 -> k <> acct cx 1 -> k <> acct cx 2 -> a_lamports (w' k) = a_lamports (w k)).
Proof.
  intros T. pose proof S as (So & Sd & Sw). pose proof H as P. by_tag P T.
  destruct (close_swig_spec _ _ _ _ _ P Sd Sw) as (r & s1 & A & M & _ & Cw & L1 & L2 & O & D).
  acting_role T A Ax r s1. exists r. apply can_close_holds in M. rewrite Sd.
  pose proof (close_swig_paid _ _ _ _ s P Sd Sw) as Pd.
  split; [exact Ax|]. split; [exact M|]. split; [exact Cw|]. split; [exact L1|]. split; [exact L2|].
  split; [|split; [|exact Pd]].
  - destruct D as (D1 & D2 & _). split; [unfold acct in *; congruence|exact D1].
  - intros k' N. apply (proj2 (proj2 D)). exact N.
Qed.

(** ** V2 sub-accounts *)
Lemma sub_enabled st sa n : good_world E w -> v2_enabled_for E w s st sa n -> enabled_sub E w s st sa n.
Proof.
  intros G (O & L & B0 & En & Sid & Id & Ky & P). cbv zeta in *.
  destruct (good_record _ _ _ (G st O) B0) as (b & ab & en & n0 & sid & sa0 & D & _ & W1 & W2 & W3 & W4 & W5 & P1 & P2).
  assert (F1 : v2_enabled (a_data (w st)) = en) by (rewrite D; reflexivity).
  assert (F2 : v2_bump (a_data (w st)) = b) by (rewrite D; reflexivity).
  destruct W4 as [W4 W4'], W5 as [W5 W5'].
  assert (F3 : v2_id (a_data (w st)) = n0).
  { rewrite D. unfold v2_id, u32_at, v2_record. rewrite (sub_mid [D_SubV2; b; ab; en]) by (rewrite ?le_enc_length; reflexivity).
    apply le_le_enc. exact W3. }
  assert (F4 : v2_swig_id (a_data (w st)) = sid).
  { rewrite D. unfold v2_swig_id, v2_record. rewrite (app_assoc [_; _; _; _]). apply sub_mid; [|exact W4].
    rewrite app_length, le_enc_length. reflexivity. }
  assert (F5 : v2_key (a_data (w st)) = sa0).
  { rewrite D. unfold v2_key, v2_record. rewrite (app_assoc [_; _; _; _]), (app_assoc (_ ++ _)). rewrite <- (app_nil_r sa0) at 1.
    apply sub_mid; [|exact W5]. rewrite !app_length, le_enc_length, W4. reflexivity. }
  rewrite Sid in F4. rewrite Id in F3. rewrite Ky in F5. rewrite En in F1. rewrite <- F4, <- F3 in P1, P2. rewrite <- F5 in P2.
  exists b, ab. split; [exact O|]. split; [|split; [exact P1|exact P2]].
  rewrite D, F5, <- F1, F3, F4. reflexivity.
Qed.
Lemma acting_in : forall r, acts E cx s r -> wf_role r.
Proof. intros r (F & _). apply (wf_find _ _ _ (proj2 (proj2 S)) F). Qed.

Lemma v2_denies : good_world E w -> In (tag data) [19; 20; 21] -> let n := u32_at 8 data in
  exists r, acts E cx s r
    /\ (holds_for (if tag data =? 19 then 26 else if tag data =? 20 then 24 else 25) n r \/ holds_for 23 n r)
    /\ (tag data = 20 -> enabled_sub E w s (acct cx 1) (acct cx 2) n)
    /\ (tag data = 21 -> enabled_sub E w s (acct cx 2) (acct cx 3) n).
Proof.
  intros G T n. pose proof S as (So & Sd & Sw). assert (Hn : is_u32 n) by (apply u32_bound; apply Hc).
  destruct T as [T|[T|[T|[]]]]; symmetry in T; pose proof H as P; pose proof T as T'; by_tag P T'; rewrite T; cbn [Z.eqb Pos.eqb].
  - destruct (toggle_sub_v2_spec _ _ _ _ _ Hc P Sd Sw) as (r & s1 & A & M & _). acting_role T' A Ax r s1. exists r.
    split; [exact Ax|]. split; [|split; discriminate]. apply scoped_holds in M; [exact M|cbn; tauto|exact Hn|apply acting_in; exact Ax].
  - destruct (sub_sign_v2_spec _ _ _ _ _ Hc S T P) as (r & s1 & w0 & xs & A & _ & _ & _ & _ & _ & _ & M & _ & V & _).
    apply acted_acts in A; [|exact He|exact Hc|apply S|rewrite T; discriminate]. exists r.
    split; [exact A|]. split; [|split; [intros _; apply sub_enabled; assumption|discriminate]].
    apply scoped_holds in M; [exact M|cbn; tauto|exact Hn|apply acting_in; exact A].
  - destruct (withdraw_v2_spec _ _ _ _ _ P Sd Sw) as (r & s1 & w1 & A & M & _ & V & _). acting_role T' A Ax r s1. exists r.
    split; [exact Ax|]. split; [|split; [discriminate|intros _; apply sub_enabled; assumption]].
    apply scoped_holds in M; [exact M|cbn; tauto|exact Hn|apply acting_in; exact Ax].
Qed.

Lemma moved_paid a b f t n : moved a b f t n -> paid a b f t n.
Proof.
  intros (K & M1 & M2). split; [intros x; destruct (K x); split; assumption|]. split.
  - intros N. destruct (M2 N) as (A & B & _). auto.
  - intros x [[N1 N2]|Q]; [|apply M1; exact Q]. destruct (bytes_dec f t) as [Q|Q]; [apply M1; exact Q|apply (proj2 (proj2 (M2 Q))); assumption].
Qed.
Lemma used_counter w1 d : only_data w w1 k d -> (forall x, a_lamports (w1 x) = a_lamports (w x)) -> only_counter w w1 k.
Proof.
  intros (D & O & K) L. split; [|split; [exact O|exact L]]. intros x N. destruct (K x N). split; assumption.
Qed.

Lemma v2_withdraws : tag data = 21 -> let amt := u64_at 16 data in
  let sa := acct cx 3 in let wallet := acct cx 4 in
  pda E (seeds_wallet k (s_wbump s)) = Some wallet
  /\ exists w1, only_counter w w1 k
     /\ (paid w1 w' sa wallet amt
         \/ exists x, let src := acct cx 7 in let dst := acct cx 8 in let prog := acct cx 9 in
              tells_transfer x prog src dst sa amt /\ foreign E w1 x = Ok w'
              /\ (prog = SPL_TOKEN \/ prog = SPL_TOKEN_2022)
              /\ a_owner (w1 src) = prog /\ a_owner (w1 dst) = prog
              /\ tok_mint (w1 src) = tok_mint (w1 dst) /\ tok_owner (w1 src) = sa /\ tok_owner (w1 dst) = wallet).
Proof.
  intros T amt sa wallet. pose proof S as (So & Sd & Sw). pose proof H as P. by_tag P T.
  destruct (withdraw_v2_spec _ _ _ _ _ P Sd Sw) as (r & s1 & w1 & _ & _ & _ & _ & Pw & _ & _ & _ & D & _ & L & R).
  split; [exact Pw|]. exists w1. split; [eapply used_counter; eassumption|].
  destruct R as [(_ & _ & M & _)|(_ & Tk & O1 & O2 & Mi & W1 & W2 & _ & Fo)].
  - left. apply moved_paid. exact M.
  - right. eexists. split; [reflexivity|]. split; [exact Fo|]. split; [|auto 6].
    unfold is_token_program in Tk. apply orb_prop in Tk as [Tk|Tk]; apply beq_eq in Tk; auto.
Qed.

Lemma v2_creates : tag data = 18 -> let n := s_subctr s in let st := acct cx 2 in let sa := acct cx 3 in
  exists r r' s' bump abump, acts E cx s r /\ holds 22 r
    /\ a_owner (w st) = SYSTEM /\ a_data (w st) = []
    /\ a_owner (w' st) = SELF /\ a_data (w' st) = state_record bump abump 1 n (s_id s) sa
    /\ pda E (seeds_v2_state (s_id s) n bump) = Some st /\ pda E (seeds_v2_asset (s_id s) n abump) = Some sa
    /\ is_cfg (w' k) s' /\ s_subctr s' = n + 1 /\ s_id s' = s_id s
    /\ find_role (r_id r) s' = Some r' /\ grants n r' = 1%nat
    /\ (forall k', k' <> k -> k' <> st -> kept_acct (w k') (w' k')).
Proof.
  intros T n st sa. pose proof S as (So & Sd & Sw). pose proof H as P. by_tag P T.
  destruct (create_sub_v2_spec _ _ _ _ _ Hc P Sd Sw) as (r & s1 & A & M & _ & _ & P1 & P2 & _ & O1 & D1 & _ & D2 & O2 & W2 & D3 & O3 & K & _).
  assert (Rid : u32_at 4 data = actor_of data) by (unfold actor_of, auth_layout, tag; rewrite T; reflexivity).
  acting_role T A Ax r s1. apply (has_holds P_SubAccountV2Create) in M; [|exact plain_v2create].
  set (s' := if has _ _ _ then _ else _) in *.
  pose proof (acting_in r Ax) as Wr. pose proof Ax as [Fr _].
  assert (Ir : r_id r = actor_of data) by (apply find_role_in in Fr as [_ Fr]; exact Fr).
  assert (Hn : is_u32 n) by (destruct Sw as (_ & _ & _ & _ & _ & _ & Wc & _); exact Wc).
  assert (Fr' : exists r', find_role (r_id r) s' = Some r' /\ holds_for 23 n r').
  { destruct (has P_SubAccountV2All (le_enc 4 n) r) eqn:Hh; change (le_enc 4 (s_subctr s)) with (le_enc 4 n) in s'; unfold s'; try rewrite Hh.
    - exists (after_use r). change (find_role (r_id r) (set_subctr s1 (s_subctr s + 1))) with (find_role (r_id r) s1). rewrite find_used, Ir, Fr. cbn [option_map]. rewrite Ir, Z.eqb_refl.
      split; [reflexivity|]. apply (has_holds_for 23) in Hh; [|cbn; tauto|exact Hn|exact Wr].
      destruct Hh as (a & I & B). exists a. rewrite after_use_acts. auto.
    - eexists. rewrite find_role_on by reflexivity. change (find_role (r_id r) (set_subctr s1 (s_subctr s + 1))) with (find_role (r_id r) s1).
      rewrite find_used, Ir, Fr. cbn [option_map]. rewrite Ir, Z.eqb_refl. cbn [option_map]. split; [reflexivity|].
      replace (r_id (after_use r) =? u32_at 4 data) with true by (symmetry; apply Z.eqb_eq; rewrite after_use_id; lia).
      exists (all_powers n). split; [cbn [r_acts with_acts]; apply in_or_app; right; left; reflexivity|]. split; [reflexivity|].
      unfold all_powers. cbn [ac_data]. rewrite firstn_app, le_enc_length, Nat.sub_diag, firstn_all2 by (rewrite le_enc_length; lia).
      change (firstn 0 (zeros 4)) with (@nil Z). rewrite app_nil_r. apply le_le_enc. exact Hn. }
  destruct Fr' as (r' & F' & Hf).
  exists r, r', s', (byte_at 8 data), (byte_at 9 data).
  split; [exact Ax|]. split; [exact M|]. split; [exact O1|]. split; [exact D1|]. split; [exact O3|]. split; [exact D3|].
  split; [exact P1|]. split; [exact P2|]. split; [split; [exact O2|split; [exact D2|exact W2]]|].
  split; [unfold s'; destruct (has _ _ _); reflexivity|]. split; [unfold s'; destruct (has _ _ _); reflexivity|].
  split; [exact F'|]. split; [|intros k' N1 N2; destruct (K k' N1 N2); split; assumption].
  apply grants_once; [|exact Hf]. apply (wf_find _ _ _ W2 F').
Qed.

(** ** V1 sub-accounts *)
Lemma v1_sign_ok : tag data = 9 ->
  exists r bump, acts E cx s r /\ owns_sub s r (acct cx 1) bump /\ a_owner (w (acct cx 1)) = SYSTEM.
Proof.
  intros T. pose proof S as (So & Sd & Sw). pose proof H as P. pose proof T as T'. by_tag P T'.
  destruct (sub_sign_v1_spec _ _ _ _ _ Hc S T P) as (r & s1 & p & w0 & xs & A & _ & _ & _ & _ & _ & O & Fs & I & R & En & _).
  apply acted_acts in A; [|exact He|exact Hc|apply S|rewrite T; discriminate].
  exists r, (sa_bump p). split; [exact A|]. split; [|exact O]. apply first_of_owns; try assumption.
  apply nth_wf; [apply Hc|]. unfold sub_account_sign_v1 in P. cbv zeta in P. unfold need in P. apply bind_ok in P as (u1 & Pn & _).
  destruct (_ <=? _)%nat eqn:Q in Pn; [|discriminate]. apply Nat.leb_le in Q. lia.
Qed.
Lemma v1_withdraw_ok : tag data = 7 -> let sa := acct cx 2 in let wallet := acct cx 4 in let amt := u64_at 8 data in
  exists r, acts E cx s r
    /\ ((exists bump, owns_sub s r sa bump)
        \/ (manager r /\ exists i bump, 0 <= i <= 10 /\ find_pda E (seeds_sub0 (s_id s) i) = (sa, bump)))
    /\ wallet = fst (find_pda E (seeds_wallet0 k))
    /\ exists w1, only_counter w w1 k
       /\ (paid w1 w' sa wallet amt
           \/ exists x, let src := acct cx 6 in let dst := acct cx 7 in
                tells_transfer x (a_owner (w1 src)) src dst sa amt /\ foreign E w1 x = Ok w'
                /\ (a_owner (w1 src) = SPL_TOKEN \/ a_owner (w1 src) = SPL_TOKEN_2022)
                /\ a_owner (w1 dst) = a_owner (w1 src) /\ tok_owner (w1 dst) = wallet).
Proof.
  intros T sa wallet amt. pose proof S as (So & Sd & Sw). pose proof H as P. by_tag P T.
  destruct (withdraw_v1_spec _ _ _ _ _ P Sd Sw) as (r & s1 & srole & sbump & w1 & A & V & Wa & _ & _ & _ & D & _ & L & R).
  assert (Rid : u32_at 4 data = actor_of data) by (unfold actor_of, auth_layout, tag; rewrite T; reflexivity).
  acting_role T A Ax r s1. pose proof Ax as [Fr _]. apply find_role_in in Fr as [_ Fr].
  exists r. split; [exact Ax|]. split; [|split; [exact Wa|]].
  - destruct V as [(p & F1 & F2 & F3 & F4 & _)|(_ & M & _ & B & F1)].
    + left. exists (sa_bump p). apply first_of_owns; try assumption; [|congruence].
      apply nth_wf; [apply Hc|]. unfold withdraw_v1 in P. cbv zeta in P. unfold need in P. apply bind_ok in P as (u1 & Pn & _).
      destruct (_ <=? _)%nat eqn:Q in Pn; [|discriminate]. apply Nat.leb_le in Q. lia.
    + right. split; [apply can_manage_holds; exact M|]. exists srole, sbump. auto.
  - exists w1. split; [eapply used_counter; eassumption|].
    destruct R as [(_ & _ & M & _)|(_ & Tk & O1 & W2 & _ & Fo)].
    + left. apply moved_paid. exact M.
    + right. eexists. split; [reflexivity|]. split; [exact Fo|]. split; [|auto].
      unfold is_token_program in Tk. apply orb_prop in Tk as [Tk|Tk]; apply beq_eq in Tk; auto.
Qed.

(** ** Moving assets to the wallet address, and closing token accounts *)
Lemma calls_made (P Q : world -> ix -> Prop) a b : (forall v x, P v x -> Q v x) -> calls E P a b -> made E Q a b.
Proof. intros PQ. induction 1 as [|v x w1 w2 Hp Fo C IH]; [constructor|]. eapply made_one; [apply PQ; exact Hp|exact Fo|exact IH]. Qed.
Lemma transfer_ok : tag data = 13 -> let wallet := acct cx 1 in
  exists r w1 w2, acts E cx s r /\ manager r
    /\ pda E (seeds_wallet k (s_wbump s)) = Some wallet
    /\ only_counter w w1 k
    /\ paid w1 w2 k wallet (Z.max 0 (a_lamports (w k) - rent E (length (a_data (w k)))))
    /\ made E (fun v x => exists prog src dst, tells_transfer x prog src dst k (tok_amount (v src))
                 /\ (prog = SPL_TOKEN \/ prog = SPL_TOKEN_2022) /\ tok_owner (v src) = k /\ tok_owner (v dst) = wallet) w2 w'.
Proof.
  intros T wallet. pose proof S as (So & Sd & Sw). pose proof H as P. by_tag P T.
  destruct (transfer_assets_spec _ _ _ _ _ P Sd Sw) as (r & s1 & w1 & w2 & A & M & _ & Pw & _ & D & _ & L & Mv & C).
  acting_role T A Ax r s1. exists r, w1, w2. split; [exact Ax|]. split; [apply can_manage_holds; exact M|]. split; [exact Pw|].
  split; [eapply used_counter; eassumption|]. split; [rewrite Sd; apply moved_paid; exact Mv|].
  eapply calls_made; [|exact C]. intros v x (prog & src & dst & Q & Tk & O1 & O2). exists prog, src, dst.
  split; [exact Q|]. split; [|split; assumption]. unfold is_token_program in Tk. apply orb_prop in Tk as [Tk|Tk]; apply beq_eq in Tk; auto.
Qed.
Lemma close_token_ok : tag data = 14 -> let wallet := acct cx 1 in let dest := acct cx 2 in let prog := acct cx 3 in
  exists r w1, acts E cx s r /\ (holds 7 r \/ holds 8 r \/ holds 20 r)
    /\ wallet = fst (find_pda E (seeds_wallet0 k)) /\ (prog = SPL_TOKEN \/ prog = SPL_TOKEN_2022)
    /\ only_counter w w1 k
    /\ made E (fun v x => exists t auth, tells_close x prog t dest auth
                 /\ (auth = k \/ auth = wallet) /\ a_owner (v t) = prog /\ tok_owner (v t) = auth) w1 w'.
Proof.
  intros T wallet dest prog. pose proof S as (So & Sd & Sw). pose proof H as P. by_tag P T.
  destruct (close_token_spec _ _ _ _ _ P Sd Sw) as (r & s1 & w1 & A & M & _ & Cw & Tk & _ & D & _ & L & C).
  acting_role T A Ax r s1. exists r, w1. split; [exact Ax|]. split; [apply can_close_holds; exact M|]. split; [exact Cw|].
  split; [unfold is_token_program in Tk; apply orb_prop in Tk as [Tk|Tk]; apply beq_eq in Tk; auto|].
  split; [eapply used_counter; eassumption|].
  eapply calls_made; [|exact C]. intros v x (t & auth & Q & _ & O1 & O2 & O3). exists t, auth. auto.
Qed.

(** ** Migration *)
Lemma migrate_ok : tag data = 12 -> let wb := byte_at 2 data in
  exists r, acts E cx s r /\ manager r /\ pda E (seeds_wallet k wb) = Some (acct cx 3)
    /\ is_cfg (w' k) (migrated s1 wb) /\ others_kept w w' k.
Proof.
  intros T wb. pose proof S as (So & Sd & Sw). pose proof H as P. by_tag P T.
  destruct (migrate_spec _ _ _ _ _ Hc P Sd Sw) as (r & s1' & A & M & Pw & _ & _ & _ & D & W).
  acting_role T A Ax r s1'. exists r. split; [exact Ax|]. split; [apply can_manage_holds; exact M|]. split; [exact Pw|].
  destruct D as (D1 & D2 & D3). split; [|intros k' N; destruct (D3 k' N); split; assumption].
  split; [unfold acct in *; congruence|]. split; [exact D1|exact W].
Qed.
End One.

(** ** Creation *)
Lemma none_create E cx w w' : auth_layout (c_data cx) = None -> process E cx w = Ok w' -> create_v1 E cx w = Ok w'.
Proof.
  intros L H. unfold process in H. apply bind_ok in H as (cs & _ & H). apply bind_ok in H as (u & _ & H). cbv zeta in H.
  assert (N : forall n, In n [1;2;3;5;6;7;9;10;11;12;13;14;15;16;17;18;19;20;21] -> u16_at 0 (c_data cx) =? n = false).
  { intros n I. apply Z.eqb_neq. intros Q. unfold auth_layout, tag in L. cbv zeta in L. rewrite Q in L. cbn in I.
    repeat destruct I as [<-|I]; try contradiction; discriminate L. }
  unfold dispatch in H. repeat rewrite N in H by (cbn; tauto). cbn [orb] in H.
  apply bind_ok in H as (u1 & _ & H). cbv zeta in H. repeat rewrite N in H by (cbn; tauto).
  destruct (_ =? 4) in H; [discriminate H|]. repeat rewrite N in H by (cbn; tauto).
  exact H.
Qed.
Definition renumber (cx : ctx) (n : Z) : ctx :=
  mk_ctx (c_slot cx) (c_height cx) (c_ixs cx) (c_cur cx) (c_metas cx) (le_enc 2 n ++ skipn 2 (c_data cx)).
Lemma unknown_creates E cx w : (2 <= length (c_data cx))%nat -> auth_layout (c_data cx) = None -> tag (c_data cx) <> 4 -> process E cx w = process E (renumber cx 0) w.
Proof.
  intros L2 L N4. assert (N : forall n, In n [1;2;3;4;5;6;7;9;10;11;12;13;14;15;16;17;18;19;20;21] -> u16_at 0 (c_data cx) =? n = false).
  { intros n I. apply Z.eqb_neq. intros Q. unfold auth_layout, tag in L. cbv zeta in L. rewrite Q in L. cbn in I.
    repeat destruct I as [<-|I]; try contradiction; discriminate L. }
  unfold process. cbv zeta. change (c_metas (renumber cx 0)) with (c_metas cx). destruct (classify_all w (c_metas cx)); cbn [bind]; try reflexivity.
  repeat rewrite N by (cbn; tauto). unfold dispatch. cbv zeta. repeat rewrite N by (cbn; tauto). cbn [orb].
  destruct cx as [sl ht ixs cur ms d]. cbn [c_data c_metas] in *. unfold renumber. cbn [c_data c_metas c_slot c_height c_ixs c_cur].
  destruct d as [|b0 [|b1 d]]; [cbn in L2; lia|cbn in L2; lia|]. change (skipn 2 (b0 :: b1 :: d)) with d. reflexivity.
Qed.
Lemma create_cfg E cx w w' : wf_ctx cx -> succeeds E cx w w' -> auth_layout (c_data cx) = None ->
  let data := c_data cx in let k := acct cx 0 in let wallet := acct cx 2 in
  let id := sub 8 32 data in let bump := byte_at 6 data in let wbump := byte_at 7 data in
  exists nr, is_cfg (w' k) (mk_config bump id 1 wbump (zeros 3) 0 [nr] None)
    /\ r_id nr = 0 /\ r_aty nr = u16_at 2 data /\ r_pad nr = zeros 2
    /\ r_auth nr = new_credential (r_aty nr) (sub 40 (nat_of (u16_at 4 data)) data)
    /\ parses (skipn (40 + nat_of (u16_at 4 data)) data) (r_acts nr)
    /\ pda E (seeds_swig id bump) = Some k /\ pda E (seeds_wallet k wbump) = Some wallet
    /\ a_owner (w k) = SYSTEM /\ a_data (w k) = [] /\ a_lamports (w k) = 0 /\ others_kept w w' k.
Proof.
  intros Hc H L data k wallet id bump wbump. apply none_create in H; [|exact L].
  destruct (create_v1_spec _ _ _ _ Hc H) as (nr & W & A1 & A2 & A3 & A4 & A5 & _ & P1 & P2 & O1 & D1 & L1 & _ & _ & O2 & D2 & K & _).
  exists nr. split; [split; [exact O2|split; [exact D2|exact W]]|].
  repeat (split; [assumption|]). intros x N. destruct (K x N). split; assumption.
Qed.

(** ** Closed for good *)
Lemma closed_fails E cx w w' : good_world E w -> is_closed (w (acct cx 0)) -> ~ succeeds E cx w w'.
Proof.
  intros G C H. destruct (auth_layout (c_data cx)) eqn:L.
  - destruct (Z.eq_dec (tag (c_data cx)) 12) as [T|T].
    + unfold succeeds in H. by_tag H T. unfold migrate_v1 in H. cbv zeta in H. destruct C as [_ C]. unfold acct in C. rewrite C in H. peel H. discriminate.
    + destruct (operates _ _ _ _ G H ltac:(congruence) T) as (s & Cs). eapply AuthProps.closed_no; eassumption.
  - apply none_create in H; [|exact L]. unfold create_v1 in H. cbv zeta in H. destruct C as [C _]. unfold acct in C. peel H.
    rewrite C in *. discriminate.
Qed.
Lemma closed_final E w w' k : foreign_ok E -> good_world E w -> reach E w w' -> is_closed (w k) ->
  is_closed (w' k) /\ forall cx w2, acct cx 0 = k -> ~ succeeds E cx w' w2.
Proof.
  intros F G R C. destruct (reach_path E w w' F G R k) as [P _]. split; [auto|].
  intros cx w2 <-. apply closed_fails; [eapply reach_good; eassumption|auto].
Qed.

(** ** V2 records and numbers along histories *)
Definition rec_stays (E : env) (w w' : world) : Prop := good_world E w ->
  good_world E w' /\ forall k, a_owner (w k) = SELF -> byte_at 0 (a_data (w k)) = 2 ->
  a_owner (w' k) = SELF /\ byte_at 0 (a_data (w' k)) = 2 /\ same_record (a_data (w k)) (a_data (w' k)).
Lemma record_change E cx w w' : (forall k, change E cx k w w') -> rec_stays E w w'.
Proof.
  intros C G. split; [eapply change_good; eassumption|]. intros k O B. destruct (good_record _ _ _ (G k O) B) as (b & ab & en & n & sid & sa & D & _).
  destruct (C k) as [(D1 & O1)|s s' (_ & D1 & _) _ _|nr id bump wbump s' _ _ N _ _ _ _ _ _ _ _ _
    |swig s s' b' ab' sa' _ _ _ _ _ _ _ N _ _ _ _ _ _ _ _|swig s r s1 en' _ _ _ _ _ rd _ _ _ L _ _ _ _ O1 D1
    |s r s1 (_ & D1 & _) _ _ _ _ _ _ _|N _].
  - split; [congruence|]. rewrite D1. split; [exact B|]. exists b, ab, en, en, n, sid, sa. auto.
  - rewrite D1 in D. discriminate.
  - rewrite O in N. discriminate.
  - rewrite O in N. discriminate.
  - split; [exact O1|]. rewrite D1. unfold rd. rewrite D. split; [reflexivity|]. exists b, ab, en, en', n, sid, sa. auto.
  - rewrite D1 in D. discriminate.
  - contradiction.
Qed.
Lemma same_record_trans a b c : same_record a b -> same_record b c -> same_record a c.
Proof.
  intros (x1 & x2 & e1 & e2 & n & i & s & -> & ->) (y1 & y2 & f1 & f2 & m & j & t & Q & ->).
  pose proof (f_equal (skipn 4) Q) as Q4. pose proof (f_equal (byte_at 1) Q) as Q1. pose proof (f_equal (byte_at 2) Q) as Q2.
  change (le_enc 4 n ++ i ++ s = le_enc 4 m ++ j ++ t) in Q4. change (x1 = y1) in Q1. change (x2 = y2) in Q2.
  exists x1, x2, e1, f2, n, i, s. split; [reflexivity|]. unfold v2_record. subst y1 y2. rewrite Q4. reflexivity.
Qed.
Lemma records_stay E w w' : foreign_ok E -> good_world E w -> reach E w w' -> rec_stays E w w'.
Proof.
  intros F. apply (lift_reach E (rec_stays E)); [exact F| | |].
  - intros v G. split; [exact G|]. intros k O B. split; [exact O|]. split; [exact B|].
    destruct (good_record _ _ _ (G k O) B) as (b & ab & en & n & sid & sa & D & _). exists b, ab, en, en, n, sid, sa. auto.
  - intros a b c H1 H2 G. destruct (H1 G) as [Gb K1]. destruct (H2 Gb) as [Gc K2]. split; [exact Gc|]. intros k O B.
    destruct (K1 k O B) as (O1 & B1 & R1). destruct (K2 k O1 B1) as (O2 & B2 & R2). split; [exact O2|]. split; [exact B2|].
    eapply same_record_trans; eassumption.
  - intros cx wa wb _ C. apply (record_change E cx); exact C.
Qed.

Lemma step_subctr E cx k w s s' : config_step E cx k w s s' -> tag (c_data cx) <> 12 -> s_subctr s <= s_subctr s'.
Proof.
  intros H N. destruct H as [r s1 s' _ A Ed|r a a' _ _ _ _ _ _|r s0 l _ _ _ _ _]; [|apply Z.le_refl|apply Z.le_refl].
  assert (Q : s_subctr s1 = s_subctr s) by (destruct A as (_ & a & _ & ->); reflexivity).
  rewrite <- Q. destruct Ed; try contradiction; try apply Z.le_refl. rewrite Q. cbv zeta. destruct (has P_SubAccountV2All _ _); (apply Z.le_trans with (s_subctr s + 1); [lia|apply Z.le_refl]).
Qed.
Lemma path_subctr E k ds s s' : path E k ds s s' -> Forall (fun d => tag d <> 12) ds -> s_subctr s <= s_subctr s'.
Proof.
  induction 1 as [s|ds s s1 s2 cx w P IH S St W]; intros Fa; [lia|]. apply Forall_app in Fa as [F1 F2]. inversion F2; subst.
  apply step_subctr in St; [|assumption]. specialize (IH F1). lia.
Qed.

Lemma run_reach E cx w w' : admissible E w (Call cx) -> succeeds E cx w w' -> reach E w w'.
Proof. intros A H. replace w' with (step E w (Call cx)) by (unfold succeeds in H; cbn [step]; rewrite H; reflexivity). apply reach_event; [constructor|exact A]. Qed.
Lemma v2_increase E cx w w1 w2 s s2 : hashes_ok E -> foreign_ok E -> good_world E w -> admissible E w (Call cx) ->
  let k := acct cx 0 in is_cfg (w k) s -> tag (c_data cx) = 18 -> succeeds E cx w w1 -> reach E w1 w2 -> is_cfg (w2 k) s2 ->
  exists s1 ds, is_cfg (w1 k) s1 /\ s_subctr s1 = s_subctr s + 1 /\ path E k ds s1 s2
    /\ (Forall (fun d => tag d <> 12) ds -> s_subctr s < s_subctr s2).
Proof.
  intros He F G A k S T H R C2.
  destruct (v2_creates E cx w w1 s He (proj1 A) S H T) as (r & r' & s1 & b & ab & _ & _ & _ & _ & _ & _ & _ & _ & C1 & N & _).
  pose proof (reach_good E _ _ F G (run_reach _ _ _ _ A H)) as G1.
  destruct (reach_path E w1 w2 F G1 R k) as [_ P]. destruct (P s1 C1) as [Cl|(s3 & ds & C3 & Pa)].
  - exfalso. eapply AuthProps.closed_no; eassumption.
  - pose proof (is_cfg_inj _ _ _ C2 C3). subst s3. exists s1, ds. split; [exact C1|]. split; [exact N|]. split; [exact Pa|].
    intros Fa. pose proof (path_subctr _ _ _ _ _ Pa Fa). lia.
Qed.

(** ** The first role of a wallet created from well-formed permission bytes *)
Lemma find_action_at fuel ty o buf l : action_len ty = Some 0%nat ->
  Forall wf_action l -> actions_at o o buf l -> length buf = (o + acts_len l)%nat ->
  Z.of_nat (length buf) < U32 -> (length l < fuel)%nat ->
  find_action_loop fuel ty buf o = Ok (existsb (fun a => ac_ty a =? ty) l).
Proof.
  intros Z0 Hl; revert fuel o; induction Hl as [|a t Ha Ht IH]; intros fuel o Hat Hlen Hsm Hf;
    (destruct fuel as [|f]; [cbn in Hf; lia|]); cbn [find_action_loop existsb].
  - cbn in Hlen. replace (o <? length buf)%nat with false by lia. reflexivity.
  - cbn [acts_len actions_at length] in Hlen, Hat, Hf. destruct Hat as [H1 H2].
    replace (o <? length buf)%nat with true by lia.
    replace (o + 8 <=? length buf)%nat with true by lia. cbn [guard bind].
    rewrite (afld_ty o o buf a) by assumption.
    rewrite (afld_bound o o buf a) by (try assumption; lia).
    pose proof Ha as [Hal _]. pose proof (action_len_bound _ _ Hal) as B.
    destruct (ac_ty a =? ty) eqn:Q.
    + apply Z.eqb_eq in Q. rewrite Q, Z0 in Hal. injection Hal as Hal.
      rewrite (afld_len o o buf a) by (try assumption; lia). rewrite <- Hal.
      replace (o + 0 <=? length buf)%nat with true by lia. cbn [guard check bind Nat.eqb orb]. reflexivity.
    + cbn [orb]. apply IH; try assumption; lia.
Qed.
Lemma create_manager E cx w w' s : wf_ctx cx -> succeeds E cx w w' -> auth_layout (c_data cx) = None ->
  is_cfg (w' (acct cx 0)) s ->
  exists r, s_roles s = [r]
    /\ (skipn (40 + nat_of (u16_at 4 (c_data cx))) (c_data cx) = enc_actions 0 (r_acts r) -> manager r).
Proof.
  intros Hc H L C. apply none_create in H; [|exact L].
  destruct (create_v1_spec _ _ _ _ Hc H) as (nr & W & _ & _ & _ & _ & _ & (m & a & F1 & F2 & M) & _ & _ & _ & _ & _ & _ & _ & O2 & D2 & _).
  assert (Q : s = add_to (empty_config (sub 8 32 (c_data cx)) (byte_at 6 (c_data cx)) (byte_at 7 (c_data cx))) nr).
  { eapply is_cfg_inj; [exact C|]. split; [exact O2|]. split; [exact D2|exact W]. }
  subst s. exists nr. split; [reflexivity|]. intros Q. rewrite Q in F1, F2.
  assert (Wr : wf_role nr).
  { destruct W as (_ & _ & _ & _ & _ & _ & _ & F & _). cbn [s_roles add_to] in F. rewrite Forall_forall in F. apply F. left. reflexivity. }
  assert (Fa : forall ty b, action_len ty = Some 0%nat -> find_action ty (enc_actions 0 (r_acts nr)) = Ok b -> b = existsb (fun a => ac_ty a =? ty) (r_acts nr)).
  { intros ty b Z0 Fi. unfold find_action in Fi.
    pose proof (enc_actions_length 0 (r_acts nr)) as HL. pose proof (acts_len_ge (r_acts nr)). pose proof (wf_role_acts_small _ Wr).
    rewrite (find_action_at _ ty 0 _ (r_acts nr)) in Fi; [injection Fi as <-; reflexivity|exact Z0|apply Wr| |lia|lia|lia].
    pose proof (actions_at_app 0 0 [] (r_acts nr) [] eq_refl) as A. rewrite app_nil_r in A. exact A. }
  apply Fa in F1; [|reflexivity]. apply Fa in F2; [|reflexivity]. subst m a.
  unfold manager, holds. apply orb_prop in M as [M|M]; apply existsb_exists in M as (x & I & T); apply Z.eqb_eq in T; [right|left]; eauto.
Qed.
