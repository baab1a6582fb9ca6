(** * What a limited role can take out of the field of a program scope *)
From Verif Require Import BaseFacts SpecConfig ConfigFacts ConfigEdit ConfigEdit2 ConfigEdit3 LimitsFacts Spend Avail2.
From Verif Require Export SpecScope.

(** ** Reading the field *)
Lemma width_small t wd : numeric_width t = Some wd -> 0 < wd <= 16.
Proof. unfold numeric_width. repeat (destruct (_ =? _); [intros [= <-]; lia|]). discriminate. Qed.
Lemma read_value p a b : all_bytes p -> (144 <= length p)%nat -> u64_at 112 p <> 0 -> scope_balance0 p (a_data a) = Ok b ->
  scope_value p a = Some b /\ u64_at 128 p < u64_at 136 p
  /\ forall d o, scope_balance p d = o -> o = scope_value p (mk_account 0 [] d).
Proof.
  intros B L T H. unfold scope_balance0, ps_type in H. replace (u64_at 112 p =? 0) with false in H by lia.
  apply bind_ok in H as (u & C & H). apply check_ok in C. unfold read_numeric in H.
  destruct (numeric_width (ps_numeric p)) as [wd|] eqn:W; [|discriminate].
  destruct (ps_end p - ps_start p =? wd) eqn:D; [|discriminate]. cbn [ok_or] in H. apply ok_inj in H. apply Z.eqb_eq in D.
  apply width_small in W as W'. unfold ps_end, ps_start in *.
  pose proof (u64_range 128 p B) as R1. pose proof (u64_range 136 p B) as R2.
  assert (N : (scope_to p - scope_from p)%nat = nat_of wd) by (unfold scope_to, scope_from, nat_of; lia).
  split; [|split; [lia|]].
  - unfold scope_value. replace (scope_to p <=? length (a_data a))%nat with true by (unfold scope_to, nat_of; lia).
    rewrite N. unfold scope_from. congruence.
  - intros d o <-. unfold scope_balance, scope_value, ps_end, ps_start. replace (u64_at 136 p =? 0) with false by lia. rewrite andb_false_r.
    cbn [a_data]. unfold read_numeric. rewrite W. unfold ps_end, ps_start. replace (u64_at 136 p - u64_at 128 p =? wd) with true by lia.
    rewrite N. unfold scope_from.
    destruct (u64_at 136 p <=? Z.of_nat (length d)) eqn:Q.
    + replace (scope_to p <=? length d)%nat with true by (unfold scope_to, nat_of; lia). reflexivity.
    + replace (scope_to p <=? length d)%nat with false by (unfold scope_to, nat_of; lia). reflexivity.
Qed.
Lemma read_small p d b : all_bytes p -> all_bytes d -> u64_at 112 p <> 0 -> scope_balance0 p d = Ok b -> 0 <= b < U128.
Proof.
  intros Bp Bd T H. unfold scope_balance0, ps_type in H. replace (u64_at 112 p =? 0) with false in H by lia.
  apply bind_ok in H as (u & _ & H). unfold read_numeric in H. destruct (numeric_width (ps_numeric p)) as [wd|] eqn:W; [|discriminate].
  destruct (_ =? wd); [|discriminate]. cbn [ok_or] in H. apply ok_inj in H. apply width_small in W. subst b.
  set (l := sub _ _ _). assert (L : (length l <= 16)%nat) by (unfold l, sub; rewrite firstn_length; unfold nat_of; lia).
  assert (Bl : all_bytes l) by (apply all_bytes_sub; exact Bd). apply le_bound in Bl.
  assert (P : 256 ^ Z.of_nat (length l) <= 256 ^ 16) by (apply Z.pow_le_mono_r; lia). change (256 ^ 16) with U128 in P. lia.
Qed.
Lemma falls_ge f : forall ws w1 b c, f w1 = Some b -> f (last ws w1) = Some c -> b - c <= falls f b ws.
Proof.
  intros ws.
  assert (X : forall b v, (ws = [] -> f v = Some b) -> forall c, f (last ws v) = Some c -> b - c <= falls f b ws).
  { induction ws as [|w t IH]; intros b v N c Q; cbn [falls].
    - cbn [last] in Q. rewrite N in Q by reflexivity. injection Q as <-. lia.
    - assert (Q' : f (last t w) = Some c).
      { destruct t as [|x u]; [exact Q|]. rewrite <- Q. f_equal. clear. change (last (w :: x :: u) v) with (last (x :: u) v).
        revert x. induction u as [|y u IH]; intros x; [reflexivity|]. exact (IH y). }
      destruct (f w) as [d|] eqn:Fw.
      + pose proof (IH d w (fun _ => Fw) c Q'). lia.
      + apply (IH b w); [|exact Q']. intros ->. cbn in Q'. congruence. }
  intros w1 b c H. apply X. intros _. exact H.
Qed.
Lemma capped128_step x y z : 0 <= y -> 0 <= z -> capped128 (capped128 (x + y) + z) = capped128 (x + (y + z)).
Proof. unfold capped128. lia. Qed.

(** ** The loop over the inner instructions *)
Lemma run_inner_config E cx sk pdas v x v' k : foreign_ok E -> ix_prog x <> SELF -> a_owner (v k) = SELF ->
  run_inner E cx sk pdas v x = Ok v' -> a_data (v' k) = a_data (v k) /\ a_owner (v' k) = SELF.
Proof.
  intros F N O H. unfold run_inner in H. cbv zeta in H. apply bind_ok in H as (u & _ & H).
  match type of H with (if ?b then _ else _) = _ => destruct b end.
  - apply bind_ok in H as (u' & _ & H). apply move_lamports_keeps in H. destruct (H k) as [H1 H2]. split; [exact H1|congruence].
  - unfold invoke in H. apply bind_ok in H as (u' & _ & H). apply beq_neq in N. rewrite N in H.
    destruct (F _ _ _ H k) as [(K1 & K2) _]; [exact O|]. split; [exact (proj1 K1)|]. rewrite (proj2 K1). exact O.
Qed.
Section Loop.
Variables (E : env) (cx : ctx) (swig wallet : key) (pdas : list key) (off n : nat) (pall cur : bool).
Variables (D : bytes) (m : meta) (i o : nat) (p : bytes).
Hypothesis (F : foreign_ok E) (Mi : nth_error (c_metas cx) i = Some m) (Wm : m_writable m = true).
Hypothesis (Ga : get_action_mut P_ProgramScope (m_key m) (sub off n D) = Ok (Some o)).
Hypothesis (Gp : payload_at P_ProgramScope o (sub off n D) = p).
Hypothesis (Rd : forall d, scope_balance p d = scope_value p (mk_account 0 [] d)).
Lemma scope_loop xs : Forall (fun x => ix_prog (in_ix x) <> SELF) xs -> forall w w' sol sol' cs cs' b sp,
  a_owner (w swig) = SELF -> a_data (w swig) = D -> nth_error cs i = Some (CScope b sp) -> 0 <= sp <= U128 - 1 ->
  limited_loop E cx swig wallet pdas off n pall cur xs w sol cs = Ok (w', sol', cs') ->
  exists ws b', stages (fun v x v' => run_inner E cx wallet pdas v x = Ok v') (map in_ix xs) w ws /\ last ws w = w'
    /\ nth_error cs' i = Some (CScope b' (capped128 (sp + falls (scope_reads p (m_key m)) b ws))).
Proof.
  induction 1 as [|x t Nx Nt IH]; intros w w' sol sol' cs cs' b sp O Dw Ci S H; cbn [limited_loop] in H.
  - apply ok_inj in H. injection H as <- <- <-. exists [], b. split; [constructor|]. split; [reflexivity|].
    cbn [falls]. rewrite Z.add_0_r. unfold capped128. rewrite Z.min_r by lia. exact Ci.
  - bind_inv H. bind_inv K. bind_inv K0. rename v0 into w1. rename v1 into cs1.
    destruct (run_inner_config _ _ _ _ _ _ _ swig F Nx O B0) as [D1 O1]. rewrite Dw in D1.
    destruct (track_nth _ _ _ _ _ _ _ _ B1 Mi Ci) as (c1 & C1 & C2).
    assert (Q : exists b1 sp1, c1 = CScope b1 sp1 /\ 0 <= sp1 <= U128 - 1
               /\ forall ws, capped128 (sp1 + falls (scope_reads p (m_key m)) b1 ws) = capped128 (sp + falls (scope_reads p (m_key m)) b (w1 :: ws))).
    { unfold track1 in C2. rewrite Wm in C2. cbn [negb] in C2. unfold acts_now in C2. rewrite D1, Ga in C2. cbn [bind] in C2. rewrite Gp, Rd in C2.
      cbn [falls]. unfold scope_reads at 2. replace (scope_value p (mk_account 0 [] (a_data (w1 (m_key m))))) with (scope_value p (w1 (m_key m))) in C2 by reflexivity.
      destruct (scope_value p (w1 (m_key m))) as [c|]; apply ok_inj in C2; subst c1.
      - exists c. eexists. split; [reflexivity|]. unfold sat_add. destruct (c <? b) eqn:Q.
        + split; [unfold U128 in *; lia|]. intros ws. rewrite Z.max_r by lia.
          pose proof (falls_nonneg (scope_reads p (m_key m)) ws c).
          change (Z.min (sp + (b - c)) (U128 - 1)) with (Z.min (sp + (b - c)) (U128 - 1)). unfold capped128. unfold U128 in *. lia.
        + split; [exact S|]. intros ws. rewrite Z.max_l by lia. f_equal.
      - exists b, sp. split; [reflexivity|]. split; [exact S|]. reflexivity. }
    destruct Q as (b1 & sp1 & -> & S1 & Q).
    destruct (IH _ _ _ _ _ _ _ _ O1 D1 C1 S1 K) as (ws & b' & W1 & W2 & W3).
    exists (w1 :: ws), b'. split; [cbn [map]; econstructor; eassumption|]. split.
    + rewrite <- W2. destruct ws as [|a ws]; [reflexivity|]. change (last (w1 :: a :: ws) w) with (last (a :: ws) w). clear. revert a.
      induction ws as [|c u IHu]; intros a; [reflexivity|]. exact (IHu c).
    + rewrite W3, Q. reflexivity.
Qed.
End Loop.

(** ** Which scope is found *)
Lemma find_scope_perm k l : find (fun p => beq (ps_target p) k) (map ac_data (filter (fun a => ac_ty a =? 4) l)) = perm 4 k l.
Proof.
  induction l as [|a t IH]; [reflexivity|]. cbn [filter perm]. destruct (ac_ty a =? 4) eqn:Q; [|exact IH]. cbn [map find andb].
  apply Z.eqb_eq in Q. assert (T : target_of a = ps_target (ac_data a)) by (unfold target_of; rewrite Q; reflexivity). rewrite T.
  destruct (beq (ps_target (ac_data a)) k); [reflexivity|exact IH].
Qed.
Lemma find_flat {A B} (f : B -> bool) (g : A -> list B) x y L : In x L -> find f (g x) = Some y ->
  (forall z, In z L -> z <> x -> find f (g z) = None) -> (forall a b : A, a = b \/ a <> b) -> find f (flat_map g L) = Some y.
Proof.
  intros I Fx O Dc. induction L as [|a t IH]; [destruct I|]. cbn [flat_map].
  assert (Fa : forall u v, find f (u ++ v) = match find f u with Some z => Some z | None => find f v end).
  { intros u v. induction u as [|c u IHu]; [reflexivity|]. cbn. destruct (f c); [reflexivity|exact IHu]. }
  rewrite Fa. destruct (Dc a x) as [->|N]; [rewrite Fx; reflexivity|]. rewrite O by (try exact N; left; reflexivity).
  destruct I as [->|I]; [congruence|]. apply IH; [exact I|]. intros z Z. apply O. right; exact Z.
Qed.
Lemma scope_first s r k p : wf_config s -> In r (s_roles s) -> perm 4 k (r_acts r) = Some p ->
  (forall r', In r' (s_roles s) -> r_id r' <> r_id r -> perm 4 k (r_acts r') = None) -> find_scope (scope_list s) k = Some p.
Proof.
  intros W I P Al. pose proof W as (_ & _ & _ & _ & _ & _ & _ & W8 & _ & W10 & _). rewrite Forall_forall in W8. destruct (W8 r I) as ([U0 U1] & _).
  assert (Hi : In (r_id r) (ids s)) by (apply in_map; exact I). apply W10 in Hi.
  unfold find_scope, scope_list. apply (find_flat _ _ (nat_of (r_id r))).
  - apply in_seq. unfold nat_of. lia.
  - unfold nat_of. rewrite Z2Nat.id by lia. rewrite (find_role_mine s r W I), find_scope_perm. exact P.
  - intros j _ N. destruct (find_role (Z.of_nat j) s) as [r'|] eqn:Fj; [|reflexivity]. apply find_role_wf in Fj as (_ & I' & Q); [|exact W].
    rewrite find_scope_perm. apply Al; [exact I'|]. intros X. apply N. unfold nat_of. lia.
  - intros a b. lia.
Qed.
Lemma classify_scope w s k0 k1 i k p c : is_cfg (w k0) s -> (2 <= i)%nat -> a_owner (w k) <> SELF -> a_owner (w k) <> STAKING ->
  is_token_program (a_owner (w k)) = false -> find_scope (scope_list s) k = Some p ->
  classify w (Some (scope_list s)) k0 k1 true i k = Ok c -> exists b, scope_balance0 p (a_data (w k)) = Ok b /\ c = CScope b 0.
Proof.
  intros C Hi N1 N2 N3 Fs H. unfold classify in H. cbv zeta in H. apply beq_neq in N1, N2. rewrite N1, N2, N3 in H. cbn [andb] in H.
  replace (i =? 1)%nat with false in H by lia. rewrite andb_false_r in H. replace (i =? 0)%nat with false in H by lia. rewrite Fs in H.
  apply bind_ok in H as (b & Hb & H). apply ok_inj in H. exists b. auto.
Qed.
Lemma classify_at w ms s cs j m : is_cfg (w (mkey ms 0)) s -> classify_all w ms = Ok cs -> nth_error cs 1 = Some CWallet -> nth_error ms (2 + j) = Some m ->
  exists c, nth_error cs (2 + j) = Some c /\ classify w (Some (scope_list s)) (mkey ms 0) (mkey ms 1) true (2 + j) (m_key m) = Ok c.
Proof.
  intros C H Hw Hm. unfold classify_all in H. peel H. rewrite (cfg_is_config w s _ C) in H. pose proof C as (_ & D & W). rewrite D, scope_cache_enc in H by exact W.
  destruct ms as [|m0 [|m1 r]]; [destruct j; discriminate|destruct j; discriminate|].
  cbn [classify_from] in H. bind_inv H. bind_inv K. apply ok_inj in K0. subst cs. bind_inv B2. bind_inv K. apply ok_inj in K0. subst v0.
  cbn [nth_error] in Hw. injection Hw as ->. cbn [Nat.add nth_error] in Hm. cbn [Nat.eqb is_wallet] in B2.
  destruct (classify_from_nth _ _ _ _ _ _ _ _ _ _ B2 Hm) as (c & wal' & C1 & C2 & C3). rewrite C3 in C2 by lia.
  exists c. split; [exact C1|]. exact C2.
Qed.

(** ** The settlement *)
Lemma settle_split E slot w wallet xs sol : forall pre csp snp m post c csq sn snq l l', length csp = length pre -> length snp = length pre ->
  settle_a E slot w wallet xs sol (pre ++ m :: post) (csp ++ c :: csq) (snp ++ sn :: snq) l = Ok l' ->
  exists l1 l2, settle_a E slot w wallet xs sol pre csp snp l = Ok l1 /\ settle1_a E slot w wallet xs sol m c sn l1 = Ok l2
    /\ settle_a E slot w wallet xs sol post csq snq l2 = Ok l'.
Proof.
  induction pre as [|m0 t IH]; intros [|c0 ct] [|s0 st] m post c csq sn snq l l' L1 L2 H; cbn [length] in *; try discriminate; cbn [app settle_a] in *.
  - apply bind_ok in H as (l2 & H1 & H2). exists l, l2. auto.
  - apply bind_ok in H as (l2 & H1 & H2). destruct (IH ct st m post c csq sn snq l2 l' ltac:(lia) ltac:(lia) H2) as (x & y & X1 & X2 & X3).
    exists x, y. split; [rewrite H1; exact X1|]. auto.
Qed.
Lemma spree_none slot es l l' ty q : spree slot es l l' -> okl l -> exact_q ty q -> at_perm ty q es = [] -> first_of ty q l' = first_of ty q l.
Proof.
  intros H O Q. induction H as [l|ty' q' amt es l l1 l2 A Q' C H IH]; intros N; [reflexivity|]. rewrite at_cons in N.
  destruct ((ty' =? ty) && beq q' q) eqn:X; [discriminate|].
  destruct (charge_first _ _ _ _ _ _ O Q' C) as (T & p & p' & F1 & R & F2 & L & B & F3).
  rewrite IH; [|eapply charge_a_okl; eassumption|exact N]. apply F3; [exact Q|]. intros Z. injection Z as -> ->. rewrite Z.eqb_refl, beq_refl in X. discriminate X.
Qed.
Lemma ev_scope w wallet xs sol l m c e : In e (ev_of w wallet xs sol l m c) -> fst (fst e) = 4 -> snd (fst e) = m_key m.
Proof.
  intros He Q. destruct c; cbn [ev_of] in He; try contradiction.
  - destruct (_ =? 0); [contradiction|]. apply in_app_or in He as [He|He]; [apply gen_types in He; lia|].
    destruct (sol_dests _); [|contradiction]. apply dest_types in He. lia.
  - destruct (dead _); [contradiction|]. destruct (_ =? 0); [contradiction|]. apply in_app_or in He as [He|He]; [apply gen_types in He; lia|].
    destruct (tok_dests _ _); [|contradiction]. apply dest_types in He. lia.
  - destruct (_ =? 0); [contradiction|]. destruct (found 12 _ _); [contradiction|]. apply gen_types in He. lia.
  - destruct (_ =? 0); [contradiction|]. destruct He as [<-|[]]. reflexivity.
Qed.
Lemma ev_all_none w wallet xs sol l k : forall ms cs sn, ~ In k (map m_key ms) -> at_perm 4 k (ev_all w wallet xs sol l ms cs sn) = [].
Proof.
  induction ms as [|m t IH]; intros cs sn N; [reflexivity|]. destruct cs as [|c cr]; [reflexivity|]. destruct sn as [|x sr]; [reflexivity|].
  cbn [ev_all]. rewrite at_app, IH by (intros X; apply N; right; exact X). rewrite app_nil_r. unfold at_perm.
  assert (Z : filter (fun e : Z * bytes * Z => (fst (fst e) =? 4) && beq (snd (fst e)) k) (ev_of w wallet xs sol l m c) = []); [|rewrite Z; reflexivity].
  destruct (filter _ _) as [|e u] eqn:Q; [reflexivity|]. exfalso.
  assert (I : In e (filter (fun e : Z * bytes * Z => (fst (fst e) =? 4) && beq (snd (fst e)) k) (ev_of w wallet xs sol l m c))) by (rewrite Q; left; reflexivity).
  apply filter_In in I as [I1 I2]. apply andb_prop in I2 as [I2 I3]. apply Z.eqb_eq in I2. apply beq_eq in I3. apply N. left.
  rewrite <- I3. symmetry. eapply ev_scope; eassumption.
Qed.
Lemma capped_range y x : 0 <= y -> 0 <= x -> 0 <= capped128 (y + x) < U128.
Proof. unfold capped128, U128. lia. Qed.
Lemma sat_capped y x : sat_add U128 y x = capped128 (y + x).
Proof. unfold sat_add, capped128. lia. Qed.
Lemma scope_pays p x slot p' : length p = 144%nat -> all_bytes p -> u64_at 112 p = 1 \/ u64_at 112 p = 2 -> 0 <= x -> 0 <= slot < U64 ->
  scope_bytes p x slot = Ok p' -> scope_charged slot p p' x.
Proof.
  intros L B K X S H. unfold scope_bytes in H. apply bind_ok in H as (c & H & Q). apply ok_inj in Q.
  pose proof (u64_range 40 p B) as R40. pose proof (u64_range 32 p B) as R32. pose proof (u128_bound 0 p B) as R0. unfold is_u128, u128_at in R0.
  set (q := set_u64 40 (sc_last c) p) in *. assert (Lq : length q = 144%nat) by (unfold q; rewrite set_u64_length; lia).
  assert (P1 : sub 16 24 p' = sub 16 24 p /\ skipn 48 p' = skipn 48 p).
  { subst p'. split.
    - rewrite sub_splice_other by (rewrite ?le_enc_length; lia). unfold q, set_u64. apply sub_splice_other; rewrite ?le_enc_length; lia.
    - rewrite skipn_splice by (rewrite ?le_enc_length; lia). unfold q, set_u64. apply skipn_splice; rewrite ?le_enc_length; lia. }
  assert (P2 : 0 <= sc_last c < U64 -> u64_at 40 p' = sc_last c).
  { intros R. subst p'. unfold u64_at. rewrite sub_splice_other by (rewrite ?le_enc_length; lia). unfold q, set_u64.
    rewrite sub_splice_eq by (rewrite ?le_enc_length; lia). apply le_le_enc. exact R. }
  assert (P3 : 0 <= sc_spent c < U128 -> le (sub 0 16 p') = sc_spent c).
  { intros R. subst p'. rewrite sub_splice_eq by (rewrite ?le_enc_length; lia).
    apply le_le_enc. exact R. }
  clear Q. unfold scope_charged. cbv zeta. unfold scope_run, read_scope in H. cbn [sc_type sc_limit sc_window sc_last sc_spent] in H. unfold u128_at in H.
  assert (Rc : 0 <= capped128 (le (sub 0 16 p) + x) < U128) by (apply capped_range; [apply R0|exact X]).
  assert (Rx : 0 <= capped128 (0 + x) < U128) by (apply capped_range; [apply Z.le_refl|exact X]).
  assert (Sa : forall y, sat_add U128 y x = capped128 (y + x)) by (intros y; apply sat_capped). rewrite !Sa in H.
  destruct K as [K|K]; rewrite K in H; change (1 mod U8) with 1 in H; change (2 mod U8) with 2 in H; cbn [Z.eqb Pos.eqb] in H.
  - destruct (le (sub 16 16 p) <? capped128 (le (sub 0 16 p) + x)) eqn:Q; [discriminate|]. apply ok_inj in H. subst c. cbn [sc_last sc_spent] in *.
    exists (le (sub 0 16 p)). split; [right; split; [intros [Z _]; lia|]; split; [reflexivity|apply P2; exact R40]|].
    split; [apply P3; exact Rc|]. split; [lia|exact P1].
  - unfold sat_sub in H. apply bind_ok in H as (c1 & H1 & H).
    destruct (u64_at 32 p <? Z.max 0 (slot - u64_at 40 p)) eqn:Q1.
    + apply bind_ok in H1 as (u & Z0 & H1). apply guard_ok in Z0. apply ok_inj in H1. subst c1. cbn [sc_type sc_limit sc_window sc_last sc_spent] in H. rewrite Sa in H.
      destruct (le (sub 16 16 p) <? capped128 (0 + x)) eqn:Q; [discriminate|]. apply ok_inj in H. subst c. cbn [sc_last sc_spent] in *.
      set (W := u64_at 32 p) in *. assert (Wp : 0 < W) by lia.
      assert (M : slot / W * W <= slot) by (pose proof (Z.mul_div_le slot W Wp); lia). assert (M0 : 0 <= slot / W) by (apply Z.div_pos; lia).
      assert (M1 : 0 <= slot / W * W) by (apply Z.mul_nonneg_nonneg; lia).
      rewrite (Z.mod_small (slot / W * W) U64) in P2 by lia.
      exists 0. split; [left; split; [split; [exact K|lia]|]; split; [reflexivity|apply P2; lia]|].
      split; [apply P3; exact Rx|]. split; [lia|exact P1].
    + apply ok_inj in H1. subst c1. cbn [sc_type sc_limit sc_window sc_last sc_spent] in H. rewrite Sa in H.
      destruct (le (sub 16 16 p) <? capped128 (le (sub 0 16 p) + x)) eqn:Q; [discriminate|]. apply ok_inj in H. subst c. cbn [sc_last sc_spent] in *.
      exists (le (sub 0 16 p)). split; [right; split; [intros [_ Z]; lia|]; split; [reflexivity|apply P2; exact R40]|].
      split; [apply P3; exact Rc|]. split; [lia|exact P1].
Qed.

(** ** The whole call *)
Lemma nth_split_at {A} (l : list A) i x : nth_error l i = Some x -> exists u v, l = u ++ x :: v /\ length u = i.
Proof. intros H. apply nth_error_split in H as (u & v & -> & <-). exists u, v. auto. Qed.
Section Call.
Variables (E : env) (cx : ctx) (w w' : world) (s : config) (r : role) (m : meta) (p : bytes).
Hypothesis (F : foreign_ok E) (G : good_world E w) (Ad : admissible E w (Call cx)).
Hypothesis (S : is_cfg (w (acct cx 0)) s) (T : tag (c_data cx) = 11) (H : succeeds E cx w w').
Hypothesis (Fr : find_role (actor_of (c_data cx)) s = Some r) (Lim : limited r).
Hypothesis (Sl : 0 <= c_slot cx < U64) (Sw : sane cx w) (Sw' : sane cx w').
Notation k := (m_key m).
Hypothesis (Once : listed_once cx m) (Wm : m_writable m = true).
Hypothesis (N1 : a_owner (w k) <> SELF) (N2 : a_owner (w k) <> STAKING) (N3 : is_token_program (a_owner (w k)) = false).
Hypothesis (Pp : perm 4 k (r_acts r) = Some p) (Kd : u64_at 112 p = 1 \/ u64_at 112 p = 2).
Hypothesis (Alone : forall r', In r' (s_roles s) -> r_id r' <> r_id r -> perm 4 k (r_acts r') = None).
Hypothesis (NoSelf : ~ In SELF (map m_key (c_metas cx))).
Hypothesis (Nc : ~ collision E (scope_frame p (w k)) (scope_frame p (w' k))).

Theorem scope_spend : exists s' r' p' xs ws b b',
  is_cfg (w' (acct cx 0)) s' /\ find_role (r_id r) s' = Some r' /\ inner_ixs (c_metas cx) (acct cx 1) (inner_payload (c_data cx)) xs
  /\ course E cx w w' xs ws
  /\ scope_reads p k w = Some b /\ scope_reads p k w' = Some b'
  /\ (let x := capped128 (falls (scope_reads p k) b ws) in
      b - b' <= x /\ perm 4 k (r_acts r') = Some p' /\ ((x = 0 /\ p' = p) \/ (0 < x /\ scope_charged (c_slot cx) p p' x)))
  /\ a_owner (w' k) = a_owner (w k)
  /\ firstn (scope_from p) (a_data (w' k)) = firstn (scope_from p) (a_data (w k))
  /\ skipn (scope_to p) (a_data (w' k)) = skipn (scope_to p) (a_data (w k)).
Proof.
  destruct (whole E cx w w' s r F G Ad S T H Fr Lim) as (w0 & xs & cs & snaps & w1 & sol & cs1 & l' & O & Lr & C' & F' & Ix).
  destruct O as (A & Wr & W1 & D0 & Lam0 & Hh & C0 & G0 & R0 & Px & Fx & Lx).
  destruct Lr as [Cs Nn0 Nn1 Sn (po & r1 & Hp & Ra & Lo) Cw1 Tr Sc Sol Lc St Ch Wf En Lm].
  pose proof (classify_all_ok _ _ _ Cs) as (S1 & S2 & S3). pose proof Ad as ((Hb & Hm) & _).
  pose proof (snapshots_len _ _ _ _ _ _ _ Sn S2) as Lsn.
  assert (Xi : Forall inner_ok xs) by (apply from_outer_inner in Fx; exact Fx).
  assert (Xk : keys_ok xs).
  { unfold keys_ok. eapply Forall_impl; [|exact Fx]. intros x (X1 & _). eapply Forall_impl; [|exact X1].
    intros m' (m0 & I0 & K & _). unfold wf_meta. rewrite K. rewrite Forall_forall in Hm. apply Hm. exact I0. }
  assert (Ok0 : okl (r_acts r)) by (apply role_okl; exact Wr). pose proof Ok0 as ((_ & Wa & _) & _).
  pose proof (find_role_in _ _ _ Fr) as [Ir Hi]. pose proof S as (So & Sd & Ws).
  destruct Once as (pre & post & Em & Lp & No).
  set (i := length pre) in *.
  assert (Mi : nth_error (c_metas cx) i = Some m) by (rewrite Em, nth_error_app2 by lia; unfold i; rewrite Nat.sub_diag; reflexivity).
  assert (Im : In m (c_metas cx)) by (eapply nth_error_In; exact Mi).
  assert (Lk : length k = 32%nat) by (rewrite Forall_forall in Hm; apply Hm; exact Im).
  assert (Ff : first_of 4 k (r_acts r) = Some p) by (rewrite <- perm_first; [exact Pp|reflexivity|exact Lk|exact Wa]).
  destruct (first_of_wf _ _ _ _ Wa Ff) as (Lpp & Bp & _). assert (Lp144 : length p = 144%nat) by (cbv in Lpp |- *; congruence).
  (* the class at the start *)
  pose proof (scope_first s r k p Ws Ir Pp Alone) as Fs.
  destruct (classify_at w (c_metas cx) s cs (i - 2) m S Cs Nn1) as (c & Ci & Cc); [replace (2 + (i - 2))%nat with i by lia; exact Mi|].
  replace (2 + (i - 2))%nat with i in * by lia.
  destruct (classify_scope w s _ _ i k p c S Lp N1 N2 N3 Fs Cc) as (b & Sb & ->).
  destruct (read_value p (w k) b Bp ltac:(lia) ltac:(lia) Sb) as (Rb & Lt & Rd0).
  assert (Rd : forall d, scope_balance p d = scope_value p (mk_account 0 [] d)) by (intros d; apply (Rd0 d); reflexivity). clear Rd0.
  (* the loop *)
  assert (Acts : sub (HDR + po + POS + length (r_auth r1)) (acts_len (r_acts r)) (enc_config (used (r_id r) s)) = enc_actions 0 (r_acts r)).
  { rewrite <- Ra. apply (acts_in_config (used (r_id r) s) (r_id r) po r1 (r_acts r1) W1 Hp eq_refl eq_refl). rewrite Ra. apply Wr. }
  assert (Gm : exists o, get_action_mut P_ProgramScope k (enc_actions 0 (r_acts r)) = Ok (Some o) /\ payload_at P_ProgramScope o (enc_actions 0 (r_acts r)) = p).
  { rewrite get_action_mut_enc; [|exact Wa|apply Ok0]. pose proof (act_pos_first 4 k 0 (r_acts r)) as X. rewrite Ff in X.
    destruct (act_pos P_ProgramScope k 0 (r_acts r)) as [o|] eqn:Q; [|change P_ProgramScope with 4 in Q; rewrite Q in X; discriminate]. exists o. split; [reflexivity|].
    apply (payload_at_enc P_ProgramScope k); assumption. }
  destruct Gm as (o & Gm & Gp).
  assert (Ns : Forall (fun x => ix_prog (in_ix x) <> SELF) xs).
  { eapply Forall_impl; [|exact Fx]. intros x (_ & (pm & I0 & Q) & _) Z. apply NoSelf. rewrite <- Z, Q. apply in_map. exact I0. }
  destruct C0 as (C0a & C0b & C0c).
  rewrite <- Acts in Gm, Gp.
  destruct (scope_loop E cx _ _ _ _ _ _ _ (enc_config (used (r_id r) s)) m i o p F Mi Wm Gm Gp Rd xs Ns _ _ _ _ _ _ b 0 C0a C0b Ci ltac:(unfold U128; lia) Lo)
    as (ws & b1 & Gs & Gl & Ci1).
  rewrite Acts in Gm, Gp. rewrite Z.add_0_l in Ci1.
  set (x := capped128 (falls (scope_reads p k) b ws)) in *.
  assert (X0 : 0 <= x) by (unfold x, capped128, U128; pose proof (falls_nonneg (scope_reads p k) ws b); lia).
  (* the settlement *)
  assert (Si : exists sn, nth_error snaps i = Some sn /\ snapshot E w0 (enc_actions 0 (r_acts r)) (0 + i) m (CScope b 0) = Ok sn)
    by (eapply snapshots_nth; eassumption).
  destruct Si as (sn & Si & Se).
  destruct (nth_split_at _ _ _ Ci1) as (csp & csq & Ec & Lcp). destruct (nth_split_at _ _ _ Si) as (snp & snq & Esn & Lsp).
  rewrite Em, Ec, Esn in St.
  destruct (settle_split _ _ _ _ _ _ _ _ _ _ _ _ _ _ _ _ _ Lcp Lsp St) as (la & lb & Sa & Sb1 & Sc1).
  rewrite Em in Hm. apply Forall_app in Hm as [Hm1 Hm2]. pose proof (Forall_inv_tail Hm2) as Hm4.
  rewrite Ec in Sc. apply Forall_app in Sc as [Sp1 Sp2]. pose proof (Forall_inv_tail Sp2) as Sp4.
  destruct (settle_spree E (c_slot cx) w1 _ xs sol Xi Xk Sol (r_acts r) pre Hm1 csp snp (r_acts r) la Sp1 Ok0 (alike_refl _) Sa) as [Spa _].
  pose proof (spree_okl _ _ _ _ Spa Ok0) as Oka.
  assert (No1 : ~ In k (map m_key pre) /\ ~ In k (map m_key post)) by (rewrite map_app in No; split; intros Z; apply No; apply in_or_app; auto).
  assert (Fa : first_of 4 k la = Some p).
  { rewrite (spree_none _ _ _ _ 4 k Spa Ok0 Lk); [exact Ff|]. apply ev_all_none. apply No1. }
  unfold settle1_a in Sb1. cbv zeta in Sb1. change P_ProgramScope with 4 in Sb1. rewrite Fa in Sb1. cbn [ok_or bind] in Sb1.
  apply bind_ok in Sb1 as (u1 & Q1 & Sb1). apply check_ok in Q1. apply bind_ok in Sb1 as (u2 & Q2 & Sb1). destruct u2.
  apply check_snapshot_ok in Q2; [|exact Wm]. apply andb_prop in Q1 as [_ Q1]. unfold ps_end in Q1.
  assert (Kb : okl lb /\ exists p', first_of 4 k lb = Some p' /\ ((x = 0 /\ p' = p) \/ (0 < x /\ scope_charged (c_slot cx) p p' x))).
  { destruct (x =? 0) eqn:Z0.
    - apply ok_inj in Sb1. subst lb. split; [exact Oka|]. exists p. split; [exact Fa|]. left. split; [lia|reflexivity].
    - assert (Cb : charge_a 4 k x (c_slot cx) la = Ok (Some lb)).
      { unfold charge_a. rewrite Fa. apply bind_ok in Sb1 as (p' & Q & Sb1). apply ok_inj in Sb1. rewrite Q. cbn [bind]. congruence. }
      split; [eapply charge_a_okl; eassumption|].
      destruct (charge_first _ 4 k _ _ _ Oka Lk Cb) as (_ & q & q' & E1 & E2 & E3 & _). rewrite Fa in E1. injection E1 as <-.
      exists q'. split; [exact E3|]. right. split; [lia|]. apply scope_pays; try assumption; exact E2. }
  destruct Kb as (Okb & p' & Fb & Cp).
  assert (Alb : alike lb lb) by apply alike_refl.
  destruct (settle_spree E (c_slot cx) w1 _ xs sol Xi Xk Sol lb post Hm4 csq snq lb l' Sp4 Okb Alb Sc1) as [Spb _].
  assert (Fl : first_of 4 k l' = Some p').
  { rewrite (spree_none _ _ _ _ 4 k Spb Okb Lk); [exact Fb|]. apply ev_all_none. apply No1. }
  pose proof (spree_okl _ _ _ _ Spb Okb) as ((_ & Wl & _) & _).
  assert (Nk : k <> acct cx 0) by (intros Z; apply N1; rewrite Z; exact So).
  assert (Ke : a_data (w' k) = a_data (w1 k) /\ a_owner (w' k) = a_owner (w1 k)) by (destruct En as (_ & _ & En); apply En; exact Nk).
  assert (K0 : a_data (w0 k) = a_data (w k) /\ a_owner (w0 k) = a_owner (w k)) by (destruct D0 as (_ & _ & D0); apply D0; exact Nk).
  destruct Ke as [Ke1 Ke2]. destruct K0 as [K01 K02].
  assert (Rb' : exists b', scope_reads p k w' = Some b').
  { unfold scope_reads, scope_value. rewrite Ke1. replace (scope_to p <=? length (a_data (w1 k)))%nat with true by (unfold scope_to, nat_of; lia). eauto. }
  destruct Rb' as (b' & Rb').
  assert (R0' : scope_reads p k w0 = Some b) by (unfold scope_reads, scope_value; rewrite K01; exact Rb).
  assert (R1' : scope_reads p k (last ws w0) = Some b') by (rewrite Gl; unfold scope_reads, scope_value; rewrite <- Ke1; exact Rb').
  assert (Fe : scope_frame p (w k) = scope_frame p (w' k)).
  { destruct (bytes_dec (scope_frame p (w k)) (scope_frame p (w' k))) as [Q|Q]; [exact Q|]. exfalso. apply Nc. split; [exact Q|].
    unfold snapshot in Se. rewrite Wm in Se. cbn [negb] in Se. rewrite Gm in Se. cbn [bind] in Se. rewrite Gp in Se. unfold ps_start, ps_end in Se.
    match type of Se with context [if ?b then _ else _] => destruct b end; [|cbn [bind] in Se; apply ok_inj in Se; congruence].
    cbn [bind] in Se. apply bind_ok in Se as (u & _ & Se). apply ok_inj in Se. rewrite Q2 in Se. injection Se as Se.
    unfold hash_skip in Se. rewrite K01, K02 in Se. unfold scope_frame. rewrite Ke1, Ke2. exact Se. }
  assert (Ow : length (a_owner (w k)) = 32%nat /\ length (a_owner (w' k)) = 32%nat /\ all_bytes (a_data (w k)) /\ all_bytes (a_data (w' k))).
  { unfold sane in Sw, Sw'. rewrite Forall_forall in Sw, Sw'. destruct (Sw m Im) as (_ & B1 & L1). destruct (Sw' m Im) as (_ & B2 & L2). auto. }
  destruct Ow as (Ow1 & Ow2 & Bd & Bd'). unfold scope_frame in Fe.
  assert (Lf : length (firstn (scope_from p) (a_data (w k))) = length (firstn (scope_from p) (a_data (w' k)))).
  { rewrite !firstn_length. unfold scope_value in Rb. unfold scope_reads, scope_value in Rb'.
    destruct (scope_to p <=? length (a_data (w k)))%nat eqn:Z1; [|discriminate]. destruct (scope_to p <=? length (a_data (w' k)))%nat eqn:Z2; [|discriminate].
    assert (scope_from p <= scope_to p)%nat by (unfold scope_from, scope_to, nat_of; lia). lia. }
  apply frame_app in Fe as (Y1 & Y2 & Y3); [|congruence|exact Lf].
  assert (Rng : 0 <= b < U128 /\ 0 <= b').
  { split.
    - apply (read_small p (a_data (w k)) b Bp Bd); [lia|exact Sb].
    - unfold scope_reads, scope_value in Rb'. destruct (_ <=? _)%nat; [|discriminate]. injection Rb' as <-. apply le_bound. apply all_bytes_sub. exact Bd'. }
  exists (ends s r l'), (after r l'), p', (map in_ix xs), ws, b, b'.
  split; [exact C'|]. split; [exact F'|]. split; [exact Ix|]. split.
  { exists (sign_pdas E cx s), w0. split; [eapply only_here_data; [exact D0|exact Lam0]|]. split; [exact Gs|]. rewrite Gl. eapply only_here_data; [exact En|exact Lm]. }
  split; [exact Rb|]. split; [exact Rb'|]. split.
  { cbv zeta. fold x. split; [pose proof (falls_ge _ _ _ _ _ R0' R1'); unfold x, capped128; lia|].
    split; [|exact Cp]. rewrite acts_after. rewrite perm_first; [exact Fl|reflexivity|exact Lk|exact Wl]. }
  split; [congruence|]. split; congruence.
Qed.
End Call.
