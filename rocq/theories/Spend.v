(** * What a limited role can take out of the wallet in one SignV2 call *)
From Verif Require Import BaseFacts SpecConfig ConfigFacts ConfigEdit ConfigEdit2 ConfigEdit3.
From Verif Require Export SignLimited Parse Creds.

(** ** From the code's readings to those of the specification *)
Lemma sol_ts_outs wallet xs : sol_ts wallet xs = outs (sol_out wallet) (map in_ix xs).
Proof.
  unfold sol_ts. induction xs as [|x r IH]; [reflexivity|]. cbn [filter_map map outs]. rewrite IH.
  assert (Q : sol_transfer_of wallet (in_ix x) = sol_out wallet (in_ix x)); [|rewrite Q; reflexivity].
  unfold sol_transfer_of, sol_out. destruct (ix_metas (in_ix x)) as [|m0 [|m1 t]].
  - cbn [length Nat.leb]. rewrite andb_false_r. reflexivity.
  - cbn [length Nat.leb]. rewrite andb_false_r. reflexivity.
  - change (2 <=? length (m0 :: m1 :: t))%nat with true. rewrite andb_true_r. reflexivity.
Qed.
Lemma tok_ts_outs src xs : tok_ts src xs = outs (token_out src) (map in_ix xs).
Proof.
  unfold tok_ts. induction xs as [|x r IH]; [reflexivity|]. cbn [filter_map map outs]. rewrite IH.
  assert (Q : token_transfer_of src (in_ix x) = token_out src (in_ix x)); [|rewrite Q; reflexivity].
  unfold token_transfer_of, token_out. set (d := ix_data (in_ix x)). destruct (in_ix x) as [pg ms dd]. cbn [ix_prog ix_metas] in *.
  destruct (is_token_program pg); cbn [andb negb]; [|destruct ms as [|m0 [|m1 t]]; reflexivity].
  destruct (byte_at 0 d =? 3) eqn:Q3.
  - replace (byte_at 0 d =? 12) with false by lia. cbn [orb andb]. rewrite andb_true_r.
    destruct ms as [|m0 [|m1 t]].
    + cbn [length]. rewrite andb_false_r. cbn. destruct (1 <=? _)%nat; reflexivity.
    + change (1 <? length [m0])%nat with false. rewrite andb_false_r. cbn. destruct (1 <=? _)%nat; reflexivity.
    + change (mkey (m0 :: m1 :: t) 0) with (m_key m0). change (mkey (m0 :: m1 :: t) 1) with (m_key m1).
      change (1 <? length (m0 :: m1 :: t))%nat with true. rewrite andb_true_r.
      destruct (beq (m_key m0) src); rewrite ?andb_true_r, ?andb_false_r; cbn [negb].
      * destruct (9 <=? length d)%nat eqn:L9; [replace (1 <=? length d)%nat with true by lia; reflexivity|].
        destruct t; destruct (1 <=? length d)%nat; reflexivity.
      * destruct (1 <=? length d)%nat; reflexivity.
  - cbn [orb andb]. destruct (byte_at 0 d =? 12) eqn:Q12; [|rewrite andb_false_r; destruct ms as [|m0 [|m1 [|m2 t]]]; try reflexivity; destruct (negb _); reflexivity].
    rewrite andb_true_r. destruct ms as [|m0 [|m1 [|m2 t]]].
    + cbn [length]. rewrite andb_false_r. cbn. destruct (1 <=? _)%nat; reflexivity.
    + change (2 <? length [m0])%nat with false. rewrite andb_false_r. cbn. destruct (1 <=? _)%nat; reflexivity.
    + change (2 <? length [m0; m1])%nat with false. rewrite andb_false_r. cbn. destruct (1 <=? _)%nat; destruct (negb _); reflexivity.
    + change (mkey (m0 :: m1 :: m2 :: t) 0) with (m_key m0). change (mkey (m0 :: m1 :: m2 :: t) 2) with (m_key m2).
      change (2 <? length (m0 :: m1 :: m2 :: t))%nat with true. rewrite andb_true_r.
      destruct (beq (m_key m0) src); rewrite ?andb_true_r, ?andb_false_r; cbn [negb].
      * destruct (10 <=? length d)%nat eqn:L9; [replace (1 <=? length d)%nat with true by lia; reflexivity|].
        destruct (1 <=? length d)%nat; reflexivity.
      * destruct (1 <=? length d)%nat; reflexivity.
Qed.
Lemma found_perm ty q l : limit_type ty = true -> exact_q ty q -> Forall wf_action l -> found ty q l = is_some (perm ty q l).
Proof. intros T Q W. unfold found. rewrite perm_first by assumption. reflexivity. Qed.
Lemma perm_none ty q l : is_some (perm ty q l) = false -> perm ty q l = None.
Proof. destruct (perm ty q l); [discriminate|reflexivity]. Qed.
Lemma spree_pays slot es r r' ty q : spree slot es (r_acts r) (r_acts r') -> okl (r_acts r) -> 0 <= slot < U64 ->
  limit_type ty = true -> ty <> 4 -> exact_q ty q -> is_some (perm ty q (r_acts r)) = true -> pays ty q slot (at_perm ty q es) r r'.
Proof.
  intros H O S T N Q P. pose proof (spree_draws _ _ _ _ H O S ty q Q N) as D. pose proof (spree_okl _ _ _ _ H O) as O'.
  destruct O as ((_ & W & _) & _). destruct O' as ((_ & W' & _) & _).
  rewrite perm_first in P by assumption. destruct (first_of ty q (r_acts r)) as [p|] eqn:F; [|discriminate].
  destruct D as (p' & D1 & D2). exists p, p'. rewrite !perm_first by assumption. auto.
Qed.
Lemma at_flat {A} ty q (f : A -> list debit) L : at_perm ty q (flat_map f L) = flat_map (fun x => at_perm ty q (f x)) L.
Proof. induction L as [|a t IH]; [reflexivity|]. cbn [flat_map]. rewrite at_app, IH. reflexivity. Qed.
Lemma flat_if {A} (p : A -> bool) (g : A -> Z) L : flat_map (fun x => if p x then [g x] else []) L = map g (filter p L).
Proof. induction L as [|a t IH]; [reflexivity|]. cbn [flat_map filter]. rewrite IH. destruct (p a); reflexivity. Qed.
Lemma flat_nil {A B} (f : A -> list B) L : (forall x, In x L -> f x = []) -> flat_map f L = [].
Proof. induction L as [|a t IH]; intros H; [reflexivity|]. cbn [flat_map]. rewrite H by (left; reflexivity). apply IH. intros x Hx. apply H. right; exact Hx. Qed.
Lemma flat_ext {A B} (f g : A -> list B) L : (forall x, In x L -> f x = g x) -> flat_map f L = flat_map g L.
Proof. induction L as [|a t IH]; intros H; [reflexivity|]. cbn [flat_map]. rewrite H by (left; reflexivity). f_equal. apply IH. intros x Hx. apply H. right; exact Hx. Qed.

(** What a general limit and what destination limits are charged *)
Lemma at_gen ty q ty1 ty2 q0 amt l : ty1 <> ty2 -> at_perm ty q (gen_ev ty1 ty2 q0 amt l)
  = if beq q0 q && ((ty =? ty1) && found ty1 q0 l || (ty =? ty2) && negb (found ty1 q0 l) && found ty2 q0 l) then [amt] else [].
Proof.
  intros N. unfold gen_ev. destruct (found ty1 q0 l); [|destruct (found ty2 q0 l)]; rewrite ?at_cons; cbn [negb].
  - rewrite !andb_false_r, andb_true_r, orb_false_r. cbn [andb]. rewrite (Z.eqb_sym ty1). destruct (ty =? ty1), (beq q0 q); reflexivity.
  - rewrite !andb_true_r, !andb_false_r. cbn [orb andb]. rewrite (Z.eqb_sym ty2). destruct (ty =? ty2), (beq q0 q); reflexivity.
  - rewrite !andb_false_r. reflexivity.
Qed.
Lemma at_dest_r q tyr tyo ts l k : tyr <> tyo -> (forall t, In t ts -> beq (q (fst t)) (q k) = beq (fst t) k) ->
  at_perm tyr (q k) (dest_ev q tyr tyo ts l) = (if found tyr (q k) l then to k ts else [])
  /\ at_perm tyo (q k) (dest_ev q tyr tyo ts l) = (if found tyr (q k) l then [] else to k ts).
Proof.
  intros N. induction ts as [|[d a] r IH]; intros Inj; [destruct (found tyr (q k) l); split; reflexivity|].
  destruct IH as [I1 I2]; [intros t Ht; apply Inj; right; exact Ht|]. pose proof (Inj _ (or_introl eq_refl)) as J. cbn [fst] in J.
  unfold dest_ev in *. cbn [map fst snd]. rewrite !at_cons, I1, I2. unfold to. cbn [filter fst]. rewrite J.
  destruct (beq d k) eqn:Q.
  - apply beq_eq in Q. subst d. rewrite !andb_true_r. destruct (found tyr (q k) l); cbn [map snd].
    + rewrite Z.eqb_refl. replace (tyr =? tyo) with false by lia. split; reflexivity.
    + rewrite Z.eqb_refl. replace (tyo =? tyr) with false by lia. split; reflexivity.
  - rewrite !andb_false_r. split; reflexivity.
Qed.
Lemma at_other ty q es : (forall e, In e es -> fst (fst e) <> ty) -> at_perm ty q es = [].
Proof.
  induction es as [|[[t p] a] r IH]; intros H; [reflexivity|]. rewrite at_cons. pose proof (H _ (or_introl eq_refl)) as N. cbn in N.
  replace (t =? ty) with false by lia. cbn [andb]. apply IH. intros e He. apply H. right; exact He.
Qed.
Lemma at_other_q ty q es : (forall e, In e es -> snd (fst e) <> q) -> at_perm ty q es = [].
Proof.
  induction es as [|[[t p] a] r IH]; intros H; [reflexivity|]. rewrite at_cons. pose proof (H _ (or_introl eq_refl)) as N. cbn in N.
  apply beq_neq in N. rewrite N, andb_false_r. apply IH. intros e He. apply H. right; exact He.
Qed.
Lemma frame_app2 {A} (u v u' v' : list A) : length u = length u' -> u ++ v = u' ++ v' -> u = u' /\ v = v'.
Proof.
  revert u'. induction u as [|x u IH]; intros [|x' u'] L Q; cbn in *; try lia; [auto|]. injection Q as -> Q. apply IH in Q as [-> ->]; auto.
Qed.
Lemma gen_types ty1 ty2 q amt l e : In e (gen_ev ty1 ty2 q amt l) -> fst (fst e) = ty1 \/ fst (fst e) = ty2.
Proof.
  unfold gen_ev. destruct (found ty1 q l); [|destruct (found ty2 q l)]; cbn; intros [<-|[]] || intros []; cbn; auto.
Qed.
Lemma dest_types q tyr tyo ts l e : In e (dest_ev q tyr tyo ts l) -> fst (fst e) = tyr \/ fst (fst e) = tyo.
Proof.
  unfold dest_ev. intros H. apply in_map_iff in H as (t & <- & _). cbn. destruct (found _ _ _); auto.
Qed.

(** ** The whole call *)
Section Spend.
Variables (E : env) (cx : ctx) (w w' : world) (s : config) (r : role).
Hypothesis (F : foreign_ok E) (G : good_world E w) (Ad : admissible E w (Call cx)).
Hypothesis (S : is_cfg (w (acct cx 0)) s) (T : tag (c_data cx) = 11) (H : succeeds E cx w w').
Hypothesis (Fr : find_role (actor_of (c_data cx)) s = Some r) (Lim : limited r).
Notation k0 := (acct cx 0).
Notation wal := (wallet_of cx).
Notation ms := (c_metas cx).

Lemma limited_has : unlimited r = false.
Proof.
  destruct Lim as [L1 L2]. unfold unlimited. apply orb_false_iff. split; apply Bool.not_true_is_false; intros Q.
  - apply L1. apply has_holds in Q; [exact Q|]. intros q d. reflexivity.
  - apply L2. apply has_holds in Q; [exact Q|]. intros q d. reflexivity.
Qed.
Lemma inner_payload_signed : inner_payload (c_data cx) = signed_of (c_data cx).
Proof.
  unfold inner_payload, signed_of, auth_layout. rewrite T. cbn [Z.eqb Pos.eqb]. f_equal. lia.
Qed.

Definition after (l' : list action) : role := with_acts (after_use r) l'.
Definition ends (l' : list action) : config := on_role (r_id r) (fun r0 => with_acts r0 l') (used (r_id r) s).

Lemma whole : exists w0 xs cs snaps w1 sol cs1 l',
  signed_in E cx w s r (used (r_id r) s) w0 xs /\ limited_run E cx w s r (used (r_id r) s) w0 xs cs snaps w1 sol cs1 l' w'
  /\ is_cfg (w' k0) (ends l') /\ find_role (r_id r) (ends l') = Some (after l')
  /\ inner_ixs ms wal (inner_payload (c_data cx)) (map in_ix xs).
Proof.
  pose proof Ad as (Hc & Hf & R & Nc). pose proof S as (_ & _ & W).
  destruct (sign_whole _ _ _ _ _ Hc Hf G F R Nc S T H) as (r0 & s1 & w0 & xs & O & Cases).
  pose proof O as (A & Wr & W1 & _ & _ & _ & _ & _ & _ & Px & _).
  pose proof A as (Fa & _). rewrite Fr in Fa. injection Fa as <-.
  destruct (acted_wf _ _ _ _ _ W A) as [-> _]. pose proof (find_role_in _ _ _ Fr) as [_ Hi]. rewrite <- Hi in *.
  destruct Cases as [(U & _)|(_ & cs & snaps & w1 & sol & cs1 & l' & Lr)]; [rewrite limited_has in U; discriminate|].
  exists w0, xs, cs, snaps, w1, sol, cs1, l'. split; [exact O|]. split; [exact Lr|].
  split; [eapply only_data_cfg; [exact (lr_w1 _ _ _ _ _ _ _ _ _ _ _ _ _ _ _ Lr)|exact (lr_end _ _ _ _ _ _ _ _ _ _ _ _ _ _ _ Lr)|exact (lr_wf _ _ _ _ _ _ _ _ _ _ _ _ _ _ _ Lr)]|].
  split.
  - unfold ends. rewrite find_role_on by reflexivity. rewrite find_used. rewrite Fr. cbn [option_map].
    rewrite Z.eqb_refl, after_use_id, Z.eqb_refl. reflexivity.
  - rewrite inner_payload_signed. apply parse_all_inner; [apply sub_all_bytes_signed; exact Hc|exact Px].
Qed.

Lemma wallet_class cs : classify_all w ms = Ok cs -> nth_error cs 1 = Some CWallet -> a_owner (w wal) = SYSTEM.
Proof.
  intros Hcl Hw. unfold classify_all in Hcl. peel Hcl. unfold wallet_of, acct. destruct ms as [|m0 [|m1 t]].
  - cbn in Hcl. apply ok_inj in Hcl. subst. discriminate.
  - cbn [classify_from] in Hcl. bind_inv Hcl. bind_inv K. apply ok_inj in B2. apply ok_inj in K0. subst. discriminate.
  - cbn [classify_from] in Hcl. bind_inv Hcl. bind_inv K. apply ok_inj in K0. subst cs. bind_inv B2. bind_inv K. apply ok_inj in K0. subst v0.
    cbn [nth_error] in Hw. injection Hw as ->. change (mkey (m0 :: m1 :: t) 1) with (m_key m1) in *.
    clear - B3. unfold classify in B3. cbv zeta in B3. cbn [Nat.eqb] in B3. rewrite andb_true_r in B3.
    destruct (beq (a_owner (w (m_key m1))) SELF); [walk B3; discriminate|].
    destruct (beq (a_owner (w (m_key m1))) SYSTEM) eqn:Q; [apply beq_eq; exact Q|]. exfalso. walk B3; discriminate.
Qed.
Lemma snapshots_len E0 w0 acts0 ms0 : forall k cs sn, snapshots E0 w0 acts0 k ms0 cs = Ok sn -> length cs = length ms0 -> length sn = length ms0.
Proof.
  induction ms0 as [|m t IH]; intros k cs sn Hs L; destruct cs as [|c cr]; cbn in L; try lia; cbn [snapshots] in Hs.
  - apply ok_inj in Hs. subst. reflexivity.
  - bind_inv Hs. bind_inv K. apply ok_inj in K0. subst. cbn. f_equal. eapply IH; [exact B0|lia].
Qed.
Lemma ev_all_flat w1 wl xs sol l : forall ms0 cs sn, length cs = length ms0 -> length sn = length ms0 ->
  ev_all w1 wl xs sol l ms0 cs sn = flat_map (fun mc => ev_of w1 wl xs sol l (fst mc) (snd mc)) (combine ms0 cs).
Proof.
  induction ms0 as [|m t IH]; intros [|c cr] [|sn0 snr] L1 L2; cbn in L1, L2; try lia; [reflexivity|].
  cbn [ev_all combine flat_map fst snd]. f_equal. apply IH; lia.
Qed.

Hypothesis (Sl : 0 <= c_slot cx < U64) (Sw : sane cx w) (Sw' : sane cx w').
Notation slot := (c_slot cx).
Lemma sane_rest w0 m : sane cx w0 -> In m (rest_of cx) -> sane_acct (w0 (m_key m)).
Proof.
  unfold sane, rest_of. intros Q I0. rewrite Forall_forall in Q. apply Q.
  rewrite <- (firstn_skipn 2 (c_metas cx)). apply in_or_app. right. exact I0.
Qed.
Lemma sane_wallet w0 m0 m1 rest : ms = m0 :: m1 :: rest -> sane cx w0 -> sane_acct (w0 wal).
Proof. unfold sane. intros Q. rewrite Q. intros A. inversion A as [|? ? _ A1]; subst. inversion A1; subst. unfold wallet_of, acct. rewrite Q. assumption. Qed.

(** one of the accounts after the first two *)
Definition account_facts (w1 : world) (xs : list inner) (sol : Z) (m : meta) (c1 : cls) : Prop :=
  exists i cache c0 snap, (2 <= i)%nat /\ classify w cache k0 wal true i (m_key m) = Ok c0 /\ tracked c0 m w1 c1
    /\ fine E w1 wal xs sol (r_acts r) m c1 snap
    /\ (m_writable m = true -> forall h, snap = Some h ->
         match c1 with
         | CToken _ _ => h = hash_skip E (w (m_key m)) 64 72
         | CStake _ _ _ => h = hash_stake E (w (m_key m))
         | _ => True
         end).
Definition spent_of (c : cls) : Z := match c with CToken _ sp => sp | CStake _ _ sp => sp | _ => 0 end.
Definition gross_account (ws : list world) (m : meta) (c1 : cls) : Prop :=
  let a := w (m_key m) in
  (own_token cx w m = true -> spent_of c1 = capped (falls (tokens_of (m_key m)) (amount a) ws))
  /\ (own_stake cx w m = true -> spent_of c1 = capped (stirs (m_key m) (a_lamports a) (stake_of a) ws)).
Lemma only_here_data v v' k d : only_data v v' k d -> (forall k', a_lamports (v' k') = a_lamports (v k')) -> only_here k v v'.
Proof. intros (_ & _ & D) L. split; [|exact L]. intros k' N. apply D. exact N. Qed.
Lemma picture : exists w1 xs sol cr1 l',
  is_cfg (w' k0) (ends l') /\ find_role (r_id r) (ends l') = Some (after l')
  /\ inner_ixs ms wal (inner_payload (c_data cx)) (map in_ix xs)
  /\ 0 <= sol /\ (a_lamports (w wal) - a_lamports (w' wal) <= sol
      /\ exists ws, course E cx w w' (map in_ix xs) ws /\ sol = capped (falls (lamports_of wal) (a_lamports (w wal)) ws)
         /\ forall m c1, In (m, c1) (combine (rest_of cx) cr1) -> gross_account ws m c1)
  /\ Forall inner_ok xs /\ keys_ok xs /\ okl (r_acts r) /\ length cr1 = length (rest_of cx)
  /\ spree slot ((if sol =? 0 then [] else gen_ev 1 2 [] sol (r_acts r)
                   ++ (if sol_dests (r_acts r) then dest_ev (fun k => k) 17 16 (sol_ts wal xs) (r_acts r) else []))
                 ++ flat_map (fun mc => ev_of w1 wal xs sol (r_acts r) (fst mc) (snd mc)) (combine (rest_of cx) cr1)) (r_acts r) l'
  /\ rent E (length (a_data (w' wal))) <= a_lamports (w' wal)
  /\ (sol = 0 \/ paid_by (found 1 [] (r_acts r) || found 2 [] (r_acts r)) (sol_dests (r_acts r))
            (map (fun t => found 17 (fst t) (r_acts r) || found 16 (fst t) (r_acts r)) (sol_ts wal xs)) (sum (map snd (sol_ts wal xs))) sol)
  /\ (forall k, k <> k0 -> kept w1 w' k) /\ (forall k, a_lamports (w' k) = a_lamports (w1 k))
  /\ (forall m c1, In (m, c1) (combine (rest_of cx) cr1) -> account_facts w1 xs sol m c1).
Proof.
  destruct whole as (w0 & xs & cs & snaps & w1 & sol & cs1 & l' & O & Lr & C' & F' & Ix).
  destruct O as (A & Wr & W1 & D0 & Lam0 & Hh & C0 & G0 & R0 & Px & Fx & Lx).
  destruct Lr as [Cs N0 N1 Sn (p & r1 & Hp & Ra & Lo) Cw1 Tr Sc Sol Lc St Ch Wf En Lm].
  pose proof (classify_all_ok _ _ _ Cs) as (S1 & S2 & S3). pose proof Ad as ((Hb & Hm) & _).
  pose proof (snapshots_len _ _ _ _ _ _ _ Sn S2) as Lsn.
  assert (Xi : Forall inner_ok xs) by (apply from_outer_inner in Fx; exact Fx).
  assert (Xk : keys_ok xs).
  { unfold keys_ok. eapply Forall_impl; [|exact Fx]. intros x (X1 & _). eapply Forall_impl; [|exact X1].
    intros m (m0 & I0 & K & _). unfold wf_meta. rewrite K. rewrite Forall_forall in Hm. apply Hm. exact I0. }
  assert (Ok0 : okl (r_acts r)) by (apply role_okl; exact Wr).
  destruct (settle_spree E slot w1 wal xs sol Xi Xk Sol (r_acts r) ms Hm cs1 snaps (r_acts r) l' Sc Ok0 (alike_refl _) St) as [Sp Fi].
  assert (Fresh : forall i m c, nth_error ms i = Some m -> nth_error cs i = Some c -> fresh_cls m w c).
  { intros [|[|i]] m c Q1 Q2.
    - rewrite N0 in Q2. injection Q2 as <-. exact I.
    - rewrite N1 in Q2. injection Q2 as <-. exact I.
    - destruct (classify_rest _ _ _ i m Cs N1 Q1) as (cache & c' & D1 & D2). change (2 + i)%nat with (Datatypes.S (Datatypes.S i)) in D1.
      rewrite D1 in Q2. injection Q2 as <-. apply classify_inv in D2; [|lia]. unfold fresh_cls. destruct c'; try exact I; try contradiction; tauto. }
  pose proof (wallet_class cs Cs N1) as Ow. pose proof S as (Ok_ & _).
  assert (Nw : wal <> k0) by (intros Q; rewrite Q, Ok_ in Ow; discriminate).
  assert (Ne : forall i m c, nth_error ms (2 + i) = Some m -> nth_error cs (2 + i) = Some c ->
            match c with CToken _ _ | CStake _ _ _ => m_key m <> k0 | _ => True end).
  { intros i m c Q1 Q2. destruct (classify_rest _ _ _ i m Cs N1 Q1) as (cache & c' & D1 & D2). rewrite D1 in Q2. injection Q2 as <-.
    apply classify_inv in D2; [|lia]. destruct c'; try exact I.
    - intros Q. rewrite Q, Ok_ in D2. destruct D2 as (_ & _ & D2 & _). discriminate D2.
    - intros Q. rewrite Q, Ok_ in D2. destruct D2 as (_ & _ & _ & D2 & _). discriminate D2. }
  (* nothing but the configuration changes between [w] and [w0] *)
  assert (Same : forall k, k <> k0 -> a_data (w0 k) = a_data (w k) /\ a_owner (w0 k) = a_owner (w k)).
  { intros k Nk. destruct D0 as (_ & _ & D0). apply D0. exact Nk. }
  pose proof (fun A1 A2 A3 => limited_tracked E cx _ _ _ _ _ _ _ cs xs w0 w1 0 sol cs cs1 (a_lamports (w wal)) S2 A1 A2 A3 Lo) as LT.
  destruct LT as (Tk & Ts & _).
  { intros i m c Q1 Q2. exists c. split; [exact Q2|]. apply tracked_start. pose proof (Fresh i m c Q1 Q2) as Fc.
    destruct i as [|[|i]]; [rewrite N0 in Q2; injection Q2 as <-; exact I|rewrite N1 in Q2; injection Q2 as <-; exact I|].
    pose proof (Ne i m c Q1 Q2) as Nk. destruct c; try exact I; try exact Fc; cbn in Fc |- *.
    - destruct (Same _ Nk) as [E1 _]. unfold amount. rewrite E1. exact Fc.
    - destruct (Same _ Nk) as [E1 _]. unfold stake_of. rewrite E1, Lam0. exact Fc. }
  { left. rewrite Lam0. unfold wallet_of, acct. lia. }
  { lia. }
  destruct (limited_gross E cx _ _ _ _ _ _ _ xs w0 w1 0 sol cs cs1 ltac:(unfold U64; lia) Lo) as (ws & Gs & Gl & Gsol & Gc).
  assert (Course : course E cx w w' (map in_ix xs) ws).
  { exists (sign_pdas E cx s), w0. split; [eapply only_here_data; [exact D0|exact Lam0]|]. split; [exact Gs|]. rewrite Gl. eapply only_here_data; [exact En|exact Lm]. }
  change (mkey ms 1) with wal in Gsol. rewrite Lam0, Z.add_0_l in Gsol.
  destruct ms as [|m0 [|m1 rest]] eqn:Em; [destruct cs; discriminate|destruct cs as [|c [|? ?]]; discriminate|].
  destruct cs as [|c0 [|c1 cr]]; try discriminate. injection N0 as ->. injection N1 as ->.
  destruct cs1 as [|d0 [|d1 cr1]]; try discriminate. destruct snaps as [|z0 [|z1 sr]]; try discriminate.
  destruct (Tk 0%nat m0 CThisSwig eq_refl eq_refl) as (? & [= <-] & T0). destruct (Tk 1%nat m1 CWallet eq_refl eq_refl) as (? & [= <-] & T1).
  destruct d0; try contradiction. destruct d1; try contradiction.
  assert (Rest : rest_of cx = rest) by (unfold rest_of; rewrite Em; reflexivity).
  cbn [length] in Lc, Lsn, S2.
  exists w1, xs, sol, cr1, l'. split; [exact C'|]. split; [exact F'|]. split; [exact Ix|]. split; [exact Sol|].
  split. { split; [|exists ws; split; [exact Course|split; [exact Gsol|]]].
           2: { intros m c1 Hin. rewrite Rest in Hin. apply In_nth_error in Hin as (i & Hi).
                assert (Hi1 : nth_error rest i = Some m /\ nth_error cr1 i = Some c1).
                { clear - Hi. revert cr1 i Hi. induction rest as [|a t IH]; intros [|b u] [|i] Hi; try discriminate.
                  - injection Hi as -> ->. split; reflexivity.
                  - cbn [combine nth_error] in *. apply IH. exact Hi. }
                destruct Hi1 as [Hi1 Hi2]. destruct (classify_rest _ _ _ i m Cs eq_refl Hi1) as (cache & c0 & X1 & X2).
                assert (Gi : gross m ws c0 c1) by (apply (Gc (2 + i)%nat); [exact Hi1|exact X1|exact Hi2]).
                destruct (Tk (2 + i)%nat m c0 Hi1 X1) as (c1' & Q1 & Q2). change (2 + i)%nat with (Datatypes.S (Datatypes.S i)) in Q1. cbn [nth_error] in Q1.
                rewrite Hi2 in Q1. injection Q1 as <-.
                assert (X3 : classify w cache k0 wal true (2 + i) (m_key m) = Ok c0) by (unfold acct, wallet_of, acct; rewrite Em; exact X2).
                split; intros O.
                - unfold own_token, held in O. cbv zeta in O. fold wal in O. apply andb_prop in O as [O O4]. apply andb_prop in O as [O O3]. apply andb_prop in O as [O1 O2].
                  rewrite classify_token in X3; [|lia|rewrite O2, O3; exact O4]. apply ok_inj in X3. subst c0. destruct c1; try contradiction.
                  cbn [gross] in Gi. cbn [spent_of]. rewrite Gi; [rewrite Z.add_0_l; reflexivity|unfold U64; lia|exact O1].
                - unfold own_stake, held in O. cbv zeta in O. fold wal in O. apply andb_prop in O as [O O4]. apply andb_prop in O as [O O3]. apply andb_prop in O as [O1 O2].
                  apply classify_stake in X3; [|lia|rewrite O2, O3; exact O4]. subst c0. destruct c1; try contradiction.
                  cbn [gross] in Gi. cbn [spent_of]. rewrite Gi; [rewrite Z.add_0_l; reflexivity|unfold U64; lia|exact O1]. }
           rewrite Lm. destruct (sane_wallet w _ _ _ Em Sw) as ((La & Lb) & _). destruct (sane_wallet w' _ _ _ Em Sw') as ((La' & Lb') & _). rewrite Lm in La'. change (mkey ms 1) with wal in Ts.
           unfold wallet_of, acct in *. rewrite Em in *. lia. }
  split; [exact Xi|]. split; [exact Xk|]. split; [exact Ok0|]. split; [rewrite Rest; lia|].
  assert (Wal : wallet_of cx = mkey (m0 :: m1 :: rest) 1) by (unfold wallet_of, acct; rewrite Em; reflexivity).
  split. { rewrite ev_all_flat in Sp by (cbn [length]; lia). cbn [combine flat_map fst snd ev_of] in Sp. rewrite Rest. exact Sp. }
  destruct (Fi 0%nat m0 CThisSwig z0 eq_refl eq_refl eq_refl) as [(Fr1 & Fr2) _].
  assert (Kp : forall k, k <> k0 -> kept w1 w' k).
  { intros k Nk. destruct En as (_ & _ & En). apply En. unfold acct in Nk. rewrite Em in Nk. exact Nk. }
  split. { rewrite Lm. destruct (Kp wal Nw) as [-> _]. exact Fr1. }
  split; [exact Fr2|]. split; [exact Kp|]. split; [exact Lm|].
  intros m c1 Hin. rewrite Rest in Hin. apply In_nth_error in Hin as (i & Hi).
  assert (Hi1 : nth_error rest i = Some m /\ nth_error cr1 i = Some c1).
  { clear - Hi. revert cr1 i Hi. induction rest as [|a t IH]; intros [|b u] [|i] Hi; try discriminate.
    - injection Hi as -> ->. split; reflexivity.
    - cbn [combine nth_error] in *. apply IH. exact Hi. }
  destruct Hi1 as [Hi1 Hi2].
  destruct (classify_rest _ _ _ i m Cs eq_refl Hi1) as (cache & c0 & D1 & D2).
  destruct (Tk (2 + i)%nat m c0 Hi1 D1) as (c1' & Q1 & Q2). change (2 + i)%nat with (Datatypes.S (Datatypes.S i)) in Q1. cbn [nth_error] in Q1.
  rewrite Hi2 in Q1. injection Q1 as <-.
  assert (Hi3 : nth_error (m0 :: m1 :: rest) (2 + i) = Some m) by exact Hi1.
  destruct (snapshots_nth _ _ _ _ _ _ _ _ _ _ Sn Hi3 D1) as (sp & P1 & P2).
  destruct (Fi (2 + i)%nat m c1 sp Hi1 Hi2 P1) as [P3 _].
  exists (2 + i)%nat, cache, c0, sp. split; [lia|]. split; [unfold acct, wallet_of, acct; rewrite Em; exact D2|]. split; [exact Q2|].
  split; [exact P3|]. intros Wm h ->. apply snapshot_some in P2; [|exact Wm]. pose proof (Ne i m c0 Hi1 D1) as Nk.
  destruct c0, c1; try contradiction; try exact I.
  - destruct (Same _ Nk) as [E1 E2]. unfold hash_skip in *. rewrite E1, E2 in P2. exact P2.
  - destruct (Same _ Nk) as [E1 E2]. unfold hash_stake in *. rewrite E1, E2 in P2. exact P2.
Qed.

(** The accounts after the first two are of these classes *)
Lemma rest_class w1 xs sol m c1 : account_facts w1 xs sol m c1 ->
  match c1 with CThisSwig | CWallet => False | _ => True end.
Proof.
  intros (i & cache & c0 & snap & I & D & Tk & _). apply classify_inv in D; [|exact I].
  destruct c0, c1; try exact I0; try contradiction; exact Logic.I.
Qed.
Lemma rest_other ty q w1 xs sol cr1 : (forall m c1, In (m, c1) (combine (rest_of cx) cr1) -> account_facts w1 xs sol m c1) ->
  In ty [1; 2; 16; 17] ->
  at_perm ty q (flat_map (fun mc => ev_of w1 wal xs sol (r_acts r) (fst mc) (snd mc)) (combine (rest_of cx) cr1)) = [].
Proof.
  intros A Ty. rewrite at_flat. apply flat_nil. intros [m c] Hin. specialize (A m c Hin). apply rest_class in A. cbn [fst snd].
  apply at_other. intros e He Q.
  assert (Nt : forall a b, In a [4;5;6;10;11;18;19] -> In b [1;2;16;17] -> a <> b) by (intros a b I1 I2; cbn in I1, I2; lia).
  assert (K : In (fst (fst e)) [4;5;6;10;11;18;19]); [|exact (Nt _ _ K Ty Q)].
  clear Q Nt. destruct c; cbn [ev_of] in He; try contradiction.
  - destruct (dead _); [contradiction|]. destruct (_ =? 0); [contradiction|]. apply in_app_or in He as [He|He].
    + apply gen_types in He. cbn. lia.
    + destruct (tok_dests _ _); [|contradiction]. apply dest_types in He. cbn. lia.
  - destruct (_ =? 0); [contradiction|]. destruct (found 12 _ _); [contradiction|]. apply gen_types in He. cbn; lia.
  - destruct (_ =? 0); [contradiction|]. destruct He as [<-|[]]. cbn; lia.
Qed.
Lemma sol_dests_holds l : sol_dests l = true <-> exists a, In a l /\ (ac_ty a = 16 \/ ac_ty a = 17).
Proof.
  unfold sol_dests. rewrite existsb_exists. unfold of_type. split; intros (a & I & Q); exists a; (split; [exact I|]).
  - apply orb_prop in Q as [Q|Q]; apply Z.eqb_eq in Q; auto.
  - apply orb_true_iff. destruct Q as [Q|Q]; [left|right]; apply Z.eqb_eq; exact Q.
Qed.
Lemma acts_after l' : r_acts (after l') = l'.
Proof. unfold after, with_acts. reflexivity. Qed.

(** ** SOL *)
Theorem sol_spend : exists s' r' xs ws spent,
  is_cfg (w' k0) s' /\ find_role (r_id r) s' = Some r' /\ inner_ixs ms wal (inner_payload (c_data cx)) xs
  /\ (course E cx w w' xs ws /\ spent = capped (falls (lamports_of wal) (a_lamports (w wal)) ws))
  /\ 0 <= spent /\ a_lamports (w wal) - a_lamports (w' wal) <= spent
  /\ rent E (length (a_data (w' wal))) <= a_lamports (w' wal)
  /\ (spent = 0 \/ pays_either 1 2 [] slot [spent] r r' \/ lacks [1; 2] [] r /\ (holds 16 r \/ holds 17 r))
  /\ (spent = 0 \/ ~ holds 16 r /\ ~ holds 17 r
      \/ let ts := outs (sol_out wal) xs in
         ts <> [] /\ sum (map snd ts) = spent /\ forall k, In k (map fst ts) -> pays_either 17 16 k slot (to k ts) r r').
Proof.
  destruct picture as (w1 & xs & sol & cr1 & l' & C' & F' & Ix & Sol & Dr & Xi & Xk & Ok0 & Lc & Sp & Rn & Pd & Kp & Lm & Af).
  pose proof Ok0 as ((_ & Wa & _) & _).
  destruct Dr as (Dr & ws & Crs & Gsol & _).
  exists (ends l'), (after l'), (map in_ix xs), ws, sol. split; [exact C'|]. split; [exact F'|]. split; [exact Ix|]. split; [split; [exact Crs|exact Gsol]|]. split; [exact Sol|].
  clear Gsol.
  split; [exact Dr|]. split; [exact Rn|]. destruct Pd as [->|Pd]; [split; left; reflexivity|].
  destruct (sol =? 0) eqn:Qs. { apply Z.eqb_eq in Qs. subst. split; left; reflexivity. }
  rewrite <- (acts_after l') in Sp.
  pose proof (sol_ts_keys wal xs Xk) as Kt.
  assert (E0 : forall ty, ty = 1 \/ ty = 2 -> exact_q ty []) by (intros ty [->| ->]; reflexivity).
  split.
  - (* the general allowance *)
    destruct (is_some (perm 1 [] (r_acts r))) eqn:P1; [|destruct (is_some (perm 2 [] (r_acts r))) eqn:P2].
    + right; left; left. pose proof (spree_pays _ _ _ _ 1 [] Sp Ok0 Sl eq_refl ltac:(lia) eq_refl P1) as Y.
      rewrite !at_app, (rest_other 1 [] _ _ _ _ Af ltac:(cbn; auto)), at_gen, app_nil_r in Y by lia.
      rewrite (found_perm 1 [] _ eq_refl eq_refl Wa), P1 in Y.
      match type of Y with context [at_perm 1 ?q ?X] => rewrite (at_other 1 q X) in Y end; [exact Y|].
      intros e He. destruct (sol_dests (r_acts r)); [|contradiction]. apply dest_types in He. lia.
    + right; left; right. split; [apply perm_none; exact P1|].
      pose proof (spree_pays _ _ _ _ 2 [] Sp Ok0 Sl eq_refl ltac:(lia) eq_refl P2) as Y.
      rewrite !at_app, (rest_other 2 [] _ _ _ _ Af ltac:(cbn; auto)), at_gen, app_nil_r in Y by lia.
      rewrite (found_perm 1 [] _ eq_refl eq_refl Wa), (found_perm 2 [] _ eq_refl eq_refl Wa), P1, P2 in Y.
      match type of Y with context [at_perm 2 ?q ?X] => rewrite (at_other 2 q X) in Y end; [exact Y|].
      intros e He. destruct (sol_dests (r_acts r)); [|contradiction]. apply dest_types in He. lia.
    + right; right. split. { intros ty [<-|[<-|[]]]; apply perm_none; assumption. }
      unfold paid_by in Pd. destruct (sol_dests (r_acts r)) eqn:Sd.
      * apply sol_dests_holds in Sd as (a & Ia & [Qa|Qa]); [left|right]; exists a; auto.
      * rewrite (found_perm 1 [] _ eq_refl eq_refl Wa), (found_perm 2 [] _ eq_refl eq_refl Wa), P1, P2 in Pd. discriminate.
  - (* destinations *)
    right. unfold paid_by in Pd. destruct (sol_dests (r_acts r)) eqn:Sd.
    + right. cbv zeta. rewrite <- sol_ts_outs. destruct Pd as (Pd1 & Pd2 & Pd3).
      split. { intros Q. rewrite Q in Pd1. apply Pd1. reflexivity. } split; [exact Pd3|].
      intros k Hk. apply in_map_iff in Hk as (t & <- & Ht).
      rewrite forallb_forall in Pd2. assert (Fd : found 17 (fst t) (r_acts r) || found 16 (fst t) (r_acts r) = true).
      { apply Pd2. apply in_map_iff. exists t. split; [reflexivity|exact Ht]. }
      assert (Lk : length (fst t) = 32%nat) by (rewrite Forall_forall in Kt; apply Kt; exact Ht).
      assert (Inj : forall t0 : key * Z, In t0 (sol_ts wal xs) -> beq (fst t0) (fst t) = beq (fst t0) (fst t)) by reflexivity.
      destruct (at_dest_r (fun k => k) 17 16 (sol_ts wal xs) (r_acts r) (fst t) ltac:(lia) Inj) as [A1 A2].
      rewrite (found_perm 17 (fst t) _ eq_refl Lk Wa), (found_perm 16 (fst t) _ eq_refl Lk Wa) in Fd.
      rewrite (found_perm 17 (fst t) _ eq_refl Lk Wa) in A1, A2.
      destruct (is_some (perm 17 (fst t) (r_acts r))) eqn:P17.
      * left. pose proof (spree_pays _ _ _ _ 17 (fst t) Sp Ok0 Sl eq_refl ltac:(lia) Lk P17) as Y.
        rewrite !at_app, (rest_other 17 _ _ _ _ _ Af ltac:(cbn; auto)), app_nil_r in Y.
        rewrite (at_other 17 _ (gen_ev _ _ _ _ _)) in Y by (intros e He; apply gen_types in He; lia).
        cbn [app] in Y. match type of Y with context [at_perm 17 ?q ?X] => replace (at_perm 17 q X) with (to (fst t) (sol_ts wal xs)) in Y by (symmetry; exact A1) end. exact Y.
      * right. split; [apply perm_none; exact P17|]. cbn [orb] in Fd.
        pose proof (spree_pays _ _ _ _ 16 (fst t) Sp Ok0 Sl eq_refl ltac:(lia) Lk Fd) as Y.
        rewrite !at_app, (rest_other 16 _ _ _ _ _ Af ltac:(cbn; auto)), app_nil_r in Y.
        rewrite (at_other 16 _ (gen_ev _ _ _ _ _)) in Y by (intros e He; apply gen_types in He; lia).
        cbn [app] in Y. match type of Y with context [at_perm 16 ?q ?X] => replace (at_perm 16 q X) with (to (fst t) (sol_ts wal xs)) in Y by (symmetry; exact A2) end. exact Y.
    + left. split; intros (a & Ia & Qa); assert (X : sol_dests (r_acts r) = true) by (apply sol_dests_holds; exists a; auto); congruence.
Qed.

(** ** Tokens *)
Hypothesis (Nc : ~ collides E cx w w').
Lemma frame_app {A} (a b c a' b' c' : list A) : length a = length a' -> length b = length b' ->
  a ++ b ++ c = a' ++ b' ++ c' -> a = a' /\ b = b' /\ c = c'.
Proof.
  assert (J : forall u v u' v' : list A, length u = length u' -> u ++ v = u' ++ v' -> u = u' /\ v = v').
  { induction u as [|x u IH]; intros v [|x' u'] v' L Q; cbn in *; try lia; [auto|]. injection Q as -> Q. apply IH in Q as [-> ->]; auto. }
  intros L1 L2 Q. apply J in Q as [Q1 Q]; [|exact L1]. apply J in Q as [Q2 Q3]; [|exact L2]. auto.
Qed.
Lemma u64_range o d : all_bytes d -> 0 <= u64_at o d < U64.
Proof. apply u64_bound. Qed.

Section One.
Variables (w1 : world) (xs : list inner) (sol : Z) (m : meta) (c1 : cls).
Hypothesis (Kp : forall k, k <> k0 -> kept w1 w' k) (Lm : forall k, a_lamports (w' k) = a_lamports (w1 k)).
Hypothesis (Hin : In m (rest_of cx)) (Af : account_facts w1 xs sol m c1).
Notation a := (w (m_key m)).
Notation a' := (w' (m_key m)).

Lemma own_token_class : own_token cx w m = true -> m_writable m = true /\ m_key m <> k0 /\ exists b sp, c1 = CToken b sp
  /\ 0 <= sp /\ (amount a - b <= sp \/ sp = U64 - 1) /\ ((72 <= length (a_data a'))%nat -> b = amount a').
Proof.
  intros O. unfold own_token, held in O. cbv zeta in O. fold wal in O. apply andb_prop in O as [O O4]. apply andb_prop in O as [O O3]. apply andb_prop in O as [O1 O2].
  destruct Af as (i & cache & c0 & snap & Hi & D & Tk & _).
  assert (Nk : m_key m <> k0). { intros Q. rewrite Q in O2. destruct S as (S0 & _). rewrite S0 in O2. discriminate. }
  split; [exact O1|]. split; [exact Nk|]. rewrite classify_token in D; [|exact Hi|rewrite O2, O3; exact O4]. apply ok_inj in D. subst c0.
  cbn [tracked] in Tk. destruct c1; try contradiction. destruct Tk as (T1 & T2 & T3 & _). eexists _, _. split; [reflexivity|].
  split; [exact T1|]. split; [exact T2|]. intros L. destruct (Kp _ Nk) as [E1 _]. unfold amount. rewrite E1 in L |- *. apply T3; assumption.
Qed.
Lemma class_own_token b sp : c1 = CToken b sp -> sp <> 0 -> own_token cx w m = true.
Proof.
  intros -> N. destruct Af as (i & cache & c0 & snap & Hi & D & Tk & _). destruct c0; try contradiction.
  apply classify_inv in D; [|exact Hi]. destruct D as (_ & _ & D1 & D2 & D3). cbn [tracked] in Tk. destruct Tk as (_ & _ & _ & Tk).
  unfold own_token, held. cbv zeta. change (acct cx 1) with wal. rewrite D1, D3. replace (165 <=? length (a_data a))%nat with true by lia.
  destruct (m_writable m); [reflexivity|]. exfalso. apply N. apply Tk. reflexivity.
Qed.
Lemma dead_alive : m_key m <> k0 -> dead (w1 (m_key m)) = negb (alive a').
Proof.
  intros Nk. destruct (Kp _ Nk) as [E1 _]. unfold dead, alive. rewrite E1, Lm, Bool.negb_involutive. reflexivity.
Qed.
(** what an own token account looks like at the end *)
Lemma token_end : own_token cx w m = true ->
  if alive a' then a_owner a' = a_owner a /\ firstn 64 (a_data a') = firstn 64 (a_data a) /\ skipn 72 (a_data a') = skipn 72 (a_data a)
      /\ length (a_data a') = length (a_data a) /\ sub 32 32 (a_data a') = wal /\ amount a - amount a' <= spent_of c1
  else holds 20 r /\ a_lamports a' = 0 /\ a_owner a' = SYSTEM.
Proof.
  intros O. destruct (own_token_class O) as (O1 & Nk & b & sp & Ec & T1 & T2 & T3). destruct (Kp _ Nk) as [E1 E2].
  pose proof Af as (i & cache & c0 & snap & Hi & D & Tk & Fi & Sn). rewrite Ec in Fi, Sn. cbn [fine] in Fi. rewrite (dead_alive Nk) in Fi.
  destruct (alive a'); cbn [negb] in Fi.
  - destruct Fi as (L & Fs & Au & _). specialize (Fs O1). specialize (Sn O1 _ Fs). rewrite <- E1 in L, Au.
    destruct (sane_rest w m Sw Hin) as (_ & _ & Lo). destruct (sane_rest w' m Sw' Hin) as (_ & B' & Lo').
    assert (La : (165 <= length (a_data a))%nat). { unfold own_token in O. cbv zeta in O. repeat (apply andb_prop in O as [O ?]). lia. }
    assert (Fe : token_frame a = token_frame a').
    { destruct (bytes_dec (token_frame a) (token_frame a')) as [Q|Q]; [exact Q|]. exfalso. apply Nc. exists m. split; [exact Hin|]. left. split; [exact O|].
      split; [exact Q|]. unfold hash_skip in Sn. rewrite <- E1, <- E2 in Sn. symmetry. exact Sn. }
    unfold token_frame in Fe. apply frame_app in Fe as (X1 & X2 & X3); [|congruence|rewrite !firstn_length; lia].
    split; [congruence|]. split; [congruence|]. split; [congruence|].
    split. { apply (f_equal (@length Z)) in X3. rewrite !skipn_length in X3. lia. } split; [exact Au|].
    rewrite Ec. cbn [spent_of]. destruct T2 as [T2| ->]; [rewrite <- T3 by lia; exact T2|].
    destruct (sane_rest w m Sw Hin) as (_ & B & _). pose proof (u64_range 64 _ B). pose proof (u64_range 64 _ B'). unfold amount. lia.
  - destruct Fi as (F1 & F2 & F3). rewrite Lm, E2. split; [|auto]. 
    clear - F1. unfold holds, found in *. induction (r_acts r) as [|x t IH]; [discriminate|]. cbn [first_of] in F1. destruct ((ac_ty x =? 20) && _) eqn:Q.
    + apply andb_prop in Q as [Q _]. exists x. split; [left; reflexivity|apply Z.eqb_eq; exact Q].
    + destruct (IH F1) as (y & I & Qy). exists y. split; [right; exact I|exact Qy].
Qed.

Definition tok_part (c : cls) : list debit :=
  if own_token cx w m && alive a' && (0 <? spent_of c) then gen_ev 5 6 (mint_of a) (spent_of c) (r_acts r)
    ++ (if tok_dests (mint_of a) (r_acts r) then dest_ev (fun k => mint_of a ++ k) 19 18 (tok_ts (m_key m) xs) (r_acts r) else []) else [].
Lemma token_ev ty q : In ty [5; 6; 18; 19] -> at_perm ty q (ev_of w1 wal xs sol (r_acts r) m c1) = at_perm ty q (tok_part c1).
Proof.
  intros Ty. unfold tok_part. destruct (own_token cx w m) eqn:O.
  - destruct (own_token_class O) as (O1 & Nk & b & sp & Ec & T1 & T2 & T3). pose proof (token_end O) as Te. rewrite Ec in *. cbn [ev_of spent_of andb].
    rewrite (dead_alive Nk). destruct (alive a'); cbn [negb andb]; [|reflexivity].
    destruct (sp =? 0) eqn:Q; [replace (0 <? sp) with false by lia; reflexivity|]. replace (0 <? sp) with true by lia.
    destruct (Kp _ Nk) as [E1 _]. destruct Te as (_ & Te & _).
    assert (Em : mint_of a = sub 0 32 (a_data (w1 (m_key m)))).
    { unfold mint_of. rewrite <- E1. unfold sub. cbn [skipn]. apply (f_equal (firstn 32)) in Te. rewrite !firstn_firstn in Te.
      change (Nat.min 32 64) with 32%nat in Te. symmetry. exact Te. }
    rewrite <- Em. reflexivity.
  - pose proof (rest_class _ _ _ _ _ Af) as X. pose proof class_own_token as Y. clear Af.
    cbn [andb]. apply at_other. intros e He Q. destruct c1; cbn [ev_of] in He; try contradiction.
    + destruct (dead _); [contradiction|]. destruct (spent =? 0) eqn:Z0; [contradiction|].
      rewrite (Y balance spent eq_refl) in O; [discriminate|lia].
    + destruct (_ =? 0); [contradiction|]. destruct (found 12 _ _); [contradiction|]. apply gen_types in He. cbn in Ty; lia.
    + destruct (_ =? 0); [contradiction|]. destruct He as [<-|[]]. cbn in Q, Ty; lia.
Qed.
Lemma token_paid : own_token cx w m = true -> alive a' = true -> 0 < spent_of c1 ->
  paid_by (found 5 (mint_of a) (r_acts r) || found 6 (mint_of a) (r_acts r)) (tok_dests (mint_of a) (r_acts r))
    (map (fun t => found 19 (mint_of a ++ fst t) (r_acts r) || found 18 (mint_of a ++ fst t) (r_acts r)) (tok_ts (m_key m) xs))
    (sum (map snd (tok_ts (m_key m) xs))) (spent_of c1).
Proof.
  intros O Al P. destruct (own_token_class O) as (O1 & Nk & b & sp & Ec & T1 & T2 & T3). pose proof (token_end O) as Te. rewrite Al in Te.
  destruct (Kp _ Nk) as [E1 _]. destruct Te as (_ & Te & _).
  assert (Em : mint_of a = sub 0 32 (a_data (w1 (m_key m)))).
  { unfold mint_of. rewrite <- E1. unfold sub. cbn [skipn]. apply (f_equal (firstn 32)) in Te. rewrite !firstn_firstn in Te.
    change (Nat.min 32 64) with 32%nat in Te. symmetry. exact Te. }
  destruct Af as (i & cache & c0 & snap & Hi & D & Tk & Fi & Sn). rewrite Ec in Fi, P |- *. cbn [fine spent_of] in Fi, P |- *.
  rewrite (dead_alive Nk), Al in Fi. cbn [negb] in Fi. destruct Fi as (_ & _ & _ & [Fi|Fi]); [lia|]. rewrite Em. exact Fi.
Qed.
End One.

Lemma mint_len d : (165 <= length d)%nat -> length (sub 0 32 d) = 32%nat.
Proof. intros L. apply sub_length. lia. Qed.
Lemma combine_map_snd {A B C} (f : B -> C) (l : list A) (l2 : list B) : combine l (map f l2) = map (fun x => (fst x, f (snd x))) (combine l l2).
Proof. revert l2. induction l as [|x t IH]; intros [|y u]; try reflexivity. cbn. rewrite IH. reflexivity. Qed.
Lemma tok_dests_holds mint l : Forall wf_action l -> length mint = 32%nat ->
  tok_dests mint l = true <-> exists a, In a l /\ (ac_ty a = 18 \/ ac_ty a = 19) /\ firstn 32 (ac_data a) = mint.
Proof.
  intros W L. unfold tok_dests. rewrite existsb_exists. unfold of_type. split; intros (a & I & Q); exists a; (split; [exact I|]).
  - apply andb_prop in Q as [Q Q2]. apply beq_eq in Q2. unfold sub in Q2. cbn [skipn] in Q2. split; [|auto].
    apply orb_prop in Q as [Q|Q]; apply Z.eqb_eq in Q; auto.
  - destruct Q as [Q Q2]. apply andb_true_iff. split; [|apply beq_eq; unfold sub; cbn [skipn]; auto].
    apply orb_true_iff. destruct Q as [Q|Q]; [left|right]; apply Z.eqb_eq; exact Q.
Qed.

Theorem token_spend : exists s' r' xs ws sp,
  is_cfg (w' k0) s' /\ find_role (r_id r) s' = Some r' /\ inner_ixs ms wal (inner_payload (c_data cx)) xs
  /\ course E cx w w' xs ws
  /\ length sp = length (rest_of cx)
  /\ (forall m x, In (m, x) (combine (rest_of cx) sp) -> own_token cx w m = true ->
       let a := w (m_key m) in let a' := w' (m_key m) in
       x = capped (falls (tokens_of (m_key m)) (amount a) ws)
       /\ if alive a' then a_owner a' = a_owner a /\ firstn 64 (a_data a') = firstn 64 (a_data a) /\ skipn 72 (a_data a') = skipn 72 (a_data a)
         /\ length (a_data a') = length (a_data a) /\ sub 32 32 (a_data a') = wal /\ amount a - amount a' <= x
       else holds 20 r /\ a_lamports a' = 0 /\ a_owner a' = SYSTEM)
  /\ (forall mint, length mint = 32%nat ->
       on_mint cx w w' mint sp = [] \/ pays_either 5 6 mint slot (on_mint cx w w' mint sp) r r'
       \/ lacks [5; 6] mint r /\ token_dests mint r)
  /\ (forall mint, token_dests mint r -> length mint = 32%nat ->
       (forall t, In t (combine (rest_of cx) sp) -> spends cx w w' mint t = true ->
          let ts := outs (token_out (m_key (fst t))) xs in
          ts <> [] /\ sum (map snd ts) = snd t /\ forall k, In k (map fst ts) -> ~ lacks [18; 19] (mint ++ k) r)
       /\ forall k, length k = 32%nat -> on_dest cx w w' mint k xs sp = [] \/ pays_either 19 18 (mint ++ k) slot (on_dest cx w w' mint k xs sp) r r').
Proof.
  destruct picture as (w1 & xs & sol & cr1 & l' & C' & F' & Ix & Sol & Dr & Xi & Xk & Ok0 & Lc & Sp & Rn & Pd & Kp & Lm & Af).
  pose proof Ok0 as ((_ & Wa & _) & _). rewrite <- (acts_after l') in Sp.
  destruct Dr as (_ & ws & Crs & _ & Gr).
  exists (ends l'), (after l'), (map in_ix xs), ws, (map spent_of cr1). split; [exact C'|]. split; [exact F'|]. split; [exact Ix|]. split; [exact Crs|].
  split; [rewrite map_length; exact Lc|].
  assert (Inc : forall m c, In (m, c) (combine (rest_of cx) cr1) -> In m (rest_of cx)) by (intros m c Hmc; eapply in_combine_l; exact Hmc).
  set (head := if sol =? 0 then [] else _) in Sp.
  assert (Hd : forall ty q, In ty [5; 6; 18; 19] -> at_perm ty q head = []).
  { intros ty q Ty. apply at_other. intros e He Q. unfold head in He. destruct (sol =? 0); [contradiction|]. apply in_app_or in He as [He|He].
    - apply gen_types in He. cbn in Ty; lia.
    - destruct (sol_dests _); [|contradiction]. apply dest_types in He. cbn in Ty; lia. }
  assert (Ev : forall ty q, In ty [5; 6; 18; 19] ->
     at_perm ty q (head ++ flat_map (fun mc => ev_of w1 wal xs sol (r_acts r) (fst mc) (snd mc)) (combine (rest_of cx) cr1))
     = flat_map (fun mc => at_perm ty q (tok_part xs (fst mc) (snd mc))) (combine (rest_of cx) cr1)).
  { intros ty q Ty. rewrite at_app, Hd by exact Ty. cbn [app]. rewrite at_flat. apply flat_ext. intros [m c] Hmc. cbn [fst snd].
    eapply token_ev; eauto. }
  split; [|split].
  - intros m x Hin O. rewrite combine_map_snd in Hin. apply in_map_iff in Hin as ([m1 c] & Q & Hin). cbn [fst snd] in Q. injection Q as -> <-.
    pose proof (token_end w1 xs sol m c Kp Lm (Inc _ _ Hin) (Af _ _ Hin) O) as Te.
    pose proof (proj1 (Gr _ _ Hin) O) as Gx. destruct (own_token_class w1 xs sol m c Kp (Af _ _ Hin) O) as (_ & _ & b & z & -> & T1 & _).
    cbv zeta. split; [exact Gx|]. destruct (alive (w' (m_key m))); [|exact Te]. cbn [spent_of] in *. tauto.
  - intros mint Lmint. 
    assert (On : on_mint cx w w' mint (map spent_of cr1) = map (fun mc => spent_of (snd mc)) (filter (fun mc => spends cx w w' mint (fst mc, spent_of (snd mc))) (combine (rest_of cx) cr1))).
    { unfold on_mint. rewrite combine_map_snd. generalize (combine (rest_of cx) cr1) as L. induction L as [|x t IH]; [reflexivity|]. cbn [map filter].
      destruct (spends cx w w' mint (fst x, spent_of (snd x))); cbn [map]; rewrite IH; reflexivity. }
    assert (Z5 : found 5 mint (r_acts r) = true ->
      flat_map (fun mc => at_perm 5 mint (tok_part xs (fst mc) (snd mc))) (combine (rest_of cx) cr1) = on_mint cx w w' mint (map spent_of cr1)).
    { intros Fd. rewrite On, <- flat_if. apply flat_ext. intros [m c] Hmc. cbn [fst snd]. unfold tok_part, spends. cbn [fst snd].
      destruct (own_token cx w m); cbn [andb]; [|reflexivity]. destruct (alive _); cbn [andb]; [|reflexivity].
      destruct (0 <? spent_of c); cbn [andb]; [|rewrite andb_false_r; reflexivity]. rewrite andb_true_r.
      rewrite at_app, at_gen by lia. 
      match goal with |- context [at_perm 5 mint ?X] => rewrite (at_other 5 mint X) end;
        [rewrite app_nil_r|intros e He; destruct (tok_dests _ _); [apply dest_types in He; lia|contradiction]].
      destruct (beq (mint_of (w (m_key m))) mint) eqn:Qm; [|reflexivity]. apply beq_eq in Qm. rewrite Qm, Fd. reflexivity. }
    assert (Z6 : found 5 mint (r_acts r) = false -> found 6 mint (r_acts r) = true ->
      flat_map (fun mc => at_perm 6 mint (tok_part xs (fst mc) (snd mc))) (combine (rest_of cx) cr1) = on_mint cx w w' mint (map spent_of cr1)).
    { intros Fn Fd. rewrite On, <- flat_if. apply flat_ext. intros [m c] Hmc. cbn [fst snd]. unfold tok_part, spends. cbn [fst snd].
      destruct (own_token cx w m); cbn [andb]; [|reflexivity]. destruct (alive _); cbn [andb]; [|reflexivity].
      destruct (0 <? spent_of c); cbn [andb]; [|rewrite andb_false_r; reflexivity]. rewrite andb_true_r.
      rewrite at_app, at_gen by lia. 
      match goal with |- context [at_perm 6 mint ?X] => rewrite (at_other 6 mint X) end;
        [rewrite app_nil_r|intros e He; destruct (tok_dests _ _); [apply dest_types in He; lia|contradiction]].
      destruct (beq (mint_of (w (m_key m))) mint) eqn:Qm; [|reflexivity]. apply beq_eq in Qm. rewrite Qm, Fn, Fd. reflexivity. }
    rewrite (found_perm 5 mint _ eq_refl Lmint Wa) in Z5, Z6. rewrite (found_perm 6 mint _ eq_refl Lmint Wa) in Z6.
    destruct (is_some (perm 5 mint (r_acts r))) eqn:P5; [|destruct (is_some (perm 6 mint (r_acts r))) eqn:P6].
    + right; left; left. pose proof (spree_pays _ _ _ _ 5 mint Sp Ok0 Sl eq_refl ltac:(lia) Lmint P5) as Y.
      rewrite Ev, Z5 in Y by (reflexivity || (cbn; auto)). exact Y.
    + right; left; right. split; [apply perm_none; exact P5|].
      pose proof (spree_pays _ _ _ _ 6 mint Sp Ok0 Sl eq_refl ltac:(lia) Lmint P6) as Y.
      rewrite Ev, Z6 in Y by (reflexivity || (cbn; auto)). exact Y.
    + destruct (on_mint cx w w' mint (map spent_of cr1)) as [|z zs] eqn:Oe; [left; reflexivity|]. right; right.
      split. { intros ty [<-|[<-|[]]]; apply perm_none; assumption. }
      apply (tok_dests_holds mint _ Wa Lmint).
      assert (Ex : exists mc, In mc (combine (rest_of cx) cr1) /\ spends cx w w' mint (fst mc, spent_of (snd mc)) = true).
      { rewrite On in Oe. destruct (filter _ _) as [|mc u] eqn:Fe; [discriminate|]. exists mc.
        assert (X : In mc (filter (fun mc => spends cx w w' mint (fst mc, spent_of (snd mc))) (combine (rest_of cx) cr1))) by (rewrite Fe; left; reflexivity).
        apply filter_In in X. exact X. }
      destruct Ex as ([m c] & Hmc & Sm). cbn [fst snd] in Sm. unfold spends in Sm. cbv zeta in Sm. cbn [fst snd] in Sm.
      apply andb_prop in Sm as [Sm Sm4]. apply andb_prop in Sm as [Sm Sm3]. apply andb_prop in Sm as [Sm1 Sm2]. apply beq_eq in Sm3.
      pose proof (token_paid w1 xs sol m c Kp Lm (Inc _ _ Hmc) (Af _ _ Hmc) Sm1 Sm2 ltac:(lia)) as Tp. rewrite Sm3 in Tp. unfold paid_by in Tp.
      destruct (tok_dests mint (r_acts r)); [reflexivity|].
      rewrite (found_perm 5 mint _ eq_refl Lmint Wa), (found_perm 6 mint _ eq_refl Lmint Wa), P5, P6 in Tp. discriminate.
  - intros mint Td Lmint. pose proof Td as Td'. apply (tok_dests_holds mint _ Wa Lmint) in Td'.
    assert (Sx : forall m c, In (m, c) (combine (rest_of cx) cr1) -> spends cx w w' mint (m, spent_of c) = true ->
       mint_of (w (m_key m)) = mint /\ own_token cx w m = true /\ alive (w' (m_key m)) = true /\ 0 < spent_of c
       /\ tok_ts (m_key m) xs <> [] /\ sum (map snd (tok_ts (m_key m) xs)) = spent_of c
       /\ forall t, In t (tok_ts (m_key m) xs) -> found 19 (mint ++ fst t) (r_acts r) || found 18 (mint ++ fst t) (r_acts r) = true).
    { intros m c Hmc Sm. unfold spends in Sm. cbv zeta in Sm. cbn [fst snd] in Sm.
      apply andb_prop in Sm as [Sm Sm4]. apply andb_prop in Sm as [Sm Sm3]. apply andb_prop in Sm as [Sm1 Sm2]. apply beq_eq in Sm3.
      pose proof (token_paid w1 xs sol m c Kp Lm (Inc _ _ Hmc) (Af _ _ Hmc) Sm1 Sm2 ltac:(lia)) as Tp. rewrite Sm3 in Tp. unfold paid_by in Tp.
      rewrite Td' in Tp. destruct Tp as (T1 & T2 & T3). split; [exact Sm3|]. split; [exact Sm1|]. split; [exact Sm2|]. split; [lia|].
      split. { intros Q. rewrite Q in T1. apply T1. reflexivity. } split; [exact T3|]. intros t Ht. rewrite forallb_forall in T2. apply T2.
      apply in_map_iff. exists t. split; [reflexivity|exact Ht]. }
    split.
    + intros t Ht Sm. rewrite combine_map_snd in Ht. apply in_map_iff in Ht as ([m c] & <- & Hmc). cbn [fst snd] in *.
      destruct (Sx m c Hmc Sm) as (M1 & M2 & M3 & M4 & M5 & M6 & M7). cbv zeta. rewrite <- tok_ts_outs. split; [exact M5|]. split; [exact M6|].
      intros k Hk Lk. apply in_map_iff in Hk as (t & <- & Ht). specialize (M7 t Ht).
      pose proof (tok_ts_keys (m_key m) xs Xk) as Kt. rewrite Forall_forall in Kt. specialize (Kt t Ht).
      assert (Lq : length (mint ++ fst t) = 64%nat). { rewrite app_length, Lmint. exact (f_equal (fun n => 32 + n)%nat Kt). }
      rewrite (found_perm 19 _ _ eq_refl Lq Wa), (found_perm 18 _ _ eq_refl Lq Wa), !Lk in M7; [discriminate| |]; cbn; auto.
    + intros k Lk. set (q := mint ++ k). assert (Lq : length q = 64%nat) by (unfold q; rewrite app_length, Lmint; exact (f_equal (fun n => 32 + n)%nat Lk)).
      assert (Od : on_dest cx w w' mint k (map in_ix xs) (map spent_of cr1)
        = flat_map (fun mc => if spends cx w w' mint (fst mc, spent_of (snd mc)) then to k (tok_ts (m_key (fst mc)) xs) else []) (combine (rest_of cx) cr1)).
      { unfold on_dest. rewrite combine_map_snd. generalize (combine (rest_of cx) cr1) as L. induction L as [|x t IH]; [reflexivity|]. cbn [map flat_map fst snd].
        rewrite IH, tok_ts_outs. reflexivity. }
      assert (Dd : forall m c ty, ty = 18 \/ ty = 19 -> at_perm ty q (tok_part xs m c)
         = if spends cx w w' mint (m, spent_of c) then at_perm ty q (dest_ev (fun k0 => mint ++ k0) 19 18 (tok_ts (m_key m) xs) (r_acts r)) else []).
      { intros m c ty Ty. unfold tok_part, spends. cbv zeta. cbn [fst snd].
        destruct (own_token cx w m) eqn:O; cbn [andb]; [|reflexivity]. destruct (alive _); cbn [andb]; [|reflexivity].
        destruct (0 <? spent_of c); cbn [andb]; [|rewrite andb_false_r; reflexivity]. rewrite andb_true_r, at_app.
        rewrite (at_other ty q (gen_ev _ _ _ _ _)) by (intros e He; apply gen_types in He; lia). cbn [app].
        destruct (beq (mint_of (w (m_key m))) mint) eqn:Qm.
        - apply beq_eq in Qm. rewrite Qm, Td'. reflexivity.
        - destruct (tok_dests (mint_of (w (m_key m))) (r_acts r)); [|reflexivity].
          apply at_other_q. intros e He Q. unfold dest_ev in He. apply in_map_iff in He as (t & <- & _). cbn [fst snd] in Q. unfold q in Q.
          apply frame_app2 in Q as [Q _]; [rewrite Q, beq_refl in Qm; discriminate|]. rewrite Lmint. apply mint_len.
          unfold own_token in O. cbv zeta in O. repeat (apply andb_prop in O as [O ?]). lia. }
      assert (De : forall m c, In (m, c) (combine (rest_of cx) cr1) ->
          at_perm 19 q (tok_part xs m c) = (if spends cx w w' mint (m, spent_of c) then if found 19 q (r_acts r) then to k (tok_ts (m_key m) xs) else [] else [])
          /\ at_perm 18 q (tok_part xs m c) = (if spends cx w w' mint (m, spent_of c) then if found 19 q (r_acts r) then [] else to k (tok_ts (m_key m) xs) else [])).
      { intros m c Hmc. rewrite !Dd by auto. destruct (spends _ _ _ _ _); [|split; reflexivity].
        apply (at_dest_r (fun k0 => mint ++ k0) 19 18); [lia|]. intros t _. destruct (beq (fst t) k) eqn:Q.
        - apply beq_eq in Q. rewrite Q. apply beq_refl.
        - apply beq_neq. intros X. apply app_inv_head in X. rewrite X, beq_refl in Q. discriminate. }
      rewrite (found_perm 19 q _ eq_refl Lq Wa) in De.
      destruct (is_some (perm 19 q (r_acts r))) eqn:P19; [|destruct (is_some (perm 18 q (r_acts r))) eqn:P18].
      * right; left. pose proof (spree_pays _ _ _ _ 19 q Sp Ok0 Sl eq_refl ltac:(lia) Lq P19) as Y. rewrite Ev in Y by (cbn; auto).
        rewrite Od. erewrite flat_ext; [exact Y|]. intros [m c] Hmc. cbn [fst snd]. symmetry. apply (De m c Hmc).
      * right; right. split; [apply perm_none; exact P19|].
        pose proof (spree_pays _ _ _ _ 18 q Sp Ok0 Sl eq_refl ltac:(lia) Lq P18) as Y. rewrite Ev in Y by (cbn; auto).
        rewrite Od. erewrite flat_ext; [exact Y|]. intros [m c] Hmc. cbn [fst snd]. symmetry. apply (De m c Hmc).
      * left. rewrite Od. apply flat_nil. intros [m c] Hmc. cbn [fst snd]. destruct (spends cx w w' mint (m, spent_of c)) eqn:Sm; [|reflexivity].
        destruct (Sx m c Hmc Sm) as (_ & _ & _ & _ & _ & _ & M7). unfold to.
        assert (Z : filter (fun t => beq (fst t) k) (tok_ts (m_key m) xs) = []); [|rewrite Z; reflexivity].
        destruct (filter _ _) as [|t u] eqn:Fe; [reflexivity|]. exfalso.
        assert (Ht : In t (filter (fun t => beq (fst t) k) (tok_ts (m_key m) xs))) by (rewrite Fe; left; reflexivity).
        apply filter_In in Ht as [Ht Qt]. apply beq_eq in Qt. specialize (M7 t Ht). destruct t as [k1 z]. cbn [fst] in Qt, M7. subst k1. fold q in M7.
        rewrite (found_perm 19 q _ eq_refl Lq Wa), (found_perm 18 q _ eq_refl Lq Wa), P19, P18 in M7. discriminate.
Qed.

(** ** Stake accounts *)
Section One.
Variables (w1 : world) (xs : list inner) (sol : Z) (m : meta) (c1 : cls).
Hypothesis (Kp : forall k, k <> k0 -> kept w1 w' k) (Lm : forall k, a_lamports (w' k) = a_lamports (w1 k)).
Hypothesis (Hin : In m (rest_of cx)) (Af : account_facts w1 xs sol m c1).
Notation a := (w (m_key m)).
Notation a' := (w' (m_key m)).

Lemma own_stake_class : own_stake cx w m = true -> m_writable m = true /\ m_key m <> k0 /\ exists b l sp, c1 = CStake b l sp
  /\ 0 <= sp /\ (a_lamports a - a_lamports a' <= sp \/ sp = U64 - 1)
  /\ ((164 <= length (a_data a'))%nat -> Z.abs (stake_of a - stake_of a') <= sp \/ sp = U64 - 1).
Proof.
  intros O. unfold own_stake, held in O. cbv zeta in O. fold wal in O. apply andb_prop in O as [O O4]. apply andb_prop in O as [O O3]. apply andb_prop in O as [O1 O2].
  destruct Af as (i & cache & c0 & snap & Hi & D & Tk & _).
  assert (Nk : m_key m <> k0). { intros Q. rewrite Q in O2. destruct S as (S0 & _). rewrite S0 in O2. discriminate. }
  split; [exact O1|]. split; [exact Nk|]. apply classify_stake in D; [|exact Hi|rewrite O2, O3; exact O4]. subst c0.
  cbn [tracked] in Tk. destruct c1; try contradiction. destruct Tk as (T1 & T2 & T3 & T4 & T5 & _). eexists _, _, _. split; [reflexivity|].
  specialize (T4 O1). specialize (T5 O1). destruct (Kp _ Nk) as [E1 _].
  split; [exact T1|]. split; [rewrite Lm, <- T4; exact T2|]. intros L. rewrite E1 in L. specialize (T5 L). unfold stake_of in *. rewrite E1, <- T5. exact T3.
Qed.
Lemma class_own_stake b l sp : c1 = CStake b l sp -> sp <> 0 -> own_stake cx w m = true.
Proof.
  intros -> N. destruct Af as (i & cache & c0 & snap & Hi & D & Tk & _). destruct c0; try contradiction.
  apply classify_inv in D; [|exact Hi]. destruct D as (_ & _ & _ & D1 & D2 & D3). cbn [tracked] in Tk. destruct Tk as (_ & _ & _ & _ & _ & Tk).
  unfold own_stake, held. cbv zeta. change (acct cx 1) with wal. rewrite D1, beq_refl, D3. replace (200 <=? length (a_data a))%nat with true by lia.
  destruct (m_writable m); [reflexivity|]. exfalso. apply N. apply Tk. reflexivity.
Qed.
Lemma stake_end : own_stake cx w m = true ->
  a_owner a' = a_owner a /\ sub 4 120 (a_data a') = sub 4 120 (a_data a) /\ skipn 200 (a_data a') = skipn 200 (a_data a)
  /\ 0 <= spent_of c1 /\ a_lamports a - a_lamports a' <= spent_of c1
  /\ ((164 <= length (a_data a'))%nat -> Z.abs (stake_of a - stake_of a') <= spent_of c1)
  /\ (spent_of c1 = 0 \/ found 12 [] (r_acts r) = true \/ found 10 [] (r_acts r) || found 11 [] (r_acts r) = true).
Proof.
  intros O. destruct (own_stake_class O) as (O1 & Nk & b & l & sp & Ec & T1 & T2 & T3). destruct (Kp _ Nk) as [E1 E2].
  pose proof Af as (i & cache & c0 & snap & Hi & D & Tk & Fi & Sn). rewrite Ec in Fi, Sn |- *. cbn [fine spent_of] in *.
  destruct Fi as (F1 & F2). destruct (F1 O1) as (L & Fs). specialize (Sn O1 _ Fs). rewrite <- E1 in L.
  destruct (sane_rest w m Sw Hin) as ((P1 & P2) & B & Lo). destruct (sane_rest w' m Sw' Hin) as ((P1' & P2') & B' & Lo').
  assert (La : (200 <= length (a_data a))%nat). { unfold own_stake in O. cbv zeta in O. repeat (apply andb_prop in O as [O ?]). lia. }
  assert (Fe : stake_frame a = stake_frame a').
  { destruct (bytes_dec (stake_frame a) (stake_frame a')) as [Q|Q]; [exact Q|]. exfalso. apply Nc. exists m. split; [exact Hin|]. right. split; [exact O|].
    split; [exact Q|]. unfold hash_stake in Sn. rewrite <- E1, <- E2 in Sn. symmetry. exact Sn. }
  unfold stake_frame in Fe. apply frame_app in Fe as (X1 & X2 & X3); [|congruence|rewrite !sub_length by lia; reflexivity].
  split; [congruence|]. split; [congruence|]. split; [congruence|]. split; [exact T1|]. split; [lia|].
  split; [|exact F2]. intros L'. pose proof (u64_range 156 _ B). pose proof (u64_range 156 _ B'). destruct (T3 L'); unfold stake_of in *; lia.
Qed.
Lemma stake_ev ty q : ty = 10 \/ ty = 11 -> at_perm ty q (ev_of w1 wal xs sol (r_acts r) m c1)
  = at_perm ty q (if own_stake cx w m && (0 <? spent_of c1) then if found 12 [] (r_acts r) then [] else gen_ev 10 11 [] (spent_of c1) (r_acts r) else []).
Proof.
  intros Ty. destruct (own_stake cx w m) eqn:O.
  - destruct (own_stake_class O) as (O1 & Nk & b & l & sp & Ec & T1 & T2 & T3). rewrite Ec. cbn [ev_of spent_of andb].
    destruct (sp =? 0) eqn:Q; [replace (0 <? sp) with false by lia; reflexivity|]. replace (0 <? sp) with true by lia. reflexivity.
  - pose proof (rest_class _ _ _ _ _ Af) as X. pose proof class_own_stake as Y. clear Af.
    cbn [andb]. apply at_other. intros e He Q. destruct c1; cbn [ev_of] in He; try contradiction.
    + destruct (dead _); [contradiction|]. destruct (_ =? 0); [contradiction|]. apply in_app_or in He as [He|He].
      * apply gen_types in He. lia.
      * destruct (tok_dests _ _); [|contradiction]. apply dest_types in He. lia.
    + destruct (spent =? 0) eqn:Z0; [contradiction|]. rewrite (Y _ _ spent eq_refl) in O; [discriminate|lia].
    + destruct (_ =? 0); [contradiction|]. destruct He as [<-|[]]. cbn in Q; lia.
Qed.
End One.
Theorem stake_spend : exists s' r' xs ws sp,
  is_cfg (w' k0) s' /\ find_role (r_id r) s' = Some r' /\ inner_ixs ms wal (inner_payload (c_data cx)) xs
  /\ course E cx w w' xs ws
  /\ length sp = length (rest_of cx)
  /\ (forall m x, In (m, x) (combine (rest_of cx) sp) -> own_stake cx w m = true ->
       let a := w (m_key m) in let a' := w' (m_key m) in
       x = capped (stirs (m_key m) (a_lamports a) (stake_of a) ws)
       /\ a_owner a' = a_owner a /\ sub 4 120 (a_data a') = sub 4 120 (a_data a) /\ skipn 200 (a_data a') = skipn 200 (a_data a)
       /\ a_lamports a - a_lamports a' <= x
       /\ ((164 <= length (a_data a'))%nat -> Z.abs (stake_of a - stake_of a') <= x))
  /\ (on_stake cx w sp = [] \/ holds 12 r \/ pays_either 10 11 [] slot (on_stake cx w sp) r r').
Proof.
  destruct picture as (w1 & xs & sol & cr1 & l' & C' & F' & Ix & Sol & Dr & Xi & Xk & Ok0 & Lc & Sp & Rn & Pd & Kp & Lm & Af).
  pose proof Ok0 as ((_ & Wa & _) & _). rewrite <- (acts_after l') in Sp.
  destruct Dr as (_ & ws & Crs & _ & Gr).
  exists (ends l'), (after l'), (map in_ix xs), ws, (map spent_of cr1). split; [exact C'|]. split; [exact F'|]. split; [exact Ix|]. split; [exact Crs|].
  split; [rewrite map_length; exact Lc|].
  assert (Inc : forall m c, In (m, c) (combine (rest_of cx) cr1) -> In m (rest_of cx)) by (intros m c Hmc; eapply in_combine_l; exact Hmc).
  split.
  { intros m x Hin O. rewrite combine_map_snd in Hin. apply in_map_iff in Hin as ([m1 c] & Q & Hin). cbn [fst snd] in Q. injection Q as -> <-.
    pose proof (stake_end w1 xs sol m c Kp Lm (Inc _ _ Hin) (Af _ _ Hin) O) as Te. cbv zeta. split; [exact (proj2 (Gr _ _ Hin) O)|]. tauto. }
  set (head := if sol =? 0 then [] else _) in Sp.
  assert (Hd : forall ty q, ty = 10 \/ ty = 11 -> at_perm ty q head = []).
  { intros ty q Ty. apply at_other. intros e He Q. unfold head in He. destruct (sol =? 0); [contradiction|]. apply in_app_or in He as [He|He].
    - apply gen_types in He. lia.
    - destruct (sol_dests _); [|contradiction]. apply dest_types in He. lia. }
  assert (On : on_stake cx w (map spent_of cr1) = map (fun mc => spent_of (snd mc)) (filter (fun mc => own_stake cx w (fst mc) && (0 <? spent_of (snd mc))) (combine (rest_of cx) cr1))).
  { unfold on_stake. rewrite combine_map_snd. generalize (combine (rest_of cx) cr1) as L. induction L as [|x t IH]; [reflexivity|]. cbn [map filter fst snd].
    destruct (own_stake cx w (fst x) && (0 <? spent_of (snd x))); cbn [map]; rewrite IH; reflexivity. }
  destruct (found 12 [] (r_acts r)) eqn:F12.
  { right; left. clear - F12. unfold holds, found in *. induction (r_acts r) as [|x t IH]; [discriminate|]. cbn [first_of] in F12. destruct ((ac_ty x =? 12) && _) eqn:Q.
    - apply andb_prop in Q as [Q _]. exists x. split; [left; reflexivity|apply Z.eqb_eq; exact Q].
    - destruct (IH F12) as (y & I & Qy). exists y. split; [right; exact I|exact Qy]. }
  assert (Ev : forall ty, ty = 10 \/ ty = 11 ->
     at_perm ty [] (head ++ flat_map (fun mc => ev_of w1 wal xs sol (r_acts r) (fst mc) (snd mc)) (combine (rest_of cx) cr1))
     = flat_map (fun mc => at_perm ty [] (if own_stake cx w (fst mc) && (0 <? spent_of (snd mc)) then gen_ev 10 11 [] (spent_of (snd mc)) (r_acts r) else [])) (combine (rest_of cx) cr1)).
  { intros ty Ty. rewrite at_app, Hd by exact Ty. cbn [app]. rewrite at_flat. apply flat_ext. intros [m c] Hmc. cbn [fst snd].
    pose proof (stake_ev w1 xs sol m c Kp Lm (Af _ _ Hmc) ty [] Ty) as Y. rewrite F12 in Y. exact Y. }
  destruct (found 10 [] (r_acts r)) eqn:F10; [|destruct (found 11 [] (r_acts r)) eqn:F11].
  - right; right; left. pose proof F10 as P10. rewrite (found_perm 10 [] _ eq_refl eq_refl Wa) in P10.
    pose proof (spree_pays _ _ _ _ 10 [] Sp Ok0 Sl eq_refl ltac:(lia) eq_refl P10) as Y. rewrite Ev in Y by auto.
    rewrite On, <- flat_if. erewrite flat_ext; [exact Y|]. intros [m c] Hmc. cbn [fst snd]. destruct (own_stake cx w m && (0 <? spent_of c)); [|reflexivity].
    rewrite at_gen by lia. rewrite F10. reflexivity.
  - right; right; right. pose proof F11 as P11. rewrite (found_perm 11 [] _ eq_refl eq_refl Wa) in P11. pose proof F10 as P10. rewrite (found_perm 10 [] _ eq_refl eq_refl Wa) in P10.
    split; [apply perm_none; exact P10|].
    pose proof (spree_pays _ _ _ _ 11 [] Sp Ok0 Sl eq_refl ltac:(lia) eq_refl P11) as Y. rewrite Ev in Y by auto.
    rewrite On, <- flat_if. erewrite flat_ext; [exact Y|]. intros [m c] Hmc. cbn [fst snd]. destruct (own_stake cx w m && (0 <? spent_of c)); [|reflexivity].
    rewrite at_gen by lia. rewrite F10, F11. reflexivity.
  - left. rewrite On. destruct (filter _ _) as [|mc u] eqn:Fe; [reflexivity|]. exfalso.
    assert (X : In mc (filter (fun mc => own_stake cx w (fst mc) && (0 <? spent_of (snd mc))) (combine (rest_of cx) cr1))) by (rewrite Fe; left; reflexivity).
    apply filter_In in X as [X1 X2]. destruct mc as [m c]. cbn [fst snd] in X2. apply andb_prop in X2 as [X2 X3].
    destruct (stake_end w1 xs sol m c Kp Lm (Inc _ _ X1) (Af _ _ X1) X2) as (_ & _ & _ & _ & _ & _ & [Q|[Q|Q]]); [lia|congruence|].
    rewrite F10, F11 in Q. discriminate.
Qed.
End Spend.
