(** * Which signing calls of limited roles succeed *)
From Verif Require Import BaseFacts SpecConfig ConfigFacts ConfigEdit NewCredential ConfigEdit2 ConfigEdit3.
From Verif Require Import Frame HandlerRoles HandlerRoles2 HandlerAssets Actors ConfigProps AuthFacts SpecAvail Avail Avail2 Avail3.
From Verif Require Import SpecRent SignProcess SignSpec Parse SpecSign SpecClient Settle Ledger Track Spend SignRules SpecWorks Avail4 AllRun Avail5.

(** ** Allowances *)
Lemma has_room_run ty slot p amt : has_room ty slot p amt -> all_bytes p -> 0 <= slot -> exists p', limit_run ty p amt slot = Ok p'.
Proof.
  intros H Bp Hs. assert (D : In ty [1; 2; 5; 6; 16; 17; 18; 19]).
  { unfold has_room in H. destruct ty as [|q|q]; try contradiction. do 5 (try (destruct q as [q|q|]; try contradiction)); cbn; tauto. }
  assert (One : forall e rem, amt <= rem -> exists x, oneshot_run e rem amt = Ok x).
  { intros e rem L. unfold oneshot_run. replace (rem <? amt) with false by lia. eauto. }
  assert (Rec : forall R, rc_window R <> 0 -> amt <= rc_cur R \/ rc_last R + rc_window R < slot /\ amt <= rc_limit R ->
    0 <= rc_window R -> exists x, recurring_run R amt slot = Ok x).
  { intros R N X W0. unfold recurring_run, sat_sub. destruct (_ && _) eqn:Q.
    - replace (rc_window R =? 0) with false by lia. cbn [negb guard bind rc_cur]. apply andb_prop in Q as [_ Q].
      replace (rc_limit R <? amt) with false by lia. eauto.
    - cbn [bind]. assert (amt <= rc_cur R).
      { destruct X as [X|[X1 X2]]; [exact X|]. apply andb_false_iff in Q as [Q|Q]; lia. }
      replace (rc_cur R <? amt) with false by lia. eauto. }
  assert (Rol : forall e R, amt <= rc_cur R \/ rc_window R < (slot - rc_last R) mod U64 /\ amt <= rc_limit R ->
    exists x, recurring_dest_run e R amt slot = Ok x).
  { intros e R X. unfold recurring_dest_run. cbv zeta. destruct (_ && _) eqn:Q.
    - apply andb_prop in Q as [_ Q]. cbn [rc_cur]. replace (rc_limit R <? amt) with false by lia. eauto.
    - assert (amt <= rc_cur R).
      { destruct X as [X|[X1 X2]]; [exact X|]. apply andb_false_iff in Q as [Q|Q]; lia. }
      replace (rc_cur R <? amt) with false by lia. eauto. }
  cbn [In] in D. repeat destruct D as [<-|D]; try contradiction; cbn [has_room] in H; cbv zeta in H.
  - destruct (One AInsufficientBalance _ H) as [x X]. change (limit_run 1 p amt slot) with (sol_limit_bytes p amt). unfold sol_limit_bytes. rewrite X. cbn [bind]. eauto.
  - destruct H as [H1 H2]. change (limit_run 2 p amt slot) with (sol_recurring_bytes p amt slot). unfold sol_recurring_bytes.
    destruct (Rec (read_recurring 0 8 16 24 p) H1 H2) as [x X]; [apply (u64_bound 8 _ Bp)|]. rewrite X. cbn [bind]. eauto.
  - destruct (One AInsufficientBalance _ H) as [x X]. change (limit_run 5 p amt slot) with (token_limit_bytes p amt). unfold token_limit_bytes. rewrite X. cbn [bind]. eauto.
  - destruct H as [H1 H2]. change (limit_run 6 p amt slot) with (token_recurring_bytes p amt slot). unfold token_recurring_bytes.
    destruct (Rec (read_recurring 40 32 56 48 p) H1 H2) as [x X]; [apply (u64_bound 32 _ Bp)|]. rewrite X. cbn [bind]. eauto.
  - destruct (One ASolDestinationLimitExceeded _ H) as [x X]. change (limit_run 16 p amt slot) with (sol_dest_bytes p amt). unfold sol_dest_bytes. rewrite X. cbn [bind]. eauto.
  - change (limit_run 17 p amt slot) with (sol_rec_dest_bytes p amt slot). unfold sol_rec_dest_bytes.
    destruct (Rol ASolRecurringDestinationLimitExceeded (read_recurring 32 40 48 56 p) H) as [x X]. rewrite X. cbn [bind]. eauto.
  - destruct (One ATokenDestinationLimitExceeded _ H) as [x X]. change (limit_run 18 p amt slot) with (token_dest_bytes p amt). unfold token_dest_bytes. rewrite X. cbn [bind]. eauto.
  - change (limit_run 19 p amt slot) with (token_rec_dest_bytes p amt slot). unfold token_rec_dest_bytes.
    destruct (Rol ATokenRecurringDestinationLimitExceeded (read_recurring 64 72 80 88 p) H) as [x X]. rewrite X. cbn [bind]. eauto.
Qed.

(** Charging does not change what permissions of other kinds there are *)
Definition other_kinds (tys : list Z) (l l' : list action) : Prop :=
  forall ty q, ~ In ty tys -> first_of ty q l' = first_of ty q l.
Lemma charge_others ty q amt slot l l' : charge_a ty q amt slot l = Ok (Some l') -> other_kinds [ty] l l'.
Proof.
  unfold charge_a. intros H. destruct (first_of ty q l) as [p|]; [|discriminate]. apply bind_ok in H as (p' & _ & H).
  apply ok_inj in H. injection H as <-. intros ty' q' N. apply first_set_type. intros ->. apply N. left. reflexivity.
Qed.
Lemma others_trans tys l l1 l2 : other_kinds tys l l1 -> other_kinds tys l1 l2 -> other_kinds tys l l2.
Proof. intros A B ty q N. rewrite B, A by exact N. reflexivity. Qed.
Lemma others_wider tys tys' l l' : incl tys tys' -> other_kinds tys l l' -> other_kinds tys' l l'.
Proof. intros I H ty q N. apply H. intros X. apply N, I, X. Qed.
Lemma others_refl tys l : other_kinds tys l l.
Proof. intros ty q _. reflexivity. Qed.

Lemma charge_can ty q amt slot l : okl l -> exact_q ty q -> 0 <= slot -> (forall p, first_of ty q l = Some p -> has_room ty slot p amt) ->
  first_of ty q l = None /\ charge_a ty q amt slot l = Ok None
  \/ first_of ty q l <> None /\ exists l', charge_a ty q amt slot l = Ok (Some l') /\ okl l' /\ alike l l' /\ other_kinds [ty] l l'.
Proof.
  intros O Q Hs H. destruct (first_of ty q l) as [p|] eqn:Ef.
  - right. split; [discriminate|]. pose proof O as ((_ & W & _) & _). destruct (first_of_wf _ _ _ _ W Ef) as (_ & B & _).
    destruct (has_room_run ty slot p amt (H p eq_refl) B Hs) as [p' R].
    assert (C : charge_a ty q amt slot l = Ok (Some (set_first ty q p' l))) by (unfold charge_a; rewrite Ef, R; reflexivity).
    exists (set_first ty q p' l). split; [exact C|]. split; [exact (charge_a_okl _ _ _ _ _ _ C O)|].
    split; [exact (charge_alike _ _ _ _ _ _ O Q C)|exact (charge_others _ _ _ _ _ _ C)].
  - left. split; [reflexivity|]. unfold charge_a. rewrite Ef. reflexivity.
Qed.

(** The common form of the settlement of lamports and of tokens *)
Definition spend_a (t1 t2 : Z) (q : bytes) (d1 d2 : Z) (dq : key -> bytes) (f : action -> bool) (slot : Z) (ts : list (key * Z)) (amt : Z)
  (l : list action) : res (list action) :=
  let* ' (gen, l1) := general_a t1 t2 q amt slot l in
  if existsb f l1 then
    let* ' (parsed, l2) := dests_a dq d2 d1 slot ts 0 l1 in
    check (negb (length ts =? 0)%nat && (parsed =? amt)) AMissingPermission ;; Ok l2
  else check gen AMissingPermission ;; Ok l1.

Lemma spend_can t1 t2 q d1 d2 dq f slot ts amt l : okl l -> 0 <= slot -> amt < U64 ->
  exact_q t1 q -> exact_q t2 q -> (forall k x, ts = [(k, x)] -> exact_q d1 (dq k) /\ exact_q d2 (dq k)) ->
  ~ In d1 [t1; t2] -> ~ In d2 [t1; t2] -> (forall l', alike l l' -> existsb f l' = existsb f l) ->
  let room ty x := forall p, first_of ty x l = Some p -> has_room ty slot p amt in
  room t1 q -> (first_of t1 q l = None -> room t2 q) ->
  (existsb f l = true -> exists k, ts = [(k, amt)] /\ room d2 (dq k)
     /\ (first_of d2 (dq k) l = None -> first_of d1 (dq k) l <> None /\ room d1 (dq k))) ->
  (existsb f l = false -> first_of t1 q l <> None \/ first_of t2 q l <> None) ->
  exists l', spend_a t1 t2 q d1 d2 dq f slot ts amt l = Ok l' /\ okl l' /\ alike l l' /\ other_kinds [t1; t2; d1; d2] l l'.
Proof.
  intros O Hs Ha Q1 Q2 Qd N1 N2 Hf room R1 R2 Rd Rn.
  assert (G : exists g l1, general_a t1 t2 q amt slot l = Ok (g, l1) /\ okl l1 /\ alike l l1 /\ other_kinds [t1; t2] l l1
    /\ (first_of t1 q l <> None \/ first_of t2 q l <> None -> g = true)).
  { unfold general_a. destruct (charge_can t1 q amt slot l O Q1 Hs R1) as [[F1 C1]|(F1 & l1 & C1 & O1 & A1 & K1)]; rewrite C1; cbn [bind].
    - destruct (charge_can t2 q amt slot l O Q2 Hs (R2 F1)) as [[F2 C2]|(F2 & l1 & C2 & O1 & A1 & K1)]; rewrite C2; cbn [bind].
      + exists false, l. split; [reflexivity|]. split; [exact O|]. split; [apply alike_refl|]. split; [apply others_refl|]. tauto.
      + exists true, l1. split; [reflexivity|]. split; [exact O1|]. split; [exact A1|].
        split; [eapply others_wider; [|exact K1]; intros y [<-|[]]; cbn; auto|auto].
    - exists true, l1. split; [reflexivity|]. split; [exact O1|]. split; [exact A1|].
      split; [eapply others_wider; [|exact K1]; intros y [<-|[]]; cbn; auto|auto]. }
  destruct G as (g & l1 & G & O1 & A1 & K1 & Gt). unfold spend_a. rewrite G. cbn [bind]. rewrite (Hf l1 A1).
  assert (K1' : other_kinds [t1; t2; d1; d2] l l1) by (eapply others_wider; [|exact K1]; intros y [<-|[<-|[]]]; cbn; auto).
  destruct (existsb f l) eqn:X.
  - destruct (Rd eq_refl) as (k & -> & Rk & Rk'). destruct (Qd k amt eq_refl) as [E1 E2]. cbn [dests_a length Nat.eqb negb andb].
    assert (Lt : (0 + amt <? U64) = true) by (apply Z.ltb_lt; exact Ha). rewrite Lt. cbn [check bind].
    assert (R2' : forall p, first_of d2 (dq k) l1 = Some p -> has_room d2 slot p amt).
    { intros p. rewrite K1 by exact N2. apply Rk. }
    destruct (charge_can d2 (dq k) amt slot l1 O1 E2 Hs R2') as [[F2 C2]|(F2 & l2 & C2 & O2 & A2 & K2)]; rewrite C2; cbn [bind].
    + rewrite K1 in F2 by exact N2. destruct (Rk' F2) as [F3 Rk3].
      assert (R1' : forall p, first_of d1 (dq k) l1 = Some p -> has_room d1 slot p amt).
      { intros p. rewrite K1 by exact N1. apply Rk3. }
      destruct (charge_can d1 (dq k) amt slot l1 O1 E1 Hs R1') as [[F4 C4]|(F4 & l2 & C4 & O2 & A2 & K2)].
      { rewrite K1 in F4 by exact N1. congruence. }
      rewrite C4. cbn [bind dests_a]. change (0 + amt) with amt. rewrite Z.eqb_refl. cbn [check bind]. exists l2. split; [reflexivity|]. split; [exact O2|].
      split; [eapply alike_trans; eassumption|]. eapply others_trans; [exact K1'|]. eapply others_wider; [|exact K2]. intros y [<-|[]]; cbn; auto.
    + cbn [bind dests_a]. change (0 + amt) with amt. rewrite Z.eqb_refl. cbn [check bind]. exists l2. split; [reflexivity|]. split; [exact O2|].
      split; [eapply alike_trans; eassumption|]. eapply others_trans; [exact K1'|]. eapply others_wider; [|exact K2]. intros y [<-|[]]; cbn; auto.
  - rewrite (Gt (Rn eq_refl)). cbn [check bind]. exists l1. auto.
Qed.

(** ** The classes *)
Definition quiet_cls (c : cls) : Prop := match c with CStake _ _ _ | CScope _ _ => False | _ => True end.
Lemma classify_three w s ms : is_cfg (w (mkey ms 0)) s -> (2 <= length ms <= 254)%nat ->
  (forall m, In m (tl ms) -> ordinary w s (m_key m)) -> a_owner (w (mkey ms 1)) = SYSTEM ->
  exists cr, classify_all w ms = Ok (CThisSwig :: CWallet :: cr) /\ length cr = length (skipn 2 ms)
    /\ forall j m c, nth_error (skipn 2 ms) j = Some m -> nth_error cr j = Some c ->
       c = CNone /\ ~ (is_token_program (a_owner (w (m_key m))) = true /\ (165 <= length (a_data (w (m_key m))))%nat
          /\ beq (sub 32 32 (a_data (w (m_key m)))) (mkey ms 0) || beq (sub 32 32 (a_data (w (m_key m)))) (mkey ms 1) = true)
       \/ c = CToken (amount (w (m_key m))) 0 /\ is_token_program (a_owner (w (m_key m))) = true /\ (165 <= length (a_data (w (m_key m))))%nat
          /\ beq (sub 32 32 (a_data (w (m_key m)))) (mkey ms 0) || beq (sub 32 32 (a_data (w (m_key m)))) (mkey ms 1) = true.
Proof.
  intros C L H O1. destruct (classify_all_can w s (mkey ms 0) C ms eq_refl) as [cs Hc]; [lia|exact H|].
  pose proof Hc as Hc'. pose proof (classify_all_ok _ _ _ Hc) as (_ & Ln & _).
  unfold classify_all, MAX_ACCOUNTS in Hc.
  apply bind_ok in Hc as (? & _ & Hc). apply bind_ok in Hc as (? & _ & Hc). cbv zeta in Hc.
  destruct ms as [|m0 [|m1 t]]; try (cbn in L; lia). unfold mkey in *. cbn [nth] in *.
  pose proof (cfg_is_config w s (m_key m0) C) as Cf. rewrite Cf in Hc. pose proof C as (O & D & W). rewrite D, scope_cache_enc in Hc by exact W.
  cbn [classify_from] in Hc. apply bind_ok in Hc as (c0 & B0 & Hc). unfold classify in B0. cbv zeta in B0.
  rewrite O, beq_refl, Cf in B0. cbn [negb Nat.eqb] in B0. apply ok_inj in B0.
  apply bind_ok in Hc as (c1 & B1 & Hc). apply bind_ok in B1 as (c2 & B2 & B3). unfold classify in B2. cbv zeta in B2. rewrite O1, Cf in B2.
  change (beq SYSTEM SELF) with false in B2. rewrite beq_refl in B2. cbn [negb Nat.eqb andb] in B2. apply ok_inj in B2.
  apply bind_ok in B3 as (cr & B3 & B4). apply ok_inj in B4. apply ok_inj in Hc. subst c0 c1 c2 cs. exists cr. split; [exact Hc'|].
  split; [cbn in Ln |- *; lia|]. intros j m c Hm Hj. cbn [skipn] in Hm.
  destruct (classify_from_nth _ _ _ _ _ _ _ _ _ _ B3 Hm) as (c' & wal' & C1 & C2 & C3). rewrite C1 in Hj. injection Hj as ->.
  rewrite C3 in C2 by lia. cbn [Nat.eqb is_wallet] in C2. clear C3.
  assert (Od : ordinary w s (m_key m)). { apply H. right. eapply nth_error_In; exact Hm. }
  destruct Od as (Ns & Nw). unfold classify in C2. cbv zeta in C2. rewrite Cf in C2.
  change (2 + j =? 0)%nat with false in C2. change (2 + j =? 1)%nat with false in C2. change (1 <? 2 + j)%nat with true in C2.
  rewrite andb_false_r in C2. apply beq_neq in Ns. rewrite Ns in C2. cbn [negb andb] in C2. rewrite andb_true_r in C2.
  destruct (beq (a_owner (w (m_key m))) SELF) eqn:Qs.
  { left. split; [destruct (negb _); apply ok_inj in C2; auto|]. intros (X & _). apply token_owner in X as (X & _). congruence. }
  rewrite (beq_sym (m_key m0)), (beq_sym (m_key m1)) in C2.
  destruct (is_token_program (a_owner (w (m_key m))) && (165 <=? length (a_data (w (m_key m))))%nat) eqn:Qt.
  - apply andb_prop in Qt as [Q1 Q2]. destruct (_ || _) eqn:Qo; apply ok_inj in C2.
    + right. split; [auto|]. split; [exact Q1|]. split; [lia|first [exact Qo | reflexivity]].
    + left. split; [auto|]. intros (_ & _ & X). unfold mkey in X. cbn [nth] in X. congruence.
  - left. split.
    + destruct (find_scope (scope_list s) (m_key m)) as [p|] eqn:F; [|apply ok_inj in C2; auto].
      unfold find_scope in F. apply find_some in F as [F Q]. apply scope_list_in in F as (r & a & H1 & H2 & H3 & <-); [|exact W].
      destruct (Nw r a H1 H2). split; [exact H3|]. apply beq_eq in Q. exact Q.
    + intros (X1 & X2 & _). rewrite X1 in Qt. cbn [andb] in Qt. lia.
Qed.

(** ** The course of a limited call *)
Lemma track_can w acts ms : forall cs, Forall quiet_cls cs -> exists cs', track w acts ms cs = Ok cs' /\ Forall quiet_cls cs'.
Proof.
  induction ms as [|m t IH]; intros cs Q; [exists []; split; [reflexivity|constructor]|].
  destruct cs as [|c cr]; [exists []; split; [reflexivity|constructor]|]. inversion Q as [|? ? Q1 Q2]; subst.
  destruct (IH cr Q2) as (cs' & T & Q'). cbn [track]. rewrite T.
  assert (X : exists c', track1 w acts m c = Ok c' /\ quiet_cls c').
  { unfold track1. destruct (negb (m_writable m)); [eauto|]. destruct c; cbn in Q1; try contradiction; eauto.
    destruct (_ <? 72)%nat; eexists; (split; [reflexivity|exact I]). }
  destruct X as (c' & -> & X). cbn [bind]. exists (c' :: cs'). split; [reflexivity|]. constructor; assumption.
Qed.
Lemma snapshots_can E w acts ms : forall k cs, Forall quiet_cls cs -> (k + length ms <= 100)%nat ->
  exists sn, snapshots E w acts k ms cs = Ok sn.
Proof.
  induction ms as [|m t IH]; intros k cs Q L; [eexists; reflexivity|].
  destruct cs as [|c cr]; [eexists; reflexivity|]. inversion Q as [|? ? Q1 Q2]; subst. cbn [length] in L.
  destruct (IH (S k) cr Q2 ltac:(lia)) as (sn & T). cbn [snapshots]. rewrite T.
  assert (X : exists h, snapshot E w acts k m c = Ok h).
  { unfold snapshot. destruct (negb (m_writable m)); [eauto|].
    destruct c; cbn in Q1; try contradiction; cbn [bind]; try (eexists; reflexivity);
      replace (k <? 100)%nat with true by lia; cbn [check bind]; eauto. }
  destruct X as (h & ->). cbn [bind]. eauto.
Qed.
Lemma settle_app E slot w wal xs sol ms1 ms2 : forall cs1 cs2 sn1 sn2 l, length cs1 = length ms1 -> length sn1 = length ms1 ->
  settle_a E slot w wal xs sol (ms1 ++ ms2) (cs1 ++ cs2) (sn1 ++ sn2) l
  = (let* l1 := settle_a E slot w wal xs sol ms1 cs1 sn1 l in settle_a E slot w wal xs sol ms2 cs2 sn2 l1).
Proof.
  induction ms1 as [|m t IH]; intros cs1 cs2 sn1 sn2 l L1 L2.
  - destruct cs1; [|discriminate]. destruct sn1; [|discriminate]. reflexivity.
  - destruct cs1 as [|c cr]; [discriminate|]. destruct sn1 as [|s sr]; [discriminate|]. cbn [app settle_a].
    destruct (settle1_a E slot w wal xs sol m c s l) as [l1| |]; cbn [bind]; try reflexivity. apply IH; cbn in L1, L2; lia.
Qed.
Lemma settle_quiet E slot w wal xs sol ms : forall cs sn l,
  (forall j m c s, nth_error ms j = Some m -> nth_error cs j = Some c -> nth_error sn j = Some s ->
     settle1_a E slot w wal xs sol m c s l = Ok l) -> settle_a E slot w wal xs sol ms cs sn l = Ok l.
Proof.
  induction ms as [|m t IH]; intros cs sn l H; [reflexivity|]. destruct cs as [|c cr]; [reflexivity|]. destruct sn as [|s sr]; [reflexivity|].
  cbn [settle_a]. rewrite (H 0%nat m c s eq_refl eq_refl eq_refl). cbn [bind]. apply IH.
  intros j m' c' s' H1 H2 H3. apply (H (S j)); assumption.
Qed.
Lemma mention_signed ms sk payload xs x m : inner_ixs ms sk payload xs -> In x xs -> In m (ix_metas x) -> m_key m = sk -> carries sk x.
Proof.
  intros (_ & rest & _ & L) I Im K. exists m. split; [exact Im|]. split; [exact K|].
  revert I. induction L as [|prog accts data y rest ys (P & F & D) La Ld L IH]; intros I; [contradiction|]. destruct I as [<-|I]; [|apply IH; exact I].
  clear - F Im K. induction F as [|a b ta tb (m0 & N & ->) F IH]; [contradiction|]. destruct Im as [<-|Im]; [|apply IH; exact Im].
  cbn [m_key m_signer] in *. rewrite K, beq_refl, orb_true_r. reflexivity.
Qed.
