(** * Which signing calls of limited roles succeed: the call as a whole *)
From Verif Require Import BaseFacts SpecConfig ConfigFacts ConfigEdit NewCredential ConfigEdit2 ConfigEdit3.
From Verif Require Import Frame HandlerRoles HandlerRoles2 HandlerSub HandlerAssets Actors ConfigProps AuthFacts SpecAvail Avail Avail2 Avail3.
From Verif Require Import SpecRent SignProcess SignSpec Parse SpecSign SpecClient Settle Ledger Track Spend SignRules SpecWorks Avail4 AllRun Avail5 Avail6.

Lemma last_cons {A} (x : A) l d : last (x :: l) d = last l x.
Proof. revert x d. induction l as [|y t IH]; intros x d; [reflexivity|]. change (last (y :: t) d = last (y :: t) x). rewrite !IH. reflexivity. Qed.

Section Loop.
Variables (E : env) (cx : ctx) (s1 : config) (r : role) (payload : bytes) (ys : list inner) (off len : nat) (pall pcur : bool).
Notation k0 := (acct cx 0).
Notation wal := (acct cx 1).
Hypothesis (F : foreign_ok E) (Ix : inner_ixs (c_metas cx) wal payload (map in_ix ys)).
Hypothesis (Ac : sub off len (enc_config s1) = enc_actions 0 (r_acts r)).
Hypothesis (Pr : forall z, In z ys -> in_uses z = true -> pall = true \/ program_allowed pcur (enc_actions 0 (r_acts r)) (ix_prog (in_ix z)) = Ok true).
Lemma limited_loop_can zs : incl zs ys -> forall w ws sol cs, a_owner (w k0) = SELF -> a_data (w k0) = enc_config s1 -> Forall quiet_cls cs ->
  stages (by_others E wal) (map in_ix zs) w ws ->
  a_owner (last ws w k0) = SELF /\ a_data (last ws w k0) = enc_config s1
  /\ exists sol' cs', limited_loop E cx k0 wal [wal] off len pall pcur zs w sol cs = Ok (last ws w, sol', cs') /\ Forall quiet_cls cs'
  /\ stages (fun v x v' => run_inner E cx wal [wal] v x = Ok v') (map in_ix zs) w ws.
Proof.
  induction zs as [|z t IH]; intros I w ws sol cs Ow D Q S; cbn [map] in S; inversion S as [|? ? ? w1 ws1 (O & Pn & Mn & Fx) S']; subst; cbn [limited_loop].
  - split; [exact Ow|]. split; [exact D|]. exists sol, cs. split; [reflexivity|]. split; [exact Q|constructor].
  - assert (X : run_inner E cx wal [wal] w (in_ix z) = Ok w1).
    { unfold run_inner. cbv zeta. rewrite O, beq_refl. cbn [negb]. rewrite !andb_false_r.
      replace (_ || (1 <=? length (ix_metas (in_ix z)))%nat) with true.
      2:{ destruct (ix_metas (in_ix z)); [congruence|]. cbn [length Nat.leb]. rewrite orb_true_r. reflexivity. }
      cbn [guard bind]. unfold invoke. rewrite (privileges_can _ _ _ _ _ Ix) by (apply in_map, I; left; reflexivity). cbn [check bind].
      apply beq_neq in Pn. rewrite Pn. exact Fx. }
    destruct (run_inner_config _ _ _ _ _ _ _ k0 F Ow Pn X) as [D1 O1].
    rewrite last_cons. cbv zeta.
    assert (G : (if negb pall && in_uses z then
       let* ok := program_allowed pcur (acts_now w k0 off len) (ix_prog (in_ix z)) in check ok AMissingPermission else Ok tt) = Ok tt).
    { destruct (negb pall && in_uses z) eqn:Qz; [|reflexivity]. apply andb_prop in Qz as [Q1 Q2].
      unfold acts_now. rewrite D, Ac. destruct (Pr z) as [P|P]; [apply I; left; reflexivity|exact Q2|subst pall; discriminate|].
      rewrite P. reflexivity. }
    rewrite G. cbn [bind]. rewrite X. cbn [bind].
    destruct (track_can w1 (acts_now w1 k0 off len) (c_metas cx) cs Q) as (cs1 & Tk & Q1). rewrite Tk. cbn [bind].
    destruct (IH (fun q Hq => I q (or_intror Hq)) w1 ws1
      (if a_lamports (w1 wal) <? a_lamports (w wal) then sat_add U64 sol (a_lamports (w wal) - a_lamports (w1 wal)) else sol) cs1)
      as (A1 & A2 & sol' & cs' & A3 & A4 & A5); [congruence|congruence|exact Q1|exact S'|].
    split; [exact A1|]. split; [exact A2|]. exists sol', cs'. split; [exact A3|]. split; [exact A4|]. cbn [map]. econstructor; [exact X|exact A5].
Qed.
End Loop.

Lemma stages_fun E cx wal ps xs : forall w ws ws', stages (fun v x v' => run_inner E cx wal ps v x = Ok v') xs w ws ->
  stages (fun v x v' => run_inner E cx wal ps v x = Ok v') xs w ws' -> ws' = ws.
Proof.
  induction xs as [|x t IH]; intros w ws ws' A B; inversion A as [|? ? ? w1 ws1 A1 A2]; inversion B as [|? ? ? w2 ws2 B1 B2]; subst; [reflexivity|].
  rewrite A1 in B1. apply ok_inj in B1. subst w2. f_equal. eapply IH; eassumption.
Qed.

Lemma room_bound ty slot p amt : has_room ty slot p amt -> all_bytes p -> amt < U64.
Proof.
  intros H B. assert (U : forall o, u64_at o p < U64) by (intros o; apply (u64_bound o p B)).
  assert (D : In ty [1; 2; 5; 6; 16; 17; 18; 19]).
  { unfold has_room in H. destruct ty as [|q|q]; try contradiction. do 5 (try (destruct q as [q|q|]; try contradiction)); cbn; tauto. }
  assert (R : forall L over, renewed L over p amt -> amt < U64).
  { intros L over [X|[_ X]]; eapply Z.le_lt_trans; [exact X|apply U|exact X|apply U]. }
  cbn [In] in D. repeat destruct D as [<-|D]; try contradiction; cbn [has_room] in H; cbv zeta in H;
    first [exact (R _ _ (proj2 H)) | exact (R _ _ H) | exact (Z.le_lt_trans _ _ _ H (U _))].
Qed.

(** A covered expense is settled *)
Lemma covered_can t1 t2 q d1 d2 dq lim f slot r ts amt l : wf_role r -> okl l -> 0 <= slot ->
  (forall ty, In ty [t1; t2; d1; d2] -> limit_type ty = true /\ forall x, first_of ty x l = first_of ty x (r_acts r)) ->
  exact_q t1 q -> exact_q t2 q -> (forall k x, In (k, x) ts -> exact_q d1 (dq k) /\ exact_q d2 (dq k)) ->
  ~ In d1 [t1; t2] -> ~ In d2 [t1; t2] -> (forall l', alike l l' -> existsb f l' = existsb f l) -> (existsb f l = true <-> lim) ->
  covered t1 t2 q d1 d2 dq lim slot r ts amt ->
  amt < U64 /\ exists l', spend_a t1 t2 q d1 d2 dq f slot ts amt l = Ok l' /\ okl l' /\ alike l l' /\ other_kinds [t1; t2; d1; d2] l l'.
Proof.
  intros Wr O Hs K Q1 Q2 Qd N1 N2 Hf Hl (C1 & C2 & C3 & C4). pose proof (role_okl _ Wr) as ((_ & W & _) & _).
  assert (P : forall ty x, In ty [t1; t2; d1; d2] -> exact_q ty x -> perm ty x (r_acts r) = first_of ty x l).
  { intros ty x I Qx. destruct (K ty I) as [T Kx]. rewrite perm_first by assumption. symmetry. apply Kx. }
  assert (P1 : perm t1 q (r_acts r) = first_of t1 q l) by (apply P; [cbn; auto|exact Q1]).
  assert (P2 : perm t2 q (r_acts r) = first_of t2 q l) by (apply P; [cbn; auto|exact Q2]).
  rewrite P1 in *. rewrite P2 in *.
  assert (Bp : forall ty x p, In ty [t1; t2; d1; d2] -> first_of ty x l = Some p -> all_bytes p).
  { intros ty x p I Fp. destruct O as ((_ & Wl & _) & _). apply (first_of_wf _ _ _ _ Wl Fp). }
  assert (Rd : existsb f l = true -> exists k, ts = [(k, amt)] /\ (forall p, first_of d2 (dq k) l = Some p -> has_room d2 slot p amt)
     /\ (first_of d2 (dq k) l = None -> first_of d1 (dq k) l <> None /\ forall p, first_of d1 (dq k) l = Some p -> has_room d1 slot p amt)).
  { intros X. destruct (C3 (proj1 Hl X)) as (k & -> & R1 & R2). destruct (Qd k amt (or_introl eq_refl)) as [E1 E2].
    assert (Z2 := P d2 _ ltac:(cbn; auto) E2). assert (Z1 := P d1 _ ltac:(cbn; auto) E1). cbv beta in R1, R2. rewrite Z2 in R1, R2. rewrite Z1 in R2. exists k. auto. }
  assert (Rn : existsb f l = false -> first_of t1 q l <> None \/ first_of t2 q l <> None).
  { intros X. apply C4. intros Y. apply Hl in Y. congruence. }
  assert (Lt : amt < U64).
  { destruct (first_of t1 q l) as [p|] eqn:F1.
    { eapply room_bound; [apply C1; reflexivity|]. apply (Bp t1 q); [cbn; auto|exact F1]. }
    destruct (first_of t2 q l) as [p|] eqn:F2.
    { eapply room_bound; [apply C2; reflexivity|]. apply (Bp t2 q); [cbn; auto|exact F2]. }
    destruct (existsb f l) eqn:X; [|destruct (Rn eq_refl); congruence].
    destruct (Rd eq_refl) as (k & _ & R1 & R2). destruct (first_of d2 (dq k) l) as [p|] eqn:F3.
    { eapply room_bound; [apply R1; reflexivity|]. apply (Bp d2 (dq k)); [cbn; auto|exact F3]. }
    destruct (R2 eq_refl) as [Nn R3]. destruct (first_of d1 (dq k) l) as [p|] eqn:F4; [|congruence].
    eapply room_bound; [apply R3; reflexivity|]. apply (Bp d1 (dq k)); [cbn; auto|exact F4]. }
  split; [exact Lt|].
  apply spend_can; try assumption. intros k x Ek. apply (Qd k x). rewrite Ek. left. reflexivity.
Qed.

Lemma outs_in f xs t : In t (outs f xs) -> exists x, In x xs /\ f x = Some t.
Proof.
  induction xs as [|x r IH]; cbn [outs]; [contradiction|]. destruct (f x) as [t0|] eqn:Q.
  - intros [<-|I]; [exists x; split; [left; reflexivity|exact Q]|]. destruct (IH I) as (y & Iy & Qy). exists y. split; [right; exact Iy|exact Qy].
  - intros I. destruct (IH I) as (y & Iy & Qy). exists y. split; [right; exact Iy|exact Qy].
Qed.
Lemma out_key f xs k x n : (forall y t, f y = Some t -> exists m, In m (ix_metas y) /\ m_key m = fst t) ->
  (forall y m, In y xs -> In m (ix_metas y) -> length (m_key m) = n) -> In (k, x) (outs f xs) -> length k = n.
Proof.
  intros Hf L I. apply outs_in in I as (y & Iy & Qy). destruct (Hf _ _ Qy) as (m & Im & Km). cbn in Km. rewrite <- Km. eapply L; eassumption.
Qed.
Lemma sol_out_key w y t : sol_out w y = Some t -> exists m, In m (ix_metas y) /\ m_key m = fst t.
Proof.
  unfold sol_out. destruct (ix_metas y) as [|m0 [|m1 r]]; try discriminate. destruct (_ && _); [|discriminate]. intros H. injection H as <-.
  exists m1. cbn. auto.
Qed.
Lemma token_out_key w y t : token_out w y = Some t -> exists m, In m (ix_metas y) /\ m_key m = fst t.
Proof.
  unfold token_out. destruct (ix_metas y) as [|m0 [|m1 r]]; try discriminate. destruct (negb _); [discriminate|].
  destruct (_ && _). { intros H. injection H as <-. exists m1. cbn. auto. }
  destruct r as [|m2 r]; [discriminate|]. destruct (_ && _); [|discriminate]. intros H. injection H as <-. exists m2. cbn. auto.
Qed.

(** ** The accounts at the end *)
Lemma token_settles E slot w0 w1 wal xs sol acts i m b sp snap l : 
  (165 <= length (a_data (w0 (m_key m))))%nat -> sub 32 32 (a_data (w0 (m_key m))) = wal -> byte_at 108 (a_data (w0 (m_key m))) = 1 ->
  intact w0 w1 (m_key m) -> (forall b' sp', snapshot E w0 acts i m (CToken b' sp') = Ok snap) ->
  settle1_a E slot w1 wal xs sol m (CToken b sp) snap l
  = if sp =? 0 then Ok l else token_a slot (m_key m) (mint_of (w0 (m_key m))) xs sp l.
Proof.
  intros L A I (N & Ow & F & K) Sn. set (d := a_data (w0 (m_key m))) in *. set (d' := a_data (w1 (m_key m))) in *.
  assert (Ln : length d' = length d).
  { pose proof (f_equal (@length Z) F) as H1. pose proof (f_equal (@length Z) K) as H2. rewrite !firstn_length in H1. rewrite !skipn_length in H2. lia. }
  assert (S32 : sub 32 32 d' = sub 32 32 d). { unfold sub. rewrite !firstn_skipn_comm. cbn [Nat.add]. rewrite F. reflexivity. }
  assert (S0 : sub 0 32 d' = sub 0 32 d).
  { unfold sub. cbn [skipn]. replace (firstn 32 d') with (firstn 32 (firstn 64 d')) by (rewrite firstn_firstn; reflexivity). rewrite F, firstn_firstn. reflexivity. }
  assert (B : byte_at 108 d' = byte_at 108 d).
  { unfold byte_at. change 108%nat with (72 + 36)%nat. rewrite <- !nth_skipn', K. reflexivity. }
  unfold settle1_a. cbv zeta. fold d'. replace (length d' =? 0)%nat with false by lia. replace (a_lamports (w1 (m_key m)) =? 0) with false by lia.
  cbn [orb]. replace (165 <=? length d')%nat with true by lia. cbn [check bind].
  assert (Ck : check_snapshot m snap (hash_skip E (w1 (m_key m)) 64 72) = Ok tt).
  { unfold check_snapshot. destruct (m_writable m) eqn:Wm; [|reflexivity]. specialize (Sn 0 0). unfold snapshot in Sn. rewrite Wm in Sn. cbn [negb bind] in Sn.
    apply bind_ok in Sn as (? & _ & Sn). apply ok_inj in Sn. subst snap.
    assert (X : hash_skip E (w1 (m_key m)) 64 72 = hash_skip E (w0 (m_key m)) 64 72). { unfold hash_skip. fold d'. rewrite F, K, Ow. reflexivity. }
    rewrite X, beq_refl. reflexivity. }
  rewrite Ck. cbn [bind]. rewrite S32, A, beq_refl, B, I. cbn [check bind Z.eqb Pos.eqb]. rewrite S0. reflexivity.
Qed.

Lemma settle_one E slot w wal xs sol ms : forall j cs sn l l' m c sm, nth_error ms j = Some m -> nth_error cs j = Some c -> nth_error sn j = Some sm ->
  settle1_a E slot w wal xs sol m c sm l = Ok l' ->
  (forall i m c sm, i <> j -> nth_error ms i = Some m -> nth_error cs i = Some c -> nth_error sn i = Some sm ->
     forall l, settle1_a E slot w wal xs sol m c sm l = Ok l) ->
  settle_a E slot w wal xs sol ms cs sn l = Ok l'.
Proof.
  induction ms as [|m0 t IH]; intros j cs sn l l' m c sm Hm Hc Hs H1 H2; [destruct j; discriminate|].
  destruct cs as [|c0 cr]; [destruct j; discriminate|]. destruct sn as [|s0 sr]; [destruct j; discriminate|]. cbn [settle_a].
  destruct j as [|j]; cbn [nth_error] in Hm, Hc, Hs.
  - injection Hm as ->. injection Hc as ->. injection Hs as ->. rewrite H1. cbn [bind]. apply settle_quiet.
    intros i m' c' s' N1 N2 N3. apply (H2 (S i) m' c' s'); [discriminate|exact N1|exact N2|exact N3].
  - rewrite (H2 0%nat m0 c0 s0) by (try reflexivity; discriminate). cbn [bind]. apply (IH j _ _ _ _ m c sm); try assumption.
    intros i m' c' s' N N1 N2 N3. apply (H2 (S i)); try assumption. lia.
Qed.

Lemma stages_last {ok xs w ws} : stages ok xs w ws -> forall v, last ws v = last ws w \/ ws = [].
Proof. intros _ v. destruct ws as [|a t]; [right; reflexivity|left]. rewrite !last_cons. reflexivity. Qed.

Lemma limited_spent E cx swig sk ps off len pall cur xs : c_height cx = 1%nat -> forall w w' sol sol' cs cs', 0 <= sol -> Forall spent_ok cs ->
  limited_loop E cx swig sk ps off len pall cur xs w sol cs = Ok (w', sol', cs') -> 0 <= sol' /\ Forall spent_ok cs'.
Proof.
  intros Hh. induction xs as [|x t IH]; intros w w' sol sol' cs cs' Hs Hc H; cbn [limited_loop] in H; cbv zeta in H.
  - apply ok_inj in H. injection H as <- <- <-. auto.
  - apply bind_ok in H as (? & _ & H). apply bind_ok in H as (w1 & _ & H). apply bind_ok in H as (cs1 & T & H).
    apply (track_ok cx Hh) in T as (T & _); [|exact Hc]. apply IH in H; [exact H| |exact T].
    destruct (_ <? a_lamports (w sk)) eqn:Q; [|exact Hs]. unfold sat_add, U64; lia.
Qed.

Section Limited.
Variables (E : env) (cx : ctx) (w : world) (s : config) (r : role) (payload : bytes) (xs : list ix).
Notation ms := (c_metas cx).
Notation k0 := (acct cx 0).
Notation wal := (acct cx 1).
Hypothesis (Wc : wf_ctx cx) (F : foreign_ok E) (C : is_cfg (w k0) s) (A : usual_accounts 3 cx w s) (L100 : (length ms <= 100)%nat).
Hypothesis (Hh : c_height cx = 1%nat) (Sl : 0 <= c_slot cx) (Pw : pda E (seeds_wallet k0 (s_wbump s)) = Some wal) (Ow : a_owner (w wal) = SYSTEM).
Hypothesis (I : In r (s_roles s)) (Lim : limited r) (Ask : asks E cx r (Sign payload)) (Ix : inner_ixs ms wal payload xs).
Hypothesis (Al : forall x, In x xs -> carries wal x -> holds 13 r \/ allowed r (ix_prog x)).

Theorem limited_asked : exists w0, is_cfg (w0 k0) (used (r_id r) s) /\ only_here k0 w w0
  /\ forall ws, stages (by_others E wal) xs w0 ws ->
     rent E (length (a_data (last ws w wal))) <= a_lamports (last ws w wal) ->
     sol_covered cx r xs (falls (lamports_of wal) (a_lamports (w wal)) ws) ->
     tokens_fine cx r xs w ws ->
     exists w', succeeds E cx w w' /\ only_here k0 (last ws w0) w'.
Proof.
  destruct A as (A1 & A2 & A3). destruct Ask as (Q1 & Q2 & a & Q3). pose proof C as (O & Dd & W).
  assert (Fr : find_role (r_id r) s = Some r) by (apply find_role_mine; [exact W|exact I]).
  assert (Wr : wf_role r). { destruct W as (_ & _ & _ & _ & _ & _ & _ & W8 & _). rewrite Forall_forall in W8. apply W8. exact I. }
  apply order_sign in Q2 as (T & T1). laid T Q1 Q3. replace (8 + arg_len (c_data cx) - 8)%nat with (arg_len (c_data cx)) in Q3 by lia.
  set (n := arg_len (c_data cx)) in *.
  pose proof (payload_there _ _ _ _ _ _ _ _ Q3) as L.
  destruct (classify_three w s ms C ltac:(lia) A3 Ow) as (cr & Hc & Lcr & Hcr).
  destruct (open_can E cx s (r_id r) r _ _ _ W Fr Q3) as [o Ho]. pose proof Ho as Ho'.
  apply open_role_enc in Ho' as (r1 & s0 & Act & O2 & W1 & O4 & O5 & O6 & O7 & O8 & O9 & O10); [|exact W].
  destruct (open_pos _ _ _ _ _ _ _ _ _ W W1 Ho Act) as (rp & Pp1 & Pp2 & Pp3 & Pp4).
  destruct Act as (O1 & au' & O1' & O1s).
  rewrite Fr in O1. injection O1 as <-. pose proof (eq_trans (eq_sym Q3) O1') as X. injection X as <-.
  change (s0 = shown r a s) in O1s. rewrite (shown_used _ _ _ _ _ _ _ W Fr Q3) in O1s.
  destruct (set_can_data ms w k0 (o_bytes o) A2 O) as [w0 Hw0].
  pose proof (set_data_only _ _ _ _ _ Hw0) as (D0 & L0). rewrite O7 in D0.
  destruct (inner_parse_all _ _ _ _ Ix) as (ys & Py & Hys).
  assert (Bp : all_bytes payload). { rewrite T1. apply all_bytes_sub. apply Wc. }
  destruct (parse_all_ok _ _ _ _ Bp Py) as (Fys & Lys).
  assert (Ik : forall y m, In y xs -> In m (ix_metas y) -> length (m_key m) = 32%nat).
  { intros y m Iy Im. rewrite <- Hys in Iy. apply in_map_iff in Iy as (z & <- & Iz). rewrite Forall_forall in Fys.
    destruct (Fys z Iz) as (Fz & _). rewrite Forall_forall in Fz. destruct (Fz m Im) as (m0 & I0 & K0 & _). rewrite K0.
    destruct Wc as (_ & Wm). rewrite Forall_forall in Wm. apply (Wm m0 I0). }
  assert (C0 : is_cfg (w0 k0) s0) by exact (only_data_cfg w w0 _ s _ C D0 W1).
  assert (H0 : only_here k0 w w0) by (eapply only_here_of; [exact D0|apply L0]).
  exists w0. rewrite <- O1s. split; [exact C0|]. split; [exact H0|]. intros ws St Rent Sol Tok.
  (* the loop *)
  set (off := (HDR + rv_off (o_role o) + POS + length (rv_auth (o_role o)))%nat).
  assert (Acts : sub off (acts_len (r_acts r)) (enc_config s0) = enc_actions 0 (r_acts r)).
  { unfold off. rewrite <- Pp3, <- Pp2. apply (acts_in_config s0 (r_id r) (rv_off (o_role o)) rp (r_acts rp) W1 Pp1 eq_refl eq_refl). rewrite Pp2. apply Wr. }
  set (pall := has P_ProgramAll [] r). set (pcur := negb pall && has P_ProgramCurated [] r).
  assert (Pr : forall z, In z ys -> in_uses z = true -> pall = true \/ program_allowed pcur (enc_actions 0 (r_acts r)) (ix_prog (in_ix z)) = Ok true).
  { intros z Iz Uz. rewrite Forall_forall in Fys. destruct (Fys z Iz) as (_ & (mp & Ip & Kp) & Us & _).
    destruct (proj1 Us Uz) as (m & Im & Km). assert (Ixz : In (in_ix z) xs) by (rewrite <- Hys; apply in_map; exact Iz).
    pose proof (mention_signed _ _ _ _ _ _ Ix Ixz Im Km) as Ca. destruct pall eqn:Qp; [left; reflexivity|right].
    destruct (Al _ Ixz Ca) as [H13|[H3|[H14 Hcu]]].
    - apply (has_holds P_ProgramAll [] r) in H13; [unfold pall in Qp; congruence|intros q d; reflexivity].
    - unfold program_allowed. destruct (pcur && _); [reflexivity|].
      rewrite has_mut_enc by (apply role_okl; exact Wr). f_equal.
      assert (Lp : length (ix_prog (in_ix z)) = 32%nat). { rewrite Kp. destruct Wc as (_ & Wm). rewrite Forall_forall in Wm. apply (Wm mp Ip). }
      destruct (role_okl _ Wr) as ((_ & Wa & _) & _). rewrite (perm_program _ _ Lp Wa) in H3.
      change P_Program with 3. destruct (first_of 3 _ _); [reflexivity|congruence].
    - unfold program_allowed. replace (pcur && is_curated (ix_prog (in_ix z))) with true; [reflexivity|]. symmetry. apply andb_true_iff. split.
      + unfold pcur. cbn [negb andb]. apply has_holds; [intros q d; reflexivity|exact H14].
      + unfold is_curated. apply existsb_exists. exists (ix_prog (in_ix z)). split; [exact Hcu|apply beq_refl]. }
  assert (Qcs : Forall quiet_cls (CThisSwig :: CWallet :: cr)).
  { constructor; [exact Logic.I|]. constructor; [exact Logic.I|]. apply Forall_forall. intros c Ic. apply In_nth_error in Ic as (j & Nj).
    destruct (nth_error (skipn 2 ms) j) as [m|] eqn:Nm.
    - destruct (Hcr j m c Nm Nj) as [[-> _]|[-> _]]; exact Logic.I.
    - apply nth_error_None in Nm. assert (nth_error cr j <> None) by congruence. apply nth_error_Some in H. lia. }
  pose proof C0 as (Ow0 & Dw0 & _). rewrite <- Hys in St, Ix.
  destruct (limited_loop_can E cx s0 r payload ys off (acts_len (r_acts r)) pall pcur F Ix Acts Pr ys (incl_refl _) w0 ws 0
    (CThisSwig :: CWallet :: cr) Ow0 Dw0 Qcs St) as (Oe & De & sol & cs1 & Lo & Q1s & St').
  pose proof Lo as Lo2. apply limited_gross in Lo2 as (ws' & St2 & _ & Gs & Gr); [|discriminate].
  pose proof (stages_fun _ _ _ _ _ _ _ _ St' St2) as ->.
  replace (a_lamports (w0 wal)) with (a_lamports (w wal)) in Gs by (symmetry; apply H0). cbn [Z.add] in Gs.
  destruct (snapshots_can E w0 (enc_actions 0 (r_acts r)) ms 0 _ Qcs ltac:(lia)) as (snaps & Sn).
  set (w1 := last ws w0) in *.
  (* the settlement *)
  assert (Fin : exists l', settle_a E (c_slot cx) w1 wal ys sol ms cs1 snaps (r_acts r) = Ok l').
  { assert (Kt : forall k, is_token_program (a_owner (w k)) = true -> a_owner (w0 k) = a_owner (w k) /\ a_data (w0 k) = a_data (w k)).
    { intros k Hk. destruct H0 as (H0 & _). destruct (H0 k) as [X1 X2]; [|split; assumption].
      intros ->. rewrite O in Hk. discriminate. }
    assert (Nwk : wal <> k0). { intros X. rewrite X, O in Ow. discriminate. }
    assert (Lw : a_lamports (last ws w wal) = a_lamports (w1 wal) /\ a_data (last ws w wal) = a_data (w1 wal)).
    { unfold w1. destruct ws as [|v t]; [|rewrite !last_cons; auto]. cbn [last]. destruct H0 as (H0 & H0l). destruct (H0 wal Nwk) as [X1 X2].
      rewrite H0l. auto. }
    destruct ms as [|m0 [|m1 rest]] eqn:Ems; try (cbn in A1; lia). cbn [skipn] in Hcr, Lcr.
    assert (Er : rest_of cx = rest) by (unfold rest_of; rewrite Ems; reflexivity).
    assert (Tr : forall i m c, nth_error (m0 :: m1 :: rest) i = Some m -> nth_error (CThisSwig :: CWallet :: cr) i = Some c ->
       exists c', nth_error cs1 i = Some c' /\ tracked c m w1 c').
    { rewrite <- Ems. apply (limited_tracked E cx k0 wal [wal] off (acts_len (r_acts r)) pall pcur (CThisSwig :: CWallet :: cr) ys w0 w1 0 sol
        (CThisSwig :: CWallet :: cr) cs1 (a_lamports (w0 wal))); [rewrite Ems; cbn; lia| |left; lia|lia|exact Lo].
      intros i m c Hm Hi. exists c. split; [exact Hi|]. apply tracked_start. rewrite Ems in Hm.
      destruct i as [|[|i]]; [injection Hi as <-; exact Logic.I|injection Hi as <-; exact Logic.I|]. cbn [nth_error] in Hm, Hi.
      destruct (Hcr i m c Hm Hi) as [[-> _]|[-> Tk]]; [exact Logic.I|]. destruct (Kt _ (proj1 Tk)) as [_ X]. cbn. unfold amount. rewrite X. auto. }
    destruct (Tr 0%nat m0 CThisSwig eq_refl eq_refl) as (c0 & N0 & T0). destruct (Tr 1%nat m1 CWallet eq_refl eq_refl) as (c1 & N1 & T1').
    destruct (snapshots_nth E w0 _ _ _ _ _ 0%nat m0 CThisSwig Sn eq_refl eq_refl) as (sn0 & M0 & Z0).
    destruct (snapshots_nth E w0 _ _ _ _ _ 1%nat m1 CWallet Sn eq_refl eq_refl) as (sn1 & M1 & Z1).
    destruct cs1 as [|c0' [|c1' cr1]]; try discriminate. cbn [nth_error] in N0, N1. injection N0 as ->. injection N1 as ->.
    destruct snaps as [|s0' [|s1' sr]]; try discriminate. cbn [nth_error] in M0, M1. injection M0 as ->. injection M1 as ->.
    destruct c0; cbn [tracked] in T0; try contradiction. destruct c1; cbn [tracked] in T1'; try contradiction.
    assert (Em0 : m_key m0 = k0) by (unfold acct; rewrite Ems; reflexivity).
    (* every other account *)
    assert (Each : forall j m c sm, nth_error rest j = Some m -> nth_error cr1 j = Some c -> nth_error sr j = Some sm ->
       (~ ours cx w (m_key m) /\ forall l, settle1_a E (c_slot cx) w1 wal ys sol m c sm l = Ok l)
       \/ (ours cx w (m_key m) /\ forall l, settle1_a E (c_slot cx) w1 wal ys sol m c sm l
            = if capped (outflow w ws m) =? 0 then Ok l
              else token_a (c_slot cx) (m_key m) (mint_of (w (m_key m))) ys (capped (outflow w ws m)) l)).
    { intros j m c sm Hm Hj Hsm. assert (Xc : exists c0, nth_error cr j = Some c0).
      { destruct (nth_error cr j) as [c0|] eqn:Q; [eauto|]. apply nth_error_None in Q. assert (nth_error rest j <> None) by congruence.
        apply nth_error_Some in H. lia. }
      destruct Xc as (c0 & Hc0). destruct (Tr (S (S j)) m c0 Hm Hc0) as (c' & Nc & Tc). cbn [nth_error] in Nc. rewrite Hj in Nc. injection Nc as <-.
      destruct (snapshots_nth E w0 _ _ _ _ _ (S (S j)) m c0 Sn Hm Hc0) as (sm' & Nsm & Zsm). cbn [nth_error] in Nsm. rewrite Hsm in Nsm. injection Nsm as <-.
      assert (Im : In m (rest_of cx)) by (rewrite Er; eapply nth_error_In; exact Hm).
      destruct (Hcr j m c0 Hm Hc0) as [[-> No]|[-> Tk]].
      - left. destruct c; cbn [tracked] in Tc; try contradiction. split; [|reflexivity]. intros (X1 & X2 & X3). apply No.
        split; [exact X1|]. split; [exact X2|]. unfold held, acct in X3. rewrite Ems in X3. exact X3.
      - right. destruct c as [| | |b sp|b lm sp|b sp]; cbn [tracked] in Tc; try contradiction. destruct Tc as (Tc1 & _ & _ & Tc2).
        assert (Hou : ours cx w (m_key m)).
        { destruct Tk as (X1 & X2 & X3). split; [exact X1|]. split; [exact X2|]. unfold held, acct. rewrite Ems. exact X3. }
        split; [exact Hou|]. destruct Tok as (Tok & _). destruct (Tok m Im Hou) as ((Iu1 & Iu2) & In1).
        destruct (Kt _ (proj1 Tk)) as [Ko Kd].
        assert (Sp : sp = capped (outflow w ws m)).
        { unfold outflow. destruct (m_writable m) eqn:Wm.
          - assert (G := Gr (S (S j)) m _ _ Hm Hc0 Hj). cbn [gross] in G. rewrite G; [reflexivity|discriminate|exact Wm].
          - rewrite Tc2 by reflexivity. reflexivity. }
        rewrite Sp. intros l. replace (mint_of (w (m_key m))) with (mint_of (w0 (m_key m))) by (unfold mint_of; rewrite Kd; reflexivity).
        apply (token_settles E (c_slot cx) w0 w1 wal ys sol (enc_actions 0 (r_acts r)) (0 + S (S j))); try (rewrite Kd; assumption).
        + rewrite Kd. apply Hou.
        + destruct In1 as (U1 & U2 & U3 & U4). unfold intact, w1. rewrite Ko, Kd. destruct ws as [|v t].
          * cbn [last] in *. rewrite Ko, Kd. split; [|auto]. destruct H0 as (_ & H0l). rewrite H0l. exact U1.
          * rewrite last_cons in *. auto.
        + intros b' sp'. rewrite <- Zsm. reflexivity. }
    (* the lamports *)
    assert (Ys : filter_map (fun x => sol_transfer_of wal (in_ix x)) ys = outs (sol_out wal) xs) by (rewrite <- Hys; apply sol_ts_outs).
    assert (Rr : okl (r_acts r)) by (apply role_okl; exact Wr).
    assert (S0 : exists l1, settle1_a E (c_slot cx) w1 wal ys sol m0 CThisSwig sn0 (r_acts r) = Ok l1 /\ okl l1 /\ alike (r_acts r) l1
      /\ other_kinds [1; 2; 16; 17] (r_acts r) l1).
    { unfold settle1_a. cbv zeta. rewrite Em0.
      assert (Ck : check_snapshot m0 sn0 (hash_full E (w1 k0)) = Ok tt).
      { unfold check_snapshot. destruct (m_writable m0) eqn:Wm; [|reflexivity]. unfold snapshot in Z0. rewrite Wm in Z0. cbn [negb bind] in Z0.
        apply bind_ok in Z0 as (? & _ & Z0). apply ok_inj in Z0. subst sn0. unfold hash_full. rewrite Em0, Oe, De, Ow0, Dw0, beq_refl. reflexivity. }
      rewrite Ck. cbn [bind]. destruct Lw as [<- <-]. replace (rent E _ <=? _) with true by lia. cbn [check bind].
      set (tot := falls (lamports_of wal) (a_lamports (w wal)) ws) in *.
      destruct (sol =? 0) eqn:Qz; [exists (r_acts r); split; [reflexivity|]; split; [exact Rr|]; split; [apply alike_refl|apply others_refl]|].
      destruct Sol as [Sol|Sol]; [rewrite Sol in Gs; subst sol; discriminate|].
      unfold sol_a. rewrite Ys.
      destruct (covered_can 1 2 [] 16 17 (fun k => k) (holds 16 r \/ holds 17 r) (of_type 16 17) (c_slot cx) r (outs (sol_out wal) xs) tot (r_acts r))
        as (Lt & l1 & R1 & R2 & R3 & R4); try assumption; try reflexivity.
      - intros ty It. cbn [In] in It. repeat destruct It as [<-|It]; try contradiction; (split; reflexivity).
      - intros k x Ik'. pose proof (out_key _ _ _ _ 32 (sol_out_key wal) Ik Ik') as Lk. split; exact Lk.
      - intros [X|[X|[]]]; discriminate.
      - intros [X|[X|[]]]; discriminate.
      - intros l' (_ & X & _). exact X.
      - change (existsb (of_type 16 17) (r_acts r)) with (sol_dests (r_acts r)). rewrite sol_dests_holds. split.
        + intros (a0 & Ia & [Ta|Ta]); [left|right]; exists a0; auto.
        + intros [(a0 & Ia & Ta)|(a0 & Ia & Ta)]; exists a0; auto.
      - exists l1. split; [|auto]. replace sol with tot; [exact R1|]. rewrite Gs. unfold capped. lia. }
    destruct S0 as (l1 & S0 & Ol1 & Al1 & Kl1). cbn [settle_a]. rewrite S0. cbn [bind settle1_a].
    (* the tokens *)
    destruct Tok as (Tk1 & [Tk2|(aa & mt & bb & Ea & Tk2 & Tk3)]).
    { exists l1. apply settle_quiet. intros j m c sm H1 H2 H3. destruct (Each j m c sm H1 H2 H3) as [[_ X]|[Ho2 X]]; [apply X|].
      rewrite X, (Tk2 m); [reflexivity|rewrite Er; eapply nth_error_In; exact H1|exact Ho2]. }
    assert (Nm : nth_error rest (length aa) = Some mt).
    { rewrite <- Er, Ea, nth_error_app2, Nat.sub_diag by lia. reflexivity. }
    assert (Lc : exists c0, nth_error cr (length aa) = Some c0).
    { destruct (nth_error cr (length aa)) as [c0|] eqn:Q; [eauto|]. apply nth_error_None in Q. assert (nth_error rest (length aa) <> None) by congruence.
      apply nth_error_Some in H. lia. }
    destruct Lc as (c0 & Hc0). destruct (Tr (S (S (length aa))) mt c0 Nm Hc0) as (c & Nc & _). cbn [nth_error] in Nc.
    destruct (snapshots_nth E w0 _ _ _ _ _ (S (S (length aa))) mt c0 Sn Nm Hc0) as (sm & Nsm & _). cbn [nth_error] in Nsm.
    assert (Rest : forall i m c sm, i <> length aa -> nth_error rest i = Some m -> nth_error cr1 i = Some c -> nth_error sr i = Some sm ->
      forall l, settle1_a E (c_slot cx) w1 wal ys sol m c sm l = Ok l).
    { intros i m c2 sm2 Ni H1 H2 H3 l. destruct (Each i m c2 sm2 H1 H2 H3) as [[_ X]|[Ho2 X]]; [apply X|]. rewrite X, (Tk2 m); [reflexivity| |exact Ho2].
      rewrite <- Er, Ea in H1. destruct (Nat.lt_ge_cases i (length aa)) as [Lt|Ge].
      - rewrite nth_error_app1 in H1 by exact Lt. apply in_or_app. left. eapply nth_error_In. exact H1.
      - rewrite nth_error_app2 in H1 by exact Ge. destruct (i - length aa)%nat as [|i'] eqn:Qi; [lia|]. apply in_or_app. right. eapply nth_error_In. exact H1. }
    assert (One : exists l2, settle1_a E (c_slot cx) w1 wal ys sol mt c sm l1 = Ok l2).
    { destruct (Each _ mt c sm Nm Nc Nsm) as [[_ X]|[Ho2 X]]; [exists l1; apply X|]. rewrite X.
      destruct (capped (outflow w ws mt) =? 0) eqn:Qz; [exists l1; reflexivity|].
      set (mint := mint_of (w (m_key mt))) in *.
      assert (Lm : length mint = 32%nat) by (apply mint_len; apply Ho2).
      assert (Yt : filter_map (fun x => token_transfer_of (m_key mt) (in_ix x)) ys = outs (token_out (m_key mt)) xs) by (rewrite <- Hys; apply tok_ts_outs).
      destruct (covered_can 5 6 mint 18 19 (fun k => mint ++ k) (token_dests mint r)
         (fun a => of_type P_TokenDestinationLimit P_TokenRecurringDestinationLimit a && beq mint (sub 0 32 (ac_data a)))
         (c_slot cx) r (outs (token_out (m_key mt)) xs) (outflow w ws mt) l1)
        as (Lt & l2 & R1 & _); try assumption.
      - intros ty It. split; [cbn [In] in It; repeat destruct It as [<-|It]; try contradiction; reflexivity|].
        intros q. apply Kl1. cbn [In] in It |- *. lia.
      - intros k x Ik'. pose proof (out_key _ _ _ _ 32 (token_out_key (m_key mt)) Ik Ik') as Lk.
        split; unfold exact_q; rewrite app_length, Lm; exact (f_equal (fun n => 32 + n)%nat Lk).
      - intros [Y|[Y|[]]]; discriminate.
      - intros [Y|[Y|[]]]; discriminate.
      - intros l' (_ & _ & Y). apply Y.
      - change (tok_dests mint l1 = true <-> token_dests mint r). destruct Al1 as (_ & _ & Y). rewrite Y.
        apply tok_dests_holds; [apply Rr|exact Lm].
      - exists l2. unfold token_a. rewrite Yt. replace (capped (outflow w ws mt)) with (outflow w ws mt) by (unfold capped; lia). exact R1. }
    destruct One as (l2 & One). exists l2. apply (settle_one _ _ _ _ _ _ _ (length aa) _ _ _ _ mt c sm); assumption. }
  destruct Fin as (l' & Fin).
  destruct (classify_all_ok _ _ _ Hc) as (Sp0 & _).
  destruct (limited_spent _ _ _ _ _ _ _ _ _ _ Hh _ _ _ _ _ _ (Z.le_refl 0) Sp0 Lo) as [Ns Sp1].
  destruct (set_can_data ms w1 k0 (splice off (enc_actions 0 l') (a_data (w1 k0))) A2 Oe) as [w' Hw'].
  exists w'. split.
  2:{ pose proof (set_data_only _ _ _ _ _ Hw') as (D1 & L1). eapply only_here_of; [exact D1|apply L1]. }
  unfold succeeds, process. rewrite Hc. cbn [bind]. replace (2 <=? length (c_data cx))%nat with true by lia. cbn [check bind].
  change (u16_at 0 (c_data cx)) with (tag (c_data cx)). rewrite T. cbn [Z.eqb Pos.eqb].
  unfold sign_v2. cbv zeta. unfold need. replace (3 <=? length (c_metas cx))%nat with true by lia. rewrite Hh. cbn [nth_error Nat.eqb check bind is_this is_wal].
  replace (8 <=? length (c_data cx))%nat with true by lia. cbn [check bind]. change (nat_of (u16_at 2 (c_data cx))) with n.
  replace (8 + n <=? length (c_data cx))%nat with true by lia. cbn [check bind].
  change (mkey (c_metas cx) 0) with (acct cx 0). change (mkey (c_metas cx) 1) with (acct cx 1).
  rewrite (load_config_can _ _ _ C). cbn [bind]. rewrite Q1. unfold n in *. rewrite Ho. cbn [bind]. rewrite Hw0. cbn [bind]. rewrite <- T1, Py. cbn [bind].
  rewrite O8, !has_mut_role by exact O2. cbn [bind].
  assert (Hx : h_wbump (o_hdr o) = s_wbump s).
  { rewrite O4, hdr_wbump by exact W1. rewrite O1s. apply (on_role_fields (r_id r) after_use s). }
  rewrite Hx. unfold pda_list. rewrite Pw.
  replace (has P_All [] r) with false.
  2:{ symmetry. apply not_true_is_false. intros Y. apply (has_holds P_All [] r plain_all) in Y. exact (proj1 Lim Y). }
  cbn [bind]. replace (has P_AllButManageAuthority [] r) with false.
  2:{ symmetry. apply not_true_is_false. intros Y. apply has_holds in Y; [exact (proj2 Lim Y)|intros q d; reflexivity]. }
  fold pall. cbn [bind].
  replace (if pall then Ok false else Ok (has P_ProgramCurated [] r)) with (Ok pcur) by (unfold pcur; destruct pall; reflexivity).
  cbn [bind]. rewrite Sn. cbn [bind]. fold off. rewrite enc_actions_length. rewrite Lo. cbn [bind].
  unfold acts_now. rewrite De, Acts. rewrite settle_enc; [|eapply Forall_impl; [|exact Fys]; intros z Z; apply Z|exact Ns|exact Sp1|apply role_okl; exact Wr].
  rewrite Fin. cbn [encr bind]. rewrite <- De. exact Hw'.
Qed.
End Limited.
