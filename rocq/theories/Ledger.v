(** * What the settlement of a signing call takes from which permission *)
From Verif Require Import BaseFacts SpecConfig ConfigFacts ConfigEdit ConfigEdit2 ConfigEdit3 LimitsFacts.
From Verif Require Export SpecSign Settle.

(** ** One charge, in the words of the specification *)
Lemma once_run e o p amt p' : all_bytes p -> (o + 8 <= length p)%nat -> 0 <= amt ->
  (let* r := oneshot_run e (u64_at o p) amt in Ok (set_u64 o r p)) = Ok p' -> once o p p' amt.
Proof.
  intros Hb Hl Ha H. unfold oneshot_run in H. destruct (u64_at o p <? amt) eqn:Q; [discriminate|]. cbn in H.
  apply ok_inj in H. subst p'. pose proof (u64_bound o p Hb) as B. unfold is_u64 in B.
  assert (Hs : sat_sub (u64_at o p) amt = u64_at o p - amt) by (unfold sat_sub; lia). rewrite Hs.
  split; [lia|]. split; [apply u64_set_same; [lia|unfold is_u64; lia]|]. split; [apply set_u64_length; exact Hl|].
  unfold set_u64. split; [apply firstn_splice; lia|].
  replace (o + 8)%nat with (o + length (le_enc 8 (u64_at o p - amt)))%nat by (rewrite le_enc_length; reflexivity).
  apply skipn_splice; rewrite le_enc_length; lia.
Qed.
Lemma aligned_run L p amt slot r : lay_ok L -> all_bytes p -> length p = lay_len L -> 0 <= amt -> 0 <= slot < U64 ->
  recurring_run (read_recurring (lay_limit L) (lay_window L) (lay_last L) (lay_left L) p) amt slot = Ok r ->
  aligned L slot p (write_recurring (lay_last L) (lay_left L) r p) amt.
Proof.
  intros Lo Hb Hl Ha Hs H. unfold recurring_run, read_recurring in H. cbn [rc_limit rc_window rc_last rc_cur] in H.
  pose proof (u64_bound (lay_limit L) p Hb) as B1. pose proof (u64_bound (lay_window L) p Hb) as B2.
  pose proof (u64_bound (lay_last L) p Hb) as B3. pose proof (u64_bound (lay_left L) p Hb) as B4. unfold is_u64 in *.
  set (W := u64_at (lay_window L) p) in *. unfold aligned. fold W.
  destruct ((W <? sat_sub slot (u64_at (lay_last L) p)) && (amt <=? u64_at (lay_limit L) p)) eqn:Q.
  - apply andb_prop in Q as [Q1 Q2]. unfold sat_sub in Q1. destruct (W =? 0) eqn:Z0; [discriminate|].
    cbn [negb guard bind rc_cur rc_limit rc_window rc_last] in H.
    destruct (u64_at (lay_limit L) p <? amt) eqn:Q3; [discriminate|]. apply ok_inj in H. subst r.
    assert (Dv : 0 <= slot / W * W <= slot) by (pose proof (Z.mul_div_le slot W); pose proof (Z.div_pos slot W); nia).
    destruct (write_recurring_facts L {| rc_limit := u64_at (lay_limit L) p; rc_window := W;
      rc_last := slot / W * W mod U64; rc_cur := sat_sub (u64_at (lay_limit L) p) amt |} p Lo Hb Hl) as (F1 & F2 & F3 & F4 & F5 & F6 & F7).
    { cbn. unfold is_u64. apply Z.mod_pos_bound. reflexivity. }
    { cbn. unfold is_u64, sat_sub. lia. }
    split; [exact F7|]. right. cbn [rc_last rc_cur] in *. rewrite F5, F6. split; [lia|]. split; [lia|].
    split; [unfold sat_sub; lia|apply Z.mod_small; lia].
  - cbn [bind rc_cur rc_limit rc_window rc_last] in H.
    destruct (u64_at (lay_left L) p <? amt) eqn:Q3; [discriminate|]. apply ok_inj in H. subst r.
    destruct (write_recurring_facts L {| rc_limit := u64_at (lay_limit L) p; rc_window := W;
      rc_last := u64_at (lay_last L) p; rc_cur := sat_sub (u64_at (lay_left L) p) amt |} p Lo Hb Hl) as (F1 & F2 & F3 & F4 & F5 & F6 & F7).
    { cbn. exact B3. }
    { cbn. unfold is_u64, sat_sub. lia. }
    split; [exact F7|]. left. cbn [rc_last rc_cur] in *. rewrite F5, F6. split; [lia|]. split; [unfold sat_sub; lia|reflexivity].
Qed.
Lemma rolling_run e L p amt slot r : lay_ok L -> all_bytes p -> length p = lay_len L -> 0 <= amt -> 0 <= slot < U64 ->
  recurring_dest_run e (read_recurring (lay_limit L) (lay_window L) (lay_last L) (lay_left L) p) amt slot = Ok r ->
  rolling L slot p (write_recurring (lay_last L) (lay_left L) r p) amt.
Proof.
  intros Lo Hb Hl Ha Hs H. unfold recurring_dest_run, read_recurring in H. cbn [rc_limit rc_window rc_last rc_cur] in H.
  pose proof (u64_bound (lay_limit L) p Hb) as B1. pose proof (u64_bound (lay_window L) p Hb) as B2.
  pose proof (u64_bound (lay_last L) p Hb) as B3. pose proof (u64_bound (lay_left L) p Hb) as B4. unfold is_u64 in *.
  set (W := u64_at (lay_window L) p) in *. unfold rolling. fold W.
  destruct ((W <? (slot - u64_at (lay_last L) p) mod U64) && (amt <=? u64_at (lay_limit L) p)) eqn:Q;
    cbn [rc_cur rc_limit rc_window rc_last] in H.
  - apply andb_prop in Q as [Q1 Q2]. destruct (u64_at (lay_limit L) p <? amt) eqn:Q3; [discriminate|]. apply ok_inj in H. subst r.
    destruct (write_recurring_facts L {| rc_limit := u64_at (lay_limit L) p; rc_window := W;
      rc_last := slot; rc_cur := (u64_at (lay_limit L) p - amt) mod U64 |} p Lo Hb Hl) as (F1 & F2 & F3 & F4 & F5 & F6 & F7).
    { cbn. unfold is_u64. lia. }
    { cbn. unfold is_u64. apply Z.mod_pos_bound. reflexivity. }
    split; [exact F7|]. right. cbn [rc_last rc_cur] in *. rewrite F5, F6. split; [lia|]. split; [lia|].
    split; [apply Z.mod_small; lia|reflexivity].
  - destruct (u64_at (lay_left L) p <? amt) eqn:Q3; [discriminate|]. apply ok_inj in H. subst r.
    destruct (write_recurring_facts L {| rc_limit := u64_at (lay_limit L) p; rc_window := W;
      rc_last := u64_at (lay_last L) p; rc_cur := (u64_at (lay_left L) p - amt) mod U64 |} p Lo Hb Hl) as (F1 & F2 & F3 & F4 & F5 & F6 & F7).
    { cbn. exact B3. }
    { cbn. unfold is_u64. apply Z.mod_pos_bound. reflexivity. }
    split; [exact F7|]. left. cbn [rc_last rc_cur] in *. rewrite F5, F6. split; [lia|]. split; [apply Z.mod_small; lia|reflexivity].
Qed.

Ltac split_types T := repeat (apply orb_prop in T as [T|T]); try discriminate T; apply Z.eqb_eq in T; subst.
Lemma limit_takes ty p amt slot p' : action_len ty = Some (length p) -> all_bytes p -> 0 <= amt -> 0 <= slot < U64 ->
  ty <> P_ProgramScope -> limit_run ty p amt slot = Ok p' -> takes ty slot p p' amt.
Proof.
  intros L B A S N H. pose proof (limit_run_type _ _ _ _ _ H) as T. unfold limit_type in T. cbn [existsb] in T.
  assert (L1 : lay_ok SolRec) by (cbv; lia). assert (L2 : lay_ok TokRec) by (cbv; lia).
  assert (L3 : lay_ok SolRecDest) by (cbv; lia). assert (L4 : lay_ok TokRecDest) by (cbv; lia).
  split_types T; try (exfalso; apply N; reflexivity);
  cbv [limit_run P_SolLimit P_SolRecurringLimit P_ProgramScope P_TokenLimit P_TokenRecurringLimit
    P_StakeLimit P_StakeRecurringLimit P_SolDestinationLimit P_SolRecurringDestinationLimit
    P_TokenDestinationLimit P_TokenRecurringDestinationLimit] in H; cbn [Z.eqb Pos.eqb orb] in H;
  (let n := fresh in let En := fresh in remember (length p) as n eqn:En in L; cbv in L; injection L as L; rewrite En in L; clear n En);
  cbn [takes P_SolLimit P_SolRecurringLimit P_ProgramScope P_TokenLimit P_TokenRecurringLimit
    P_StakeLimit P_StakeRecurringLimit P_SolDestinationLimit P_SolRecurringDestinationLimit
    P_TokenDestinationLimit P_TokenRecurringDestinationLimit];
  try (eapply once_run; [exact B|lia|exact A|exact H]).
  all: bind_inv H; apply ok_inj in K; subst p'.
  - apply (aligned_run SolRec); try assumption. cbn; lia.
  - apply (aligned_run TokRec); try assumption. cbn; lia.
  - apply (aligned_run SolRec); try assumption. cbn; lia.
  - eapply (rolling_run _ SolRecDest); try eassumption. cbn; lia.
  - eapply (rolling_run _ TokRecDest); try eassumption. cbn; lia.
Qed.

(** ** Lookups *)
Definition exact_q (ty : Z) (q : bytes) : Prop := length q = target_len ty.
Lemma perm_first ty q l : limit_type ty = true -> exact_q ty q -> Forall wf_action l -> perm ty q l = first_of ty q l.
Proof.
  intros T Q W. induction W as [|a t Wa Wt IH]; [reflexivity|]. cbn [perm first_of]. rewrite IH.
  destruct (ac_ty a =? ty) eqn:Ea; [|reflexivity]. cbn [andb]. apply Z.eqb_eq in Ea.
  assert (X : beq (target_of a) q = action_matches ty q (ac_data a)); [|rewrite X; reflexivity].
  clear IH. unfold exact_q in Q. unfold target_of. rewrite Ea. unfold limit_type in T. cbn [existsb] in T.
  assert (Sq : sub 0 (length q) q = q) by (unfold sub; cbn [skipn]; apply firstn_all).
  repeat (apply orb_prop in T as [T|T]); try discriminate T; apply Z.eqb_eq in T; subst ty;
  unfold action_matches;
  cbv [P_SolLimit P_SolRecurringLimit P_Program P_ProgramScope P_TokenLimit P_TokenRecurringLimit P_SubAccount
    P_StakeLimit P_StakeRecurringLimit P_SolDestinationLimit P_SolRecurringDestinationLimit
    P_TokenDestinationLimit P_TokenRecurringDestinationLimit P_ReplaceAuthority P_SubAccountV2All
    P_SubAccountV2Sign P_SubAccountV2Withdraw P_SubAccountV2Toggle target_len] in *; cbn [Z.eqb Pos.eqb orb existsb] in *;
  try (destruct q; [reflexivity|discriminate Q]).
  all: rewrite Q in Sq; rewrite Q; cbn [Nat.leb andb]; rewrite Sq; apply beq_sym.
Qed.
Lemma matches_exact ty q q' p : limit_type ty = true -> exact_q ty q -> exact_q ty q' ->
  action_matches ty q p = true -> action_matches ty q' p = true -> q = q'.
Proof.
  intros T Q Q'. unfold limit_type in T. cbn [existsb] in T. unfold exact_q in *.
  assert (Sq : sub 0 (length q) q = q) by (unfold sub; cbn [skipn]; apply firstn_all).
  assert (Sq' : sub 0 (length q') q' = q') by (unfold sub; cbn [skipn]; apply firstn_all).
  repeat (apply orb_prop in T as [T|T]); try discriminate T; apply Z.eqb_eq in T; subst ty;
  unfold action_matches;
  cbv [P_SolLimit P_SolRecurringLimit P_Program P_ProgramScope P_TokenLimit P_TokenRecurringLimit P_SubAccount
    P_StakeLimit P_StakeRecurringLimit P_SolDestinationLimit P_SolRecurringDestinationLimit
    P_TokenDestinationLimit P_TokenRecurringDestinationLimit P_ReplaceAuthority P_SubAccountV2All
    P_SubAccountV2Sign P_SubAccountV2Withdraw P_SubAccountV2Toggle target_len] in *; cbn [Z.eqb Pos.eqb orb existsb] in *;
  intros H H'; try (destruct q; [destruct q'; [reflexivity|discriminate Q']|discriminate Q]).
  all: apply andb_prop in H as [_ H]; apply andb_prop in H' as [_ H']; apply beq_eq in H, H'; rewrite Q in Sq; rewrite Q' in Sq'; congruence.
Qed.
Lemma first_set_same ty q p p' l : first_of ty q l = Some p -> action_matches ty q p' = true ->
  first_of ty q (set_first ty q p' l) = Some p'.
Proof.
  intros H M. induction l as [|a t IH]; [discriminate|]. cbn [first_of set_first] in *.
  destruct ((ac_ty a =? ty) && action_matches ty q (ac_data a)) eqn:C; cbn [first_of].
  - cbn. rewrite Z.eqb_refl, M. reflexivity.
  - rewrite C. apply IH; exact H.
Qed.
Lemma first_set_type ty q ty' q' p' l : ty <> ty' -> first_of ty q (set_first ty' q' p' l) = first_of ty q l.
Proof.
  intros N. induction l as [|a t IH]; [reflexivity|]. cbn [first_of set_first].
  destruct ((ac_ty a =? ty') && action_matches ty' q' (ac_data a)) eqn:C; cbn [first_of].
  - cbn. apply andb_prop in C as [C _]. apply Z.eqb_eq in C.
    replace (ty' =? ty) with false by lia. replace (ac_ty a =? ty) with false by lia. reflexivity.
  - rewrite IH. reflexivity.
Qed.
Lemma first_set_query ty q q' p p' l : limit_type ty = true -> exact_q ty q -> exact_q ty q' -> q <> q' ->
  first_of ty q' l = Some p -> fixed_part ty p' = fixed_part ty p ->
  first_of ty q (set_first ty q' p' l) = first_of ty q l.
Proof.
  intros T Q Q' N H F. induction l as [|a t IH]; [discriminate|]. cbn [first_of set_first] in *.
  destruct ((ac_ty a =? ty) && action_matches ty q' (ac_data a)) eqn:C; cbn [first_of].
  - injection H as <-. apply andb_prop in C as [C1 C2]. cbn [ac_ty ac_data]. rewrite Z.eqb_refl, C1. cbn [andb].
    rewrite (matches_fixed ty q _ p' T F).
    destruct (action_matches ty q (ac_data a)) eqn:C3; [|reflexivity]. exfalso. apply N. eapply matches_exact; eassumption.
  - rewrite IH by exact H. reflexivity.
Qed.
Lemma first_matches ty q l p : first_of ty q l = Some p -> action_matches ty q p = true.
Proof.
  induction l as [|a t IH]; [discriminate|]. cbn [first_of].
  destruct ((ac_ty a =? ty) && action_matches ty q (ac_data a)) eqn:C; [|exact IH].
  intros H. injection H as <-. apply andb_prop in C as [_ C]. exact C.
Qed.

(** ** Sequences of charges, with what was charged *)
Definition debit : Type := (Z * bytes * Z)%type.
Inductive spree (slot : Z) : list debit -> list action -> list action -> Prop :=
| spree_nil l : spree slot [] l l
| spree_cons ty q amt es l l1 l2 : 0 <= amt -> exact_q ty q -> charge_a ty q amt slot l = Ok (Some l1) ->
    spree slot es l1 l2 -> spree slot ((ty, q, amt) :: es) l l2.
Lemma spree_app slot es es' l l1 l2 : spree slot es l l1 -> spree slot es' l1 l2 -> spree slot (es ++ es') l l2.
Proof. intros H. induction H; intros G; [exact G|]. cbn [app]. econstructor; eauto. Qed.
Lemma spree_one slot ty q amt l l1 : 0 <= amt -> exact_q ty q -> charge_a ty q amt slot l = Ok (Some l1) -> spree slot [(ty, q, amt)] l l1.
Proof. intros. econstructor; [eassumption|eassumption|eassumption|constructor]. Qed.

Definition at_perm (ty : Z) (q : bytes) (es : list debit) : list Z :=
  map snd (filter (fun e => (fst (fst e) =? ty) && beq (snd (fst e)) q) es).
Lemma at_app ty q es es' : at_perm ty q (es ++ es') = at_perm ty q es ++ at_perm ty q es'.
Proof. unfold at_perm. rewrite filter_app, map_app. reflexivity. Qed.
Lemma at_cons ty q t p a es : at_perm ty q ((t, p, a) :: es)
  = if (t =? ty) && beq p q then a :: at_perm ty q es else at_perm ty q es.
Proof. unfold at_perm. cbn [filter fst snd]. destruct (_ && _); reflexivity. Qed.

Lemma charge_first slot ty q amt l l1 : okl l -> exact_q ty q -> charge_a ty q amt slot l = Ok (Some l1) ->
  limit_type ty = true /\ exists p p', first_of ty q l = Some p /\ limit_run ty p amt slot = Ok p'
    /\ first_of ty q l1 = Some p' /\ action_len ty = Some (length p) /\ all_bytes p
    /\ forall ty' q', exact_q ty' q' -> (ty', q') <> (ty, q) -> first_of ty' q' l1 = first_of ty' q' l.
Proof.
  intros O Q H. destruct (charge_a_facts _ _ _ _ _ _ H O) as (p & p' & Ef & Er & -> & _).
  pose proof (limit_run_type _ _ _ _ _ Er) as T. split; [exact T|]. exists p, p'. split; [exact Ef|]. split; [exact Er|].
  destruct O as ((_ & W & _) & _). destruct (first_of_wf _ _ _ _ W Ef) as (L & B & _).
  destruct (run_fixed _ _ _ _ _ L B Er) as (_ & _ & Fx).
  split. { eapply first_set_same; [exact Ef|]. rewrite (matches_fixed ty q p p' T Fx). eapply first_matches; exact Ef. }
  split; [exact L|]. split; [exact B|]. intros ty' q' Q' N. destruct (Z.eq_dec ty' ty) as [->|Nt].
  - eapply first_set_query; try eassumption. congruence.
  - apply first_set_type. exact Nt.
Qed.

Theorem spree_draws slot es l l' : spree slot es l l' -> okl l -> 0 <= slot < U64 -> forall ty q, exact_q ty q -> ty <> P_ProgramScope ->
  match first_of ty q l with
  | None => first_of ty q l' = None /\ at_perm ty q es = []
  | Some p => exists p', first_of ty q l' = Some p' /\ draws ty slot (at_perm ty q es) p p'
  end.
Proof.
  intros H O S ty q Q N. induction H as [l|ty' q' amt es l l1 l2 A Q' C H IH].
  - destruct (first_of ty q l) as [p|] eqn:F; [|split; [reflexivity|reflexivity]]. exists p. split; [reflexivity|constructor].
  - destruct (charge_first _ _ _ _ _ _ O Q' C) as (T & p & p' & F1 & R & F2 & L & B & F3).
    assert (O1 : okl l1) by (eapply charge_a_okl; eassumption). specialize (IH O1). rewrite at_cons.
    destruct ((ty' =? ty) && beq q' q) eqn:X.
    + apply andb_prop in X as [X1 X2]. apply Z.eqb_eq in X1. apply beq_eq in X2. subst ty' q'.
      rewrite F1. rewrite F2 in IH. destruct IH as (p'' & G1 & G2). exists p''. split; [exact G1|].
      econstructor; [exact A| |exact G2]. eapply limit_takes; eassumption.
    + rewrite F3 in IH; [exact IH|exact Q|]. intros Z. injection Z as -> ->. rewrite Z.eqb_refl, beq_refl in X. discriminate X.
Qed.
Lemma spree_first slot es l l' : spree slot es l l' -> okl l -> forall ty q, exact_q ty q ->
  is_some (first_of ty q l') = is_some (first_of ty q l).
Proof.
  intros H O ty q Q. induction H as [l|ty' q' amt es l l1 l2 A Q' C H IH]; [reflexivity|].
  destruct (charge_first _ _ _ _ _ _ O Q' C) as (T & p & p' & F1 & R & F2 & L & B & F3).
  rewrite IH by (eapply charge_a_okl; eassumption).
  destruct (Z.eq_dec ty ty') as [->|Nt]; [destruct (bytes_dec q q') as [->|Nq]|].
  - rewrite F1, F2. reflexivity.
  - rewrite F3 by (try assumption; congruence). reflexivity.
  - rewrite F3 by (try assumption; congruence). reflexivity.
Qed.
Lemma spree_charges slot es l l' : spree slot es l l' -> charges slot l l'.
Proof.
  induction 1 as [l|ty q amt es l l1 l2 A Q C H IH]; [constructor|].
  eapply charges_trans; [|exact IH]. econstructor; [constructor|exact A|exact C].
Qed.

(** ** The charges of the settlement, read off the permissions at its start *)
Definition found (ty : Z) (q : bytes) (l : list action) : bool := is_some (first_of ty q l).
Definition gen_ev (ty1 ty2 : Z) (q : bytes) (amt : Z) (l : list action) : list debit :=
  if found ty1 q l then [(ty1, q, amt)] else if found ty2 q l then [(ty2, q, amt)] else [].
Definition dest_ev (q : key -> bytes) (tyr tyo : Z) (ts : list (key * Z)) (l : list action) : list debit :=
  map (fun t => (if found tyr (q (fst t)) l then tyr else tyo, q (fst t), snd t)) ts.
Definition sol_dests (l : list action) : bool := existsb (of_type P_SolDestinationLimit P_SolRecurringDestinationLimit) l.
Definition tok_dests (mint : bytes) (l : list action) : bool :=
  existsb (fun a => of_type P_TokenDestinationLimit P_TokenRecurringDestinationLimit a && beq mint (sub 0 32 (ac_data a))) l.
Definition sol_ts (wallet : key) (xs : list inner) : list (key * Z) := filter_map (fun x => sol_transfer_of wallet (in_ix x)) xs.
Definition tok_ts (src : key) (xs : list inner) : list (key * Z) := filter_map (fun x => token_transfer_of src (in_ix x)) xs.

(** the lookups, and the two scans, give the same answers *)
Definition alike (l0 l : list action) : Prop :=
  (forall ty q, exact_q ty q -> found ty q l = found ty q l0)
  /\ sol_dests l = sol_dests l0 /\ forall mint, tok_dests mint l = tok_dests mint l0.
Lemma alike_refl l : alike l l.
Proof. split; [reflexivity|]. split; reflexivity. Qed.
Lemma alike_trans a b c : alike a b -> alike b c -> alike a c.
Proof.
  intros (A1 & A2 & A3) (B1 & B2 & B3). split; [intros; rewrite B1, A1 by assumption; reflexivity|].
  split; [congruence|]. intros mint. rewrite B3, A3. reflexivity.
Qed.
Lemma set_first_existsb (f : action -> bool) ty q p p' l : first_of ty q l = Some p ->
  (forall a, ac_ty a = ty -> ac_data a = p -> f (mk_action ty p') = f a) -> existsb f (set_first ty q p' l) = existsb f l.
Proof.
  intros H Hf. induction l as [|a t IH]; [discriminate|]. cbn [first_of set_first] in *.
  destruct ((ac_ty a =? ty) && action_matches ty q (ac_data a)) eqn:C; cbn [existsb].
  - injection H as <-. f_equal. apply Hf; [|reflexivity]. apply andb_prop in C as [C _]. apply Z.eqb_eq. exact C.
  - rewrite IH by exact H. reflexivity.
Qed.
Lemma charge_alike slot ty q amt l l1 : okl l -> exact_q ty q -> charge_a ty q amt slot l = Ok (Some l1) -> alike l l1.
Proof.
  intros O Q H. destruct (charge_first _ _ _ _ _ _ O Q H) as (T & p & p' & F1 & R & F2 & L & B & F3).
  destruct (charge_a_facts _ _ _ _ _ _ H O) as (p0 & p0' & Ef & Er & -> & _).
  rewrite F1 in Ef. injection Ef as <-. rewrite R in Er. apply ok_inj in Er. subst p0'.
  destruct (run_fixed _ _ _ _ _ L B R) as (_ & _ & Fx).
  split; [|split].
  - intros ty' q' Q'. unfold found. destruct (Z.eq_dec ty' ty) as [->|Nt]; [destruct (bytes_dec q' q) as [->|Nq]|].
    + rewrite F1, F2. reflexivity.
    + rewrite F3 by (try assumption; congruence). reflexivity.
    + rewrite F3 by (try assumption; congruence). reflexivity.
  - unfold sol_dests. eapply set_first_existsb; [exact F1|]. intros a Ta Da. unfold of_type. cbn. rewrite Ta. reflexivity.
  - intros mint. unfold tok_dests. eapply set_first_existsb; [exact F1|]. intros a Ta Da. unfold of_type. cbn [ac_ty ac_data]. rewrite Ta, Da.
    destruct ((ty =? P_TokenDestinationLimit) || (ty =? P_TokenRecurringDestinationLimit)) eqn:X; [|reflexivity]. cbn [andb]. f_equal.
    clear - X Fx. unfold fixed_part in Fx.
    apply orb_prop in X as [X|X]; apply Z.eqb_eq in X; subst ty; cbv [P_TokenDestinationLimit P_TokenRecurringDestinationLimit
      P_SolLimit P_StakeLimit P_SolRecurringLimit P_StakeRecurringLimit P_ProgramScope P_TokenLimit P_TokenRecurringLimit
      P_SolDestinationLimit P_SolRecurringDestinationLimit] in Fx; cbn [Z.eqb Pos.eqb orb] in Fx;
    apply (f_equal (firstn 32)) in Fx; unfold sub in *; rewrite !skipn_O in *; rewrite !firstn_firstn in Fx; exact Fx.
Qed.
Lemma spree_alike slot es l l' : spree slot es l l' -> okl l -> alike l l'.
Proof.
  induction 1 as [l|ty q amt es l l1 l2 A Q C H IH]; intros O; [apply alike_refl|].
  eapply alike_trans; [eapply charge_alike; eassumption|]. apply IH. eapply charge_a_okl; eassumption.
Qed.
Lemma spree_okl slot es l l' : spree slot es l l' -> okl l -> okl l'.
Proof. intros H O. eapply charges_okl; [eapply spree_charges; exact H|exact O]. Qed.

Lemma charge_found ty q amt slot l o : charge_a ty q amt slot l = Ok o -> found ty q l = is_some o.
Proof.
  unfold charge_a, found. intros H. destruct (first_of ty q l); [bind_inv H; apply ok_inj in K; subst; reflexivity|].
  apply ok_inj in H. subst. reflexivity.
Qed.
Lemma general_spree ty1 ty2 q amt slot l0 l g l1 : 0 <= amt -> exact_q ty1 q -> exact_q ty2 q -> alike l0 l ->
  general_a ty1 ty2 q amt slot l = Ok (g, l1) ->
  spree slot (gen_ev ty1 ty2 q amt l0) l l1 /\ g = found ty1 q l0 || found ty2 q l0.
Proof.
  intros A Q1 Q2 (Al & _) H. unfold general_a in H. bind_inv H. unfold gen_ev.
  rewrite <- (Al _ _ Q1), <- (Al _ _ Q2). rewrite (charge_found _ _ _ _ _ _ B). destruct v as [l2|]; cbn [is_some orb].
  - apply ok_inj in K. injection K as <- <-. split; [apply spree_one; assumption|reflexivity].
  - bind_inv K. rewrite (charge_found _ _ _ _ _ _ B0). destruct v as [l2|]; apply ok_inj in K0; injection K0 as <- <-; cbn [is_some].
    + split; [apply spree_one; assumption|reflexivity].
    + split; [constructor|reflexivity].
Qed.
Lemma dests_spree q tyr tyo slot l0 ts : Forall (fun t => 0 <= snd t) ts ->
  Forall (fun t => exact_q tyr (q (fst t)) /\ exact_q tyo (q (fst t))) ts -> forall parsed l z l1, okl l -> alike l0 l ->
  dests_a q tyr tyo slot ts parsed l = Ok (z, l1) ->
  spree slot (dest_ev q tyr tyo ts l0) l l1 /\ z = parsed + sum (map snd ts)
  /\ Forall (fun t => found tyr (q (fst t)) l0 || found tyo (q (fst t)) l0 = true) ts.
Proof.
  induction 1 as [|[k amt] r A F IH]; intros Qs parsed l z l1 O Al H; cbn [dests_a] in H.
  - apply ok_inj in H. injection H as <- <-. split; [constructor|]. split; [cbn; lia|constructor].
  - cbn in A. inversion Qs as [|? ? [Q1 Q2] Qr]; subst. cbn [fst] in Q1, Q2. bind_inv H. bind_inv K. pose proof Al as (Al1 & _).
    unfold dest_ev. cbn [map fst snd]. fold (dest_ev q tyr tyo r l0).
    rewrite <- (Al1 _ _ Q1). rewrite (charge_found _ _ _ _ _ _ B0). destruct v0 as [l2|]; cbn [is_some].
    + destruct (IH Qr (parsed + amt) l2 z l1) as (I1 & I2 & I3); [eapply charge_a_okl; eassumption| |exact K0|].
      { eapply alike_trans; [exact Al|exact (charge_alike _ _ _ _ _ _ O Q1 B0)]. }
      split; [exact (spree_cons _ _ _ _ _ _ _ _ A Q1 B0 I1)|]. split; [cbn [sum]; lia|]. constructor; [|exact I3]. cbn [fst].
      rewrite <- (Al1 _ _ Q1), (charge_found _ _ _ _ _ _ B0). reflexivity.
    + bind_inv K0. destruct v0 as [l2|]; [|discriminate].
      destruct (IH Qr (parsed + amt) l2 z l1) as (I1 & I2 & I3); [eapply charge_a_okl; eassumption| |exact K|].
      { eapply alike_trans; [exact Al|exact (charge_alike _ _ _ _ _ _ O Q2 B1)]. }
      split; [exact (spree_cons _ _ _ _ _ _ _ _ A Q2 B1 I1)|]. split; [cbn [sum]; lia|]. constructor; [|exact I3]. cbn [fst].
      rewrite <- (Al1 _ _ Q2), (charge_found _ _ _ _ _ _ B1). apply orb_true_r.
Qed.

(** *** One account *)
Definition dead (a : account) : bool := (length (a_data a) =? 0)%nat || (a_lamports a =? 0).
Definition ev_of (w : world) (wallet : key) (xs : list inner) (sol : Z) (l : list action) (m : meta) (c : cls) : list debit :=
  match c with
  | CThisSwig => if sol =? 0 then [] else gen_ev 1 2 [] sol l
      ++ (if sol_dests l then dest_ev (fun k => k) 17 16 (sol_ts wallet xs) l else [])
  | CToken _ sp =>
      let mint := sub 0 32 (a_data (w (m_key m))) in
      if dead (w (m_key m)) then [] else if sp =? 0 then [] else gen_ev 5 6 mint sp l
      ++ (if tok_dests mint l then dest_ev (fun k => mint ++ k) 19 18 (tok_ts (m_key m) xs) l else [])
  | CStake _ _ sp => if sp =? 0 then [] else if found 12 [] l then [] else gen_ev 10 11 [] sp l
  | CScope _ sp => if sp =? 0 then [] else [(4, m_key m, sp)]
  | _ => []
  end.
Definition paid_by (general dest : bool) (found_dests : list bool) (total amt : Z) : Prop :=
  if dest then found_dests <> [] /\ forallb (fun b => b) found_dests = true /\ total = amt else general = true.
Definition fine (E : env) (w : world) (wallet : key) (xs : list inner) (sol : Z) (l : list action) (m : meta) (c : cls) (snap : option bytes) : Prop :=
  let a := w (m_key m) in let d := a_data a in
  match c with
  | CThisSwig => rent E (length (a_data (w wallet))) <= a_lamports (w wallet)
      /\ (sol = 0 \/ paid_by (found 1 [] l || found 2 [] l) (sol_dests l)
            (map (fun t => found 17 (fst t) l || found 16 (fst t) l) (sol_ts wallet xs)) (sum (map snd (sol_ts wallet xs))) sol)
  | CToken _ sp =>
      let mint := sub 0 32 d in
      if dead a then found 20 [] l = true /\ a_lamports a = 0 /\ a_owner a = SYSTEM
      else (165 <= length d)%nat /\ (m_writable m = true -> snap = Some (hash_skip E a 64 72)) /\ sub 32 32 d = wallet
        /\ (sp = 0 \/ paid_by (found 5 mint l || found 6 mint l) (tok_dests mint l)
             (map (fun t => found 19 (mint ++ fst t) l || found 18 (mint ++ fst t) l) (tok_ts (m_key m) xs)) (sum (map snd (tok_ts (m_key m) xs))) sp)
  | CStake _ _ sp =>
      (m_writable m = true -> (124 <= length d)%nat /\ snap = Some (hash_stake E a))
      /\ (sp = 0 \/ found 12 [] l = true \/ found 10 [] l || found 11 [] l = true)
  | CScope _ _ => found 4 (m_key m) l = true
  | _ => True
  end.
Lemma check_snapshot_ok m snap h : check_snapshot m snap h = Ok tt -> m_writable m = true -> snap = Some h.
Proof.
  unfold check_snapshot. intros H W. rewrite W in H. destruct snap; [|discriminate]. apply check_ok, beq_eq in H. congruence.
Qed.
Definition keys_ok (xs : list inner) : Prop := Forall (fun x => Forall wf_meta (ix_metas (in_ix x))) xs.
Lemma mkey_len ms i : Forall wf_meta ms -> (i < length ms)%nat -> length (mkey ms i) = 32%nat.
Proof.
  intros F L. unfold mkey. rewrite Forall_forall in F. apply F. apply nth_In. exact L.
Qed.
Lemma sol_ts_keys wallet xs : keys_ok xs -> Forall (fun t => length (fst t) = 32%nat) (sol_ts wallet xs).
Proof.
  unfold sol_ts. induction 1 as [|x r Hx Hr IH]; cbn [filter_map]; [constructor|].
  unfold sol_transfer_of. destruct (_ && _) eqn:Q; [|exact IH]. constructor; [|exact IH]. cbn [fst].
  apply mkey_len; [exact Hx|]. repeat (apply andb_prop in Q as [Q ?]). lia.
Qed.
Lemma tok_ts_keys src xs : keys_ok xs -> Forall (fun t => length (fst t) = 32%nat) (tok_ts src xs).
Proof.
  unfold tok_ts. induction 1 as [|x r Hx Hr IH]; cbn [filter_map]; [constructor|].
  unfold token_transfer_of. destruct (_ && _); [|exact IH]. destruct (if _ =? 3 then _ else _) as [ml di].
  destruct (_ && _) eqn:Q; [|exact IH]. constructor; [|exact IH]. cbn [fst].
  apply mkey_len; [exact Hx|]. repeat (apply andb_prop in Q as [Q ?]). lia.
Qed.
Lemma forallb_map_forall {A} (f : A -> bool) l : Forall (fun t => f t = true) l -> forallb (fun b => b) (map f l) = true.
Proof. induction 1 as [|a t H F IH]; [reflexivity|]. cbn. rewrite H. exact IH. Qed.

Section Settle.
Variables (E : env) (slot : Z) (w : world) (wallet : key) (xs : list inner) (sol : Z).
Hypothesis (Xi : Forall inner_ok xs) (Xk : keys_ok xs) (Sol : 0 <= sol).

Lemma sol_spree l0 l l1 : okl l -> alike l0 l -> sol_a slot wallet xs sol l = Ok l1 ->
  spree slot (gen_ev 1 2 [] sol l0 ++ (if sol_dests l0 then dest_ev (fun k => k) 17 16 (sol_ts wallet xs) l0 else [])) l l1
  /\ paid_by (found 1 [] l0 || found 2 [] l0) (sol_dests l0)
       (map (fun t => found 17 (fst t) l0 || found 16 (fst t) l0) (sol_ts wallet xs)) (sum (map snd (sol_ts wallet xs))) sol.
Proof.
  intros O Al H. unfold sol_a in H. bind_inv H. destruct v as [g l2].
  apply (general_spree _ _ _ _ _ l0) in B as [B1 B2]; try assumption; try reflexivity.
  pose proof (spree_okl _ _ _ _ B1 O) as O2. pose proof (spree_alike _ _ _ _ B1 O) as Al1.
  pose proof (alike_trans _ _ _ Al Al1) as Al2. change (existsb _ l2) with (sol_dests l2) in K.
  destruct Al2 as (Al2a & Al2b & Al2c). rewrite Al2b in K. unfold paid_by. destruct (sol_dests l0) eqn:D.
  - bind_inv K. destruct v as [z l3]. peel K0. apply ok_inj in K0. subst l3. fold (sol_ts wallet xs) in B0.
    pose proof (sol_ts_keys wallet xs Xk) as Kk. fold (sol_ts wallet xs) in B.
    apply (dests_spree _ _ _ _ l0) in B as (C1 & C2 & C3); try assumption.
    + split; [eapply spree_app; eassumption|]. apply andb_prop in B0 as [B0 B3]. apply Z.eqb_eq in B3.
      split; [|split; [apply forallb_map_forall; exact C3|lia]].
      intros Z. destruct (sol_ts wallet xs); [discriminate B0|discriminate Z].
    + apply sol_transfers_nonneg. exact Xi.
    + eapply Forall_impl; [|exact Kk]. intros t Ht. cbn beta in *. split; exact Ht.
    + split; [exact Al2a|]. split; [congruence|exact Al2c].
  - peel K. apply ok_inj in K. subst l2. rewrite app_nil_r. split; [exact B1|]. exact (eq_trans (eq_sym B2) B).
Qed.
Lemma token_spree src mint sp l0 l l1 : length mint = 32%nat -> 0 <= sp -> okl l -> alike l0 l -> token_a slot src mint xs sp l = Ok l1 ->
  spree slot (gen_ev 5 6 mint sp l0 ++ (if tok_dests mint l0 then dest_ev (fun k => mint ++ k) 19 18 (tok_ts src xs) l0 else [])) l l1
  /\ paid_by (found 5 mint l0 || found 6 mint l0) (tok_dests mint l0)
       (map (fun t => found 19 (mint ++ fst t) l0 || found 18 (mint ++ fst t) l0) (tok_ts src xs)) (sum (map snd (tok_ts src xs))) sp.
Proof.
  intros Lm Sp O Al H. unfold token_a in H. bind_inv H. destruct v as [g l2].
  apply (general_spree _ _ _ _ _ l0) in B as [B1 B2]; try assumption.
  pose proof (spree_okl _ _ _ _ B1 O) as O2. pose proof (spree_alike _ _ _ _ B1 O) as Al1.
  pose proof (alike_trans _ _ _ Al Al1) as Al2. change (existsb _ l2) with (tok_dests mint l2) in K.
  destruct Al2 as (Al2a & Al2b & Al2c). rewrite Al2c in K. unfold paid_by. destruct (tok_dests mint l0) eqn:D.
  - bind_inv K. destruct v as [z l3]. peel K0. apply ok_inj in K0. subst l3. fold (tok_ts src xs) in B0.
    pose proof (tok_ts_keys src xs Xk) as Kk. fold (tok_ts src xs) in B.
    apply (dests_spree _ _ _ _ l0) in B as (C1 & C2 & C3); try assumption.
    + split; [eapply spree_app; eassumption|]. apply andb_prop in B0 as [B0 B3]. apply Z.eqb_eq in B3.
      split; [|split; [apply forallb_map_forall; exact C3|lia]].
      intros Z. destruct (tok_ts src xs); [discriminate B0|discriminate Z].
    + apply token_transfers_nonneg. exact Xi.
    + eapply Forall_impl; [|exact Kk]. intros [k0 a0] Ht. cbn [fst] in *. unfold exact_q, key in *. rewrite app_length, Lm, Ht. split; reflexivity.
    + split; [exact Al2a|]. split; [exact Al2b|exact Al2c].
  - peel K. apply ok_inj in K. subst l2. rewrite app_nil_r. split; [exact B1|]. exact (eq_trans (eq_sym B2) B).
Qed.

Lemma settle1_spree l0 m c snap l l1 : spent_ok c -> wf_meta m -> okl l -> alike l0 l ->
  settle1_a E slot w wallet xs sol m c snap l = Ok l1 ->
  spree slot (ev_of w wallet xs sol l0 m c) l l1 /\ fine E w wallet xs sol l0 m c snap
  /\ (c = CThisSwig -> m_writable m = true -> snap = Some (hash_full E (w (m_key m)))).
Proof.
  intros S Wm O Al H. pose proof Al as (Al1 & _).
  destruct c as [| | |bal sp|bal lam sp|bal sp]; unfold settle1_a in H; cbv zeta in H; unfold ev_of, fine;
    try (apply ok_inj in H; subst l1; split; [constructor|split; [exact I|discriminate]]).
  - bind_inv H. bind_inv K. apply check_ok in B0. destruct v, v0. assert (rent E (length (a_data (w wallet))) <= a_lamports (w wallet)) by lia.
    destruct (sol =? 0) eqn:Z0.
    + apply ok_inj in K0. subst l1. split; [constructor|]. split; [split; [assumption|left; lia]|]. intros _. eapply check_snapshot_ok; exact B.
    + apply (sol_spree l0) in K0 as [K1 K2]; try assumption. split; [exact K1|]. split; [split; [assumption|right; exact K2]|].
      intros _. eapply check_snapshot_ok; exact B.
  - cbn in S. fold (dead (w (m_key m))) in H. destruct (dead (w (m_key m))).
    + bind_inv H. apply check_ok in B. bind_inv K. apply check_ok in B0. apply ok_inj in K0. subst l1.
      split; [constructor|]. split; [|discriminate]. apply andb_prop in B0 as [B1 B2]. apply beq_eq in B2.
      split; [rewrite <- (Al1 20 []) by reflexivity; exact B|]. split; [lia|exact B2].
    + bind_inv H. apply check_ok in B. bind_inv K. bind_inv K0. apply check_ok, beq_eq in B1. bind_inv K. destruct v0.
      set (d := a_data (w (m_key m))) in *. assert (Lm : length (sub 0 32 d) = 32%nat) by (apply sub_length; lia).
      assert (165 <= length d)%nat by lia.
      destruct (sp =? 0) eqn:Z0.
      * apply ok_inj in K0. subst l1. split; [constructor|]. split; [|discriminate]. split; [assumption|]. split; [apply check_snapshot_ok; exact B0|].
        split; [exact B1|left; lia].
      * apply (token_spree _ _ _ l0) in K0 as [K1 K2]; try assumption. split; [exact K1|]. split; [|discriminate].
        split; [assumption|]. split; [apply check_snapshot_ok; exact B0|]. split; [exact B1|right; exact K2].
  - bind_inv H. bind_inv K. destruct v0. cbn in S.
    assert (Sn : m_writable m = true -> (124 <= length (a_data (w (m_key m))))%nat /\ snap = Some (hash_stake E (w (m_key m)))).
    { intros W. split; [|eapply check_snapshot_ok; [exact B0|exact W]]. rewrite W in B. apply guard_ok in B. lia. }
    destruct (sp =? 0) eqn:Z0.
    + apply ok_inj in K0. subst l1. split; [constructor|]. split; [|discriminate]. split; [exact Sn|left; lia].
    + unfold stake_a in K0. change (is_some (first_of P_StakeAll [] l)) with (found 12 [] l) in K0.
      rewrite (Al1 12 []) in K0 by reflexivity. destruct (found 12 [] l0) eqn:F12.
      * apply ok_inj in K0. subst l1. split; [constructor|]. split; [|discriminate]. split; [exact Sn|right; left; reflexivity].
      * bind_inv K0. destruct v0 as [g l2]. apply (general_spree _ _ _ _ _ l0) in B1 as [G1 G2]; try assumption; try reflexivity.
        peel K. apply ok_inj in K. subst l2. split; [exact G1|]. split; [|discriminate]. split; [exact Sn|right; right].
        grab (g = true) as Gt. exact (eq_trans (eq_sym G2) Gt).
  - bind_inv H. bind_inv K. bind_inv K0. apply ok_or_ok in B. cbn in S.
    assert (Fd : found 4 (m_key m) l0 = true).
    { rewrite <- (Al1 4 (m_key m)) by exact (proj1 Wm). unfold found. change 4 with P_ProgramScope. rewrite B. reflexivity. }
    destruct (sp =? 0).
    + apply ok_inj in K. subst l1. split; [constructor|]. split; [exact Fd|discriminate].
    + bind_inv K. apply ok_inj in K0. subst l1. split; [|split; [exact Fd|discriminate]].
      apply spree_one; [exact S|exact (proj1 Wm)|]. change 4 with P_ProgramScope. unfold charge_a. rewrite B, B2. reflexivity.
Qed.

(** *** All accounts *)
Fixpoint ev_all (l0 : list action) (ms : list meta) (cs : list cls) (snaps : list (option bytes)) : list debit :=
  match ms, cs, snaps with
  | m :: mr, c :: cr, s :: sr => ev_of w wallet xs sol l0 m c ++ ev_all l0 mr cr sr
  | _, _, _ => []
  end.
Lemma settle_spree l0 ms : Forall wf_meta ms -> forall cs snaps l l', Forall spent_ok cs -> okl l -> alike l0 l ->
  settle_a E slot w wallet xs sol ms cs snaps l = Ok l' ->
  spree slot (ev_all l0 ms cs snaps) l l'
  /\ forall i m c s, nth_error ms i = Some m -> nth_error cs i = Some c -> nth_error snaps i = Some s ->
       fine E w wallet xs sol l0 m c s /\ (c = CThisSwig -> m_writable m = true -> s = Some (hash_full E (w (m_key m)))).
Proof.
  induction 1 as [|m mr Wm Wr IH]; intros cs snaps l l' S O Al H; cbn [settle_a ev_all] in *.
  - apply ok_inj in H. subst. split; [constructor|]. intros [|i]; discriminate.
  - destruct cs as [|c cr]; [apply ok_inj in H; subst; split; [constructor|]; intros [|i]; discriminate|].
    destruct snaps as [|s sr]; [apply ok_inj in H; subst; split; [constructor|]; intros [|i]; discriminate|].
    inversion S as [|? ? S1 S2]; subst. bind_inv H. apply (settle1_spree l0) in B as (B1 & B2 & B3); try assumption.
    pose proof (spree_okl _ _ _ _ B1 O) as O1. pose proof (spree_alike _ _ _ _ B1 O) as Al1.
    destruct (IH cr sr v l' S2 O1 (alike_trans _ _ _ Al Al1) K) as [J1 J2].
    split; [eapply spree_app; eassumption|]. intros [|i] m' c' s' Q1 Q2 Q3; cbn [nth_error] in *.
    + injection Q1 as <-. injection Q2 as <-. injection Q3 as <-. split; assumption.
    + eapply J2; eassumption.
Qed.
End Settle.
