(** * Charging limits on permission lists instead of bytes *)
From Verif Require Import BaseFacts SpecConfig ConfigFacts ConfigEdit ConfigEdit2 ConfigEdit3 SpecLimits LimitsFacts.
From Verif Require Export World2.

(** ** One charge *)
Lemma set_u64_sub_low o z d n : (n <= o)%nat -> (o + 8 <= length d)%nat -> sub 0 n (set_u64 o z d) = sub 0 n d.
Proof. intros H1 H2. apply sub_set_other; lia. Qed.

(** what a charge leaves alone: everything before the counters *)
Definition fixed_part (ty : Z) (p : bytes) : bytes :=
  if (ty =? P_TokenLimit) || (ty =? P_TokenRecurringLimit) || (ty =? P_SolDestinationLimit)
     || (ty =? P_SolRecurringDestinationLimit) then sub 0 32 p
  else if (ty =? P_TokenDestinationLimit) || (ty =? P_TokenRecurringDestinationLimit) then sub 0 64 p
  else if ty =? P_ProgramScope then skipn 48 p
  else [].

Definition limit_type (ty : Z) : bool :=
  existsb (Z.eqb ty) [P_SolLimit; P_SolRecurringLimit; P_ProgramScope; P_TokenLimit; P_TokenRecurringLimit;
    P_StakeLimit; P_StakeRecurringLimit; P_SolDestinationLimit; P_SolRecurringDestinationLimit;
    P_TokenDestinationLimit; P_TokenRecurringDestinationLimit].
Lemma limit_run_type ty p amt slot p' : limit_run ty p amt slot = Ok p' -> limit_type ty = true.
Proof.
  unfold limit_run, limit_type. intros H. cbn [existsb].
  destruct (ty =? P_SolLimit); [reflexivity|]. destruct (ty =? P_SolRecurringLimit); [reflexivity|].
  destruct (ty =? P_ProgramScope); [reflexivity|]. destruct (ty =? P_TokenLimit); [reflexivity|].
  destruct (ty =? P_TokenRecurringLimit); [reflexivity|]. destruct (ty =? P_StakeLimit); [reflexivity|].
  destruct (ty =? P_StakeRecurringLimit); [reflexivity|]. destruct (ty =? P_SolDestinationLimit); [reflexivity|].
  destruct (ty =? P_SolRecurringDestinationLimit); [reflexivity|].
  destruct (ty =? P_TokenDestinationLimit); [reflexivity|].
  destruct (ty =? P_TokenRecurringDestinationLimit); [reflexivity|discriminate].
Qed.

Lemma run_fixed ty p amt slot p' : action_len ty = Some (length p) -> all_bytes p ->
  limit_run ty p amt slot = Ok p' ->
  length p' = length p /\ all_bytes p' /\ fixed_part ty p' = fixed_part ty p.
Proof.
  intros L B H. pose proof (limit_run_type _ _ _ _ _ H) as T. unfold limit_type in T. cbn [existsb] in T.
  assert (F2 : forall o1 z1 o2 z2 n, (n <= o1)%nat -> (n <= o2)%nat -> (o1 + 8 <= length p)%nat -> (o2 + 8 <= length p)%nat ->
     sub 0 n (set_u64 o2 z2 (set_u64 o1 z1 p)) = sub 0 n p).
  { intros. rewrite set_u64_sub_low, set_u64_sub_low; rewrite ?set_u64_length; auto. }
  repeat (apply orb_prop in T as [T|T]); try discriminate T; apply Z.eqb_eq in T; subst ty;
  cbv [limit_run P_SolLimit P_SolRecurringLimit P_ProgramScope P_TokenLimit P_TokenRecurringLimit
    P_StakeLimit P_StakeRecurringLimit P_SolDestinationLimit P_SolRecurringDestinationLimit
    P_TokenDestinationLimit P_TokenRecurringDestinationLimit] in H; cbn [Z.eqb Pos.eqb orb] in H;
  (let n := fresh in let En := fresh in remember (length p) as n eqn:En in L; cbv in L; injection L as L; rewrite En in L; clear n En);
  unfold sol_limit_bytes, token_limit_bytes, sol_dest_bytes, token_dest_bytes, sol_recurring_bytes,
    token_recurring_bytes, sol_rec_dest_bytes, token_rec_dest_bytes, scope_bytes, write_recurring in H;
  bind_inv H; apply ok_inj in K; subst p';
  repeat first
   [ match goal with |- _ /\ _ => split end
   | apply set_u64_bytes | apply all_bytes_splice | apply le_enc_bytes | exact B
   | (match goal with |- length _ = _ => rewrite ?splice_length, ?set_u64_length; rewrite ?le_enc_length, ?set_u64_length; lia end)
   | (change (fixed_part ?t ?x) with (@nil Z); reflexivity) ].
  all: try (cbv [fixed_part]; cbn [Z.eqb Pos.eqb orb]; cbv [P_SolLimit P_SolRecurringLimit P_ProgramScope P_TokenLimit P_TokenRecurringLimit
    P_StakeLimit P_StakeRecurringLimit P_SolDestinationLimit P_SolRecurringDestinationLimit
    P_TokenDestinationLimit P_TokenRecurringDestinationLimit]; cbn [Z.eqb Pos.eqb orb]).
  all: try reflexivity; try (apply set_u64_sub_low; lia); try (apply F2; lia).
     rewrite skipn_splice by (rewrite le_enc_length, ?set_u64_length; lia).
  unfold set_u64. rewrite skipn_splice by (rewrite le_enc_length; lia). reflexivity.
Qed.
Lemma matches_fixed ty q p p' : limit_type ty = true -> fixed_part ty p' = fixed_part ty p ->
  action_matches ty q p' = action_matches ty q p.
Proof.
  unfold limit_type. cbn [existsb]. intros T F.
  assert (S80 : forall x, sub 80 32 x = sub 32 32 (skipn 48 x)).
  { intros x. unfold sub. rewrite skipn_skipn'. reflexivity. }
  repeat (apply orb_prop in T as [T|T]); try discriminate T; apply Z.eqb_eq in T; subst ty;
  unfold action_matches; cbv [fixed_part] in F;
  cbv [P_SolLimit P_SolRecurringLimit P_Program P_ProgramScope P_TokenLimit P_TokenRecurringLimit P_SubAccount
    P_StakeLimit P_StakeRecurringLimit P_SolDestinationLimit P_SolRecurringDestinationLimit
    P_TokenDestinationLimit P_TokenRecurringDestinationLimit P_ReplaceAuthority P_SubAccountV2All
    P_SubAccountV2Sign P_SubAccountV2Withdraw P_SubAccountV2Toggle] in *; cbn [Z.eqb Pos.eqb orb] in *;
  try reflexivity; try (rewrite F; reflexivity).
  rewrite !S80, F. reflexivity.
Qed.
Lemma limit_type_small ty : limit_type ty = true -> ty < 22 \/ 26 < ty.
Proof.
  unfold limit_type. cbn [existsb]. intros T.
  repeat (apply orb_prop in T as [T|T]); try discriminate T; apply Z.eqb_eq in T; subst ty; left; reflexivity.
Qed.

(** The first permission of kind [ty] matching [q], charged with [amt] *)
Definition charge_a (ty : Z) (q : bytes) (amt slot : Z) (l : list action) : res (option (list action)) :=
  match first_of ty q l with
  | None => Ok None
  | Some p => let* p' := limit_run ty p amt slot in Ok (Some (set_first ty q p' l))
  end.

Definition okl (l : list action) : Prop := wf_actions l /\ Z.of_nat (acts_len l) < U32.

Lemma act_pos_first ty q o l : is_some (act_pos ty q o l) = is_some (first_of ty q l).
Proof.
  revert o; induction l as [|a t IH]; intros o; cbn; [reflexivity|]. destruct (_ && _); [reflexivity|apply IH].
Qed.
Lemma payload_at_enc ty q off l p : Forall wf_action l -> act_pos ty q 0 l = Some off -> first_of ty q l = Some p ->
  payload_at ty off (enc_actions 0 l) = p.
Proof.
  intros W Hp Hf. destruct (first_of_wf _ _ _ _ W Hf) as (L & _). unfold payload_at. rewrite L.
  destruct (splice_action ty q 0 l off p p Hp Hf eq_refl) as [_ S]. exact S.
Qed.

Lemma charge_enc ty q f amt slot l : okl l -> (forall p, f p = limit_run ty p amt slot) ->
  charge ty q f (enc_actions 0 l)
  = (let* o := charge_a ty q amt slot l in Ok (option_map (enc_actions 0) o)).
Proof.
  intros ((W1 & W2 & W3) & S) Hf. unfold charge, charge_a. rewrite get_action_mut_enc by assumption. cbn [bind].
  pose proof (act_pos_first ty q 0 l) as Hs.
  destruct (act_pos ty q 0 l) as [off|] eqn:Ep; destruct (first_of ty q l) as [p|] eqn:Ef; try discriminate Hs; [|reflexivity].
  rewrite (payload_at_enc ty q off l p W2 Ep Ef), Hf.
  destruct (limit_run ty p amt slot) as [p'| |] eqn:Er; cbn [bind]; [|reflexivity|reflexivity]. cbn [option_map].
  destruct (first_of_wf _ _ _ _ W2 Ef) as (L & B & _). destruct (run_fixed _ _ _ _ _ L B Er) as (L' & _).
  destruct (splice_action ty q 0 l off p' p Ep Ef L') as [-> _]. reflexivity.
Qed.

(** Sequences of charges *)
Inductive charges (slot : Z) : list action -> list action -> Prop :=
| chs_nil l : charges slot l l
| chs_step l l1 l2 ty q amt : charges slot l l1 -> 0 <= amt -> charge_a ty q amt slot l1 = Ok (Some l2) -> charges slot l l2.
Lemma charges_trans slot a b c : charges slot a b -> charges slot b c -> charges slot a c.
Proof.
  intros H1 H2. induction H2 as [l|l l1 l2 ty q amt H2 IH A C]; [exact H1|].
  eapply chs_step; [apply IH; exact H1|exact A|exact C].
Qed.

Lemma charge_a_facts ty q amt slot l l' : charge_a ty q amt slot l = Ok (Some l') -> okl l ->
  exists p p', first_of ty q l = Some p /\ limit_run ty p amt slot = Ok p' /\ l' = set_first ty q p' l
    /\ okl l' /\ acts_len l' = acts_len l /\ length l' = length l.
Proof.
  unfold charge_a. intros H (W & S). destruct (first_of ty q l) as [p|] eqn:Ef; [|discriminate].
  bind_inv H. apply ok_inj in K. injection K as <-.
  pose proof W as (_ & W2 & _). destruct (first_of_wf _ _ _ _ W2 Ef) as (L & Bp & _).
  destruct (run_fixed _ _ _ _ _ L Bp B) as (L' & B' & _). destruct (set_first_len ty q v p l Ef L') as [S1 S2].
  exists p, v. split; [reflexivity|]. split; [exact B|]. split; [reflexivity|].
  split; [split; [|rewrite S1; exact S]|split; assumption].
  eapply set_first_wf; try eassumption. apply limit_type_small. eapply limit_run_type; exact B.
Qed.
Lemma charges_okl slot l l' : charges slot l l' -> okl l -> okl l' /\ acts_len l' = acts_len l /\ length l' = length l.
Proof.
  induction 1 as [l|l l1 l2 ty q amt H IH A C]; intros W; [auto|]. destruct (IH W) as (W1 & E1 & E2).
  destruct (charge_a_facts _ _ _ _ _ _ C W1) as (_ & _ & _ & _ & _ & W2 & E3 & E4). split; [exact W2|]. split; congruence.
Qed.

Lemma set_first_charged slot ty q p p' amt l0 l : Forall2 (charged_act slot) l0 l -> 0 <= amt ->
  first_of ty q l = Some p -> limit_run ty p amt slot = Ok p' ->
  Forall2 (charged_act slot) l0 (set_first ty q p' l).
Proof.
  intros H A. induction H as [|a b t u H1 H2 IH]; cbn [first_of set_first]; [discriminate|].
  destruct ((ac_ty b =? ty) && action_matches ty q (ac_data b)) eqn:E; intros Hf Hr.
  - constructor; [|exact H2]. injection Hf as <-. apply andb_prop in E as [E _]. apply Z.eqb_eq in E.
    destruct H1 as [T C]. split; cbn; [congruence|]. rewrite <- T, E in *. eapply charged_step; eassumption.
  - constructor; [exact H1|]. apply IH; assumption.
Qed.
Lemma charged_act_refl slot l : Forall2 (charged_act slot) l l.
Proof. induction l; constructor; [split; [reflexivity|constructor]|assumption]. Qed.
Lemma charges_charged slot l l' : charges slot l l' -> Forall2 (charged_act slot) l l'.
Proof.
  induction 1 as [l|l l1 l2 ty q amt H IH A C]; [apply charged_act_refl|].
  unfold charge_a in C. destruct (first_of ty q l1) as [p|] eqn:Ef; [|discriminate].
  bind_inv C. apply ok_inj in K. injection K as <-. eapply set_first_charged; eassumption.
Qed.

(** ** The settlement on permission lists *)
Definition general_a (ty1 ty2 : Z) (q : bytes) (amt slot : Z) (l : list action) : res (bool * list action) :=
  let* o := charge_a ty1 q amt slot l in
  match o with
  | Some l1 => Ok (true, l1)
  | None =>
    let* o2 := charge_a ty2 q amt slot l in
    match o2 with Some l1 => Ok (true, l1) | None => Ok (false, l) end
  end.
Fixpoint dests_a (q : key -> bytes) (tyr tyo slot : Z) (ts : list (key * Z)) (parsed : Z) (l : list action)
  : res (Z * list action) :=
  match ts with
  | [] => Ok (parsed, l)
  | (k, amt) :: r =>
    check (parsed + amt <? U64) AMissingPermission ;;
    let* o := charge_a tyr (q k) amt slot l in
    match o with
    | Some l1 => dests_a q tyr tyo slot r (parsed + amt) l1
    | None =>
      let* o2 := charge_a tyo (q k) amt slot l in
      match o2 with
      | Some l1 => dests_a q tyr tyo slot r (parsed + amt) l1
      | None => Err AMissingPermission
      end
    end
  end.
Definition of_type (ty1 ty2 : Z) (a : action) : bool := (ac_ty a =? ty1) || (ac_ty a =? ty2).
Definition sol_a (slot : Z) (wallet : key) (xs : list inner) (sol : Z) (l : list action) : res (list action) :=
  let* ' (gen, l1) := general_a P_SolLimit P_SolRecurringLimit [] sol slot l in
  if existsb (of_type P_SolDestinationLimit P_SolRecurringDestinationLimit) l1 then
    let ts := filter_map (fun x => sol_transfer_of wallet (in_ix x)) xs in
    let* ' (parsed, l2) := dests_a (fun k => k) P_SolRecurringDestinationLimit P_SolDestinationLimit slot ts 0 l1 in
    check (negb (length ts =? 0)%nat && (parsed =? sol)) AMissingPermission ;; Ok l2
  else check gen AMissingPermission ;; Ok l1.
Definition token_a (slot : Z) (src : key) (mint : bytes) (xs : list inner) (sp : Z) (l : list action) : res (list action) :=
  let* ' (gen, l1) := general_a P_TokenLimit P_TokenRecurringLimit mint sp slot l in
  if existsb (fun a => of_type P_TokenDestinationLimit P_TokenRecurringDestinationLimit a && beq mint (sub 0 32 (ac_data a))) l1 then
    let ts := filter_map (fun x => token_transfer_of src (in_ix x)) xs in
    let* ' (parsed, l2) := dests_a (fun k => mint ++ k) P_TokenRecurringDestinationLimit P_TokenDestinationLimit slot ts 0 l1 in
    check (negb (length ts =? 0)%nat && (parsed =? sp)) AMissingPermission ;; Ok l2
  else check gen AMissingPermission ;; Ok l1.
Definition stake_a (slot sp : Z) (l : list action) : res (list action) :=
  if is_some (first_of P_StakeAll [] l) then Ok l
  else
    let* ' (ok, l1) := general_a P_StakeLimit P_StakeRecurringLimit [] sp slot l in
    check ok AMissingPermission ;; Ok l1.
Definition settle1_a (E : env) (slot : Z) (w : world) (wallet : key) (xs : list inner) (sol : Z)
  (m : meta) (c : cls) (snap : option bytes) (l : list action) : res (list action) :=
  let a := w (m_key m) in
  let d := a_data a in
  match c with
  | CThisSwig =>
    check_snapshot m snap (hash_full E a) ;;
    check (rent E (length (a_data (w wallet))) <=? a_lamports (w wallet)) AInsufficientBalance ;;
    if sol =? 0 then Ok l else sol_a slot wallet xs sol l
  | CToken _ sp =>
    if (length d =? 0)%nat || (a_lamports a =? 0) then
      check (is_some (first_of P_CloseSwigAuthority [] l)) AMissingPermission ;;
      check ((a_lamports a =? 0) && beq (a_owner a) SYSTEM) SAccountDataModifiedUnexpectedly ;;
      Ok l
    else
      check (165 <=? length d)%nat SAccountDataModifiedUnexpectedly ;;
      check_snapshot m snap (hash_skip E a 64 72) ;;
      check (beq (sub 32 32 d) wallet) ATokenAccountAuthorityNotSwig ;;
      check (byte_at 108 d =? 1) ATokenAccountNotInitialized ;;
      if sp =? 0 then Ok l else token_a slot (m_key m) (sub 0 32 d) xs sp l
  | CStake _ _ sp =>
    (if m_writable m then guard (124 <=? length d)%nat else Ok tt) ;;
    check_snapshot m snap (hash_stake E a) ;;
    if sp =? 0 then Ok l else stake_a slot sp l
  | CScope _ sp =>
    let* p := ok_or (first_of P_ProgramScope (m_key m) l) AMissingPermission in
    check ((ps_start p <? ps_end p) && (ps_end p <=? Z.of_nat (length d)))
      SInvalidProgramScopeBalanceFields ;;
    check_snapshot m snap (hash_skip E a (nat_of (ps_start p)) (nat_of (ps_end p))) ;;
    if sp =? 0 then Ok l
    else let* p' := limit_run P_ProgramScope p sp slot in Ok (set_first P_ProgramScope (m_key m) p' l)
  | _ => Ok l
  end.
Fixpoint settle_a (E : env) (slot : Z) (w : world) (wallet : key) (xs : list inner) (sol : Z)
  (ms : list meta) (cs : list cls) (snaps : list (option bytes)) (l : list action) : res (list action) :=
  match ms, cs, snaps with
  | m :: mr, c :: cr, s :: sr =>
    let* l1 := settle1_a E slot w wallet xs sol m c s l in
    settle_a E slot w wallet xs sol mr cr sr l1
  | _, _, _ => Ok l
  end.

(** ** The byte-level walks *)
Lemma any_at fuel (f : Z -> nat -> nat -> bool) (g : action -> bool) o buf l :
  (forall a o', wf_action a -> action_at o' o' buf a -> f (ac_ty a) (o' + 8)%nat (o' + 8 + length (ac_data a))%nat = g a) ->
  Forall wf_action l -> actions_at o o buf l -> length buf = (o + acts_len l)%nat ->
  Z.of_nat (length buf) < U32 -> (length l < fuel)%nat ->
  any_action_loop fuel f buf o = Ok (existsb g l).
Proof.
  intros Hfg Hl; revert fuel o; induction Hl as [|a t Ha Ht IH]; intros fuel o Hat Hlen Hsm Hf;
    (destruct fuel as [|n]; [cbn in Hf; lia|]); cbn [any_action_loop existsb].
  - cbn in Hlen. replace (o + 8 <=? length buf)%nat with false by lia. reflexivity.
  - cbn [acts_len actions_at length] in Hlen, Hat, Hf. destruct Hat as [H1 H2].
    replace (o + 8 <=? length buf)%nat with true by lia.
    rewrite (afld_ty o o buf a) by assumption.
    rewrite (afld_bound o o buf a) by (try assumption; lia).
    pose proof Ha as [Hal _]. pose proof (action_len_bound _ _ Hal) as B.
    unfold permission. replace ((0 <=? ac_ty a) && (ac_ty a <=? 26)) with true by lia. cbn [bind].
    rewrite (Hfg a o Ha H1). destruct (g a); [reflexivity|]. cbn [orb]. apply IH; try assumption; lia.
Qed.
Lemma any_enc f g l : okl l ->
  (forall a o', wf_action a -> action_at o' o' (enc_actions 0 l) a ->
     f (ac_ty a) (o' + 8)%nat (o' + 8 + length (ac_data a))%nat = g a) ->
  any_action_loop (S (length (enc_actions 0 l))) f (enc_actions 0 l) 0 = Ok (existsb g l).
Proof.
  intros ((W1 & W2 & W3) & S) H. pose proof (enc_actions_length 0 l) as HL. pose proof (acts_len_ge l).
  apply any_at; try assumption; try lia.
  pose proof (actions_at_app 0 0 [] l [] eq_refl) as A. rewrite app_nil_r in A. exact A.
Qed.
Lemma has_sol_dest_enc l : okl l ->
  has_sol_dest (enc_actions 0 l) = Ok (existsb (of_type P_SolDestinationLimit P_SolRecurringDestinationLimit) l).
Proof. intros H. unfold has_sol_dest. apply any_enc; [exact H|]. reflexivity. Qed.
Lemma has_token_dest_enc l mint : okl l ->
  has_token_dest (enc_actions 0 l) mint
  = Ok (existsb (fun a => of_type P_TokenDestinationLimit P_TokenRecurringDestinationLimit a && beq mint (sub 0 32 (ac_data a))) l).
Proof.
  intros H. unfold has_token_dest. apply any_enc; [exact H|]. intros a o Ha Hat. unfold of_type.
  destruct ((ac_ty a =? P_TokenDestinationLimit) || (ac_ty a =? P_TokenRecurringDestinationLimit)) eqn:T; [|reflexivity].
  cbn [andb]. destruct Ha as [Ha _].
  assert (32 <= length (ac_data a))%nat.
  { apply orb_prop in T as [T|T]; apply Z.eqb_eq in T; rewrite T in Ha;
    (remember (length (ac_data a)) as n eqn:En in Ha; cbv in Ha; injection Ha as Ha; lia). }
  pose proof Hat as [A1 A2].
  replace (o + 8 + 32 <=? o + 8 + length (ac_data a))%nat with true by lia.
  replace (o + 8 + 32 <=? length (enc_actions 0 l))%nat with true by lia. cbn [andb].
  pose proof (afld_data o o _ a Hat) as D. f_equal. rewrite <- D. symmetry.
  rewrite sub_sub by lia. f_equal. lia.
Qed.
Lemma has_mut_enc ty q l : okl l -> has_mut ty q (enc_actions 0 l) = Ok (is_some (first_of ty q l)).
Proof.
  intros ((_ & W2 & _) & S). unfold has_mut. rewrite get_action_mut_enc by assumption. cbn [bind].
  rewrite act_pos_first. reflexivity.
Qed.

(** ** Refinement *)
Definition encl {A} (r : res (A * list action)) : res (A * bytes) :=
  let* ' (a, l) := r in Ok (a, enc_actions 0 l).
Definition encr (r : res (list action)) : res bytes := let* l := r in Ok (enc_actions 0 l).

Lemma charge_a_okl ty q amt slot l l' : charge_a ty q amt slot l = Ok (Some l') -> okl l -> okl l'.
Proof. intros H W. destruct (charge_a_facts _ _ _ _ _ _ H W) as (_ & _ & _ & _ & _ & W2 & _). exact W2. Qed.

Lemma general_enc ty1 ty2 q f1 f2 amt slot l : okl l ->
  (forall p, f1 p = limit_run ty1 p amt slot) -> (forall p, f2 p = limit_run ty2 p amt slot) ->
  charge_general ty1 ty2 q f1 f2 (enc_actions 0 l) = encl (general_a ty1 ty2 q amt slot l).
Proof.
  intros W H1 H2. unfold charge_general, general_a, encl.
  rewrite (charge_enc ty1 q f1 amt slot l W H1).
  destruct (charge_a ty1 q amt slot l) as [[l1|]| |]; cbn [bind option_map]; try reflexivity.
  rewrite (charge_enc ty2 q f2 amt slot l W H2).
  destruct (charge_a ty2 q amt slot l) as [[l2|]| |]; cbn [bind option_map]; reflexivity.
Qed.
Lemma general_charges ty1 ty2 q amt slot l g l' : 0 <= amt -> general_a ty1 ty2 q amt slot l = Ok (g, l') -> charges slot l l'.
Proof.
  intros A H. unfold general_a in H. bind_inv H. destruct v as [l1|].
  - apply ok_inj in K. injection K as <- <-. econstructor; [constructor|exact A|exact B].
  - bind_inv K. destruct v as [l1|]; apply ok_inj in K0; injection K0 as <- <-; [|constructor].
    econstructor; [constructor|exact A|exact B0].
Qed.
Lemma dests_enc q tyr tyo fr fo slot ts : (forall p a, fr p a = limit_run tyr p a slot) ->
  (forall p a, fo p a = limit_run tyo p a slot) -> forall parsed l, okl l ->
  charge_dests q tyr tyo fr fo ts parsed (enc_actions 0 l) = encl (dests_a q tyr tyo slot ts parsed l).
Proof.
  intros H1 H2. induction ts as [|[k amt] r IH]; intros parsed l W; cbn [charge_dests dests_a]; [reflexivity|].
  destruct (parsed + amt <? U64); cbn [check bind]; [|reflexivity].
  rewrite (charge_enc tyr (q k) _ amt slot l W (fun p => H1 p amt)).
  destruct (charge_a tyr (q k) amt slot l) as [[l1|]| |] eqn:C1; cbn [bind option_map]; try reflexivity.
  - apply IH. eapply charge_a_okl; eassumption.
  - rewrite (charge_enc tyo (q k) _ amt slot l W (fun p => H2 p amt)).
    destruct (charge_a tyo (q k) amt slot l) as [[l1|]| |] eqn:C2; cbn [bind option_map]; try reflexivity.
    apply IH. eapply charge_a_okl; eassumption.
Qed.
Lemma dests_charges q tyr tyo slot ts : Forall (fun t => 0 <= snd t) ts -> forall parsed l z l',
  dests_a q tyr tyo slot ts parsed l = Ok (z, l') -> charges slot l l'.
Proof.
  induction 1 as [|[k amt] r A F IH]; intros parsed l z l' H; cbn [dests_a] in H.
  - apply ok_inj in H. injection H as <- <-. constructor.
  - cbn in A. bind_inv H. bind_inv K. destruct v0 as [l1|].
    + eapply charges_trans; [econstructor; [constructor|exact A|exact B0]|eapply IH; exact K0].
    + bind_inv K0. destruct v0 as [l1|]; [|discriminate].
      eapply charges_trans; [econstructor; [constructor|exact A|exact B1]|eapply IH; exact K].
Qed.

Lemma sol_enc slot wallet xs sol l : okl l -> 0 <= sol ->
  settle_sol slot wallet xs sol (enc_actions 0 l) = encr (sol_a slot wallet xs sol l).
Proof.
  intros W A. unfold settle_sol, sol_a, encr.
  rewrite (general_enc _ _ _ _ _ sol slot l W) by reflexivity. unfold encl.
  destruct (general_a P_SolLimit P_SolRecurringLimit [] sol slot l) as [[g l1]| |] eqn:G; cbn [bind]; try reflexivity.
  assert (W1 : okl l1) by (eapply charges_okl; [eapply general_charges; eassumption|exact W]).
  rewrite has_sol_dest_enc by exact W1. cbn [bind].
  destruct (existsb _ l1); [|destruct g; reflexivity].
  rewrite (dests_enc _ _ _ _ _ slot) by (try reflexivity; exact W1). unfold encl.
  destruct (dests_a _ _ _ _ _ _ _) as [[z l2]| |]; cbn [bind]; try reflexivity. destruct (_ && _); reflexivity.
Qed.
Lemma token_enc slot src mint xs sp l : okl l -> 0 <= sp ->
  settle_token slot src mint xs sp (enc_actions 0 l) = encr (token_a slot src mint xs sp l).
Proof.
  intros W A. unfold settle_token, token_a, encr.
  rewrite (general_enc _ _ _ _ _ sp slot l W) by reflexivity. unfold encl.
  destruct (general_a P_TokenLimit P_TokenRecurringLimit mint sp slot l) as [[g l1]| |] eqn:G; cbn [bind]; try reflexivity.
  assert (W1 : okl l1) by (eapply charges_okl; [eapply general_charges; eassumption|exact W]).
  rewrite has_token_dest_enc by exact W1. cbn [bind].
  destruct (existsb _ l1); [|destruct g; reflexivity].
  rewrite (dests_enc _ _ _ _ _ slot) by (try reflexivity; exact W1). unfold encl.
  destruct (dests_a _ _ _ _ _ _ _) as [[z l2]| |]; cbn [bind]; try reflexivity. destruct (_ && _); reflexivity.
Qed.
Lemma stake_enc slot sp l : okl l -> settle_stake slot sp (enc_actions 0 l) = encr (stake_a slot sp l).
Proof.
  intros W. unfold settle_stake, stake_a, encr. rewrite has_mut_enc by exact W. cbn [bind].
  destruct (is_some _); [reflexivity|].
  rewrite (general_enc _ _ _ _ _ sp slot l W) by reflexivity. unfold encl.
  destruct (general_a _ _ _ _ _ _) as [[g l1]| |]; cbn [bind]; try reflexivity. destruct g; reflexivity.
Qed.

Definition inner_ok (x : inner) : Prop := all_bytes (ix_data (in_ix x)).
Lemma sol_transfers_nonneg wallet xs : Forall inner_ok xs ->
  Forall (fun t : key * Z => 0 <= snd t) (filter_map (fun x => sol_transfer_of wallet (in_ix x)) xs).
Proof.
  induction 1 as [|x r Hx Hr IH]; cbn [filter_map]; [constructor|].
  unfold sol_transfer_of. destruct (_ && _); [|exact IH]. constructor; [|exact IH].
  cbn [snd]. apply (u64_bound 4 _ Hx).
Qed.
Lemma token_transfers_nonneg src xs : Forall inner_ok xs ->
  Forall (fun t : key * Z => 0 <= snd t) (filter_map (fun x => token_transfer_of src (in_ix x)) xs).
Proof.
  induction 1 as [|x r Hx Hr IH]; cbn [filter_map]; [constructor|].
  unfold token_transfer_of. destruct (_ && _); [|exact IH].
  destruct (if byte_at 0 _ =? 3 then _ else _) as [ml di]. destruct (_ && _); [|exact IH].
  constructor; [|exact IH]. cbn [snd]. apply (u64_bound 1 _ Hx).
Qed.
Lemma sol_charges slot wallet xs sol l l' : Forall inner_ok xs -> 0 <= sol ->
  sol_a slot wallet xs sol l = Ok l' -> charges slot l l'.
Proof.
  intros X A H. unfold sol_a in H. bind_inv H. destruct v as [g l1]. apply general_charges in B; [|exact A].
  destruct (existsb _ l1).
  - bind_inv K. destruct v as [z l2]. peel K0. apply ok_inj in K0. subst. eapply charges_trans; [exact B|].
    refine (dests_charges _ _ _ _ _ _ _ _ _ _ B0). apply sol_transfers_nonneg. exact X.
  - peel K. apply ok_inj in K. subst. exact B.
Qed.
Lemma token_charges slot src mint xs sp l l' : Forall inner_ok xs -> 0 <= sp ->
  token_a slot src mint xs sp l = Ok l' -> charges slot l l'.
Proof.
  intros X A H. unfold token_a in H. bind_inv H. destruct v as [g l1]. apply general_charges in B; [|exact A].
  destruct (existsb _ l1).
  - bind_inv K. destruct v as [z l2]. peel K0. apply ok_inj in K0. subst. eapply charges_trans; [exact B|].
    refine (dests_charges _ _ _ _ _ _ _ _ _ _ B0). apply token_transfers_nonneg. exact X.
  - peel K. apply ok_inj in K. subst. exact B.
Qed.
Lemma stake_charges slot sp l l' : 0 <= sp -> stake_a slot sp l = Ok l' -> charges slot l l'.
Proof.
  intros A H. unfold stake_a in H. destruct (is_some _); [apply ok_inj in H; subst; constructor|].
  bind_inv H. destruct v as [g l1]. peel K. apply ok_inj in K. subst. eapply general_charges; eassumption.
Qed.

Definition spent_ok (c : cls) : Prop :=
  match c with CToken _ sp | CStake _ _ sp | CScope _ sp => 0 <= sp | _ => True end.

Lemma settle1_enc E slot w wallet xs sol m c snap l : okl l -> 0 <= sol -> spent_ok c ->
  settle1 E slot w wallet xs sol m c snap (enc_actions 0 l) = encr (settle1_a E slot w wallet xs sol m c snap l).
Proof.
  intros W A S. destruct c as [| | |bal sp|bal lam sp|bal sp]; unfold settle1, settle1_a, encr; try reflexivity.
  - destruct (check_snapshot _ _ _); cbn [bind]; try reflexivity.
    destruct (rent _ _ <=? _); cbn [check bind]; [|reflexivity].
    destruct (sol =? 0); [reflexivity|]. rewrite sol_enc by assumption. reflexivity.
  - cbn in S. destruct (_ || _).
    + rewrite has_mut_enc by exact W. cbn [bind]. destruct (is_some _); cbn [check bind]; [|reflexivity].
      destruct (_ && _); reflexivity.
    + destruct (165 <=? _)%nat; cbn [check bind]; [|reflexivity].
      destruct (check_snapshot _ _ _); cbn [bind]; try reflexivity.
      destruct (beq _ wallet); cbn [check bind]; [|reflexivity].
      destruct (byte_at 108 _ =? 1); cbn [check bind]; [|reflexivity].
      destruct (sp =? 0); [reflexivity|]. rewrite token_enc by assumption. reflexivity.
  - cbn in S. destruct (if m_writable m then _ else _); cbn [bind]; try reflexivity.
    destruct (check_snapshot _ _ _); cbn [bind]; try reflexivity.
    destruct (sp =? 0); [reflexivity|]. rewrite stake_enc by assumption. reflexivity.
  - pose proof W as ((_ & W2 & _) & Sm). rewrite get_action_mut_enc by assumption. cbn [bind].
    pose proof (act_pos_first P_ProgramScope (m_key m) 0 l) as Hs.
    destruct (act_pos P_ProgramScope (m_key m) 0 l) as [off|] eqn:Ep;
      destruct (first_of P_ProgramScope (m_key m) l) as [p|] eqn:Ef; try discriminate Hs; cbn [ok_or bind]; [|reflexivity].
    rewrite (payload_at_enc _ _ _ _ _ W2 Ep Ef).
    destruct (_ && _); cbn [check bind]; [|reflexivity].
    destruct (check_snapshot _ _ _); cbn [bind]; try reflexivity.
    destruct (sp =? 0); [reflexivity|].
    change (limit_run P_ProgramScope p sp slot) with (scope_bytes p sp slot).
    destruct (scope_bytes p sp slot) as [p'| |] eqn:Er; cbn [bind]; try reflexivity.
    destruct (first_of_wf _ _ _ _ W2 Ef) as (L & B & _).
    destruct (run_fixed P_ProgramScope p sp slot p' L B Er) as (L' & _).
    destruct (splice_action _ _ 0 l off p' p Ep Ef L') as [-> _]. reflexivity.
Qed.
Lemma settle1_charges E slot w wallet xs sol m c snap l l' : Forall inner_ok xs -> 0 <= sol -> spent_ok c ->
  settle1_a E slot w wallet xs sol m c snap l = Ok l' -> charges slot l l'.
Proof.
  intros X A S H. destruct c as [| | |bal sp|bal lam sp|bal sp]; unfold settle1_a in H;
    try (apply ok_inj in H; subst; constructor).
  - bind_inv H. bind_inv K. destruct (sol =? 0); [apply ok_inj in K0; subst; constructor|]. eapply sol_charges; eassumption.
  - destruct (_ || _); [peel H; apply ok_inj in H; subst; constructor|]. bind_inv H. bind_inv K. bind_inv K0. bind_inv K.
    destruct (sp =? 0); [apply ok_inj in K0; subst; constructor|]. eapply token_charges; eassumption.
  - bind_inv H. bind_inv K. destruct (sp =? 0); [apply ok_inj in K0; subst; constructor|]. eapply stake_charges; eassumption.
  - bind_inv H. bind_inv K. bind_inv K0. destruct (sp =? 0); [apply ok_inj in K; subst; constructor|].
    bind_inv K. apply ok_inj in K0. subst l'. apply ok_or_ok in B.
    econstructor; [constructor|exact S|]. unfold charge_a. rewrite B, B2. reflexivity.
Qed.
Lemma settle_enc E slot w wallet xs sol ms : Forall inner_ok xs -> 0 <= sol -> forall cs snaps l, Forall spent_ok cs -> okl l ->
  settle E slot w wallet xs sol ms cs snaps (enc_actions 0 l) = encr (settle_a E slot w wallet xs sol ms cs snaps l).
Proof.
  intros X A. induction ms as [|m mr IH]; intros cs snaps l S W; cbn [settle settle_a]; [reflexivity|].
  destruct cs as [|c cr]; [reflexivity|]. destruct snaps as [|s sr]; [reflexivity|]. inversion S as [|? ? S1 S2]; subst.
  rewrite settle1_enc by assumption. unfold encr at 1.
  destruct (settle1_a E slot w wallet xs sol m c s l) as [l1| |] eqn:E1; cbn [bind]; try reflexivity.
  apply IH; [exact S2|]. eapply charges_okl; [eapply settle1_charges; eassumption|exact W].
Qed.
Lemma settle_charges E slot w wallet xs sol ms : Forall inner_ok xs -> 0 <= sol -> forall cs snaps l l', Forall spent_ok cs ->
  settle_a E slot w wallet xs sol ms cs snaps l = Ok l' -> charges slot l l'.
Proof.
  intros X A. induction ms as [|m mr IH]; intros cs snaps l l' S H; cbn [settle_a] in H; [apply ok_inj in H; subst; constructor|].
  destruct cs as [|c cr]; [apply ok_inj in H; subst; constructor|].
  destruct snaps as [|s sr]; [apply ok_inj in H; subst; constructor|]. inversion S as [|? ? S1 S2]; subst.
  bind_inv H. eapply charges_trans; [eapply settle1_charges; eassumption|eapply IH; eassumption].
Qed.
