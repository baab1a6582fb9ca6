(** * The accounts of the program keep their rent.  Proofs *)
From Verif Require Import BaseFacts SpecConfig ConfigFacts ConfigEdit ConfigEdit2 ConfigEdit3.
From Verif Require Import AuthProps HandlerRoles HandlerRoles2 HandlerSub HandlerLife HandlerV2 HandlerAssets SignSpec.
From Verif Require Export SpecRent LifeProps.

(** ** Sizes of configurations *)
Definition alike (r r' : role) : Prop := r_aty r' = r_aty r /\ map ac_ty (r_acts r') = map ac_ty (r_acts r).
Definition shape (s s' : config) : Prop := Forall2 alike (s_roles s) (s_roles s') /\ s_claimer s' = s_claimer s.
Lemma alike_refl r : alike r r.
Proof. split; reflexivity. Qed.
Lemma acts_len_types l l' : Forall wf_action l -> Forall wf_action l' -> map ac_ty l' = map ac_ty l -> acts_len l' = acts_len l.
Proof.
  intros W; revert l'; induction W as [|a t (Wa & _) Wt IH]; intros [|b t'] W' H; try discriminate; [reflexivity|].
  injection H as H1 H2. inversion W' as [|? ? (Wb & _) Wt']; subst. cbn. rewrite (IH t' Wt' H2). rewrite H1, Wa in Wb. injection Wb as Wb. lia.
Qed.
Lemma alike_len r r' : wf_role r -> wf_role r' -> alike r r' -> role_len r' = role_len r.
Proof.
  intros (_ & A & _ & _ & _ & _ & B & _) (_ & A' & _ & _ & _ & _ & B' & _) (T & C). unfold role_len. rewrite T, A in A'. injection A' as A'.
  rewrite (acts_len_types _ _ B B' C). lia.
Qed.
Lemma shape_len s s' : wf_config s -> wf_config s' -> shape s s' -> length (enc_config s') = length (enc_config s).
Proof.
  intros W W' (F & C). rewrite !enc_config_length by assumption. rewrite C. f_equal. f_equal.
  destruct W as (_ & _ & _ & _ & _ & _ & _ & W & _), W' as (_ & _ & _ & _ & _ & _ & _ & W' & _). clear C.
  induction F as [|r r' t t' A F IH]; [reflexivity|]. inversion W; inversion W'; subst. cbn.
  rewrite IH by assumption. rewrite (alike_len r r') by assumption. reflexivity.
Qed.
Lemma shape_refl s : shape s s.
Proof. split; [|reflexivity]. induction (s_roles s); constructor; [apply alike_refl|assumption]. Qed.
Lemma shape_trans a b c : shape a b -> shape b c -> shape a c.
Proof.
  intros [F1 C1] [F2 C2]. split; [|congruence]. revert F2. generalize (s_roles c). induction F1 as [|r r' t t' A F IH]; intros l F2; inversion F2; subst; constructor.
  - destruct A, H1. split; congruence.
  - apply IH. assumption.
Qed.
Lemma shape_on i f s : (forall r, In r (s_roles s) -> r_id r = i -> alike r (f r)) -> shape s (on_role i f s).
Proof.
  intros H. split; [|reflexivity]. cbn [on_role with_roles s_roles]. induction (s_roles s) as [|r t IH]; [constructor|].
  cbn [map]. constructor.
  - destruct (r_id r =? i) eqn:Q; [|apply alike_refl]. apply H; [left; reflexivity|lia].
  - apply IH. intros r0 I. apply H. right. exact I.
Qed.
Lemma set_first_types ty q p l : map ac_ty (set_first ty q p l) = map ac_ty l.
Proof.
  induction l as [|a t IH]; [reflexivity|]. cbn [set_first]. destruct ((ac_ty a =? ty) && _) eqn:Q; cbn; [|rewrite IH; reflexivity].
  apply andb_prop in Q as [Q _]. apply Z.eqb_eq in Q. congruence.
Qed.
Lemma charged_types slot l l' : Forall2 (charged_act slot) l l' -> map ac_ty l' = map ac_ty l.
Proof. induction 1 as [|a b t t' (H & _) F IH]; [reflexivity|]. cbn. congruence. Qed.
Lemma acted_shape E cx s r s1 : acted E cx s r s1 -> shape s s1.
Proof. intros (_ & auth & _ & ->). apply shape_on. intros r0 _ _. split; reflexivity. Qed.
(** the permissions of the acting role after authentication *)
Lemma acted_acts_of E cx s r s1 r0 : NoDup (ids s) -> acted E cx s r s1 -> In r0 (s_roles s1) -> r_id r0 = r_id r -> r_acts r0 = r_acts r.
Proof.
  intros N (F & auth & _ & ->) I Hi. cbn [on_role with_roles s_roles] in I. apply in_map_iff in I as (r1 & <- & I1).
  apply find_role_in in F as [F1 F2].
  assert (Q : r_id r1 = r_id r). { destruct (r_id r1 =? _) eqn:Z in Hi; exact Hi. }
  assert (r1 = r). { destruct (in_split _ _ I1) as (l1 & l2 & L). unfold ids in N. rewrite L, map_app in N. cbn in N.
    apply NoDup_remove_2 in N. rewrite L in F1. apply in_app_or in F1 as [F1|[F1|F1]]; [|exact F1|];
    exfalso; apply N; rewrite Q, in_app_iff; [left|right]; apply in_map; exact F1. }
  subst r1. destruct (_ =? _); reflexivity.
Qed.
Lemma acted_ids E cx s r s1 : acted E cx s r s1 -> ids s1 = ids s.
Proof.
  intros (_ & auth & _ & ->). unfold ids. cbn [on_role with_roles s_roles]. rewrite map_map. apply map_ext. intros r0. destruct (_ =? _); reflexivity.
Qed.
Lemma unique_in s i r r0 : NoDup (ids s) -> find_role i s = Some r -> In r0 (s_roles s) -> r_id r0 = i -> r0 = r.
Proof.
  intros N F I1 Q. apply find_role_in in F as [F1 F2]. destruct (in_split _ _ I1) as (l1 & l2 & L). unfold ids in N. rewrite L, map_app in N. cbn in N.
  apply NoDup_remove_2 in N. rewrite L in F1. apply in_app_or in F1 as [F1|[F1|F1]]; [|exact F1|];
    exfalso; apply N; rewrite Q, <- F2, in_app_iff; [left|right]; apply in_map; exact F1.
Qed.
Lemma step_shape E cx k w s s' : wf_config s -> config_step E cx k w s s' -> ~ In (tag (c_data cx)) [1; 2; 3; 17; 18] -> shape s s'.
Proof.
  intros W H T. pose proof W as (_ & _ & _ & _ & _ & _ & _ & _ & N & _).
  destruct H as [r s1 s' Hk A Ed|r a a' Hk Ht F _ _ _ _|r s0 l Hk Ht _ A F2].
  - eapply shape_trans; [eapply acted_shape; exact A|].
    pose proof (acted_ids _ _ _ _ _ A) as I1.
    destruct Ed; try (exfalso; apply T; match goal with H : tag _ = _ |- _ => rewrite H end; cbn; tauto).
    + apply shape_refl.
    + apply shape_on. intros r0 _ _. split; reflexivity.
    + split; [exact (proj1 (shape_refl s1))|reflexivity].
    + apply shape_on. intros r0 I Hi. split; [reflexivity|]. cbn [with_acts r_acts]. rewrite set_first_types.
      rewrite (acted_acts_of _ _ _ _ _ _ N A I Hi). reflexivity.
    + apply shape_on. intros r0 I Hi. split; [reflexivity|]. cbn [with_acts r_acts]. rewrite set_first_types.
      rewrite <- I1 in N. match goal with F : find_role _ s1 = Some ?t |- _ => rewrite (unique_in _ _ t r0 N F I Hi) end. reflexivity.
  - apply shape_on. intros r0 _ _. split; reflexivity.
  - apply shape_on. intros r0 I Hi. split; [reflexivity|]. cbn [with_acts r_acts]. rewrite (charged_types _ _ _ F2).
    rewrite (acted_ids _ _ _ _ _ A) in N. rewrite (acted_acts_of _ _ _ _ _ _ N A I Hi). reflexivity.
Qed.

(** An account of the program keeps its size, except the configuration account in
    the instructions that resize it *)
Lemma len_kept E cx k w w' : change E cx k w w' -> a_owner (w k) = SELF ->
  (k <> mkey (c_metas cx) 0 \/ ~ In (tag (c_data cx)) [1; 2; 3; 15; 17; 18]) -> length (a_data (w' k)) = length (a_data (w k)).
Proof.
  intros C O T.
  destruct C as [(D1 & O1)|s s' (_ & D & W) St (_ & D' & W')|nr id bump wbump s' _ _ N _ _ _ _ _ _ _ _ _
    |swig s s' b ab sa _ _ _ _ _ _ _ N _ _ _ _ _ _ _ _|swig s r s1 en _ _ _ _ _ rd _ _ _ L _ _ _ _ _ D
    |s r s1 (_ & D1 & _) Hk Ht _ _ _ _ _|N _].
  - rewrite D1. reflexivity.
  - assert (Hk : k = mkey (c_metas cx) 0) by (destruct St; assumption).
    destruct T as [T|T]; [contradiction|]. rewrite D, D'. apply shape_len; try assumption. eapply step_shape; [exact W|exact St|].
    intros I. apply T. cbn in *. tauto.
  - rewrite O in N. discriminate.
  - rewrite O in N. discriminate.
  - rewrite D. unfold rd in *. unfold splice. rewrite !app_length, firstn_length, skipn_length, L. reflexivity.
  - destruct T as [T|T]; [contradiction|]. exfalso. apply T. rewrite Ht. cbn. tauto.
  - contradiction.
Qed.

(** ** Balances: only the program's own moves take lamports from its accounts *)
Definition gains (w w' : world) (k : key) : Prop :=
  a_owner (w k) = SELF -> a_owner (w' k) = SELF /\ a_lamports (w k) <= a_lamports (w' k).
Lemma gains_refl w k : gains w w k.
Proof. intros O. split; [exact O|lia]. Qed.
Lemma gains_trans a b c k : gains a b k -> gains b c k -> gains a c k.
Proof. intros H1 H2 O. destruct (H1 O) as [O1 L1]. destruct (H2 O1) as [O2 L2]. split; [exact O2|lia]. Qed.
Lemma set_data_gains ms w k0 d w' k : set_data ms w k0 d = Ok w' -> gains w w' k.
Proof.
  intros H O. apply set_data_only in H as ((_ & D2 & D3) & _ & L). split; [|rewrite L; lia].
  destruct (bytes_dec k k0) as [->|N]; [congruence|]. destruct (D3 k N). congruence.
Qed.
Lemma write_data_gains ms w k0 d w' k : write_data ms w k0 d = Ok w' -> gains w w' k.
Proof. unfold write_data. intros H. peel H. eapply set_data_gains; exact H. Qed.
Lemma moved_gains w w' f t amt k : moved w w' f t amt -> k <> f -> 0 <= amt -> gains w w' k.
Proof.
  intros (K & M2 & M3) Nf A O. split; [destruct (K k); congruence|]. destruct (bytes_dec f t) as [Q|N]; [rewrite (M2 Q); lia|].
  destruct (M3 N) as (_ & L & R). destruct (bytes_dec k t) as [->|Nt]; [lia|]. rewrite R by assumption. lia.
Qed.
Lemma sys_transfer_gains ms ps w f t amt w' k : 0 <= amt -> sys_transfer ms ps w f t amt = Ok w' -> gains w w' k.
Proof.
  intros A H O. apply sys_transfer_moved in H as (M & Of & _).
  apply (moved_gains _ _ _ _ _ k M); [intros ->; rewrite O in Of; discriminate|exact A|exact O].
Qed.
Lemma move_gains ms w f t amt w' k : k <> f -> 0 <= amt -> move_lamports ms w f t amt = Ok w' -> gains w w' k.
Proof. intros Nf A H. apply move_lamports_moved in H as (M & _). eapply moved_gains; eassumption. Qed.
Lemma topup_gains E ms w p k0 n w' k : rent_topup E ms w p k0 n = Ok w' -> gains w w' k.
Proof.
  unfold rent_topup. intros H. destruct (_ <? _) eqn:Q; [|apply ok_inj in H; subst; apply gains_refl].
  eapply sys_transfer_gains; [|exact H]. lia.
Qed.
Lemma topup_enough E ms w p k n w' : a_owner (w k) = SELF -> rent_topup E ms w p k n = Ok w' -> rent E n <= a_lamports (w' k).
Proof.
  unfold rent_topup. intros O H. destruct (_ <? _) eqn:Q; [|apply ok_inj in H; subst; lia].
  apply sys_transfer_moved in H as ((_ & _ & M) & Of & _).
  assert (N : p <> k) by (intros ->; rewrite O in Of; discriminate). destruct (M N) as (_ & L & _). lia.
Qed.
Lemma allocate_gains ms ps w k0 n w' k : sys_allocate_assign ms ps w k0 n = Ok w' -> gains w w' k.
Proof.
  unfold sys_allocate_assign. intros H O. peel H. apply ok_inj in H. subst w'. grab (beq _ SYSTEM = true) as Bo. apply beq_eq in Bo.
  rewrite upd_other by (intros ->; rewrite O in Bo; discriminate). split; [exact O|lia].
Qed.
Lemma foreign_gains E w x w' k : foreign_ok E -> foreign E w x = Ok w' -> gains w w' k.
Proof. intros F H O. destruct (F _ _ _ H k) as [A _]. destruct (A O) as [[_ B] C]. split; [congruence|exact C]. Qed.
Lemma cpi_gains E ms ps w x w' k : foreign_ok E -> cpi E ms ps w x = Ok w' -> gains w w' k.
Proof. unfold cpi. intros F H. peel H. eapply foreign_gains; eassumption. Qed.

Lemma allocate_create_gains ms ps w f k0 amt n w' k : 0 <= amt -> sys_create_account ms ps w f k0 amt n = Ok w' -> gains w w' k.
Proof.
  intros A H. unfold sys_create_account in H. peel H.
  eapply gains_trans; [eapply sys_transfer_gains; eassumption|eapply allocate_gains; eassumption].
Qed.
Lemma pay_out_gains ms w sw dest sl keep w' k : k <> sw -> pay_out ms w sw dest sl keep = Ok w' -> gains w w' k.
Proof.
  intros N H O. pose proof (pay_out_keeps _ _ _ _ _ _ _ H k) as K. apply pay_out_ok in H as (_ & _ & P1 & P2 & P3).
  split; [destruct K; congruence|]. destruct (bytes_dec sw dest) as [Q|Q].
  - rewrite P3; [lia|exact N|congruence].
  - destruct (bytes_dec k dest) as [->|Nd]; [|rewrite P3 by assumption; lia]. destruct (P1 Q) as (_ & L & _). rewrite L. unfold sat_sub. lia.
Qed.
Lemma u64_ge o d : all_bytes d -> 0 <= u64_at o d.
Proof. intros H. apply (u64_bound o d) in H. unfold is_u64 in H. lia. Qed.

(** ** The handlers *)
Ltac open_up H :=
  repeat (peel H;
    match type of H with
    | (let (_, _) := ?v in _) = Ok _ => destruct v
    | (if ?b then _ else _) = Ok _ => destruct b
    | match ?o with _ => _ end = Ok _ => destruct o; try discriminate H
    end); peel H.
Ltac amt := first [apply u64_ge; assumption | unfold sat_sub; lia | lia].
Ltac conv k :=
  repeat match goal with
  | B : (if ?b then _ else _) = Ok ?w |- _ => match type of w with world => destruct b eqn:? end
  | B : set_data _ _ _ _ = Ok _ |- _ => apply (set_data_gains _ _ _ _ _ k) in B
  | B : write_data _ _ _ _ = Ok _ |- _ => apply (write_data_gains _ _ _ _ _ k) in B
  | N : k <> _, B : move_lamports _ _ _ _ _ = Ok _ |- _ => apply (move_gains _ _ _ _ _ _ k) in B; [|exact N|amt]
  | B : sys_transfer _ _ _ _ _ _ = Ok _ |- _ => apply (sys_transfer_gains _ _ _ _ _ _ _ k) in B; [|amt]
  | B : rent_topup _ _ _ _ _ _ = Ok _ |- _ => apply (topup_gains _ _ _ _ _ _ _ k) in B
  | N : k <> _, B : pay_out _ _ _ _ _ _ = Ok _ |- _ => apply (pay_out_gains _ _ _ _ _ _ _ k) in B; [|exact N]
  | B : sys_allocate_assign _ _ _ _ _ = Ok _ |- _ => apply (allocate_gains _ _ _ _ _ _ k) in B
  | B : sys_create_account _ _ _ _ _ _ _ = Ok _ |- _ => apply (allocate_create_gains _ _ _ _ _ _ _ _ k) in B; [|amt]
  | F : foreign_ok ?E, B : cpi ?E _ _ _ _ = Ok _ |- _ => apply (cpi_gains _ _ _ _ _ _ k F) in B
  | B : @Ok world ?w = Ok ?w' |- _ => apply ok_inj in B; subst
  end.
Ltac chain k :=
  conv k; try apply gains_refl; try assumption;
  repeat (match goal with
  | H1 : gains ?w ?w1 ?k, H2 : gains ?w1 ?w2 ?k |- _ =>
      pose proof (gains_trans _ _ _ _ H1 H2); clear H1 H2; try assumption
  end).

Section Handlers.
Variables (E : env) (cx : ctx) (k : key).
Hypothesis (F : foreign_ok E) (Hb : all_bytes (c_data cx)).
Notation good h := (forall w w', h E cx w = Ok w' -> gains w w' k).
Notation good' h := (k <> mkey (c_metas cx) 0 -> forall w w', h E cx w = Ok w' -> gains w w' k).

Lemma create_gn : good create_v1.
Proof. intros w w' H. unfold create_v1 in H. cbv zeta in H. open_up H; chain k. Qed.
Lemma add_gn : good add_authority_v1.
Proof. intros w w' H. unfold add_authority_v1 in H. cbv zeta in H. open_up H; chain k. Qed.
Lemma remove_gn : good' remove_authority_v1.
Proof.
  intros N w w' H. unfold remove_authority_v1 in H. cbv zeta in H. open_up H.
  grab ((rent _ _ <=? rent _ _) = true) as Br. chain k.
Qed.
Lemma update_gn : good' update_authority_v1.
Proof. intros N w w' H. unfold update_authority_v1 in H. cbv zeta in H. open_up H; chain k. Qed.
Lemma replace_gn : good replace_authority_v1.
Proof. intros w w' H. unfold replace_authority_v1 in H. cbv zeta in H. open_up H; chain k. Qed.
Lemma session_gn : good create_session_v1.
Proof. intros w w' H. unfold create_session_v1 in H. cbv zeta in H. open_up H; chain k. Qed.
Lemma claimer_gn : good set_rent_claimer_v1.
Proof. intros w w' H. unfold set_rent_claimer_v1 in H. cbv zeta in H. open_up H; chain k. Qed.
Lemma close_gn : good' close_swig_v1.
Proof. intros N w w' H. unfold close_swig_v1 in H. cbv zeta in H. open_up H; chain k. Qed.
Lemma close_all_gn ms v2 swig wallet dest prog ws ss ts : forall w w',
  close_all E ms v2 swig wallet dest prog ws ss ts w = Ok w' -> gains w w' k.
Proof.
  induction ts as [|t ts IH]; intros w w' H; cbn [close_all] in H.
  - apply ok_inj in H. subst. apply gains_refl.
  - peel H. apply IH in H. unfold close_one in B. cbv zeta in B. open_up B; chain k.
Qed.
Lemma close_tok_gn : good close_token_account_v1.
Proof.
  intros w w' H. unfold close_token_account_v1 in H. cbv zeta in H. open_up H; apply close_all_gn in H; chain k.
Qed.
Lemma triples_gn ms swig wallet sig : forall n ts w w', (length ts <= n)%nat ->
  transfer_triples E ms swig wallet sig ts w = Ok w' -> gains w w' k.
Proof.
  induction n as [|n IH]; intros ts w w' L H; destruct ts as [|a [|b [|c ts]]]; cbn [transfer_triples length] in *;
    try (apply ok_inj in H; subst; apply gains_refl); try lia.
  peel H. apply IH in H; [|lia]. unfold transfer_one in B. cbv zeta in B. open_up B; chain k.
Qed.
Lemma assets_gn : good' transfer_assets_v1.
Proof.
  intros N w w' H. unfold transfer_assets_v1 in H. cbv zeta in H. open_up H; apply (triples_gn _ _ _ _ _ _ _ _ (le_n _)) in H; chain k.
Qed.
Lemma migrate_gn : good migrate_v1.
Proof. intros w w' H. unfold migrate_v1 in H. cbv zeta in H. open_up H; chain k. Qed.
Lemma create_sub1_gn : good create_sub_account_v1.
Proof. intros w w' H. unfold create_sub_account_v1 in H. cbv zeta in H. open_up H; chain k. Qed.
Lemma toggle1_gn : good toggle_sub_account_v1.
Proof. intros w w' H. unfold toggle_sub_account_v1 in H. cbv zeta in H. open_up H; chain k. Qed.
Lemma withdraw1_gn : good withdraw_v1.
Proof. intros w w' H. unfold withdraw_v1 in H. cbv zeta in H. open_up H; chain k. Qed.
Lemma create_sub2_gn : good create_sub_account_v2.
Proof. intros w w' H. unfold create_sub_account_v2 in H. cbv zeta in H. open_up H; chain k. Qed.
Lemma toggle2_gn : good toggle_sub_account_v2.
Proof. intros w w' H. unfold toggle_sub_account_v2 in H. cbv zeta in H. open_up H; chain k. Qed.
Lemma withdraw2_gn : good withdraw_v2.
Proof. intros w w' H. unfold withdraw_v2 in H. cbv zeta in H. open_up H; try discriminate H; chain k. Qed.

(** All but four instructions *)
Lemma dispatch_gn w w' : (k <> mkey (c_metas cx) 0 \/ ~ In (tag (c_data cx)) [2; 3; 13; 15]) ->
  dispatch E cx w = Ok w' -> gains w w' k.
Proof.
  intros T H. unfold dispatch in H. cbv zeta in H. peel H. unfold tag in T.
  assert (T' : forall t, In t [2; 3; 13; 15] -> u16_at 0 (c_data cx) = t -> k <> mkey (c_metas cx) 0).
  { intros t I Q. destruct T as [T|T]; [exact T|]. rewrite Q in T. contradiction. }
  repeat match type of H with (if ?b then _ else _) = _ => let C := fresh "C" in destruct b eqn:C end; try discriminate H;
  eauto using create_gn, add_gn, replace_gn, session_gn, claimer_gn, close_tok_gn,
    migrate_gn, create_sub1_gn, toggle1_gn, withdraw1_gn, create_sub2_gn, toggle2_gn, withdraw2_gn.
  - apply remove_gn with (2 := H). apply (T' 2); [cbn; tauto|lia].
  - apply update_gn with (2 := H). apply (T' 3); [cbn; tauto|lia].
  - apply assets_gn with (2 := H). apply (T' 13); [cbn; tauto|lia].
  - apply close_gn with (2 := H). apply (T' 15); [cbn; tauto|lia].
Qed.
End Handlers.

