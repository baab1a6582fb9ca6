(** * Accounts of the wallet program that an instruction lists as read-only
    keep their data and owner, whatever runs. *)
From Verif Require Import BaseFacts SpecConfig ConfigFacts ConfigEdit ConfigEdit2.
From Verif Require Export SpecWorld Frame Sign.

Definition steady (ms : list meta) (w w' : world) : Prop :=
  forall k, writable ms k = false -> a_owner (w k) = SELF -> kept w w' k.

Lemma steady_refl ms w : steady ms w w.
Proof. intros k _ _. split; reflexivity. Qed.
Lemma steady_trans ms w1 w2 w3 : steady ms w1 w2 -> steady ms w2 w3 -> steady ms w1 w3.
Proof.
  intros H1 H2 k R O. destruct (H1 k R O) as [D1 O1].
  destruct (H2 k R) as [D2 O2]; [congruence|]. split; congruence.
Qed.
Lemma keeps_steady ms w w' : keeps w w' -> steady ms w w'.
Proof. intros H k _ _. apply H. Qed.
Lemma only_steady ms w w' k d : only_data w w' k d ->
  (d <> a_data (w k) -> a_owner (w k) = SELF /\ writable ms k = true) -> steady ms w w'.
Proof.
  intros (A & B & C) D k' R O. destruct (bytes_dec k' k) as [->|N]; [|apply C; exact N].
  split; [|exact B]. destruct (bytes_dec d (a_data (w k))) as [Q|Q]; [congruence|].
  destruct (D Q) as [_ W]. congruence.
Qed.
Lemma set_data_steady ms w k d w' : set_data ms w k d = Ok w' -> steady ms w w'.
Proof. intros H. apply set_data_only in H as (A & B & _). eapply only_steady; eassumption. Qed.
Lemma write_data_steady ms w k d w' : write_data ms w k d = Ok w' -> steady ms w w'.
Proof. intros H. apply write_data_only in H as (A & _ & B & _). eapply only_steady; eassumption. Qed.
Lemma move_steady ms w f t amt w' : move_lamports ms w f t amt = Ok w' -> steady ms w w'.
Proof. intros H. apply keeps_steady. eapply move_lamports_keeps; exact H. Qed.
Lemma transfer_steady ms ps w f t amt w' : sys_transfer ms ps w f t amt = Ok w' -> steady ms w w'.
Proof. intros H. apply keeps_steady. eapply sys_transfer_keeps; exact H. Qed.
Lemma topup_steady E ms w p k n w' : rent_topup E ms w p k n = Ok w' -> steady ms w w'.
Proof. intros H. apply keeps_steady. eapply rent_topup_keeps; exact H. Qed.
Lemma pay_out_steady ms w s d l k w' : pay_out ms w s d l k = Ok w' -> steady ms w w'.
Proof. intros H. apply keeps_steady. eapply pay_out_keeps; exact H. Qed.
Lemma allocate_steady ms ps w k n w' : sys_allocate_assign ms ps w k n = Ok w' -> steady ms w w'.
Proof.
  unfold sys_allocate_assign. intros H. peel H. apply ok_inj in H. subst w'.
  intros k' R O. destruct (bytes_dec k' k) as [->|N].
  - exfalso. apply beq_eq in B1. rewrite O in B1. discriminate B1.
  - unfold kept. rewrite upd_other by exact N. split; reflexivity.
Qed.
Lemma create_steady ms ps w f k amt n w' : sys_create_account ms ps w f k amt n = Ok w' -> steady ms w w'.
Proof.
  unfold sys_create_account. intros H. peel H.
  eapply steady_trans; [eapply transfer_steady; eassumption | eapply allocate_steady; eassumption].
Qed.
Lemma foreign_steady E ms w x w' : foreign_ok E -> foreign E w x = Ok w' -> steady ms w w'.
Proof. intros F H k _ O. destruct (F _ _ _ H k) as [F1 _]. apply F1. exact O. Qed.
Lemma cpi_steady E ms ps w x w' : foreign_ok E -> cpi E ms ps w x = Ok w' -> steady ms w w'.
Proof. unfold cpi. intros F H. peel H. eapply foreign_steady; eassumption. Qed.

Ltac open_up H :=
  repeat (peel H;
    match type of H with
    | (let (_, _) := ?v in _) = Ok _ => destruct v
    | (if ?b then _ else _) = Ok _ => destruct b
    | match ?o with _ => _ end = Ok _ => destruct o; try discriminate H
    end); peel H.
Ltac conv :=
  repeat match goal with
  | B : (if ?b then _ else _) = Ok ?w |- _ => match type of w with world => destruct b end
  | B : set_data _ _ _ _ = Ok _ |- _ => apply set_data_steady in B
  | B : write_data _ _ _ _ = Ok _ |- _ => apply write_data_steady in B
  | B : move_lamports _ _ _ _ _ = Ok _ |- _ => apply move_steady in B
  | B : sys_transfer _ _ _ _ _ _ = Ok _ |- _ => apply transfer_steady in B
  | B : rent_topup _ _ _ _ _ _ = Ok _ |- _ => apply topup_steady in B
  | B : pay_out _ _ _ _ _ _ = Ok _ |- _ => apply pay_out_steady in B
  | B : sys_allocate_assign _ _ _ _ _ = Ok _ |- _ => apply allocate_steady in B
  | B : sys_create_account _ _ _ _ _ _ _ = Ok _ |- _ => apply create_steady in B
  | F : foreign_ok ?E, B : cpi ?E _ _ _ _ = Ok _ |- _ => apply (cpi_steady _ _ _ _ _ _ F) in B
  | B : @Ok world ?w = Ok ?w' |- _ => apply ok_inj in B; subst
  end.
Ltac chain :=
  conv; try apply steady_refl; try assumption;
  repeat (match goal with
  | H1 : steady ?ms ?w ?w1, H2 : steady ?ms ?w1 ?w2 |- _ =>
      pose proof (steady_trans _ _ _ _ H1 H2); clear H1 H2; try assumption
  end).

Section Handlers.
Variables (E : env) (cx : ctx) (F : foreign_ok E).
Notation good h := (forall w w', h E cx w = Ok w' -> steady (c_metas cx) w w').

Lemma create_st : good create_v1.
Proof. intros w w' H. unfold create_v1 in H. cbv zeta in H. open_up H; chain. Qed.
Lemma add_st : good add_authority_v1.
Proof. intros w w' H. unfold add_authority_v1 in H. cbv zeta in H. open_up H; chain. Qed.
Lemma remove_st : good remove_authority_v1.
Proof. intros w w' H. unfold remove_authority_v1 in H. cbv zeta in H. open_up H; chain. Qed.
Lemma update_st : good update_authority_v1.
Proof. intros w w' H. unfold update_authority_v1 in H. cbv zeta in H. open_up H; chain. Qed.
Lemma replace_st : good replace_authority_v1.
Proof. intros w w' H. unfold replace_authority_v1 in H. cbv zeta in H. open_up H; chain. Qed.
Lemma session_st : good create_session_v1.
Proof. intros w w' H. unfold create_session_v1 in H. cbv zeta in H. open_up H; chain. Qed.
Lemma claimer_st : good set_rent_claimer_v1.
Proof. intros w w' H. unfold set_rent_claimer_v1 in H. cbv zeta in H. open_up H; chain. Qed.
Lemma close_st : good close_swig_v1.
Proof. intros w w' H. unfold close_swig_v1 in H. cbv zeta in H. open_up H; chain. Qed.
Lemma close_all_st ms v2 swig wallet dest prog ws ss ts : forall w w',
  close_all E ms v2 swig wallet dest prog ws ss ts w = Ok w' -> steady ms w w'.
Proof.
  induction ts as [|t ts IH]; intros w w' H; cbn [close_all] in H.
  - apply ok_inj in H. subst. apply steady_refl.
  - peel H. apply IH in H. unfold close_one in B. cbv zeta in B. open_up B; chain.
Qed.
Lemma close_tok_st : good close_token_account_v1.
Proof.
  intros w w' H. unfold close_token_account_v1 in H. cbv zeta in H. open_up H; apply close_all_st in H; chain.
Qed.
Lemma triples_st ms swig wallet sig : forall n ts w w', (length ts <= n)%nat ->
  transfer_triples E ms swig wallet sig ts w = Ok w' -> steady ms w w'.
Proof.
  induction n as [|n IH]; intros ts w w' L H; destruct ts as [|a [|b [|c ts]]]; cbn [transfer_triples length] in *;
    try (apply ok_inj in H; subst; apply steady_refl); try lia.
  peel H. apply IH in H; [|lia]. unfold transfer_one in B. cbv zeta in B. open_up B; chain.
Qed.
Lemma assets_st : good transfer_assets_v1.
Proof.
  intros w w' H. unfold transfer_assets_v1 in H. cbv zeta in H. open_up H; apply (triples_st _ _ _ _ _ _ _ _ (le_n _)) in H; chain.
Qed.
Lemma migrate_st : good migrate_v1.
Proof. intros w w' H. unfold migrate_v1 in H. cbv zeta in H. open_up H; chain. Qed.
Lemma create_sub1_st : good create_sub_account_v1.
Proof. intros w w' H. unfold create_sub_account_v1 in H. cbv zeta in H. open_up H; chain. Qed.
Lemma toggle1_st : good toggle_sub_account_v1.
Proof. intros w w' H. unfold toggle_sub_account_v1 in H. cbv zeta in H. open_up H; chain. Qed.
Lemma withdraw1_st : good withdraw_v1.
Proof. intros w w' H. unfold withdraw_v1 in H. cbv zeta in H. open_up H; chain. Qed.
Lemma create_sub2_st : good create_sub_account_v2.
Proof. intros w w' H. unfold create_sub_account_v2 in H. cbv zeta in H. open_up H; chain. Qed.
Lemma toggle2_st : good toggle_sub_account_v2.
Proof. intros w w' H. unfold toggle_sub_account_v2 in H. cbv zeta in H. open_up H; chain. Qed.
Lemma withdraw2_st : good withdraw_v2.
Proof. intros w w' H. unfold withdraw_v2 in H. cbv zeta in H. open_up H; try discriminate H; chain. Qed.

Lemma dispatch_st : good dispatch.
Proof.
  intros w w' H. unfold dispatch in H. cbv zeta in H. peel H.
  repeat match type of H with (if ?b then _ else _) = _ => destruct b end; try discriminate H;
  eauto using create_st, add_st, remove_st, update_st, replace_st, session_st, claimer_st, close_st, close_tok_st,
    assets_st, migrate_st, create_sub1_st, toggle1_st, withdraw1_st, create_sub2_st, toggle2_st, withdraw2_st.
Qed.
End Handlers.

(** Inner instructions get no privilege the caller lacks *)
Lemma inner_writable ms ps x k : privileges_ok ms ps x = true -> writable ms k = false -> writable (ix_metas x) k = false.
Proof.
  intros P R. apply Bool.not_true_is_false. intros W. unfold writable in W.
  apply existsb_exists in W as (m & I & Q). apply andb_prop in Q as [Q1 Q2]. apply beq_eq in Q1. subst k.
  unfold privileges_ok in P. rewrite forallb_forall in P. specialize (P m I). rewrite Q2 in P.
  cbn [negb orb] in P. apply andb_prop in P as [_ P]. congruence.
Qed.
Lemma run_inner_steady E cx sk ps w x w' : foreign_ok E -> run_inner E cx sk ps w x = Ok w' -> steady (c_metas cx) w w'.
Proof.
  intros F H. unfold run_inner in H. cbv zeta in H. peel H.
  destruct (_ && _ && _) in H.
  - peel H. eapply move_steady; exact H.
  - unfold invoke in H. peel H. destruct (beq (ix_prog x) SELF).
    + unfold process_inner in H. peel H. intros k R O.
      apply (dispatch_st E _ F) in H. apply H; [|exact O]. cbn [c_metas]. eapply inner_writable; eassumption.
    + eapply foreign_steady; eassumption.
Qed.
Lemma limited_steady E cx swig wallet ps off n pall cur xs : foreign_ok E -> forall w sol cs w' sol' cs',
  limited_loop E cx swig wallet ps off n pall cur xs w sol cs = Ok (w', sol', cs') -> steady (c_metas cx) w w'.
Proof.
  intros F. induction xs as [|x xs IH]; intros w sol cs w' sol' cs' H; cbn [limited_loop] in H; cbv zeta in H.
  - apply ok_inj in H. injection H as -> -> ->. apply steady_refl.
  - apply bind_ok in H as (u & _ & H). apply bind_ok in H as (w1 & R & H). apply bind_ok in H as (cs1 & _ & H).
    apply IH in H. eapply steady_trans; [eapply run_inner_steady; eassumption | exact H].
Qed.
