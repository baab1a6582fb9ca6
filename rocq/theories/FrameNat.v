(** * The account of the system program stays as it is *)
From Verif Require Import BaseFacts SpecConfig ConfigFacts ConfigEdit ConfigEdit2.
From Verif Require Export SpecWorld Frame Sign FrameRO SpecAvail.

(** [fixd]: if the system program's account is native, it keeps data and owner *)
Definition fixd (w w' : world) : Prop := native w -> kept w w' SYSTEM.
Lemma native_kept w w' : kept w w' SYSTEM -> native w -> native w'.
Proof. intros (_ & O) N. unfold native in *. rewrite O. exact N. Qed.
Lemma fixd_refl w : fixd w w.
Proof. intros _. split; reflexivity. Qed.
Lemma fixd_trans w1 w2 w3 : fixd w1 w2 -> fixd w2 w3 -> fixd w1 w3.
Proof. intros H1 H2 N. pose proof (H1 N) as K1. pose proof (H2 (native_kept _ _ K1 N)) as K2. destruct K1, K2. split; congruence. Qed.
Lemma keeps_fixd w w' : keeps w w' -> fixd w w'.
Proof. intros H _. apply H. Qed.
Lemma only_fixd w w' k d : only_data w w' k d -> (d <> a_data (w k) -> a_owner (w k) = SELF) -> fixd w w'.
Proof.
  intros (A & B & C) D N. destruct (bytes_dec SYSTEM k) as [Q|Q]; [|apply C; exact Q].
  rewrite Q. split; [|exact B]. rewrite A. destruct (bytes_dec d (a_data (w k))) as [X|X]; [exact X|].
  destruct N. left. rewrite Q. symmetry. apply D. exact X.
Qed.
Lemma set_data_fixd ms w k d w' : set_data ms w k d = Ok w' -> fixd w w'.
Proof. intros H. apply set_data_only in H as (A & B & _). eapply only_fixd; [exact A|intros X; apply B; exact X]. Qed.
Lemma write_data_fixd ms w k d w' : write_data ms w k d = Ok w' -> fixd w w'.
Proof. intros H. apply write_data_only in H as (A & _ & B & _). eapply only_fixd; [exact A|intros X; apply B; exact X]. Qed.
Lemma move_fixd ms w f t amt w' : move_lamports ms w f t amt = Ok w' -> fixd w w'.
Proof. intros H. apply keeps_fixd. eapply move_lamports_keeps; exact H. Qed.
Lemma transfer_fixd ms ps w f t amt w' : sys_transfer ms ps w f t amt = Ok w' -> fixd w w'.
Proof. intros H. apply keeps_fixd. eapply sys_transfer_keeps; exact H. Qed.
Lemma topup_fixd E ms w p k n w' : rent_topup E ms w p k n = Ok w' -> fixd w w'.
Proof. intros H. apply keeps_fixd. eapply rent_topup_keeps; exact H. Qed.
Lemma pay_out_fixd ms w s d l k w' : pay_out ms w s d l k = Ok w' -> fixd w w'.
Proof. intros H. apply keeps_fixd. eapply pay_out_keeps; exact H. Qed.
Lemma allocate_fixd ms ps w k n w' : sys_allocate_assign ms ps w k n = Ok w' -> fixd w w'.
Proof.
  unfold sys_allocate_assign. intros H. peel H. apply ok_inj in H. subst w'.
  intros N. destruct (bytes_dec SYSTEM k) as [Q|Q].
  - exfalso. apply N. right; left. apply beq_eq in B1. rewrite <- Q in B1. symmetry. exact B1.
  - unfold kept. rewrite upd_other by exact Q. split; reflexivity.
Qed.
Lemma create_fixd ms ps w f k amt n w' : sys_create_account ms ps w f k amt n = Ok w' -> fixd w w'.
Proof.
  unfold sys_create_account. intros H. peel H.
  eapply fixd_trans; [eapply transfer_fixd; eassumption | eapply allocate_fixd; eassumption].
Qed.
Lemma cpi_fixd E ms ps w x w' : system_kept E -> cpi E ms ps w x = Ok w' -> fixd w w'.
Proof. unfold cpi. intros F H. peel H. intros N. eapply F; eassumption. Qed.

Ltac conv :=
  repeat match goal with
  | B : (if ?b then _ else _) = Ok ?w |- _ => match type of w with world => destruct b end
  | B : set_data _ _ _ _ = Ok _ |- _ => apply set_data_fixd in B
  | B : write_data _ _ _ _ = Ok _ |- _ => apply write_data_fixd in B
  | B : move_lamports _ _ _ _ _ = Ok _ |- _ => apply move_fixd in B
  | B : sys_transfer _ _ _ _ _ _ = Ok _ |- _ => apply transfer_fixd in B
  | B : rent_topup _ _ _ _ _ _ = Ok _ |- _ => apply topup_fixd in B
  | B : pay_out _ _ _ _ _ _ = Ok _ |- _ => apply pay_out_fixd in B
  | B : sys_allocate_assign _ _ _ _ _ = Ok _ |- _ => apply allocate_fixd in B
  | B : sys_create_account _ _ _ _ _ _ _ = Ok _ |- _ => apply create_fixd in B
  | F : system_kept ?E, B : cpi ?E _ _ _ _ = Ok _ |- _ => apply (cpi_fixd _ _ _ _ _ _ F) in B
  | B : @Ok world ?w = Ok ?w' |- _ => apply ok_inj in B; subst
  end.
Ltac chain :=
  conv; try apply fixd_refl; try assumption;
  repeat (match goal with
  | H1 : fixd ?w ?w1, H2 : fixd ?w1 ?w2 |- _ =>
      pose proof (fixd_trans _ _ _ H1 H2); clear H1 H2; try assumption
  end).

Section Handlers.
Variables (E : env) (cx : ctx) (F : system_kept E).
Notation good h := (forall w w', h E cx w = Ok w' -> fixd w w').

Lemma create_fx : good create_v1.
Proof. intros w w' H. unfold create_v1 in H. cbv zeta in H. open_up H; chain. Qed.
Lemma add_fx : good add_authority_v1.
Proof. intros w w' H. unfold add_authority_v1 in H. cbv zeta in H. open_up H; chain. Qed.
Lemma remove_fx : good remove_authority_v1.
Proof. intros w w' H. unfold remove_authority_v1 in H. cbv zeta in H. open_up H; chain. Qed.
Lemma update_fx : good update_authority_v1.
Proof. intros w w' H. unfold update_authority_v1 in H. cbv zeta in H. open_up H; chain. Qed.
Lemma replace_fx : good replace_authority_v1.
Proof. intros w w' H. unfold replace_authority_v1 in H. cbv zeta in H. open_up H; chain. Qed.
Lemma session_fx : good create_session_v1.
Proof. intros w w' H. unfold create_session_v1 in H. cbv zeta in H. open_up H; chain. Qed.
Lemma claimer_fx : good set_rent_claimer_v1.
Proof. intros w w' H. unfold set_rent_claimer_v1 in H. cbv zeta in H. open_up H; chain. Qed.
Lemma close_fx : good close_swig_v1.
Proof. intros w w' H. unfold close_swig_v1 in H. cbv zeta in H. open_up H; chain. Qed.
Lemma close_all_fx ms v2 swig wallet dest prog ws ss ts : forall w w',
  close_all E ms v2 swig wallet dest prog ws ss ts w = Ok w' -> fixd w w'.
Proof.
  induction ts as [|t ts IH]; intros w w' H; cbn [close_all] in H.
  - apply ok_inj in H. subst. apply fixd_refl.
  - peel H. apply IH in H. unfold close_one in B. cbv zeta in B. open_up B; chain.
Qed.
Lemma close_tok_fx : good close_token_account_v1.
Proof.
  intros w w' H. unfold close_token_account_v1 in H. cbv zeta in H. open_up H; apply close_all_fx in H; chain.
Qed.
Lemma triples_fx ms swig wallet sig : forall n ts w w', (length ts <= n)%nat ->
  transfer_triples E ms swig wallet sig ts w = Ok w' -> fixd w w'.
Proof.
  induction n as [|n IH]; intros ts w w' L H; destruct ts as [|a [|b [|c ts]]]; cbn [transfer_triples length] in *;
    try (apply ok_inj in H; subst; apply fixd_refl); try lia.
  peel H. apply IH in H; [|lia]. unfold transfer_one in B. cbv zeta in B. open_up B; chain.
Qed.
Lemma assets_fx : good transfer_assets_v1.
Proof.
  intros w w' H. unfold transfer_assets_v1 in H. cbv zeta in H. open_up H; apply (triples_fx _ _ _ _ _ _ _ _ (le_n _)) in H; chain.
Qed.
Lemma migrate_fx : good migrate_v1.
Proof. intros w w' H. unfold migrate_v1 in H. cbv zeta in H. open_up H; chain. Qed.
Lemma create_sub1_fx : good create_sub_account_v1.
Proof. intros w w' H. unfold create_sub_account_v1 in H. cbv zeta in H. open_up H; chain. Qed.
Lemma toggle1_fx : good toggle_sub_account_v1.
Proof. intros w w' H. unfold toggle_sub_account_v1 in H. cbv zeta in H. open_up H; chain. Qed.
Lemma withdraw1_fx : good withdraw_v1.
Proof. intros w w' H. unfold withdraw_v1 in H. cbv zeta in H. open_up H; chain. Qed.
Lemma create_sub2_fx : good create_sub_account_v2.
Proof. intros w w' H. unfold create_sub_account_v2 in H. cbv zeta in H. open_up H; chain. Qed.
Lemma toggle2_fx : good toggle_sub_account_v2.
Proof. intros w w' H. unfold toggle_sub_account_v2 in H. cbv zeta in H. open_up H; chain. Qed.
Lemma withdraw2_fx : good withdraw_v2.
Proof. intros w w' H. unfold withdraw_v2 in H. cbv zeta in H. open_up H; try discriminate H; chain. Qed.

Lemma dispatch_fx : good dispatch.
Proof.
  intros w w' H. unfold dispatch in H. cbv zeta in H. peel H.
  repeat match type of H with (if ?b then _ else _) = _ => destruct b end; try discriminate H;
  eauto using create_fx, add_fx, remove_fx, update_fx, replace_fx, session_fx, claimer_fx, close_fx, close_tok_fx,
    assets_fx, migrate_fx, create_sub1_fx, toggle1_fx, withdraw1_fx, create_sub2_fx, toggle2_fx, withdraw2_fx.
Qed.
End Handlers.

