(** * Signing: what is left in a sub-account, and that it is not done for other programs *)
From Verif Require Import BaseFacts Actors.
From Verif Require Export SpecTop SpecRent SpecActs.

Section Top.
Variables (E : env) (cx : ctx) (w w' : world).
Hypothesis H : succeeds E cx w w'.

Lemma sub1_keeps : tag (c_data cx) = 9 -> exempt E (w' (acct cx 1)).
Proof.
  intros T. pose proof H as P. by_tag P T. unfold sub_account_sign_v1 in P. cbv zeta in P.
  repeat (let Q := fresh "Q" in apply bind_ok in P as (? & Q & P); try (apply check_ok in Q)).
  injection P as <-. apply Z.leb_le. assumption.
Qed.
Lemma sub2_keeps : tag (c_data cx) = 20 -> exempt E (w' (acct cx 2)).
Proof.
  intros T. pose proof H as P. by_tag P T. unfold sub_account_sign_v2 in P. cbv zeta in P.
  repeat (let Q := fresh "Q" in apply bind_ok in P as (? & Q & P); try (apply check_ok in Q)).
  injection P as <-. apply Z.leb_le. assumption.
Qed.
Lemma top_level : In (tag (c_data cx)) [9; 11; 20] -> c_height cx = 1%nat.
Proof.
  intros I. cbn [In] in I. apply Nat.eqb_eq.
  destruct I as [T|[T|[T|[]]]]; symmetry in T; pose proof H as P; by_tag P T;
    [unfold sub_account_sign_v1 in P|unfold sign_v2 in P|unfold sub_account_sign_v2 in P]; cbv zeta in P;
    apply bind_ok in P as (? & _ & P); apply bind_ok in P as (? & Q & _); apply check_ok in Q; exact Q.
Qed.
End Top.

Lemma dispatch_height E n cx w : dispatch E (at_height n cx) w = dispatch E cx w.
Proof. destruct cx. reflexivity. Qed.
Lemma any_height E n cx w : ~ In (tag (c_data cx)) [9; 11; 20] -> process E (at_height n cx) w = process E cx w.
Proof.
  intros N. unfold process. rewrite dispatch_height. change (c_metas (at_height n cx)) with (c_metas cx).
  change (c_data (at_height n cx)) with (c_data cx). cbv zeta. unfold tag in N.
  destruct (_ =? 11) eqn:E1; [apply Z.eqb_eq in E1; exfalso; apply N; rewrite E1; cbn; auto|].
  destruct (_ =? 9) eqn:E2; [apply Z.eqb_eq in E2; exfalso; apply N; rewrite E2; cbn; auto|].
  destruct (_ =? 20) eqn:E3; [apply Z.eqb_eq in E3; exfalso; apply N; rewrite E3; cbn; auto|]. reflexivity.
Qed.
