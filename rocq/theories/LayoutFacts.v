(** * Records as bytes: what the derive macro guarantees (C94) *)
From Coq Require Import String.
From Verif Require Import Base BaseFacts AuthFacts SpecLayout.
Local Notation length := List.length.

Lemma up_ge a n : (0 < a)%nat -> (n <= up a n)%nat.
Proof.
  intros P. unfold up. pose proof (Nat.div_mod (n + (a - 1)) a ltac:(lia)) as D.
  pose proof (Nat.mod_upper_bound (n + (a - 1)) a ltac:(lia)). nia.
Qed.
Lemma up_dvd a n : (0 < a)%nat -> Nat.modulo (up a n) a = 0%nat.
Proof. intros P. unfold up. apply Nat.mod_mul. lia. Qed.
Lemma al_pos A t : target A -> (0 < align_ty A t)%nat.
Proof. intros [->| ->]; destruct t; cbn; lia. Qed.
Lemma max_ge l n : In n l -> (n <= fold_right Nat.max 1%nat l)%nat.
Proof. induction l as [|x l IH]; cbn; [contradiction|]. intros [->|I]; [lia|specialize (IH I); lia]. Qed.
Lemma max_pos l : (0 < fold_right Nat.max 1%nat l)%nat.
Proof. induction l; cbn; lia. Qed.

Fixpoint tot (fs : list (string * ty)) : nat := match fs with [] => 0%nat | f :: fs => (size_ty (snd f) + tot fs)%nat end.
Lemma fields_tot fs : fields_size fs = tot fs.
Proof.
  unfold fields_size. enough (G : forall n, fold_left (fun n f => n + size_ty (snd f))%nat fs n = (n + tot fs)%nat) by (rewrite G; lia).
  induction fs as [|f fs IH]; intros n; cbn [fold_left tot]; [lia|rewrite IH; lia].
Qed.
Lemma finish_ge A at_ fs : target A -> (at_ + tot fs <= finish A at_ fs)%nat.
Proof.
  intros T. revert at_. induction fs as [|[x t] fs IH]; intros at_; cbn [finish tot snd]; [lia|].
  pose proof (up_ge (align_ty A t) at_ (al_pos A t T)). specialize (IH (up (align_ty A t) at_ + size_ty t)%nat). lia.
Qed.
Fixpoint row (at_ : nat) (fs : list (string * ty)) : list nat :=
  match fs with [] => [] | f :: fs => at_ :: row (at_ + size_ty (snd f)) fs end.
Lemma place_row A at_ fs : target A -> finish A at_ fs = (at_ + tot fs)%nat -> place A at_ fs = row at_ fs.
Proof.
  intros T. revert at_. induction fs as [|[x t] fs IH]; intros at_; cbn [finish tot place row snd]; [reflexivity|]. intros H.
  pose proof (up_ge (align_ty A t) at_ (al_pos A t T)).
  pose proof (finish_ge A (up (align_ty A t) at_ + size_ty t) fs T).
  assert (Q : up (align_ty A t) at_ = at_) by lia. rewrite Q in *. f_equal. apply IH. lia.
Qed.
Lemma derives_sizes A d : target A -> derives A d = true -> size_of A d = tot (d_fields d) /\ offsets_of A d = row 0 (d_fields d).
Proof.
  intros T H. unfold derives in H. apply andb_prop in H as [_ H]. apply Nat.eqb_eq in H.
  rewrite fields_tot in H. split; [exact H|]. unfold size_of in *.
  pose proof (up_ge (struct_align A d) (finish A 0 (d_fields d)) (max_pos _)) as U.
  pose proof (finish_ge A 0 (d_fields d) T) as F. unfold offsets_of. apply place_row; [exact T|lia].
Qed.
Lemma row_nth fs : forall at_ i f, nth_error fs i = Some f -> nth_error (row at_ fs) i = Some (at_ + tot (firstn i fs))%nat.
Proof.
  induction fs as [|x fs IH]; intros at_ [|i] f; cbn [nth_error row firstn tot]; try discriminate.
  - intros _. f_equal. lia.
  - intros H. rewrite (IH _ _ _ H). f_equal. lia.
Qed.
Lemma place_aligned A fs : target A -> forall at_ i f o, nth_error fs i = Some f -> nth_error (place A at_ fs) i = Some o ->
  Nat.modulo o (align_ty A (snd f)) = 0%nat.
Proof.
  intros T. induction fs as [|[x t] fs IH]; intros at_ [|i] f o; cbn [nth_error place]; try discriminate.
  - intros Q1 Q2. injection Q1 as <-. injection Q2 as <-. apply up_dvd. apply al_pos. exact T.
  - apply IH.
Qed.

(** Fields that follow one another are the bytes *)
Lemma sub_succ o n m (b : bytes) : sub o n b ++ sub (o + n) m b = sub o (n + m) b.
Proof. symmetry. apply sub_app_split. Qed.
Lemma rows_bytes fs : forall at_ vs b, map (@length Z) vs = map (fun f => size_ty (snd f)) fs -> (at_ + tot fs <= length b)%nat ->
  (forall i f o v, nth_error fs i = Some f -> nth_error (row at_ fs) i = Some o -> nth_error vs i = Some v -> sub o (size_ty (snd f)) b = v) ->
  sub at_ (tot fs) b = concat vs.
Proof.
  induction fs as [|f fs IH]; intros at_ [|v vs] b L B H; cbn [map] in L; try discriminate; [unfold sub; reflexivity|].
  injection L as L1 L2. cbn [tot concat row] in *. rewrite <- sub_succ.
  rewrite (H 0%nat f at_ v eq_refl eq_refl eq_refl). f_equal. apply IH; [exact L2|lia|].
  intros i g o u X1 X2 X3. exact (H (S i) g o u X1 X2 X3).
Qed.
Lemma concat_tot vs fs : map (@length Z) vs = map (fun f : string * ty => size_ty (snd f)) fs -> length (concat vs) = tot fs.
Proof.
  revert fs. induction vs as [|v vs IH]; intros [|f fs] L; cbn [map] in L; try discriminate; [reflexivity|].
  injection L as L1 L2. cbn [concat tot]. rewrite app_length, L1, (IH _ L2). reflexivity.
Qed.

(** Filling the gaps with a byte [x] *)
Fixpoint lay (A : nat) (x : Z) (at_ : nat) (fs : list (string * ty)) (vs : list bytes) : bytes :=
  match fs, vs with
  | f :: fs, v :: vs => let o := up (align_ty A (snd f)) at_ in repeat x (o - at_) ++ v ++ lay A x (o + size_ty (snd f)) fs vs
  | _, _ => []
  end.
Lemma lay_length A x fs : target A -> forall at_ vs, map (@length Z) vs = map (fun f => size_ty (snd f)) fs ->
  (at_ + length (lay A x at_ fs vs))%nat = finish A at_ fs.
Proof.
  intros T. induction fs as [|[n t] fs IH]; intros at_ [|v vs] L; cbn [map] in L; try discriminate; [cbn; lia|].
  injection L as L1 L2. cbn [lay finish snd] in *. rewrite !app_length, repeat_length, L1, <- (IH _ _ L2).
  pose proof (up_ge (align_ty A t) at_ (al_pos A t T)). lia.
Qed.
Lemma lay_fields A x fs : target A -> forall at_ vs p q, map (@length Z) vs = map (fun f => size_ty (snd f)) fs -> length p = at_ ->
  forall i f o v, nth_error fs i = Some f -> nth_error (place A at_ fs) i = Some o -> nth_error vs i = Some v ->
  sub o (size_ty (snd f)) (p ++ lay A x at_ fs vs ++ q) = v.
Proof.
  intros T. induction fs as [|[n t] fs IH]; intros at_ [|v vs] p q L P i f o u; cbn [map] in L; try discriminate;
    [destruct i; discriminate|].
  injection L as L1 L2. cbn [lay place snd] in *. pose proof (up_ge (align_ty A t) at_ (al_pos A t T)) as U.
  set (k := up (align_ty A t) at_) in *.
  destruct i as [|i]; cbn [nth_error].
  - intros Q1 Q2 Q3. injection Q1 as <-. injection Q2 as <-. injection Q3 as <-. cbn [snd].
    rewrite <- !app_assoc. rewrite app_assoc. apply sub_app_exact; [rewrite app_length, repeat_length; lia|exact L1].
  - intros Q1 Q2 Q3.
    replace (p ++ (repeat x (k - at_) ++ v ++ lay A x (k + size_ty t) fs vs) ++ q)
      with ((p ++ repeat x (k - at_) ++ v) ++ lay A x (k + size_ty t) fs vs ++ q) by (rewrite <- !app_assoc; reflexivity).
    apply (IH (k + size_ty t)%nat vs (p ++ repeat x (k - at_) ++ v) q L2) with (i := i); try assumption.
    rewrite !app_length, repeat_length. lia.
Qed.
Fixpoint weight (l : bytes) : Z := match l with [] => 0 | x :: l => x + weight l end.
Lemma weight_app a b : weight (a ++ b) = weight a + weight b.
Proof. induction a as [|x a IH]; cbn [app weight]; [reflexivity|rewrite IH; lia]. Qed.
Lemma weight_repeat x n : weight (repeat x n) = x * Z.of_nat n.
Proof. induction n as [|n IH]; cbn [repeat weight]; [lia|rewrite IH; lia]. Qed.
Lemma lay_weight A x fs : target A -> forall at_ vs, map (@length Z) vs = map (fun f => size_ty (snd f)) fs ->
  weight (lay A x at_ fs vs) = weight (concat vs) + x * (Z.of_nat (finish A at_ fs) - Z.of_nat (at_ + tot fs)).
Proof.
  intros T. induction fs as [|[n t] fs IH]; intros at_ [|v vs] L; cbn [map] in L; try discriminate; [cbn; lia|].
  injection L as L1 L2. cbn [lay finish snd concat tot] in *. rewrite !weight_app, weight_repeat, (IH _ _ L2).
  pose proof (up_ge (align_ty A t) at_ (al_pos A t T)) as U. rewrite Nat2Z.inj_sub by exact U. rewrite !Nat2Z.inj_add. ring.
Qed.
Lemma filled_image A x d vs : target A -> fits d vs ->
  image A d vs (lay A x 0 (d_fields d) vs ++ repeat x (size_of A d - finish A 0 (d_fields d))).
Proof.
  intros T F. pose proof (lay_length A x (d_fields d) T 0 vs F) as L. split.
  - rewrite app_length, repeat_length. pose proof (up_ge (struct_align A d) (finish A 0 (d_fields d)) (max_pos _)). unfold size_of in *. lia.
  - intros i f o v H1 H2 H3. exact (lay_fields A x (d_fields d) T 0 vs [] _ F eq_refl i f o v H1 H2 H3).
Qed.

(** ** Results *)
Theorem packed A d vs b : target A -> derives A d = true -> fits d vs -> (image A d vs b <-> b = concat vs).
Proof.
  intros T D F. destruct (derives_sizes A d T D) as (S & O). unfold image. rewrite S, O. split.
  - intros (L & H). rewrite <- (rows_bytes (d_fields d) 0 vs b F ltac:(lia) H). rewrite <- L. symmetry. apply sub_all.
  - intros ->. split; [apply concat_tot; exact F|].
    pose proof (filled_image A 0 d vs T F) as G.
    set (b := lay A 0 0 (d_fields d) vs ++ repeat 0 (size_of A d - finish A 0 (d_fields d))) in G. clearbody b.
    destruct G as (L & H). rewrite S in L. rewrite O in H.
    assert (B : (0 + tot (d_fields d) <= length b)%nat) by lia.
    pose proof (rows_bytes (d_fields d) 0 vs b F B H) as Q. rewrite <- L in Q. rewrite sub_all in Q. rewrite <- Q. exact H.
Qed.
Theorem offsets A d i f : target A -> derives A d = true -> nth_error (d_fields d) i = Some f ->
  nth_error (offsets_of A d) i = Some (fold_right (fun g n => size_ty (snd g) + n)%nat 0%nat (firstn i (d_fields d)))
  /\ Nat.modulo (fold_right (fun g n => size_ty (snd g) + n)%nat 0%nat (firstn i (d_fields d))) (align_ty A (snd f)) = 0%nat.
Proof.
  intros T D H. destruct (derives_sizes A d T D) as (_ & O).
  assert (Q : forall fs, fold_right (fun (g : string * ty) n => size_ty (snd g) + n)%nat 0%nat fs = tot fs)
    by (intros fs; induction fs as [|g fs IH]; cbn; [reflexivity|rewrite IH; reflexivity]).
  rewrite Q. pose proof (row_nth _ 0 i f H) as N. rewrite <- O in N. split; [exact N|].
  exact (place_aligned A _ T 0 i f _ H N).
Qed.
Theorem gaps A d vs : target A -> repr_c d = true -> repr_align8 d = true -> derives A d = false -> fits d vs ->
  exists b b', image A d vs b /\ image A d vs b' /\ b <> b'.
Proof.
  intros T C R D F. unfold derives in D. rewrite C, R in D. cbn [andb] in D. apply Nat.eqb_neq in D. rewrite fields_tot in D.
  eexists; eexists; split; [exact (filled_image A 0 d vs T F)|split; [exact (filled_image A 1 d vs T F)|]].
  intros E. apply (f_equal weight) in E. rewrite !weight_app, !weight_repeat, !(lay_weight A _ _ T 0 vs F) in E.
  pose proof (up_ge (struct_align A d) (finish A 0 (d_fields d)) (max_pos _)) as U. pose proof (finish_ge A 0 (d_fields d) T).
  unfold size_of in *. lia.
Qed.
Theorem reads A d vs b i f o v rest : target A -> derives A d = true -> fits d vs -> image A d vs b ->
  nth_error (d_fields d) i = Some f -> nth_error (offsets_of A d) i = Some o -> nth_error vs i = Some v ->
  sub o (size_ty (snd f)) (b ++ rest) = v.
Proof.
  intros T D F (L & H) H1 H2 H3. rewrite sub_app_l; [exact (H i f o v H1 H2 H3)|].
  destruct (derives_sizes A d T D) as (S & O). rewrite L, S. rewrite O, (row_nth _ 0 i f H1) in H2. injection H2 as <-.
  clear - H1. revert i H1. induction (d_fields d) as [|x fs IH]; intros [|i] H1; cbn [nth_error firstn tot] in *; try discriminate.
  - injection H1 as ->. lia.
  - specialize (IH i H1). lia.
Qed.
Theorem all_derive A : target A -> forallb (derives A) declared = true.
Proof. intros [->| ->]; vm_compute; reflexivity. Qed.
(** the one whose constant is another's size *)
Definition odd_one : decl := d_CreateProgramExecSessionAuthority.
Theorem lengths_right A : target A ->
  forallb (fun p => (snd p A =? size_of A (fst p))%nat || String.eqb (d_name (fst p)) (d_name odd_one)) lengths = true.
Proof. intros [->| ->]; vm_compute; reflexivity. Qed.
