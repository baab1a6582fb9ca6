(** Facts about byte strings, little-endian integers and slices. *)
From Coq Require Export ZifyBool ZifyNat.
From Verif Require Export Base.

Ltac Zify.zify_post_hook ::= Z.div_mod_to_equations.

Arguments Z.add : simpl never.
Arguments Z.mul : simpl never.
Arguments Z.sub : simpl never.
Arguments Z.div : simpl never.
Arguments Z.modulo : simpl never.
Arguments sat_sub : simpl never.
Arguments sat_add : simpl never.
Arguments u16_at : simpl never.
Arguments u32_at : simpl never.
Arguments u64_at : simpl never.
Arguments u128_at : simpl never.
Arguments sub : simpl never.
Arguments splice : simpl never.
Arguments Nat.ltb : simpl never.
Arguments Nat.leb : simpl never.
Arguments Z.of_nat : simpl never.
Arguments Z.to_nat : simpl never.

(** ** res *)
Lemma bind_ok {A B} (m : res A) (f : A -> res B) b :
  bind m f = Ok b -> exists a, m = Ok a /\ f a = Ok b.
Proof. destruct m; cbn; intros H; try discriminate; eauto. Qed.

Lemma check_ok b e u : check b e = Ok u -> b = true.
Proof. unfold check; destruct b; congruence. Qed.

Lemma guard_ok b u : guard b = Ok u -> b = true.
Proof. unfold guard; destruct b; congruence. Qed.

Lemma ok_or_ok {A} (o : option A) e a : ok_or o e = Ok a -> o = Some a.
Proof. destruct o; cbn; congruence. Qed.

(** Invert one [bind ... = Ok _] hypothesis, naming the pieces. *)
Ltac bind_inv H :=
  let a := fresh "v" in let H1 := fresh "B" in let H2 := fresh "K" in
  apply bind_ok in H; destruct H as [a [H1 H2]].

Ltac inv H := inversion H; subst; clear H.

(** Peel all the leading binds off [H]. *)
Ltac peel H :=
  repeat match type of H with
  | bind _ _ = Ok _ =>
      let a := fresh "v" in let H1 := fresh "B" in
      apply bind_ok in H; destruct H as [a [H1 H]]; cbv beta in H;
      try (apply check_ok in H1; clear a);
      try (apply guard_ok in H1; clear a);
      try (apply ok_or_ok in H1)
  end.

(** ** beq *)
Lemma beq_refl a : beq a a = true.
Proof. induction a as [|x a IH]; cbn; [reflexivity|]. rewrite Z.eqb_refl; exact IH. Qed.

Lemma beq_eq a b : beq a b = true <-> a = b.
Proof.
  split; [|intros ->; apply beq_refl].
  revert b; induction a as [|x a IH]; destruct b as [|y b]; cbn; try congruence.
  intros H; apply andb_prop in H as [H1 H2].
  apply Z.eqb_eq in H1; apply IH in H2; congruence.
Qed.

Lemma beq_neq a b : beq a b = false <-> a <> b.
Proof.
  split; intros H.
  - intros ->; rewrite beq_refl in H; discriminate.
  - destruct (beq a b) eqn:E; [|reflexivity]. apply beq_eq in E; contradiction.
Qed.

Lemma beq_sym a b : beq a b = beq b a.
Proof.
  destruct (beq b a) eqn:E.
  - apply beq_eq in E; subst; apply beq_refl.
  - apply beq_neq in E; apply beq_neq; congruence.
Qed.

Lemma bytes_dec (a b : bytes) : {a = b} + {a <> b}.
Proof. destruct (beq a b) eqn:E; [left; apply beq_eq|right; apply beq_neq]; exact E. Qed.

(** ** little endian *)
Lemma le_enc_length n z : length (le_enc n z) = n.
Proof. revert z; induction n as [|n IH]; intros z; cbn; [reflexivity|rewrite IH; reflexivity]. Qed.

Lemma le_enc_bytes n z : all_bytes (le_enc n z).
Proof.
  revert z; induction n as [|n IH]; intros z; cbn; constructor.
  - unfold is_byte; apply Z.mod_pos_bound; lia.
  - apply IH.
Qed.

Lemma le_le_enc n z : 0 <= z < 256 ^ Z.of_nat n -> le (le_enc n z) = z.
Proof.
  revert z; induction n as [|n IH]; intros z Hz.
  - cbn in *; change (256 ^ Z.of_nat 0) with 1 in Hz; lia.
  - cbn [le le_enc]. rewrite IH.
    + pose proof (Z.div_mod z 256); lia.
    + replace (Z.of_nat (S n)) with (1 + Z.of_nat n) in Hz by lia.
      rewrite Z.pow_add_r in Hz by lia. change (256 ^ 1) with 256 in Hz.
      split; [apply Z.div_pos; lia|apply Z.div_lt_upper_bound; lia].
Qed.

Lemma le_bound l : all_bytes l -> 0 <= le l < 256 ^ Z.of_nat (length l).
Proof.
  induction 1 as [|b l Hb Hl IH]; cbn [le length].
  - change (256 ^ Z.of_nat 0) with 1; lia.
  - replace (Z.of_nat (S (length l))) with (1 + Z.of_nat (length l)) by lia.
    rewrite Z.pow_add_r by lia. change (256 ^ 1) with 256. unfold is_byte in Hb. lia.
Qed.

Lemma le_enc_le l : all_bytes l -> le_enc (length l) (le l) = l.
Proof.
  induction 1 as [|b l Hb Hl IH]; cbn [le length le_enc]; [reflexivity|].
  unfold is_byte in Hb. f_equal.
  - rewrite (Z.mul_comm 256), Z.mod_add by lia. apply Z.mod_small; lia.
  - rewrite (Z.mul_comm 256), Z.div_add by lia. rewrite Z.div_small by lia.
    exact IH.
Qed.

Lemma le2 z : is_u16 z -> le (le_enc 2 z) = z.
Proof. intros H; apply le_le_enc; exact H. Qed.
Lemma le4 z : is_u32 z -> le (le_enc 4 z) = z.
Proof. intros H; apply le_le_enc; exact H. Qed.
Lemma le8 z : is_u64 z -> le (le_enc 8 z) = z.
Proof. intros H; apply le_le_enc; exact H. Qed.
Lemma le16 z : is_u128 z -> le (le_enc 16 z) = z.
Proof. intros H; apply le_le_enc; exact H. Qed.

Lemma le_enc_inj n a b :
  0 <= a < 256 ^ Z.of_nat n -> 0 <= b < 256 ^ Z.of_nat n ->
  le_enc n a = le_enc n b -> a = b.
Proof. intros Ha Hb H. rewrite <- (le_le_enc n a Ha), <- (le_le_enc n b Hb), H. reflexivity. Qed.

(** ** slices *)
Lemma sub_length o n l : (o + n <= length l)%nat -> length (sub o n l) = n.
Proof. intros H; unfold sub. rewrite firstn_length, skipn_length. lia. Qed.

Lemma skipn_app_exact {A} n (a b : list A) : length a = n -> skipn n (a ++ b) = b.
Proof. intros <-. rewrite skipn_app, skipn_all, Nat.sub_diag. reflexivity. Qed.

Lemma firstn_app_exact {A} n (a b : list A) : length a = n -> firstn n (a ++ b) = a.
Proof. intros <-. rewrite firstn_app, firstn_all, Nat.sub_diag. cbn. apply app_nil_r. Qed.

Lemma sub_app_exact o n a b c :
  length a = o -> length b = n -> sub o n (a ++ b ++ c) = b.
Proof.
  intros Ha Hb; unfold sub. rewrite skipn_app_exact by exact Ha.
  apply firstn_app_exact; exact Hb.
Qed.

Lemma sub_app_l o n a b : (o + n <= length a)%nat -> sub o n (a ++ b) = sub o n a.
Proof.
  intros H; unfold sub. rewrite skipn_app.
  replace (o - length a)%nat with O by lia. cbn [skipn].
  rewrite firstn_app. rewrite skipn_length.
  replace (n - (length a - o))%nat with O by lia. cbn [firstn]. apply app_nil_r.
Qed.

Lemma sub_app_r o n a b : (length a <= o)%nat -> sub o n (a ++ b) = sub (o - length a) n b.
Proof.
  intros H; unfold sub. rewrite skipn_app. rewrite skipn_all2 by exact H. reflexivity.
Qed.

Lemma sub_all l : sub 0 (length l) l = l.
Proof. unfold sub; cbn. apply firstn_all. Qed.

Lemma sub_sub o1 n1 o2 n2 l :
  (o2 + n2 <= n1)%nat -> sub o2 n2 (sub o1 n1 l) = sub (o1 + o2) n2 l.
Proof.
  intros H; unfold sub. rewrite skipn_firstn_comm, firstn_firstn.
  rewrite Nat.min_l by lia. f_equal. revert l; induction o1 as [|o1 IH]; intros l; [reflexivity|].
  destruct l; cbn; [destruct o2; reflexivity|apply IH].
Qed.

Lemma splice_length o new d :
  (o + length new <= length d)%nat -> length (splice o new d) = length d.
Proof.
  intros H; unfold splice. rewrite !app_length, firstn_length, skipn_length. lia.
Qed.

Lemma splice_app_exact o a b c new :
  length a = o -> length b = length new -> splice o new (a ++ b ++ c) = a ++ new ++ c.
Proof.
  intros Ha Hb; unfold splice. rewrite firstn_app_exact by exact Ha.
  rewrite (app_assoc a b c), (skipn_app_exact _ (a ++ b)); [reflexivity|].
  rewrite app_length; lia.
Qed.

Lemma sub_splice_same o new d :
  (o + length new <= length d)%nat -> sub o (length new) (splice o new d) = new.
Proof.
  intros H; unfold splice. apply sub_app_exact; [rewrite firstn_length; lia|reflexivity].
Qed.

Lemma skipn_skipn' {A} x y (l : list A) : skipn x (skipn y l) = skipn (y + x) l.
Proof.
  revert l; induction y as [|y IH]; intros l; [reflexivity|].
  destruct l; cbn; [destruct x; reflexivity|apply IH].
Qed.

Lemma split3 o n (d : bytes) :
  (o + n <= length d)%nat -> d = firstn o d ++ sub o n d ++ skipn (o + n) d.
Proof.
  intros H. unfold sub. rewrite <- skipn_skipn'. rewrite firstn_skipn. rewrite firstn_skipn. reflexivity.
Qed.

Lemma sub_splice_other o new d o2 n2 :
  (o + length new <= length d)%nat ->
  (o2 + n2 <= o \/ o + length new <= o2)%nat ->
  (o2 + n2 <= length d)%nat ->
  sub o2 n2 (splice o new d) = sub o2 n2 d.
Proof.
  intros H Hd H2. unfold splice.
  destruct Hd as [Hd|Hd].
  - rewrite sub_app_l by (rewrite firstn_length; lia).
    unfold sub. rewrite skipn_firstn_comm, firstn_firstn. f_equal. lia.
  - rewrite sub_app_r by (rewrite firstn_length; lia).
    rewrite firstn_length, Nat.min_l by lia.
    rewrite sub_app_r by lia.
    unfold sub. rewrite skipn_skipn'. f_equal. f_equal. lia.
Qed.

Lemma slice_ok o n l r : slice o n l = Ok r -> (o + n <= length l)%nat /\ r = sub o n l.
Proof.
  unfold slice; destruct (o + n <=? length l)%nat eqn:E; [|discriminate].
  intros H; inv H. split; [lia|reflexivity].
Qed.

Lemma all_bytes_sub o n l : all_bytes l -> all_bytes (sub o n l).
Proof.
  intros H. unfold sub, all_bytes in *. rewrite Forall_forall in *. intros x Hx.
  apply H. rewrite <- (firstn_skipn o l). apply in_or_app; right.
  rewrite <- (firstn_skipn n (skipn o l)). apply in_or_app; left; exact Hx.
Qed.

Lemma all_bytes_app a b : all_bytes (a ++ b) <-> all_bytes a /\ all_bytes b.
Proof. apply Forall_app. Qed.

Lemma zeros_length n : length (zeros n) = n.
Proof. apply repeat_length. Qed.

Lemma zeros_bytes n : all_bytes (zeros n).
Proof.
  unfold zeros; induction n as [|n IH]; cbn; constructor; [unfold is_byte; lia|exact IH].
Qed.

Lemma le_zeros n : le (zeros n) = 0.
Proof. unfold zeros; induction n as [|n IH]; cbn; [reflexivity|rewrite IH; lia]. Qed.

Lemma zeros_app a b : zeros (a + b) = zeros a ++ zeros b.
Proof. apply repeat_app. Qed.

(** ** fields *)
Lemma le_sub_bound o n l : all_bytes l -> 0 <= le (sub o n l) < 256 ^ Z.of_nat n.
Proof.
  intros H. pose proof (le_bound _ (all_bytes_sub o n l H)) as B.
  assert (length (sub o n l) <= n)%nat by (unfold sub; rewrite firstn_length; lia).
  assert (256 ^ Z.of_nat (length (sub o n l)) <= 256 ^ Z.of_nat n) by (apply Z.pow_le_mono_r; lia).
  lia.
Qed.
Lemma u16_bound o l : all_bytes l -> is_u16 (u16_at o l).
Proof. apply (le_sub_bound o 2). Qed.
Lemma u32_bound o l : all_bytes l -> is_u32 (u32_at o l).
Proof. apply (le_sub_bound o 4). Qed.
Lemma u64_bound o l : all_bytes l -> is_u64 (u64_at o l).
Proof. apply (le_sub_bound o 8). Qed.
Lemma u128_bound o l : all_bytes l -> is_u128 (u128_at o l).
Proof. apply (le_sub_bound o 16). Qed.

Lemma all_bytes_firstn n l : all_bytes l -> all_bytes (firstn n l).
Proof. intros H. apply (all_bytes_sub 0 n l H). Qed.
Lemma all_bytes_skipn n l : all_bytes l -> all_bytes (skipn n l).
Proof.
  unfold all_bytes. rewrite !Forall_forall. intros H x Hx. apply H.
  rewrite <- (firstn_skipn n l). apply in_or_app; right; exact Hx.
Qed.
Lemma all_bytes_splice o new d : all_bytes new -> all_bytes d -> all_bytes (splice o new d).
Proof.
  intros H1 H2. unfold splice. rewrite !all_bytes_app.
  auto using all_bytes_firstn, all_bytes_skipn.
Qed.

Lemma firstn_splice o new d n : (n <= o)%nat -> (o <= length d)%nat -> firstn n (splice o new d) = firstn n d.
Proof.
  intros H Hl. unfold splice. rewrite firstn_app, firstn_firstn, firstn_length.
  rewrite Nat.min_l by lia. replace (n - Nat.min o (length d))%nat with O by lia.
  cbn. apply app_nil_r.
Qed.
Lemma skipn_splice o new d n :
  (o + length new <= n)%nat -> (o + length new <= length d)%nat -> skipn n (splice o new d) = skipn n d.
Proof.
  intros H Hl. unfold splice. rewrite app_assoc.
  rewrite skipn_app, skipn_all2 by (rewrite app_length, firstn_length; lia).
  cbn [app]. rewrite app_length, firstn_length, Nat.min_l by lia. rewrite skipn_skipn'. f_equal. lia.
Qed.
Lemma sub_splice_eq o new d n :
  length new = n -> (o + n <= length d)%nat -> sub o n (splice o new d) = new.
Proof. intros <- H; apply sub_splice_same; exact H. Qed.

Arguments le_enc : simpl never.
Arguments zeros : simpl never.

(** ** Closing goals about literals *)
Definition bytesb (l : bytes) : bool := forallb (fun x => (0 <=? x) && (x <? 256)) l.
Lemma bytesb_ok l : bytesb l = true -> all_bytes l.
Proof.
  unfold bytesb, all_bytes. rewrite forallb_forall, Forall_forall. intros H x Hx.
  specialize (H x Hx). unfold is_byte. lia.
Qed.
Ltac concrete :=
  repeat match goal with
  | |- _ /\ _ => split
  | |- all_bytes _ => apply bytesb_ok; vm_compute; reflexivity
  end;
  vm_compute; repeat split; try reflexivity; try discriminate; try exact I.
