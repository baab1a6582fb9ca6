(** * The credential of a new role does not depend on what was in the account *)
From Verif Require Import BaseFacts Authority SpecConfig ConfigFacts ConfigEdit.

Ltac eqz := repeat first [reflexivity | (rewrite ?sub_length by lia; lia) | f_equal].
Local Lemma ok_inj {A} (x y : A) : Ok x = Ok y -> x = y.
Proof. congruence. Qed.
Lemma zeros_app a b : zeros a ++ zeros b = zeros (a + b).
Proof. symmetry. apply repeat_app. Qed.
Lemma skipn_zeros n m : skipn n (zeros m) = zeros (m - n).
Proof. revert m; induction n as [|n IH]; intros [|m]; try reflexivity. apply IH. Qed.
Lemma firstn_zeros n m : firstn n (zeros m) = zeros (Nat.min n m).
Proof.
  revert m; induction n as [|n IH]; intros [|m]; try reflexivity. unfold zeros in *. cbn [repeat firstn Nat.min]. f_equal. apply IH.
Qed.
Lemma skipn_plus {A} n m (l : list A) : skipn n (skipn m l) = skipn (m + n) l.
Proof. revert l; induction m as [|m IH]; intros l; [reflexivity|]. destruct l; [rewrite !skipn_nil; reflexivity|apply IH]. Qed.

Lemma firstn_plus {A} a b (l : list A) : firstn (a + b) l = firstn a l ++ firstn b (skipn a l).
Proof. revert l; induction a as [|a IH]; intros [|x t]; cbn; try reflexivity; [rewrite firstn_nil; reflexivity|]. f_equal. apply IH. Qed.

Lemma splice_front p old n : (24 <= length p <= length old)%nat -> skipn 24 old = zeros n ->
  splice 0 p old = p ++ zeros (length old - length p).
Proof.
  intros L Z. unfold splice. cbn [firstn app Nat.add]. f_equal.
  replace (length p) with (24 + (length p - 24))%nat at 1 by lia. rewrite <- skipn_plus, Z, skipn_zeros. f_equal.
  apply (f_equal (@length _)) in Z. rewrite skipn_length, zeros_length in Z. lia.
Qed.
Lemma splice_zeros o b p m : (length p <= o)%nat -> (o + length b <= length p + m)%nat ->
  splice o b (p ++ zeros m) = (p ++ zeros (o - length p) ++ b) ++ zeros (length p + m - o - length b).
Proof.
  intros L1 L2. unfold splice. rewrite firstn_app, firstn_all2 by lia. rewrite firstn_zeros, <- !app_assoc. f_equal.
  f_equal; [f_equal; lia|]. f_equal. rewrite skipn_app, skipn_all2 by lia. cbn [app]. rewrite skipn_zeros. f_equal. lia.
Qed.
Lemma splice_zeros0 o k p m : (length p <= o)%nat -> (o + k <= length p + m)%nat -> splice o (zeros k) (p ++ zeros m) = p ++ zeros m.
Proof.
  intros L1 L2. rewrite splice_zeros by (rewrite ?zeros_length; lia). rewrite zeros_length, zeros_app, <- app_assoc, zeros_app. eqz.
Qed.
Lemma forallb_zeros l : forallb (Z.eqb 0) l = beq l (zeros (length l)).
Proof.
  induction l as [|x t IH]; [reflexivity|]. cbn [forallb length zeros repeat beq]. rewrite IH. rewrite (Z.eqb_sym 0 x). reflexivity.
Qed.
Lemma compress_key33 c : length c = 64%nat -> compress c = key33 c.
Proof. intros L. unfold key33. rewrite L. reflexivity. Qed.

Lemma set_into_bytes_new ty create old auth n :
  set_into_bytes ty create old = Ok auth -> authority_len ty = Some (length old) -> skipn 24 old = zeros n ->
  auth = new_credential ty create.
Proof.
  intros H L Z. pose proof (authority_len_bound _ _ L) as [_ B].
  assert (D : ty = 1 \/ ty = 2 \/ ty = 3 \/ ty = 4 \/ ty = 5 \/ ty = 6 \/ ty = 7 \/ ty = 8) by lia.
  destruct D as [-> | [-> | [-> | [-> | [-> | [-> | [-> | ->]]]]]]]; unfold authority_len in L;
    cbn [Z.eqb Pos.eqb T_Ed25519 T_Ed25519Session T_Secp256k1 T_Secp256k1Session
      T_Secp256r1 T_Secp256r1Session T_ProgramExec T_ProgramExecSession] in L;
    remember (length old) as lo eqn:Elo; injection L as L;
    unfold set_into_bytes in H; cbn [Z.eqb Pos.eqb T_Ed25519 T_Ed25519Session T_Secp256k1 T_Secp256k1Session
      T_Secp256r1 T_Secp256r1Session T_ProgramExec T_ProgramExecSession] in H;
    peel H; repeat match goal with h : (_ =? _)%nat = true |- _ => apply Nat.eqb_eq in h end; apply ok_inj in H; subst auth;
    unfold new_credential; subst lo.
  - reflexivity.
  - rewrite splice_front with (n := n) by (try assumption; lia). eqz.
  - assert (Hv : v = key33 create /\ length v = 33%nat).
    { destruct (length create =? 33)%nat eqn:E1.
      - apply ok_inj in B0. subst v. unfold key33. rewrite E1. split; [reflexivity|lia].
      - destruct (length create =? 64)%nat eqn:E2; [|discriminate]. apply ok_inj in B0. subst v.
        split; [apply compress_key33; lia|apply compress_length; lia]. }
    destruct Hv as [-> Lv]. rewrite splice_front with (n := n) by (try assumption; lia).
    rewrite splice_zeros0 by lia. eqz.
  - match goal with |- context [if ?b then ?x else ?y] => set (pk := if b then x else y) end.
    assert (Hpk : pk = key33 (if forallb (Z.eqb 0) (sub 33 31 create) then sub 0 33 create else sub 0 64 create) /\ length pk = 33%nat).
    { unfold pk. rewrite forallb_zeros. rewrite sub_length by lia. destruct (beq _ _).
      - assert (length (sub 0 33 create) = 33%nat) as E by (apply sub_length; lia). unfold key33. rewrite E. auto.
      - assert (length (sub 0 64 create) = 64%nat) as E by (apply sub_length; lia).
        split; [apply compress_key33; exact E|apply compress_length; lia]. }
    destruct Hpk as [-> Lv]. rewrite splice_front with (n := n) by (try assumption; lia).
    rewrite splice_zeros0 by lia. rewrite splice_zeros by (rewrite ?sub_length; lia).
    rewrite sub_length by lia. rewrite <- !app_assoc. eqz.
  - rewrite splice_front with (n := n) by (try assumption; lia). rewrite splice_zeros0 by lia. unfold key33.
    replace (length create =? 33)%nat with true by lia. eqz.
  - assert (E : length (sub 0 33 create) = 33%nat) by (apply sub_length; lia).
    rewrite splice_front with (n := n) by (try assumption; lia). rewrite splice_zeros0 by lia.
    rewrite splice_zeros by (rewrite ?sub_length; lia). rewrite sub_length by lia. rewrite <- !app_assoc.
    eqz.
  - assert (Hn : (nat_of (byte_at 32 create) <= 40)%nat) by (unfold nat_of; lia).
    set (m := nat_of (byte_at 32 create)) in *. fold m. change (Z.to_nat (nth 32 create 0)) with m.
    assert (E32 : length (sub 0 32 create) = 32%nat) by (apply sub_length; lia).
    assert (E1 : length (sub 32 1 create) = 1%nat) by (apply sub_length; lia).
    assert (Em : length (sub 40 m create) = m) by (apply sub_length; lia).
    rewrite splice_front with (n := n) by (try assumption; lia).
    rewrite splice_zeros by lia. rewrite E32, E1, Nat.sub_diag. cbn [zeros repeat app].
    assert (E33 : sub 0 32 create ++ sub 32 1 create = sub 0 33 create).
    { change 33%nat with (32 + 1)%nat. unfold sub at 3. cbn [skipn]. rewrite firstn_plus. reflexivity. }
    change (zeros 0 ++ sub 32 1 create) with (sub 32 1 create). rewrite E33. assert (L33 : length (sub 0 33 create) = 33%nat) by (apply sub_length; lia).
    rewrite splice_zeros by lia. rewrite L33, Em, <- !app_assoc. eqz.
  - assert (E : length (sub 0 33 create) = 33%nat) by (apply sub_length; lia).
    rewrite splice_front with (n := n) by (try assumption; lia).
    rewrite splice_zeros by (rewrite ?sub_length; lia). rewrite sub_length by lia.
    rewrite splice_zeros0 by (rewrite ?app_length, ?zeros_length, ?sub_length; lia).
    rewrite <- !app_assoc. eqz.
Qed.

(** The bytes a new role is written over: the old rent claimer, if any, then zeros *)
Lemma claimer_slack c k n : (forall x, c = Some x -> length x = 32%nat) ->
  let slack := firstn k (enc_claimer c ++ zeros k) in
  (16 + n <= length slack)%nat -> (exists m, skipn 24 (sub 16 n slack) = zeros m) /\ sub 6 2 slack = zeros 2.
Proof.
  intros H slack L.
  assert (Ls : length slack = k) by (unfold slack; rewrite firstn_length, app_length, zeros_length; lia).
  split.
  - assert (Hz : exists m, skipn 40 slack = zeros m).
    { unfold slack. rewrite skipn_firstn_comm. destruct c as [x|]; cbn [enc_claimer].
      - specialize (H x eq_refl). rewrite skipn_app, skipn_all2 by (rewrite app_length; cbn [length]; lia).
        cbn [app]. rewrite skipn_zeros, firstn_zeros. eauto.
      - cbn [app]. rewrite skipn_zeros, firstn_zeros. eauto. }
    destruct Hz as (m & Hz). unfold sub. rewrite skipn_firstn_comm, skipn_plus. cbn [Nat.add]. rewrite Hz, firstn_zeros. eauto.
  - unfold slack. assert (8 <= k)%nat by lia. clear L Ls slack.
    unfold sub. rewrite skipn_firstn_comm, firstn_firstn. replace (Nat.min 2 (k - 6)) with 2%nat by lia.
    destruct c as [x|]; cbn [enc_claimer]; [reflexivity|]. cbn [app]. rewrite skipn_zeros, firstn_zeros.
    f_equal. lia.
Qed.

(** What creation checks of a program-execution credential *)
Lemma set_into_bytes_exec r create old auth : set_into_bytes (r_aty r) create old = Ok auth ->
  r_auth r = new_credential (r_aty r) create -> exec_outside r.
Proof.
  intros H N T. rewrite N. destruct r as [id ty pad au acts]. cbn [r_aty r_auth] in *. clear N. unfold set_into_bytes in H.
  assert (Q : forall n t, (33 <= n)%nat -> length create = n -> firstn 32 (sub 0 33 create ++ t) = sub 0 32 create
    /\ nth 32 (sub 0 33 create ++ t) 0 = byte_at 32 create).
  { intros n t Ln L. assert (E : length (sub 0 33 create) = 33%nat) by (apply sub_length; lia). split.
    - rewrite firstn_app, E. cbn [Nat.sub]. change (firstn 0 t) with (@nil Z). rewrite app_nil_r.
      unfold sub. cbn [skipn]. rewrite firstn_firstn. reflexivity.
    - rewrite app_nth1 by lia. unfold byte_at. unfold sub. cbn [skipn]. rewrite <- (firstn_skipn 33 create) at 2. rewrite app_nth1 by (unfold sub in E; cbn [skipn] in E; lia). reflexivity. }
  destruct T as [-> | ->]; cbn [Z.eqb Pos.eqb T_Ed25519 T_Ed25519Session T_Secp256k1 T_Secp256k1Session
      T_Secp256r1 T_Secp256r1Session T_ProgramExec T_ProgramExecSession] in H; peel H;
    repeat match goal with h : (_ =? _)%nat = true |- _ => apply Nat.eqb_eq in h end;
    cbn [new_credential]; (edestruct Q as [-> ->]; [|eassumption|]; [lia|]); (split; [|lia]);
    intros Z; rewrite Z, beq_refl in *; discriminate.
Qed.
