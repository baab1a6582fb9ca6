(** * The client's encoder and the program's decoder of inner instructions *)
From Verif Require Import BaseFacts.
From Verif Require Export Parse.


Section Encode.
Variable no_sign : list key.

Definition index_ok (mp : list (key * nat)) (ms : list meta) : Prop :=
  forall k i, lookup k mp = Some i -> exists m, nth_error ms i = Some m /\ m_key m = k.
Lemma index_grow mp ms ext : index_ok mp ms -> index_ok mp (ms ++ ext).
Proof.
  intros H k i L. destruct (H k i L) as (m & N & K). exists m. split; [|exact K].
  rewrite nth_error_app1; [exact N|]. apply nth_error_Some. congruence.
Qed.
Lemma index_keys_ok ms : forall pre acc, index_ok acc pre -> index_ok (index_keys ms (length pre) acc) (pre ++ ms).
Proof.
  induction ms as [|m t IH]; intros pre acc H; cbn [index_keys]; [rewrite app_nil_r; exact H|].
  replace (pre ++ m :: t) with ((pre ++ [m]) ++ t) by (rewrite <- app_assoc; reflexivity).
  replace (S (length pre)) with (length (pre ++ [m])) by (rewrite app_length; cbn; lia). apply IH.
  intros k i L. cbn [lookup] in L. destruct (beq k (m_key m)) eqn:Q.
  - apply beq_eq in Q. injection L as <-. exists m. rewrite nth_error_app2 by lia. rewrite Nat.sub_diag. auto.
  - apply (index_grow acc pre [m] H). exact L.
Qed.

Definition points (ms : list meta) (a : Z) (k : key) : Prop := exists m, nth_error ms (Z.to_nat a) = Some m /\ m_key m = k.
Lemma points_grow ms ext a k : points ms a k -> points (ms ++ ext) a k.
Proof.
  intros (m & N & K). exists m. split; [|exact K]. rewrite nth_error_app1; [exact N|]. apply nth_error_Some. congruence.
Qed.
Lemma clear_key m : m_key (clear_signer no_sign m) = m_key m.
Proof. unfold clear_signer. destruct (existsb _ _); reflexivity. Qed.

Lemma compact_accts_ok ims : forall mp ms l mp' ms', index_ok mp ms -> compact_accts no_sign ims mp ms = (l, mp', ms') ->
  (exists ext, ms' = ms ++ ext) /\ index_ok mp' ms' /\ length l = length ims
  /\ ((length ms' <= 256)%nat -> Forall2 (points ms') l (map m_key ims) /\ all_bytes l).
Proof.
  induction ims as [|m0 t IH]; intros mp ms l mp' ms' I H; cbn [compact_accts] in H; cbv zeta in H.
  - injection H as <- <- <-. split; [exists []; rewrite app_nil_r; reflexivity|]. split; [exact I|]. split; [reflexivity|].
    intros _. split; [constructor|constructor].
  - rewrite clear_key in H. destruct (lookup (m_key m0) mp) as [i|] eqn:L.
    + destruct (compact_accts no_sign t mp ms) as [[l1 mp1] ms1] eqn:C. injection H as <- <- <-.
      destruct (IH _ _ _ _ _ I C) as ((ext & X) & I1 & Ll & P). split; [exists ext; exact X|]. split; [exact I1|]. split; [cbn; congruence|].
      intros B. destruct (P B) as [P1 P2]. destruct (I _ _ L) as (m & N & K).
      assert (Hi : (i < length ms)%nat) by (apply nth_error_Some; congruence).
      assert (Hs : (length ms <= length ms1)%nat) by (rewrite X, app_length; lia).
      unfold U8. rewrite Z.mod_small by lia. split.
      * cbn [map]. constructor; [|exact P1]. rewrite X. apply points_grow. exists m. rewrite Nat2Z.id. auto.
      * constructor; [unfold is_byte; lia|exact P2].
    + destruct (compact_accts no_sign t ((m_key m0, length ms) :: mp) (ms ++ [clear_signer no_sign m0])) as [[l1 mp1] ms1] eqn:C.
      injection H as <- <- <-. assert (I2 : index_ok ((m_key m0, length ms) :: mp) (ms ++ [clear_signer no_sign m0])).
      { intros k i Lk. cbn [lookup] in Lk. destruct (beq k (m_key m0)) eqn:Q.
        - apply beq_eq in Q. injection Lk as <-. exists (clear_signer no_sign m0). rewrite nth_error_app2 by lia. rewrite Nat.sub_diag.
          split; [reflexivity|]. rewrite clear_key. congruence.
        - apply (index_grow mp ms _ I). exact Lk. }
      destruct (IH _ _ _ _ _ I2 C) as ((ext & X) & I1 & Ll & P).
      split; [exists (clear_signer no_sign m0 :: ext); rewrite X, <- app_assoc; reflexivity|]. split; [exact I1|]. split; [cbn; congruence|].
      intros B. destruct (P B) as [P1 P2].
      assert (Hs : (length ms < length ms1)%nat) by (rewrite X, !app_length; cbn; lia).
      unfold U8. rewrite Z.mod_small by lia. split.
      * cbn [map]. constructor; [|exact P1]. rewrite X. apply points_grow. exists (clear_signer no_sign m0). rewrite Nat2Z.id, nth_error_app2 by lia.
        rewrite Nat.sub_diag. split; [reflexivity|apply clear_key].
      * constructor; [unfold is_byte; lia|exact P2].
Qed.
Definition coded (ms : list meta) (x : ix) (c : cix) : Prop :=
  points ms (ci_prog c) (ix_prog x) /\ Forall2 (points ms) (ci_accts c) (map m_key (ix_metas x)) /\ ci_data c = ix_data x
  /\ is_byte (ci_prog c) /\ all_bytes (ci_accts c) /\ length (ci_accts c) = length (ix_metas x).
Lemma coded_grow ms ext x c : coded ms x c -> coded (ms ++ ext) x c.
Proof.
  intros (A & B & C). split; [apply points_grow; exact A|]. split; [|exact C].
  clear - B. induction B; constructor; [apply points_grow; assumption|assumption].
Qed.
Lemma compact_loop_ok ixs : forall mp ms ms' cs, index_ok mp ms -> compact_loop no_sign ixs mp ms = (ms', cs) ->
  (exists ext, ms' = ms ++ ext) /\ ((length ms' <= 256)%nat -> Forall2 (coded ms') ixs cs).
Proof.
  induction ixs as [|x t IH]; intros mp ms ms' cs I H; cbn [compact_loop] in H; cbv zeta in H.
  - injection H as <- <-. split; [exists []; rewrite app_nil_r; reflexivity|]. intros _. constructor.
  - destruct (compact_accts _ _ _ _) as [[l mp2] ms2] eqn:C. destruct (compact_loop no_sign t mp2 ms2) as [ms3 cs3] eqn:D.
    injection H as <- <-. set (pm := mk_meta (ix_prog x) false false) in *.
    destruct (compact_accts_ok _ _ _ _ _ _ (index_grow mp ms [pm] I) C) as ((e2 & X2) & I2 & Ll & P).
    destruct (IH _ _ _ _ I2 D) as ((e3 & X3) & R). subst ms3 ms2.
    split; [exists (pm :: e2 ++ e3); rewrite <- !app_assoc; reflexivity|].
    intros B. assert (B2 : (length ((ms ++ [pm]) ++ e2) <= 256)%nat) by (rewrite app_length in B; lia).
    destruct (P B2) as [P1 P2]. constructor; [|apply R; exact B].
    assert (Hs : (length ms < 256)%nat) by (rewrite !app_length in B2; cbn in B2; lia).
    apply coded_grow. unfold coded. cbn [ci_prog ci_accts ci_data]. unfold U8. rewrite Z.mod_small by lia.
    split; [|split; [exact P1|split; [reflexivity|split; [unfold is_byte; lia|split; [exact P2|exact Ll]]]]].
    apply points_grow. exists pm. rewrite Nat2Z.id, nth_error_app2 by lia. rewrite Nat.sub_diag. split; reflexivity.
Qed.
End Encode.

(** Decoding *)
Lemma coded_meant ms sk x c : coded ms x c -> exists y, meant ms sk (ci_prog c) (ci_accts c) (ci_data c) y /\ same_call x y.
Proof.
  intros ((pm & P1 & P2) & A & D & _).
  assert (Z : exists ims, Forall2 (fun a m => exists m0, nth_error ms (Z.to_nat a) = Some m0
                /\ m = mk_meta (m_key m0) (m_signer m0 || beq (m_key m0) sk) (m_writable m0)) (ci_accts c) ims
              /\ map m_key ims = map m_key (ix_metas x)).
  { clear - A. induction A as [|a k t u (m & N & K) A (ims & I1 & I2)]; [exists []; split; [constructor|reflexivity]|].
    exists (mk_meta (m_key m) (m_signer m || beq (m_key m) sk) (m_writable m) :: ims). split.
    - constructor; [exists m; auto|exact I1].
    - cbn [map m_key]. congruence. }
  destruct Z as (ims & I1 & I2). exists (mk_ix (m_key pm) ims (ci_data c)). split.
  - split; [exists pm; auto|]. split; [exact I1|reflexivity].
  - split; [exact P2|]. split; [exact I2|exact D].
Qed.
Lemma cix_enc c : (length (ci_accts c) <= 254)%nat -> Z.of_nat (length (ci_data c)) < 65536 ->
  cix_bytes c = enc_inner (ci_prog c) (ci_accts c) (ci_data c).
Proof.
  intros L1 L2. unfold cix_bytes, enc_inner, U8, U16. rewrite !Z.mod_small by lia. reflexivity.
Qed.
Theorem roundtrip no_sign ms ixs ms' cs sk extra :
  compact_instructions no_sign ms ixs = (ms', cs) -> (length ms' <= 256)%nat -> (length ixs <= 255)%nat -> Forall fits ixs ->
  exists xs, parse_all ms' sk (into_bytes cs ++ extra) = Ok xs /\ Forall2 same_call ixs (map in_ix xs).
Proof.
  intros H B L Fx. unfold compact_instructions in H.
  assert (I : index_ok (index_keys ms 0 []) ms) by (apply (index_keys_ok ms [] []); intros k i X; discriminate X).
  destruct (compact_loop_ok no_sign ixs _ _ _ _ I H) as (_ & R). specialize (R B). clear H I.
  assert (Z : exists ys, listed ms' sk (flat_map cix_bytes cs ++ extra) ys /\ Forall2 same_call ixs ys /\ length ys = length cs).
  { revert Fx. clear L. induction R as [|x c t u C R IH]; intros Fx.
    - exists []. split; [constructor|]. split; [constructor|reflexivity].
    - inversion Fx as [|? ? [F1 F2] F3]; subst. destruct (IH F3) as (ys & Y1 & Y2 & Y3).
      destruct (coded_meant ms' sk x c C) as (y & M & Sy). exists (y :: ys). destruct C as (_ & _ & D & _ & _ & La).
      split; [|split; [constructor; assumption|cbn; congruence]]. cbn [flat_map]. rewrite <- app_assoc, cix_enc by (rewrite ?La, ?D; assumption).
      constructor; [exact M|rewrite La; exact F1|rewrite D; exact F2|exact Y1]. }
  destruct Z as (ys & Y1 & Y2 & Y3). destruct (inner_parse_all ms' sk (into_bytes cs ++ extra) ys) as (xs & P & Q).
  - assert (Le : length ys = length ixs) by (clear - Y2; induction Y2; cbn; congruence).
    split; [lia|]. exists (flat_map cix_bytes cs ++ extra). split; [|exact Y1]. unfold into_bytes, U8. cbn [app]. f_equal. rewrite Z.mod_small by lia. congruence.
  - exists xs. split; [exact P|]. rewrite Q. exact Y2.
Qed.
