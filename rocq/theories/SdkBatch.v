(** * Several requests by one client *)
From Verif Require Import BaseFacts ConfigFacts AuthFacts ClientFacts Avail2.
From Verif Require Export SdkAsk.

Lemma next_u32 n : is_u32 (next_odometer n).
Proof. unfold next_odometer, is_u32. apply Z.mod_pos_bound. reflexivity. Qed.
Definition uncounted (o : order) : Prop :=
  match o with AddRole _ _ _ | OpenSession _ _ => True | _ => False end.
Lemma lost_k1 E swig rid sign1 sign2 slot1 slot2 odo o1 o2 ks1 ks2 x1 x2 cx1 cx2 w w1 w2 w3 s s2 r1 r2 :
  foreign_ok E -> hashes_ok E -> good_world E w -> is_u32 rid -> in_range o1 -> in_range o2 -> uncounted o1 ->
  built_k1 swig rid E sign1 slot1 (next_odometer odo) o1 ks1 x1 -> sent cx1 x1 -> admissible E w (Call cx1) ->
  is_cfg (w swig) s -> find_role rid s = Some r1 -> by_counter cx1 r1 -> succeeds E cx1 w w1 ->
  reach E w1 w2 ->
  built_k1 swig rid E sign2 slot2 (next_odometer (odometer_after o1 odo)) o2 ks2 x2 -> sent cx2 x2 -> admissible E w2 (Call cx2) ->
  is_cfg (w2 swig) s2 -> find_role rid s2 = Some r2 -> by_counter cx2 r2 -> succeeds E cx2 w2 w3 ->
  exists ts, path E swig ts s s2 /\ (Exists (rotates rid) ts \/ 2 ^ 32 <= Z.of_nat (steps_by rid ts) + 1).
Proof.
  intros Fo Ho Gw R G1 G2 U B1 S1 A1 C1 F1 K1 H1 Re B2 S2 A2 C2 F2 K2 H2.
  assert (Q : odometer_after o1 odo = odo) by (destruct o1; try destruct U; reflexivity). rewrite Q in B2.
  apply (one_of_two E cx1 cx2 w w1 w2 w3 s s2 r1 r2 swig rid (next_odometer odo)); try assumption.
  - exact (carries_k1 _ _ _ _ _ _ _ _ _ _ R G1 (next_u32 odo) B1 S1).
  - exact (carries_k1 _ _ _ _ _ _ _ _ _ _ R G2 (next_u32 odo) B2 S2).
Qed.
Lemma lost_r1 E swig rid sign1 sign2 pk1 pk2 slot1 slot2 odo o1 o2 ks1 ks2 v1 v2 x1 x2 cx1 cx2 w w1 w2 w3 s s2 r1 r2 :
  foreign_ok E -> hashes_ok E -> good_world E w -> is_u32 rid -> in_range o1 -> in_range o2 -> uncounted o1 ->
  built_r1 swig rid E sign1 pk1 slot1 (next_odometer odo) o1 ks1 [v1; x1] -> sent cx1 x1 -> admissible E w (Call cx1) ->
  is_cfg (w swig) s -> find_role rid s = Some r1 -> by_counter cx1 r1 -> succeeds E cx1 w w1 ->
  reach E w1 w2 ->
  built_r1 swig rid E sign2 pk2 slot2 (next_odometer (odometer_after o1 odo)) o2 ks2 [v2; x2] -> sent cx2 x2 -> admissible E w2 (Call cx2) ->
  is_cfg (w2 swig) s2 -> find_role rid s2 = Some r2 -> by_counter cx2 r2 -> succeeds E cx2 w2 w3 ->
  exists ts, path E swig ts s s2 /\ (Exists (rotates rid) ts \/ 2 ^ 32 <= Z.of_nat (steps_by rid ts) + 1).
Proof.
  intros Fo Ho Gw R G1 G2 U B1 S1 A1 C1 F1 K1 H1 Re B2 S2 A2 C2 F2 K2 H2.
  assert (Q : odometer_after o1 odo = odo) by (destruct o1; try destruct U; reflexivity). rewrite Q in B2.
  apply (one_of_two E cx1 cx2 w w1 w2 w3 s s2 r1 r2 swig rid (next_odometer odo)); try assumption.
  - exact (carries_r1 _ _ _ _ _ _ _ _ _ _ _ _ R G1 (next_u32 odo) B1 S1).
  - exact (carries_r1 _ _ _ _ _ _ _ _ _ _ _ _ R G2 (next_u32 odo) B2 S2).
Qed.
Lemma batch_k1 E swig wallet rid sign slot odo signers inners i j x1 x2 cx1 cx2 w w1 w2 w3 s s2 r1 r2 :
  foreign_ok E -> hashes_ok E -> good_world E w -> is_u32 rid ->
  Forall (fun i => in_range (Sign (packed [swig] [w_ swig; w_ wallet; SYS] [i]))) inners ->
  let l := sdk_sign_k1 E sign slot odo swig wallet rid signers inners in
  nth_error l i = Some x1 -> nth_error l j = Some x2 ->
  sent cx1 x1 -> admissible E w (Call cx1) ->
  is_cfg (w swig) s -> find_role rid s = Some r1 -> by_counter cx1 r1 -> succeeds E cx1 w w1 ->
  reach E w1 w2 ->
  sent cx2 x2 -> admissible E w2 (Call cx2) ->
  is_cfg (w2 swig) s2 -> find_role rid s2 = Some r2 -> by_counter cx2 r2 -> succeeds E cx2 w2 w3 ->
  exists ts, path E swig ts s s2 /\ (Exists (rotates rid) ts \/ 2 ^ 32 <= Z.of_nat (steps_by rid ts) + 1).
Proof.
  intros Fo Ho Gw R Fi l N1 N2 S1 A1 C1 F1 K1 H1 Re S2 A2 C2 F2 K2 H2.
  assert (X : forall k x, nth_error l k = Some x -> exists inner, In inner inners /\ x = sign_k1 E sign slot (next_odometer odo) swig wallet inner rid signers).
  { intros k x N. unfold l, sdk_sign_k1 in N. apply nth_error_In, in_map_iff in N as (y & <- & I). eauto. }
  destruct (X i x1 N1) as (y1 & I1 & E1). destruct (X j x2 N2) as (y2 & I2 & E2). subst x1 x2. rewrite Forall_forall in Fi.
  apply (one_of_two E cx1 cx2 w w1 w2 w3 s s2 r1 r2 swig rid (next_odometer odo)); try assumption.
  - eapply carries_k1; [exact R|apply (Fi y1 I1)|apply next_u32|apply k_sign|exact S1].
  - eapply carries_k1; [exact R|apply (Fi y2 I2)|apply next_u32|apply k_sign|exact S2].
Qed.
Lemma batch_r1 E swig wallet rid sign pk slot odo signers inners i j v1 v2 x1 x2 cx1 cx2 w w1 w2 w3 s s2 r1 r2 :
  foreign_ok E -> hashes_ok E -> good_world E w -> is_u32 rid ->
  Forall (fun i => in_range (Sign (packed [swig] [w_ swig; w_ wallet; SYS; IXS] [i]))) inners ->
  let l := sdk_sign_r1 E sign pk slot odo swig wallet rid signers inners in
  nth_error l i = Some [v1; x1] -> nth_error l j = Some [v2; x2] ->
  sent cx1 x1 -> admissible E w (Call cx1) ->
  is_cfg (w swig) s -> find_role rid s = Some r1 -> by_counter cx1 r1 -> succeeds E cx1 w w1 ->
  reach E w1 w2 ->
  sent cx2 x2 -> admissible E w2 (Call cx2) ->
  is_cfg (w2 swig) s2 -> find_role rid s2 = Some r2 -> by_counter cx2 r2 -> succeeds E cx2 w2 w3 ->
  exists ts, path E swig ts s s2 /\ (Exists (rotates rid) ts \/ 2 ^ 32 <= Z.of_nat (steps_by rid ts) + 1).
Proof.
  intros Fo Ho Gw R Fi l N1 N2 S1 A1 C1 F1 K1 H1 Re S2 A2 C2 F2 K2 H2.
  assert (X : forall k x, nth_error l k = Some x -> exists inner, In inner inners /\ sign_r1 E sign pk slot (next_odometer odo) swig wallet inner rid signers = x).
  { intros k x N. unfold l, sdk_sign_r1 in N. apply nth_error_In, in_map_iff in N as (y & <- & I). eauto. }
  destruct (X i _ N1) as (y1 & I1 & E1). destruct (X j _ N2) as (y2 & I2 & E2). rewrite Forall_forall in Fi.
  apply (one_of_two E cx1 cx2 w w1 w2 w3 s s2 r1 r2 swig rid (next_odometer odo)); try assumption.
  - eapply carries_r1; [exact R|apply (Fi y1 I1)|apply next_u32|rewrite <- E1; apply r1_sign|exact S1].
  - eapply carries_r1; [exact R|apply (Fi y2 I2)|apply next_u32|rewrite <- E2; apply r1_sign|exact S2].
Qed.

(** ** A client that is behind *)
Lemma stale_k1 E swig rid sign slot n o ks x cx w w' s r : foreign_ok E -> hashes_ok E -> good_world E w -> admissible E w (Call cx) ->
  is_u32 rid -> in_range o -> is_u32 n -> built_k1 swig rid E sign slot n o ks x -> sent cx x ->
  is_cfg (w swig) s -> find_role rid s = Some r -> by_counter cx r -> succeeds E cx w w' -> n = next_counter (r_auth r).
Proof.
  intros Fo Ho Gw Ad R G U B Sx C F Bc H.
  exact (stale E cx w w' s r swig rid n Fo Ho Gw Ad (carries_k1 _ _ _ _ _ _ _ _ _ _ R G U B Sx) C F Bc H).
Qed.
Lemma stale_r1 E swig rid sign pk slot n o ks v x cx w w' s r : foreign_ok E -> hashes_ok E -> good_world E w -> admissible E w (Call cx) ->
  is_u32 rid -> in_range o -> is_u32 n -> built_r1 swig rid E sign pk slot n o ks [v; x] -> sent cx x ->
  is_cfg (w swig) s -> find_role rid s = Some r -> by_counter cx r -> succeeds E cx w w' -> n = next_counter (r_auth r).
Proof.
  intros Fo Ho Gw Ad R G U B Sx C F Bc H.
  exact (stale E cx w w' s r swig rid n Fo Ho Gw Ad (carries_r1 _ _ _ _ _ _ _ _ _ _ _ _ R G U B Sx) C F Bc H).
Qed.

(** ** A role with the key of an earlier role cannot be looked up *)
Lemma same_name q r r' : wf_role r -> r_aty r' = r_aty r -> r_aty r <= 6 ->
  firstn (key_size (r_aty r)) (r_auth r') = firstn (key_size (r_aty r)) (r_auth r) -> named_by q r -> named_by q r'.
Proof.
  intros (_ & L & _) T T6 K. unfold named_by. cbv zeta. rewrite T.
  assert (D : r_aty r = 1 \/ r_aty r = 2 \/ r_aty r = 3 \/ r_aty r = 4 \/ r_aty r = 5 \/ r_aty r = 6).
  { assert (1 <= r_aty r); [|lia]. clear - L. revert L. generalize (r_aty r) (length (r_auth r)). intros ty n L. unfold authority_len in L.
    repeat match type of L with (if ?b then _ else _) = _ => let e := fresh in destruct b eqn:e; [apply Z.eqb_eq in e; vm_compute in e; lia|] end. discriminate. }
  repeat destruct D as [D|D]; rewrite D in K |- *; unfold key_size in K; cbn [Z.leb Z.compare Pos.compare Pos.compare_cont] in K;
    rewrite K; exact (fun x => x).
Qed.
Lemma shadowed a s q r r' l1 l2 : is_cfg a s -> s_roles s = l1 ++ r :: l2 -> In r' l1 -> r_aty r' = r_aty r -> r_aty r <= 6 ->
  firstn (key_size (r_aty r)) (r_auth r') = firstn (key_size (r_aty r)) (r_auth r) ->
  lookup_role_id (a_data a) q <> Ok (Some (r_id r)).
Proof.
  intros C Q I T T6 K H. destruct (looked_up a s q C) as (o & H' & X). rewrite H in H'. injection H' as <-.
  destruct X as (m1 & x & m2 & Q' & Ix & N & B). destruct C as (_ & _ & W).
  pose proof W as (_ & _ & _ & _ & _ & _ & _ & Wr & Nd & _). rewrite Forall_forall in Wr.
  assert (Ir : In r (s_roles s)) by (rewrite Q; apply in_elt).
  assert (E : x = r).
  { assert (Ix' : In x (s_roles s)) by (rewrite Q'; apply in_elt).
    pose proof (find_role_mine s x W Ix') as F1. pose proof (find_role_mine s r W Ir) as F2. congruence. }
  subst x. assert (E : m1 = l1).
  { rewrite Q in Q'. clear - Nd Q Q'. unfold ids in Nd. rewrite Q in Nd. rewrite map_app in Nd. cbn [map] in Nd.
    revert m1 Q' . induction l1 as [|y l IH] in Nd |- *; intros [|z m] Q'; cbn in Q'.
    - reflexivity.
    - injection Q' as -> Q'. cbn in Nd. inversion Nd as [|? ? X _]. destruct X. rewrite Q', map_app. apply in_elt.
    - injection Q' as -> Q'. cbn in Nd. inversion Nd as [|? ? X _]. destruct X. apply in_elt.
    - injection Q' as -> Q'. cbn in Nd. inversion Nd as [|? ? _ X]. f_equal. apply IH; assumption. }
  subst m1. apply (B r' I). exact (same_name q r r' (Wr r Ir) T T6 K N).
Qed.
