(** * The SDK's clients and the signature counter *)
From Verif Require Import BaseFacts ConfigFacts ConfigEdit AuthFacts AuthProps AuthProps2 SignSpec LifeProps HistoryProps
  ClientFacts ClientAuth HandlerRoles ConfigProps NewCredential.
From Verif Require Export SdkClient SdkGrant SpecHistory.

(** ** A request carries the counter it was built with *)
Lemma u32_mid a n t : length a = 8%nat -> is_u32 n -> u32_at 8 (a ++ le_enc 4 n ++ t) = n.
Proof.
  intros L U. unfold u32_at. rewrite (sub_skip 8 4 a _ 8) by (assumption || lia). cbn [Nat.sub].
  rewrite sub_l0 by apply le_enc_length. apply le4. exact U.
Qed.
Lemma sent_first cx x k : sent cx x -> option_map m_key (nth_error (ix_metas x) 0) = Some k -> acct cx 0 = k.
Proof.
  intros [_ F] N. unfold acct, mkey. destruct F as [|m m' l l' W F]; [discriminate|]. cbn in N |- *.
  injection N as <-. symmetry. unfold wider in W. decompose [and] W. congruence.
Qed.
(** [cx] is a request to wallet [swig] by role [rid] with signature counter [n] *)
Definition carries (cx : ctx) (swig : key) (rid n : Z) : Prop :=
  auth_layout (c_data cx) <> None /\ actor_of (c_data cx) = rid /\ acct cx 0 = swig
  /\ u32_at 8 (payload_of (c_data cx)) = n.
Lemma carries_k1 E swig rid sign slot n o ks x cx : is_u32 rid -> in_range o -> is_u32 n ->
  built_k1 swig rid E sign slot n o ks x -> sent cx x -> carries cx swig rid n.
Proof.
  intros R G U B Sx. pose proof (says_k1 _ _ _ _ _ _ _ _ _ R G B) as (_ & F & _). pose proof (sent_first _ _ _ Sx F) as A.
  destruct Sx as [Sd _]. destruct (built_k1_shape _ _ _ _ _ _ _ _ _ R B G) as (ms & Bd & signed & -> & Rd & _).
  cbn [by_k1 build ix_data] in Sd. unfold carries. rewrite Sd.
  match goal with |- context [Bd ++ ?p] => destruct (Rd p) as (Ra & _ & _ & Rp & _); set (q := p) in * end.
  split; [|split; [exact Ra|split; [exact A|]]].
  - intros N. unfold payload_of in Rp. rewrite N in Rp. apply (f_equal (@length Z)) in Rp. unfold q in Rp.
    rewrite !app_length, !le_enc_length in Rp. cbn in Rp. lia.
  - rewrite Rp. apply u32_mid; [apply le_enc_length|exact U].
Qed.
Lemma carries_r1 E swig rid sign pk slot n o ks v x cx : is_u32 rid -> in_range o -> is_u32 n ->
  built_r1 swig rid E sign pk slot n o ks [v; x] -> sent cx x -> carries cx swig rid n.
Proof.
  intros R G U B Sx. destruct (says_r1 _ _ _ _ _ _ _ _ _ _ R G B) as (v' & x' & Q & _ & F & _).
  injection Q as <- <-. pose proof (sent_first _ _ _ Sx F) as A.
  destruct Sx as [Sd _]. destruct (built_r1_shape _ _ _ _ _ _ _ _ _ _ R B G) as (ms & Bd & signed & i & Q & Rd & _).
  unfold by_r1 in Q. apply (f_equal (fun l => nth 1 l v)) in Q. cbv zeta in Q. cbn [nth] in Q. rewrite Q in Sd.
  cbn [build ix_data] in Sd. unfold carries. rewrite Sd.
  match goal with |- context [Bd ++ ?p] => destruct (Rd p) as (Ra & _ & _ & Rp & _); set (q := p) in * end.
  split; [|split; [exact Ra|split; [exact A|]]].
  - intros N. unfold payload_of in Rp. rewrite N in Rp. apply (f_equal (@length Z)) in Rp. unfold q in Rp.
    rewrite !app_length, !le_enc_length in Rp. cbn in Rp. lia.
  - rewrite Rp. apply u32_mid; [apply le_enc_length|exact U].
Qed.

(** ** Only the next counter is accepted *)
Lemma stale E cx w w' s r swig rid n : foreign_ok E -> hashes_ok E -> good_world E w -> admissible E w (Call cx) ->
  carries cx swig rid n -> is_cfg (w swig) s -> find_role rid s = Some r -> by_counter cx r ->
  succeeds E cx w w' -> n = next_counter (r_auth r).
Proof.
  intros Fo Ho Gw Ad (La & <- & <- & <-) C F B H.
  exact (proj1 (signature_counts E cx w w' s r Fo Ho Gw Ad C H La F B)).
Qed.
Lemma one_of_two E cx1 cx2 w w1 w2 w3 s s2 r1 r2 swig rid n : foreign_ok E -> hashes_ok E -> good_world E w ->
  admissible E w (Call cx1) -> carries cx1 swig rid n -> is_cfg (w swig) s -> find_role rid s = Some r1 -> by_counter cx1 r1 ->
  succeeds E cx1 w w1 -> reach E w1 w2 ->
  admissible E w2 (Call cx2) -> carries cx2 swig rid n -> is_cfg (w2 swig) s2 -> find_role rid s2 = Some r2 -> by_counter cx2 r2 ->
  succeeds E cx2 w2 w3 ->
  exists ts, path E swig ts s s2 /\ (Exists (rotates rid) ts \/ 2 ^ 32 <= Z.of_nat (steps_by rid ts) + 1).
Proof.
  intros Fo Ho Gw A1 (L1 & I1 & K1 & N1) C1 F1 B1 H1 R A2 (L2 & I2 & K2 & N2) C2 F2 B2 H2.
  rewrite <- K1 in C1 |- *. rewrite <- K2 in C2. rewrite <- I1 in F1 |- *. rewrite <- I2 in F2.
  destruct (counters_differ E cx1 cx2 w w1 w2 w3 s s2 r1 r2) as (ts & P & Q); try assumption; try congruence.
  exists ts. split; [exact P|]. destruct Q as [Q|[Q|Q]]; [left; exact Q|right; exact Q|]. exfalso. apply Q. congruence.
Qed.

(** ** What is read from the account is the counter *)
Lemma odometer_read o r : 3 <= r_aty r <= 6 -> load_odometer (view_of o r) = cred_counter (r_auth r).
Proof.
  intros T. unfold load_odometer, signature_odometer. cbn [view_of rv_ty rv_auth].
  replace ((3 <=? r_aty r) && (r_aty r <=? 6)) with true by lia. reflexivity.
Qed.

(** ** A credential that lost a byte *)
Lemma set_fits ty c old a : all_bytes c -> set_into_bytes ty c old = Ok a -> credential_ok ty c.
Proof.
  unfold set_into_bytes, credential_ok. intros Bc H.
  repeat match type of H with (if ?b then _ else _) = _ => let e := fresh in destruct b eqn:e; [apply Z.eqb_eq in e; vm_compute in e|] end;
  try discriminate; peel H;
  repeat match goal with B : (length c =? _)%nat = true |- _ => apply Nat.eqb_eq in B end; try tauto.
  - destruct (length c =? 33)%nat eqn:L1; [apply Nat.eqb_eq in L1; tauto|].
    destruct (length c =? 64)%nat eqn:L2; [apply Nat.eqb_eq in L2; tauto|discriminate].
  - do 6 right. split; [tauto|]. split; [|apply Z.leb_le; assumption].
    intros Q. match goal with B : negb (beq (sub 0 32 c) SELF) = true |- _ => change (sub 0 32 c) with (firstn 32 c) in B; rewrite Q, beq_refl in B; discriminate end.
  - do 6 right. split; [tauto|]. split; [|apply Z.leb_le; assumption].
    intros Q. match goal with B : negb (beq (sub 0 32 c) SELF) = true |- _ => change (sub 0 32 c) with (firstn 32 c) in B; rewrite Q, beq_refl in B; discriminate end.
Qed.
Lemma add_takes E cx w w' : wf_ctx cx -> succeeds E cx w w' -> tag (c_data cx) = 1 ->
  credential_ok (u16_at 6 (c_data cx)) (sub 16 (arg_len (c_data cx)) (c_data cx)).
Proof.
  intros (Wb & _) H T. unfold succeeds in H. by_tag H T. unfold add_authority_v1 in H. cbv zeta in H.
  peels H. match goal with B : authority_type _ = Ok _ |- _ => apply authority_type_id in B; subst end.
  match goal with B : add_role _ _ _ _ _ = Ok _ |- _ => unfold add_role in B; peel B end.
  match goal with B : set_into_bytes _ _ _ = Ok _ |- _ => apply set_fits in B; [exact B|apply all_bytes_sub; exact Wb] end.
Qed.
Lemma tail_not ty c : credential_ok ty c -> ~ credential_ok ty (tl c).
Proof.
  intros H H'. assert (L : length c = S (length (tl c))).
  { destruct c; [|reflexivity]. unfold credential_ok in H. cbn [length] in H. decompose [and or] H; discriminate. }
  unfold credential_ok in *. lia.
Qed.
Lemma add_says d ty c acts : order_of d = Some (AddRole ty c acts) -> tag d = 1 /\ u16_at 6 d = ty /\ sub 16 (arg_len d) d = c.
Proof.
  unfold order_of. cbv zeta. intros H.
  repeat match type of H with (if ?b then _ else _) = _ => let e := fresh in destruct b eqn:e; [try discriminate H|] end; try discriminate.
  injection H as <- <- _. split; [apply Z.eqb_eq; assumption|]. split; reflexivity.
Qed.
Lemma stripped E sign slot odo swig payer rid ty c gs x cx w w' : is_u32 rid -> short (enc_actions 0 (to_client_actions gs)) ->
  credential_ok ty c ->
  sdk_add_k1 E sign slot odo swig payer rid ty c gs = Ok x -> wf_ctx cx -> sent cx x -> ~ succeeds E cx w w'.
Proof.
  intros R Sa Cr Q Wc Sx H. unfold sdk_add_k1 in Q. destruct c as [|b c']; [discriminate|]. injection Q as <-.
  assert (G : in_range (AddRole ty c' (enc_actions 0 (to_client_actions gs)))).
  { split; [|split; [|exact Sa]].
    - unfold credential_ok in Cr. unfold is_u16, U16. lia.
    - unfold short. unfold credential_ok in Cr. cbn [length] in Cr. unfold U16. lia. }
  pose proof (says_k1 swig rid E sign slot (next_odometer odo) _ _ _ R G
    (k_add swig rid E sign slot (next_odometer odo) payer ty c' (to_client_actions gs))) as (_ & _ & _ & O & _).
  destruct Sx as [Sd _]. rewrite <- Sd in O. apply add_says in O as (T & T1 & T2).
  apply (add_takes _ _ _ _ Wc H) in T. rewrite T1, T2 in T. exact (tail_not _ _ Cr T).
Qed.
