(** * The layouts the client writes are the layouts the program reads *)
From Verif Require Import BaseFacts SpecClient.

(** ** Permissions *)
Lemma write_from l : forall d, fold_left write_action l d = d ++ enc_actions (length d) l.
Proof.
  induction l as [|a l IH]; intro d; cbn [fold_left enc_actions]; [now rewrite app_nil_r|].
  rewrite IH. unfold write_action, enc_action. rewrite <- !app_assoc. repeat f_equal.
  rewrite !app_length, !le_enc_length. lia.
Qed.
Lemma write_actions_enc l : write_actions l = enc_actions 0 l.
Proof. unfold write_actions. now rewrite write_from. Qed.

(** ** One lemma per instruction: the body [B] is read as [o], whatever the payload *)
Definition reads (B signed : bytes) (rid : Z) (o : order) : Prop :=
  forall p, actor_of (B ++ p) = rid /\ order_of (B ++ p) = Some o
    /\ signed_of (B ++ p) = signed /\ payload_of (B ++ p) = p
    /\ (tag (B ++ p) =? 5) = starts_session o.

Lemma nat_len (l : bytes) : nat_of (Z.of_nat (length l)) = length l.
Proof. apply Nat2Z.id. Qed.
Lemma u16_len (l : bytes) : short l -> is_u16 (Z.of_nat (length l)).
Proof. unfold short, is_u16, U16. lia. Qed.

Ltac tagged d v :=
  unfold actor_of, order_of, signed_of, payload_of, auth_layout, arg_len;
  change (tag d) with v; cbn [Z.eqb Pos.eqb andb orb].
Ltac at16 o d v := change (u16_at o d) with (le (le_enc 2 v)); rewrite (le2 v) by (assumption || (apply u16_len; assumption)).
Ltac at32 o d v := change (u32_at o d) with (le (le_enc 4 v)); rewrite (le4 v) by assumption.
Ltac at64 o d v := change (u64_at o d) with (le (le_enc 8 v)); rewrite (le8 v) by assumption.
Lemma byte_mod b : is_byte b -> b mod 256 = b.
Proof. unfold is_byte. intro. now apply Z.mod_small. Qed.
Ltac at8 o d v := change (byte_at o d) with (v mod 256); rewrite (byte_mod v) by assumption.
Ltac five := split; [|split; [|split; [|split]]].
(* closes a goal about the signed bytes or the payload of a body of fixed size *)
Ltac fixed := first [reflexivity | now rewrite skipn_app_exact | now rewrite firstn_app_exact].

Lemma reads_remove len rid target : is_u32 rid -> is_u32 target ->
  reads (remove_head len rid target) (remove_head len rid target) rid (RemoveRole target).
Proof.
  intros R T p. set (d := remove_head len rid target ++ p). tagged d 2.
  at32 8%nat d rid. at32 12%nat d target. five; reflexivity.
Qed.
Lemma reads_sub rid bump : is_u32 rid -> is_byte bump ->
  reads (sub_head rid bump) (sub_head rid bump) rid (CreateSub bump).
Proof.
  intros R T p. set (d := sub_head rid bump ++ p). tagged d 6.
  at32 4%nat d rid. at8 8%nat d bump. five; reflexivity.
Qed.
Lemma reads_withdraw rid amount : is_u32 rid -> is_u64 amount ->
  reads (withdraw_head rid amount) (withdraw_head rid amount) rid (WithdrawSub amount).
Proof.
  intros R T p. set (d := withdraw_head rid amount ++ p). tagged d 7.
  at32 4%nat d rid. at64 8%nat d amount. five; reflexivity.
Qed.
Lemma on_off_b2z on : b2z on = on_off on. Proof. reflexivity. Qed.
Lemma reads_toggle target rid on : is_u32 rid -> is_u32 target ->
  reads (toggle_head target rid on) (toggle_head target rid on) rid (ToggleSub target (on_off on)).
Proof.
  intros R T p. set (d := toggle_head target rid on ++ p). tagged d 10.
  at32 12%nat d rid. at32 8%nat d target. five; reflexivity.
Qed.
Lemma reads_transfer rid : is_u32 rid -> reads (transfer_head rid) (transfer_head rid) rid TransferAssets.
Proof.
  intros R p. set (d := transfer_head rid ++ p). tagged d 13. at32 4%nat d rid. five; reflexivity.
Qed.
Lemma reads_close_token rid off : is_u32 rid -> is_u16 off ->
  reads (close_token_head rid off) (close_token_head rid off) rid (CloseTokens off).
Proof.
  intros R T p. set (d := close_token_head rid off ++ p). tagged d 14.
  at32 4%nat d rid. at16 2%nat d off. five; reflexivity.
Qed.
Lemma reads_close rid : is_u32 rid -> reads (close_head rid) (close_head rid) rid CloseWallet.
Proof.
  intros R p. set (d := close_head rid ++ p). tagged d 15. at32 4%nat d rid. five; reflexivity.
Qed.
Lemma reads_sub2 rid b1 b2 : is_u32 rid -> is_byte b1 -> is_byte b2 ->
  reads (sub2_head rid b1 b2) (sub2_head rid b1 b2) rid (CreateSub2 b1 b2).
Proof.
  intros R T1 T2 p. set (d := sub2_head rid b1 b2 ++ p). tagged d 18.
  at32 4%nat d rid. at8 8%nat d b1. at8 9%nat d b2. five; reflexivity.
Qed.
Lemma reads_toggle2 rid id on : is_u32 rid -> is_u32 id ->
  reads (toggle2_head rid id on) (toggle2_head rid id on) rid (ToggleSub2 id (on_off on)).
Proof.
  intros R T p. set (d := toggle2_head rid id on ++ p). tagged d 19.
  at32 4%nat d rid. at32 8%nat d id. five; reflexivity.
Qed.
Lemma reads_withdraw2 rid id amount : is_u32 rid -> is_u32 id -> is_u64 amount ->
  reads (withdraw2_head rid id amount) (withdraw2_head rid id amount) rid (WithdrawSub2 id amount).
Proof.
  intros R T1 T2 p. set (d := withdraw2_head rid id amount ++ p). tagged d 21.
  at32 4%nat d rid. at32 8%nat d id. at64 16%nat d amount. five; reflexivity.
Qed.

(** a key of 32 bytes behind a head *)
Lemma sub_inside (h x p : bytes) n m : length h = n -> length x = m -> sub n m ((h ++ x) ++ p) = x.
Proof. intros. rewrite <- app_assoc. now apply sub_app_exact. Qed.
Lemma sub_head_of (h p : bytes) n : length h = n -> sub 0 (n - 0) (h ++ p) = h.
Proof. intros <-. rewrite Nat.sub_0_r. unfold sub. cbn [skipn]. now apply firstn_app_exact. Qed.

Lemma reads_session rid k dur : is_u32 rid -> length k = 32%nat -> is_u64 dur ->
  reads (open_head rid k dur) (open_head rid k dur) rid (OpenSession k dur).
Proof.
  intros R K T p.
  assert (L : length (open_head rid k dur) = 48%nat) by (unfold open_head; now rewrite !app_length, !le_enc_length, K).
  assert (S : sub 16 32 (open_head rid k dur ++ p) = k).
  { change (open_head rid k dur) with ((le_enc 2 5 ++ zeros 2 ++ le_enc 4 rid ++ le_enc 8 dur) ++ k). now apply sub_inside. }
  set (d := open_head rid k dur ++ p) in *. tagged d 5. rewrite S.
  at32 4%nat d rid. at64 8%nat d dur. five; try reflexivity;
    [exact (sub_head_of _ p 48 L) | exact (skipn_app_exact 48 _ p L)].
Qed.
Lemma reads_claimer rid c : is_u32 rid -> length c = 32%nat ->
  reads (claimer_head rid c) (claimer_head rid c) rid (NameClaimer c).
Proof.
  intros R K p.
  assert (L : length (claimer_head rid c) = 40%nat) by (unfold claimer_head; now rewrite !app_length, !le_enc_length, K).
  assert (S : sub 8 32 (claimer_head rid c ++ p) = c).
  { change (claimer_head rid c) with ((le_enc 2 17 ++ zeros 2 ++ le_enc 4 rid) ++ c). now apply sub_inside. }
  set (d := claimer_head rid c ++ p) in *. tagged d 17. rewrite S.
  at32 4%nat d rid. five; try reflexivity;
    [exact (sub_head_of _ p 40 L) | exact (skipn_app_exact 40 _ p L)].
Qed.
Lemma reads_replace rid target c : is_u32 rid -> is_u32 target -> short c ->
  reads (replace_head rid target c) (replace_head rid target c) rid (ReplaceKey target c).
Proof.
  intros R T K p.
  assert (L : length (replace_head rid target c) = (16 + length c)%nat) by reflexivity.
  assert (S : sub 16 (length c) (replace_head rid target c ++ p) = c).
  { change (replace_head rid target c) with
      ((le_enc 2 16 ++ zeros 2 ++ le_enc 4 rid ++ le_enc 4 target ++ le_enc 2 (Z.of_nat (length c)) ++ zeros 2) ++ c).
    now apply sub_inside. }
  set (d := replace_head rid target c ++ p) in *. tagged d 16.
  at32 4%nat d rid. at32 8%nat d target. at16 12%nat d (Z.of_nat (length c)). rewrite nat_len.
  change (Z.to_nat (Z.of_nat (length c))) with (nat_of (Z.of_nat (length c))). rewrite nat_len, S.
  five; try reflexivity; [exact (sub_head_of _ p _ L) | exact (skipn_app_exact _ _ p L)].
Qed.
Lemma reads_add rid ty c l : is_u32 rid -> is_u16 ty -> short c -> short (enc_actions 0 l) ->
  reads (add_body rid ty c l) (add_body rid ty c l) rid (AddRole ty c (enc_actions 0 l)).
Proof.
  intros R T K A p. unfold add_body. rewrite <- write_actions_enc in *.
  set (a := write_actions l) in *. set (h := add_head rid ty c l).
  assert (L : length (h ++ c ++ a) = (16 + length c + length a)%nat) by (rewrite !app_length; change (length h) with 16%nat; lia).
  assert (S1 : sub 16 (length c) ((h ++ c ++ a) ++ p) = c).
  { rewrite <- !app_assoc. now apply sub_app_exact. }
  assert (S2 : sub (16 + length c) (length a) ((h ++ c ++ a) ++ p) = a).
  { rewrite (app_assoc h). apply sub_inside; [rewrite app_length|]; reflexivity. }
  set (d := (h ++ c ++ a) ++ p) in *. tagged d 1.
  at32 12%nat d rid. at16 6%nat d ty. at16 2%nat d (Z.of_nat (length c)). at16 4%nat d (Z.of_nat (length a)).
  change (Z.to_nat (Z.of_nat (length a))) with (nat_of (Z.of_nat (length a))). rewrite !nat_len, S1, S2.
  five; try reflexivity; [exact (sub_head_of _ p _ L) | exact (skipn_app_exact _ _ p L)].
Qed.
Lemma encoded_change target u : exists op x, change_of target u = ChangeRole target op x /\ encoded u = op :: x /\ is_byte op.
Proof. destruct u; unfold encoded; cbn; rewrite ?write_actions_enc; do 2 eexists; repeat split; lia. Qed.
Lemma reads_update rid target u : is_u32 rid -> in_range (change_of target u) ->
  reads (update_body rid target u) (update_body rid target u) rid (change_of target u).
Proof.
  intros R G p. destruct (encoded_change target u) as (op & x & C & D & B). rewrite C in G |- *.
  destruct G as [T K].
  assert (L : length (update_body rid target u) = (16 + length (encoded u))%nat) by reflexivity.
  assert (S : sub 16 (length (encoded u)) (update_body rid target u ++ p) = encoded u) by (now apply sub_inside).
  set (d := update_body rid target u ++ p) in *. tagged d 3. unfold update_op.
  at32 8%nat d rid. at32 12%nat d target.
  change (u16_at 2 d) with (le (le_enc 2 (Z.of_nat (length (encoded u))))). rewrite le2.
  2:{ rewrite D. unfold is_u16, U16. cbn [length]. lia. }
  rewrite nat_len, S. change (byte_at 4 d) with 0. rewrite D. cbn [length Nat.eqb negb andb Z.eqb fst snd byte_at nth skipn].
  rewrite D in L. five; try reflexivity; [exact (sub_head_of _ p _ L) | exact (skipn_app_exact _ _ p L)].
Qed.
Lemma reads_sign rid x : is_u32 rid -> short x -> reads (sign_head rid x ++ x) x rid (Sign x).
Proof.
  intros R K p.
  assert (L : length (sign_head rid x ++ x) = (8 + length x)%nat) by reflexivity.
  assert (S : sub 8 (length x) ((sign_head rid x ++ x) ++ p) = x) by (now apply sub_inside).
  set (d := (sign_head rid x ++ x) ++ p) in *. tagged d 11.
  at32 4%nat d rid. at16 2%nat d (Z.of_nat (length x)). rewrite nat_len, S.
  five; try reflexivity; [|exact (skipn_app_exact _ _ p L)].
  now replace (8 + length x - 8)%nat with (length x) by lia.
Qed.
Lemma reads_sub_sign rid x : is_u32 rid -> short x -> reads (sub_sign_head rid x ++ x) x rid (SignSub x).
Proof.
  intros R K p.
  assert (L : length (sub_sign_head rid x ++ x) = (16 + length x)%nat) by reflexivity.
  assert (S : sub 16 (length x) ((sub_sign_head rid x ++ x) ++ p) = x) by (now apply sub_inside).
  set (d := (sub_sign_head rid x ++ x) ++ p) in *. tagged d 9.
  at32 4%nat d rid. at16 2%nat d (Z.of_nat (length x)). rewrite nat_len, S.
  five; try reflexivity; [|exact (skipn_app_exact _ _ p L)].
  now replace (16 + length x - 16)%nat with (length x) by lia.
Qed.
Lemma reads_sub_sign2 rid id x : is_u32 rid -> is_u32 id -> short x ->
  reads (sub_sign2_head rid id x ++ x) (sub_sign2_head rid id x ++ x) rid (SignSub2 id x).
Proof.
  intros R I K p.
  assert (L : length (sub_sign2_head rid id x ++ x) = (16 + length x)%nat) by reflexivity.
  assert (S : sub 16 (length x) ((sub_sign2_head rid id x ++ x) ++ p) = x) by (now apply sub_inside).
  set (d := (sub_sign2_head rid id x ++ x) ++ p) in *. tagged d 20.
  at32 4%nat d rid. at32 8%nat d id. at16 2%nat d (Z.of_nat (length x)). rewrite nat_len, S.
  five; try reflexivity; [exact (sub_head_of _ p _ L) | exact (skipn_app_exact _ _ p L)].
Qed.
Lemma reads_create id bump ty c wbump l :
  in_range (Found id bump wbump ty c (enc_actions 0 l)) ->
  order_of (create_head id bump ty (Z.of_nat (length c)) wbump ++ c ++ write_actions l)
  = Some (Found id bump wbump ty c (enc_actions 0 l)).
Proof.
  intros (I & B1 & B2 & T & K). rewrite write_actions_enc. set (a := enc_actions 0 l). set (n := Z.of_nat (length c)).
  assert (L : length (create_head id bump ty n wbump) = 40%nat) by (unfold create_head; now rewrite !app_length, !le_enc_length, I).
  assert (S1 : sub 8 32 (create_head id bump ty n wbump ++ c ++ a) = id).
  { change (create_head id bump ty n wbump) with
      ((le_enc 2 0 ++ le_enc 2 ty ++ le_enc 2 n ++ le_enc 1 bump ++ le_enc 1 wbump) ++ id). now apply sub_inside. }
  assert (S2 : sub 40 (length c) (create_head id bump ty n wbump ++ c ++ a) = c) by (now apply sub_app_exact).
  assert (S3 : skipn (40 + length c) (create_head id bump ty n wbump ++ c ++ a) = a).
  { rewrite app_assoc. apply skipn_app_exact. now rewrite app_length, L. }
  set (d := create_head id bump ty n wbump ++ c ++ a) in *. unfold order_of. change (tag d) with 0. cbn [Z.eqb].
  at16 2%nat d ty. at16 4%nat d n. at8 6%nat d bump. at8 7%nat d wbump.
  change (Z.to_nat n) with (nat_of n). unfold n. now rewrite nat_len, S1, S2, S3.
Qed.
