(** * The command line tool: keys, removal, opening a wallet *)
From Coq Require Import String.
From Verif Require Import BaseFacts ConfigFacts ConfigEdit AuthFacts LifeProps SdkFacts SdkAsk SdkProps NewCredential Avail2 HandlerRoles.
From Verif Require Export CliProps SpecFound Found Found2.
Local Notation length := List.length.

(** ** Keys *)
Lemma digit_char n : 0 <= n < 16 -> digit_of (hex_digit n) = Some n.
Proof.
  intros H. unfold digit_of, hex_digit. destruct (n <? 10) eqn:Q.
  - replace ((48 <=? 48 + n) && (48 + n <=? 57)) with true by lia. f_equal. lia.
  - replace ((48 <=? 87 + n) && (87 + n <=? 57)) with false by lia.
    replace ((97 <=? 87 + n) && (87 + n <=? 102)) with true by lia. f_equal. lia.
Qed.
Lemma hex_round l : all_bytes l -> from_hex (hex_encode l) = Some l.
Proof.
  induction 1 as [|b l B _ IH]; [reflexivity|]. unfold is_byte in B.
  change (hex_encode (b :: l)) with (hex_digit (b / 16) :: hex_digit (b mod 16) :: hex_encode l).
  cbn [from_hex]. rewrite !digit_char, IH by (try apply Z.mod_pos_bound; try split; try apply Z.div_pos; try apply Z.div_lt_upper_bound; lia).
  do 2 f_equal. rewrite (Z.div_mod b 16) at 3 by lia. lia.
Qed.
Lemma trim_hex l : trim_0x (hex_encode l) = hex_encode l.
Proof.
  destruct l as [|b l]; [reflexivity|].
  change (hex_encode (b :: l)) with (hex_digit (b / 16) :: hex_digit (b mod 16) :: hex_encode l). cbn [trim_0x].
  replace (hex_digit (b mod 16) =? 120) with false; [rewrite andb_false_r; reflexivity|]. symmetry.
  pose proof (Z.mod_pos_bound b 16). unfold hex_digit. destruct (b mod 16 <? 10) eqn:Q; lia.
Qed.
Lemma trim_zero_x t : trim_0x (zero_x t) = trim_0x t.
Proof. reflexivity. Qed.
(** a key of both coordinates, with its leading 4 *)
Lemma whole_key b58 ty p t : In ty [3; 4] -> all_bytes p -> length p = 64%nat -> t = hex_encode (4 :: p) \/ t = zero_x (hex_encode (4 :: p)) ->
  format_authority b58 ty t = Ok p.
Proof.
  intros T B L Q. assert (D : from_hex (trim_0x t) = Some (4 :: p)).
  { assert (D : trim_0x t = hex_encode (4 :: p)) by (destruct Q as [->| ->]; rewrite ?trim_zero_x; apply trim_hex).
    rewrite D. apply hex_round. constructor; [unfold is_byte; lia|exact B]. }
  unfold format_authority. destruct T as [<-|[<-|[]]]; cbn [Z.eqb Pos.eqb orb]; rewrite D; cbn [ok_or bind length]; rewrite L; reflexivity.
Qed.
Lemma r1_key b58 ty p t : In ty [5; 6] -> all_bytes p -> length p = 33%nat -> t = hex_encode p \/ t = zero_x (hex_encode p) ->
  format_authority b58 ty t = Ok p.
Proof.
  intros T B L Q. assert (D : from_hex (trim_0x t) = Some p).
  { assert (D : trim_0x t = hex_encode p) by (destruct Q as [->| ->]; rewrite ?trim_zero_x; apply trim_hex).
    rewrite D. apply hex_round. exact B. }
  unfold format_authority. destruct T as [<-|[<-|[]]]; cbn [Z.eqb Pos.eqb orb]; rewrite D; cbn [ok_or bind]; rewrite L; reflexivity.
Qed.
(** the tool does not read the keys it prints *)
Lemma own_key_refused b58 ty p : In ty [3; 4] -> all_bytes p -> length p = 64%nat ->
  format_authority b58 ty (generated_k1_text p) = Err PInvalidArgument.
Proof.
  intros T B L. assert (D : from_hex (trim_0x (generated_k1_text p)) = Some p) by (unfold generated_k1_text; rewrite trim_hex; apply hex_round; exact B).
  unfold format_authority. destruct T as [<-|[<-|[]]]; cbn [Z.eqb Pos.eqb orb]; rewrite D; cbn [ok_or bind]; rewrite L; reflexivity.
Qed.
Lemma formatted b58 ty t c : keys32 b58 -> format_authority b58 ty t = Ok c ->
  In ty [1; 2] /\ length c = 32%nat \/ In ty [3; 4] /\ (length c = 64 \/ length c = 32)%nat \/ In ty [5; 6] /\ length c = 33%nat.
Proof.
  intros K H. unfold format_authority in H.
  destruct ((ty =? 1) || (ty =? 2)) eqn:T1.
  { left. split; [cbn; lia|]. destruct (b58 t) as [k|] eqn:B; cbn in H; [|discriminate]. injection H as <-. exact (K _ _ B). }
  destruct ((ty =? 3) || (ty =? 4)) eqn:T2.
  { right. left. split; [cbn; lia|]. destruct (from_hex (trim_0x t)) as [d|]; cbn [ok_or bind] in H; [|discriminate].
    destruct ((length d =? 65)%nat && _) eqn:A1; [|destruct ((length d =? 33)%nat && _) eqn:A2; [|discriminate]];
      assert (Q : skipn 1 d = c) by congruence; rewrite <- Q, skipn_length; lia. }
  destruct ((ty =? 5) || (ty =? 6)) eqn:T3; [|discriminate].
  right. right. split; [cbn; lia|]. destruct (from_hex (trim_0x t)) as [d|]; cbn [ok_or bind] in H; [|discriminate].
  destruct (length d =? 33)%nat eqn:A; [|discriminate]. injection H as <-. apply Nat.eqb_eq. exact A.
Qed.
(** which of them the program takes *)
Lemma added_by_cli E cx w w' b58 ty t c acts : keys32 b58 -> wf_ctx cx -> format_authority b58 ty t = Ok c ->
  order_of (c_data cx) = Some (AddRole ty c acts) -> succeeds E cx w w' ->
  ty = 1 \/ ty = 3 /\ length c = 64%nat \/ ty = 5.
Proof.
  intros K Wc F O H. apply (formatted _ _ _ _ K) in F. apply add_says in O as (T & T1 & T2).
  apply (add_takes _ _ _ _ Wc H) in T. rewrite T1, T2 in T. unfold credential_ok in T. cbn [In] in F. lia.
Qed.

(** ** Removal *)
Lemma typed_firstn n t : typed t -> typed (firstn n t).
Proof. unfold typed. rewrite <- (firstn_skipn n t) at 1. intros H. apply Forall_app in H. apply H. Qed.
Lemma typed_skipn n t : typed t -> typed (skipn n t).
Proof. unfold typed. rewrite <- (firstn_skipn n t) at 1. intros H. apply Forall_app in H. apply H. Qed.
Lemma part_firstn n c : (32 <= n)%nat -> key_part (firstn n c) = key_part c.
Proof.
  intros L. unfold key_part. rewrite skipn_firstn_comm. rewrite firstn_firstn. f_equal. lia.
Qed.
Lemma named_typed q r : typed q -> named_by q r -> typed (key_part (r_auth r)).
Proof.
  intros T N. assert (P : typed (key_part q)) by (unfold key_part; apply typed_firstn, typed_skipn; exact T).
  assert (A : firstn 32 q = firstn 32 (r_auth r) \/ firstn 33 q = firstn 33 (r_auth r) \/ q = firstn 33 (r_auth r)
    \/ key33 q = firstn 33 (r_auth r)).
  { unfold named_by in N. cbv zeta in N. destruct (r_aty r) as [|p|p]; try tauto. repeat (destruct p as [p|p|]; try tauto). }
  destruct A as [A|[A|[A|A]]].
  - rewrite <- (part_firstn 32 (r_auth r)), <- A, part_firstn by lia. exact P.
  - rewrite <- (part_firstn 33 (r_auth r)), <- A, part_firstn by lia. exact P.
  - rewrite <- (part_firstn 33 (r_auth r)), <- A by lia. exact P.
  - rewrite <- (part_firstn 33 (r_auth r)), <- A by lia. unfold key33. destruct (length q =? 33)%nat; [exact P|].
    unfold key_part. cbn [skipn]. apply typed_firstn, typed_firstn. exact T.
Qed.
Lemma removal_by_text a s t i : is_cfg a s -> typed t -> cli_remove_target (a_data a) t = Ok i ->
  exists r, In r (s_roles s) /\ r_id r = i /\ named_by t r /\ typed (key_part (r_auth r)).
Proof.
  intros C T H. unfold cli_remove_target in H. destruct (looked_up a s t C) as (o & L & O). rewrite L in H. destruct o as [j|]; [|discriminate].
  injection H as <-. destruct O as (l1 & r & l2 & R & I & N & _). exists r.
  split; [rewrite R; apply in_elt|]. split; [exact I|]. split; [exact N|]. exact (named_typed _ _ T N).
Qed.

(** ** Opening a wallet *)
Lemma firstn_app_le n (a b : bytes) : (n <= length a)%nat -> firstn n (a ++ b) = firstn n a.
Proof. intros L. rewrite firstn_app. replace (n - length a)%nat with 0%nat by lia. apply app_nil_r. Qed.
Lemma nth_first n (c : bytes) i : (i < n)%nat -> nth i (firstn n c) 0 = nth i c 0.
Proof.
  revert i c. induction n as [|n IH]; intros i c L; [lia|]. destruct c as [|x c]; [rewrite firstn_nil; reflexivity|].
  destruct i as [|i]; [reflexivity|]. cbn. apply IH. lia.
Qed.
Lemma named_new ty c id pad l : credential_ok ty c -> all_bytes c ->
  (In ty [1; 2; 3; 5; 7] -> named_by c (mk_role id ty pad (new_credential ty c) l)).
Proof.
  intros Cr Bc T. unfold credential_ok in Cr. unfold named_by. cbv zeta. cbn [r_aty r_auth]. cbn [In] in T.
  decompose [or] T; try subst ty; try contradiction; cbn [new_credential].
  - split; [lia|reflexivity].
  - split; [lia|]. rewrite firstn_app_le by lia. reflexivity.
  - split; [lia|]. rewrite firstn_app_exact; [reflexivity|]. unfold key33. destruct (length c =? 33)%nat eqn:Q; [apply Nat.eqb_eq; exact Q|].
    cbn [length]. rewrite firstn_length. lia.
  - split; [lia|]. assert (L : length c = 33%nat) by lia. unfold key33. rewrite (proj2 (Nat.eqb_eq _ _) L).
    rewrite firstn_app_exact by exact L. reflexivity.
  - assert (L : length c = 80%nat) by lia. assert (N : nth 32 c 0 <= 40) by (decompose [or and] Cr; (discriminate || assumption)).
    assert (Q : nth 32 (sub 0 33 c ++ zeros 7 ++ sub 40 (Z.to_nat (nth 32 c 0)) c ++ zeros (40 - Z.to_nat (nth 32 c 0))) 0 = nth 32 c 0).
    { rewrite app_nth1 by (rewrite sub_length; lia). unfold sub. cbn [skipn]. apply nth_first. lia. }
    rewrite Q. split; [exact L|]. split.
    + rewrite firstn_app_le by (rewrite sub_length; lia). unfold sub. cbn [skipn]. rewrite firstn_firstn. reflexivity.
    + set (n := Z.to_nat (nth 32 c 0)). assert (n <= 40)%nat by (unfold n; lia).
      rewrite app_assoc. rewrite (sub_skip 40 n (sub 0 33 c ++ zeros 7) _ 40) by (rewrite ?app_length, ?sub_length, ?zeros_length; cbn; lia).
      rewrite Nat.sub_diag. rewrite sub_l0; [reflexivity|]. rewrite sub_length; lia.
Qed.

Lemma not_named ty c r : In ty [4; 6; 8] -> credential_ok ty c -> r_aty r = ty -> wf_role r -> ~ named_by c r.
Proof.
  intros T Cr A W N. unfold credential_ok in Cr. unfold named_by in N. cbv zeta in N. rewrite A in N. cbn [In] in T.
  destruct T as [T|[T|[T|[]]]]; rewrite <- T in N, Cr; cbv beta iota in N; destruct N as (L & N); try lia.
  destruct N as (F & _). assert (Q : nth 32 (r_auth r) 0 = nth 32 c 0).
  { rewrite <- (nth_first 33 (r_auth r)), <- F, nth_first by lia. reflexivity. }
  rewrite Q in L. lia.
Qed.
Lemma joins E w id k b s ty c fee : find_pda E (swig_seeds id) = (k, b) -> is_cfg (w k) s -> a_lamports (w k) <> 0 ->
  match sdk_new E w id ty c fee with
  | Ok (Joins i) => exists l1 r l2, s_roles s = l1 ++ r :: l2 /\ r_id r = i /\ named_by c r /\ forall r', In r' l1 -> ~ named_by c r'
  | Ok (Creates _) | Panic => False
  | Err _ => forall r, In r (s_roles s) -> ~ named_by c r
  end.
Proof.
  intros P C L. unfold sdk_new. rewrite P. unfold on_chain. replace (a_lamports (w k) =? 0) with false by lia. cbn [negb].
  destruct (looked_up _ s c C) as (o & Q & O). rewrite Q. cbn [bind]. destruct o as [i|]; cbn [ok_or bind]; [|exact O].
  destruct O as (l1 & r & l2 & R & I & N). assert (F : find_role i s = Some r).
  { rewrite <- I. apply find_role_mine; [apply C|]. rewrite R. apply in_elt. }
  destruct C as (_ & -> & W). destruct (read_role_some s W i r F) as (o & ->). cbn [bind].
  exists l1, r, l2. tauto.
Qed.
Lemma session_never E w id k b s ty c fee i r : find_pda E (swig_seeds id) = (k, b) -> is_cfg (w k) s -> a_lamports (w k) <> 0 ->
  In ty [4; 6; 8] -> credential_ok ty c -> sdk_new E w id ty c fee = Ok (Joins i) -> find_role i s = Some r -> r_aty r <> ty.
Proof.
  intros P C L T Cr J F A. pose proof (joins E w id k b s ty c fee P C L) as H. rewrite J in H.
  destruct H as (l1 & r' & l2 & R & I & N & _). assert (F' : find_role i s = Some r').
  { rewrite <- I. apply find_role_mine; [apply C|]. rewrite R. apply in_elt. }
  rewrite F in F'. injection F' as <-. apply (not_named ty c r T Cr A); [|exact N].
  destruct C as (_ & _ & W). eapply Forall_forall; [apply (roles_wf s W)|]. rewrite R. apply in_elt.
Qed.
Lemma gift_stops E w id k b ty c fee : find_pda E (swig_seeds id) = (k, b) -> a_data (w k) = [] -> a_lamports (w k) <> 0 ->
  exists e, sdk_new E w id ty c fee = Err e.
Proof.
  intros P D L. unfold sdk_new. rewrite P. unfold on_chain. replace (a_lamports (w k) =? 0) with false by lia. cbn [negb].
  rewrite D. eexists. reflexivity.
Qed.
Lemma opens E w id k b wal wb ty c fee : find_pda E (swig_seeds id) = (k, b) -> find_pda E (seeds_wallet0 k) = (wal, wb) -> a_lamports (w k) = 0 ->
  sdk_new E w id ty c fee = Ok (Creates (create k b fee wal wb ty c [mk_action 7 []] id)).
Proof. intros P Q L. unfold sdk_new. rewrite P. unfold on_chain. rewrite L. cbn [Z.eqb negb]. rewrite Q. reflexivity. Qed.
Lemma small_founded id b wb ty c : length id = 32%nat -> credential_ok ty c -> Z.of_nat (length (enc_config (founded id b wb ty c [mk_action 7 []]))) <= 10240.
Proof.
  intros Li Cr. rewrite enc_config_length_eq. unfold founded. cbn [s_roles s_claimer enc_roles enc_claimer].
  assert (L : (length (new_credential ty c) <= 128)%nat).
  { apply cred_size in Cr. unfold authority_len in Cr.
    repeat match type of Cr with (if ?x then _ else _) = _ => destruct x; [injection Cr as <-; lia|] end. discriminate. }
  unfold enc_header. cbn [s_bump s_id s_counter s_wbump s_pad s_subctr s_roles s_claimer].
  unfold enc_role. cbn [r_aty r_auth r_acts r_pad r_id enc_actions enc_action ac_ty ac_data].
  rewrite ?app_length, ?le_enc_length, ?zeros_length. cbn [length app]. rewrite ?app_length, ?le_enc_length, ?zeros_length, ?Li. change (length (enc_action 0 (mk_action 7 []))) with 8%nat. cbn [length]. lia.
Qed.
Lemma opens_again E cx w id k b wal wb ty c fee : find_pda E (swig_seeds id) = (k, b) -> find_pda E (seeds_wallet0 k) = (wal, wb) ->
  pda E (seeds_swig id b) = Some k -> pda E (seeds_wallet k wb) = Some wal ->
  wf_ctx cx -> length id = 32%nat -> is_byte b -> is_byte wb -> NoDup [k; fee; wal] -> native w ->
  vacant w k -> vacant w wal -> a_lamports (w k) = 0 -> credential_ok ty c -> all_bytes c ->
  let s := founded id b wb ty c [mk_action 7 []] in let n := length (enc_config s) in
  0 < rent E n < U64 -> rent E 0 < U64 -> can_pay w fee (rent E n + missing E w wal 0) ->
  exists x, sdk_new E w id ty c fee = Ok (Creates x) /\ (sent cx x ->
    exists w', succeeds E cx w w' /\ settled E w w' k fee wal s
      /\ (In ty [1; 2; 3; 5; 7] -> sdk_new E w' id ty c fee = Ok (Joins 0))
      /\ (In ty [4; 6; 8] -> exists e, sdk_new E w' id ty c fee = Err e)).
Proof.
  intros P Q D1 D2 Wc Li Bb Bw Nd Nt V0 V2 Z0 Cr Bc s n R1 R0 Pay. exists (create k b fee wal wb ty c [mk_action 7 []] id).
  split; [exact (opens E w id k b wal wb ty c fee P Q Z0)|]. intros Sx.
  destruct (client_founds E cx w k b fee wal wb ty c [mk_action 7 []] id) as (w' & H & St); try assumption.
  - split; [cbn; lia|]. split; [constructor; [|constructor]; split; [reflexivity|constructor]|constructor].
  - constructor; [|constructor]. split; [|split; [|split; [|split]]]; cbn; intros X; try discriminate X. decompose [or] X; (discriminate || contradiction).
  - exists (mk_action 7 []). split; [left; reflexivity|left; reflexivity].
  - apply small_founded; assumption.
  - fold s n. lia.
  - exists w'. split; [exact H|]. split; [exact St|]. destruct St as (C & Lk & _).
    assert (L : a_lamports (w' k) <> 0) by (rewrite Lk; fold s n; lia).
    pose proof (joins E w' id k b s ty c fee P C L) as J. split; intros T.
    + destruct (sdk_new E w' id ty c fee) as [[i|x]|e|].
      * destruct J as (l1 & r & l2 & R & I & _). cbn in R. destruct l1 as [|? [|? ?]]; cbn in R; try discriminate R.
        injection R as <- _. cbn in I. rewrite <- I. reflexivity.
      * contradiction.
      * exfalso. eapply J; [left; reflexivity|]. apply named_new; assumption.
      * contradiction.
    + destruct (sdk_new E w' id ty c fee) as [[i|x]|e|] eqn:J'; try contradiction; [|eexists; reflexivity].
      exfalso. destruct J as (l1 & r & l2 & R & I & N & _). assert (In r (s_roles s)) by (rewrite R; apply in_elt).
      cbn in H0. destruct H0 as [H0|[]]. refine (not_named ty c r T Cr _ _ N); [rewrite <- H0; reflexivity|].
      destruct C as (_ & _ & W). eapply Forall_forall; [apply (roles_wf s W)|]. left. exact H0.
Qed.
