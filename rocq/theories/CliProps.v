(** * The command line tool: proofs *)
From Coq Require Import String.
From Verif Require Import BaseFacts ConfigFacts ConfigEdit AuthFacts AuthProps AuthProps2 LifeProps HandlerRoles ConfigProps FreshPerms SdkAsk SdkProps.
From Verif Require Export Cli SpecCli SdkGrant.
Local Notation length := List.length.

(** ** Names *)
Lemma concat_one t : concat (one_byte t) = t.
Proof. induction t as [|c t IH]; [reflexivity|]. change (c :: concat (one_byte t) = c :: t). rewrite IH. reflexivity. Qed.
Lemma name_one t : (length t <= 32)%nat -> wallet_name (one_byte t) = t ++ repeat 48 (32 - length t).
Proof.
  intros L. unfold wallet_name. rewrite concat_one. unfold one_byte. rewrite map_length.
  apply firstn_all2. rewrite app_length, repeat_length. lia.
Qed.
Lemma name_half a b : (length a <= length b)%nat -> (length b <= 32)%nat -> wallet_name (one_byte a) = wallet_name (one_byte b) ->
  b = a ++ repeat 48 (length b - length a).
Proof.
  intros L L2 H. rewrite !name_one in H by lia. apply (f_equal (firstn (length b))) in H.
  rewrite (firstn_app_exact (length b) b) in H by reflexivity. rewrite firstn_app, firstn_all2 in H by lia.
  rewrite <- H at 1. f_equal. replace (32 - length a)%nat with ((length b - length a) + (32 - length b))%nat by lia.
  rewrite repeat_app. apply firstn_app_exact. apply repeat_length.
Qed.
Lemma name_pad a n : (length a + n <= 32)%nat -> wallet_name (one_byte (a ++ repeat 48 n)) = wallet_name (one_byte a).
Proof.
  intros L. rewrite !name_one by (rewrite ?app_length, ?repeat_length; lia). rewrite <- app_assoc. f_equal.
  rewrite app_length, repeat_length, <- repeat_app. f_equal. lia.
Qed.
Lemma same_name a b : (length a <= 32)%nat -> (length b <= 32)%nat ->
  (wallet_name (one_byte a) = wallet_name (one_byte b) <-> exists n, a = b ++ repeat 48 n \/ b = a ++ repeat 48 n).
Proof.
  intros La Lb. split.
  - intros H. destruct (Nat.le_ge_cases (length a) (length b)) as [L|L].
    + exists (length b - length a)%nat. right. apply name_half; assumption.
    + exists (length a - length b)%nat. left. apply name_half; [assumption..|symmetry; exact H].
  - intros (n & [->| ->]); rewrite app_length, repeat_length in *; [|symmetry]; apply name_pad; lia.
Qed.
Lemma concat_length (t : list bytes) : Forall (fun c => c <> []) t -> (length t <= length (concat t))%nat.
Proof.
  induction 1 as [|c t N _ IH]; [reflexivity|]. cbn. rewrite app_length. destruct c; [congruence|]. cbn. lia.
Qed.
Lemma name_size t : Forall (fun c => c <> []) t -> length (wallet_name t) = 32%nat.
Proof.
  intros F. apply concat_length in F. unfold wallet_name. rewrite firstn_length, app_length, repeat_length. lia.
Qed.
Lemma name_cut a x y : (32 <= length (concat a))%nat -> wallet_name (a ++ x) = wallet_name (a ++ y).
Proof.
  intros L. unfold wallet_name. rewrite !concat_app, <- !app_assoc, !firstn_app.
  replace (32 - length (concat a))%nat with 0%nat by lia. reflexivity.
Qed.

(** ** Permissions as JSON *)
Lemma says_field v k x : has_field v k x -> field k v = x.
Proof. unfold has_field, field. intros ->. reflexivity. Qed.
Lemma says_key_ok b58 v k x : says_key b58 v k x -> key_field b58 k v = Ok x.
Proof. intros (t & S & B). unfold key_field. rewrite (says_field _ _ _ S). cbn [as_str]. rewrite B. reflexivity. Qed.
Lemma says_amount v n : says_number v "amount" (Some n) -> amount_field v = n.
Proof. intros S. unfold amount_field. rewrite (says_field _ _ _ S). reflexivity. Qed.
Lemma says_num v k o : says_number v k o -> as_u64 (field k v) = o.
Proof.
  destruct o as [n|]; cbn [says_number]; intros S; [rewrite (says_field _ _ _ S); reflexivity|].
  unfold field. rewrite S. reflexivity.
Qed.
Lemma says_ren v r : says_renewal v r -> renewal_field v = r.
Proof.
  unfold renewal_field. destruct r as [q|]; cbn [says_renewal]; [|intros ->; reflexivity].
  intros (x & S & W & Q). unfold has_field in S. rewrite S. rewrite (says_field _ _ _ W). cbn [as_u64 or_else]. rewrite <- Q. reflexivity.
Qed.
Lemma as_written b58 v g : states b58 v g -> parse_permission b58 v = Ok g.
Proof.
  destruct g; cbn [states]; intros H; try contradiction; unfold parse_permission;
    repeat match goal with H : _ /\ _ |- _ => destruct H end;
    match goal with T : has_field v "type" _ |- _ => rewrite (says_field _ _ _ T) end; cbv beta iota zeta delta [word as_str];
    repeat match goal with |- context [beq (ascii_bytes ?a) (ascii_bytes ?b)] =>
      let x := eval vm_compute in (beq (ascii_bytes a) (ascii_bytes b)) in change (beq (ascii_bytes a) (ascii_bytes b)) with x; cbv iota end;
    repeat match goal with K : says_key _ _ _ _ |- _ => rewrite (says_key_ok _ _ _ _ K); clear K; cbn [bind] end;
    repeat match goal with K : says_renewal _ _ |- _ => rewrite (says_ren _ _ K); clear K end;
    repeat match goal with K : says_number _ "amount" _ |- _ => rewrite (says_amount _ _ K); clear K end;
    repeat match goal with K : says_number _ _ _ |- _ => rewrite (says_num _ _ _ K); clear K end; try reflexivity.
  match goal with K : has_field _ "subAccount" _ |- _ => rewrite (says_field _ _ _ K) end. cbn [as_str].
  match goal with K : length _ = 32%nat |- _ => rewrite K end. reflexivity.
Qed.
Lemma as_str_inv v t : as_str v = Some t -> v = JStr t.
Proof. destruct v; cbn; intros H; try discriminate. injection H as <-. reflexivity. Qed.
Lemma field_str k v t : as_str (field k v) = Some t -> has_field v k (JStr t).
Proof.
  intros H. apply as_str_inv in H. unfold field in H. unfold has_field. destruct (get k v); [congruence|discriminate].
Qed.
Lemma key_field_inv b58 k v x : key_field b58 k v = Ok x -> says_key b58 v k x.
Proof.
  unfold key_field. intros H. destruct (as_str (field k v)) as [t|] eqn:A; [|discriminate].
  exists t. split; [apply field_str; exact A|]. destruct (b58 t); cbn in H; congruence.
Qed.
Lemma complete_num v k : complete v -> In k numbers -> says_number v k (as_u64 (field k v)).
Proof.
  intros (_ & _ & C & _) I. unfold field. destruct (get k v) as [x|] eqn:G; [|exact G].
  destruct (C k x I G) as (n & ->). exact G.
Qed.
Lemma complete_amount v : complete v -> says_number v "amount" (Some (amount_field v)).
Proof.
  intros ((n & A) & _). unfold amount_field. rewrite (says_field _ _ _ A). exact A.
Qed.
Lemma complete_ren v : complete v -> says_renewal v (renewal_field v).
Proof.
  intros (_ & _ & _ & C). unfold renewal_field. destruct (get "recurring" v) as [x|] eqn:G; [|exact G].
  destruct (C x G) as (n & N). exists x. split; [exact G|]. rewrite (says_field _ _ _ N). split; [exact N|reflexivity].
Qed.
Lemma only_written b58 v g : parse_permission b58 v = Ok g -> complete v -> states b58 v g.
Proof.
  intros H C. unfold parse_permission in H. destruct (as_str (field "type" v)) as [t|] eqn:T; [|discriminate].
  apply field_str in T.
  repeat (match type of H with (if beq ?x ?y then _ else _) = _ => let e := fresh "e" in destruct (beq x y) eqn:e;
    [apply beq_eq in e; rewrite e in T; clear e|clear e] end);
  try discriminate; peel H; try (injection H as <-);
    repeat match goal with K : key_field _ _ _ = Ok _ |- _ => apply key_field_inv in K end;
    cbn [states]; try exact T; try (repeat split; try assumption; auto using complete_amount, complete_ren).
  - destruct C as (_ & (n & N) & _). rewrite (says_field _ _ _ N). exact N.
  - apply complete_num; [exact C|unfold numbers; cbn; tauto].
  - apply complete_num; [exact C|unfold numbers; cbn; tauto].
  - apply complete_num; [exact C|unfold numbers; cbn; tauto].
  - apply complete_num; [exact C|unfold numbers; cbn; tauto].
  - destruct (as_str (field "subAccount" v)) as [k|] eqn:K; [|discriminate]. apply field_str in K.
    destruct (length k =? 32)%nat eqn:L; [|discriminate]. injection H as <-. apply Nat.eqb_eq in L.
    cbn [states]. repeat split; assumption.
Qed.
(** amounts that are no numbers *)
Lemma defaulted b58 x : (forall n, x <> JNat n) ->
  parse_permission b58 (JObj [(ascii_bytes "type", word "sol"); (ascii_bytes "amount", x)]) = Ok (GSol 1000000000 None).
Proof. intros N. destruct x; try reflexivity. exfalso. eapply N. reflexivity. Qed.

(** ** Commas *)
Lemma piece_commas t : forall p, In p (pieces t) -> commas p = 0%nat.
Proof.
  induction t as [|c t IH]; cbn [pieces]; intros p H.
  - destruct H as [<-|[]]. reflexivity.
  - destruct (c =? 44) eqn:C.
    + destruct H as [<-|H]; [reflexivity|]. apply IH. exact H.
    + destruct (pieces t) as [|q qs].
      * destruct H as [<-|[]]. cbn. rewrite C. reflexivity.
      * destruct H as [<-|H]; [|apply IH; right; exact H]. cbn. rewrite C. cbn. apply IH. left. reflexivity.
Qed.
Lemma read_all_in read b58 l : forall gs, read_all read b58 l = Ok gs ->
  (forall g, In g gs -> exists t v, In t l /\ read t = Some v /\ parse_permission b58 v = Ok g)
  /\ (forall t, In t l -> exists v, read t = Some v).
Proof.
  induction l as [|t l IH]; cbn [read_all]; intros gs H.
  - injection H as <-. split; intros ? [].
  - destruct (read t) as [v|] eqn:R; [|discriminate H]. cbn [ok_or bind] in H.
    destruct (parse_permission b58 v) as [g| |] eqn:P; try discriminate H. cbn [bind] in H.
    destruct (read_all read b58 l) as [gs'| |] eqn:B0; try discriminate H. cbn [bind] in H. injection H as <-.
    destruct (IH _ eq_refl) as [I1 I2]. split.
    + intros g' [<-|H'].
      * exists t. eexists. split; [left; reflexivity|]. split; [exact R|eassumption].
      * destruct (I1 _ H') as (t' & v' & A & B' & C). exists t', v'. split; [right; exact A|]. split; assumption.
    + intros t' [<-|H']; [eexists; exact R|apply I2; exact H'].
Qed.
Lemma permissions_in read b58 vs gs : cli_permissions read b58 vs = Ok gs ->
  (forall g, In g gs -> exists t v, In t (flat_map pieces vs) /\ read t = Some v /\ parse_permission b58 v = Ok g)
  /\ (forall t, In t (flat_map pieces vs) -> exists v, read t = Some v).
Proof.
  unfold cli_permissions. destruct (flat_map pieces vs) as [|p l] eqn:F; [discriminate|]. apply read_all_in.
Qed.
Lemma single k x k' : beq (ascii_bytes k) (ascii_bytes k') = false -> get k' (JObj [(ascii_bytes k, x)]) = None.
Proof. intros N. cbn. rewrite N. reflexivity. Qed.
Lemma lone b58 v g : parse_permission b58 v = Ok g -> (forall l, v = JObj l -> (length l <= 1)%nat) ->
  In g [GAll; GCurated; GSol 1000000000 None; GAllButManage; GManage; GProgramAll].
Proof.
  intros H L. unfold parse_permission in H. destruct (as_str (field "type" v)) as [t|] eqn:T; [|discriminate].
  apply field_str in T. unfold has_field in T. assert (V : v = JObj [(ascii_bytes "type", JStr t)]).
  { destruct v as [| | | | | |l]; try discriminate. specialize (L l eq_refl). destruct l as [|[k x] [|? ?]]; [discriminate| |cbn in L; lia].
    cbn in T. destruct (beq k _) eqn:K; [|discriminate]. apply beq_eq in K. cbn in T. injection T as ->. rewrite K. reflexivity. }
  clear T L. unfold amount_field, renewal_field, key_field, field in H. rewrite V in H. rewrite !single in H by reflexivity. cbn [as_str as_u64 or_else] in H.
  repeat (match type of H with (if beq ?x ?y then _ else _) = _ => destruct (beq x y) end);
  try discriminate; injection H as <-; cbn [In]; tauto.
Qed.
Lemma comma_limits read b58 vs gs g : json_reader read -> cli_permissions read b58 vs = Ok gs -> In g gs ->
  In g [GAll; GCurated; GSol 1000000000 None; GAllButManage; GManage; GProgramAll].
Proof.
  intros (J & _) H I. apply permissions_in in H as [H _]. destruct (H g I) as (t & v & It & R & P).
  apply (lone _ _ _ P). intros l ->. apply J in R. apply in_flat_map in It as (u & _ & It). rewrite (piece_commas _ _ It) in R. exact R.
Qed.
Lemma bare_words read b58 vs gs t : json_reader read -> In t (flat_map pieces vs) -> ~ starts_value (first_char t) ->
  cli_permissions read b58 vs <> Ok gs.
Proof.
  intros (_ & J) I N H. apply permissions_in in H as [_ H]. destruct (H t I) as (v & R). exact (N (J _ _ R)).
Qed.
(** the kinds that can be named for removal *)
Lemma kinds_named t g : cli_kind t = Ok g -> ~ In (to_action_type g) [2; 6; 11; 17; 19; 20; 21; 22; 23; 24; 25; 26].
Proof.
  intros H. unfold cli_kind in H.
  repeat (match type of H with (if beq ?x ?y then _ else _) = _ => destruct (beq x y) end);
  try discriminate; injection H as <-; cbn; intros Q; decompose [or] Q; (discriminate || contradiction).
Qed.

(** ** The sub-account permission *)
Lemma sub_refused E cx w w' ty c gs k : wf_ctx cx -> order_of (c_data cx) = Some (AddRole ty c (enc_actions 0 (to_client_actions gs))) ->
  Forall grant_ok gs -> In (GSub k) gs -> k <> zeros 32 -> ~ succeeds E cx w w'.
Proof.
  intros Wc O G I N H. pose proof (proj1 Wc) as Wb. assert (T : tag (c_data cx) = 1) by exact (proj1 (add_says _ _ _ _ O)).
  unfold succeeds in H. by_tag H T. unfold add_authority_v1 in H. cbv zeta in H. peels H.
  match goal with B : add_role _ _ _ _ _ = Ok _ |- _ => pose proof B as Ba end.
  eapply add_role_laid with (l := to_client_actions gs) in Ba.
  - apply laid_unspent in Ba. rewrite Forall_forall in Ba. specialize (Ba (client_action (GSub k)) (in_map client_action _ _ I)).
    destruct Ba as (_ & _ & _ & _ & Ba). specialize (Ba eq_refl). cbn [client_action ac_data] in Ba.
    rewrite Forall_forall in G. specialize (G _ I). cbn [grant_ok] in G. destruct G as [G _].
    apply N. rewrite sub_l0 in Ba by exact G. exact Ba.
  - apply all_bytes_sub. exact Wb.
  - match goal with |- parses ?d _ => replace d with (enc_actions 0 (to_client_actions gs)) end.
    + apply parses_enc. apply Forall_forall. intros a Ia. apply in_map_iff in Ia as (g & <- & Ig).
      apply client_wf. rewrite Forall_forall in G. apply G. exact Ig.
    + symmetry. unfold order_of in O. cbv zeta in O.
      repeat match type of O with (if ?b then _ else _) = _ => let e := fresh in destruct b eqn:e; [try discriminate O|] end; try discriminate.
      injection O as _ _ O. exact O.
Qed.
Lemma typed_not_zero k : typed k -> length k = 32%nat -> k <> zeros 32.
Proof. intros T L Q. subst k. unfold typed in T. cbn in T. inversion T. lia. Qed.
