(** * When the edits of the role table succeed.

    The other files show what a successful edit does; here: which edits succeed. *)
From Verif Require Import BaseFacts SpecConfig ConfigFacts ConfigEdit NewCredential ConfigEdit2 ConfigEdit3.
From Verif Require Import Frame HandlerRoles SpecAvail.

Definition can {A} (m : res A) : Prop := exists a, m = Ok a.

Lemma can_ok {A} (a : A) : can (Ok a).
Proof. exists a. reflexivity. Qed.
Lemma can_bind {A B} (m : res A) (f : A -> res B) a : m = Ok a -> can (f a) -> can (bind m f).
Proof. intros -> [b H]. exists b. exact H. Qed.
Lemma can_then {A B} (m : res A) (f : A -> res B) : can m -> (forall a, m = Ok a -> can (f a)) -> can (bind m f).
Proof. intros [a H] K. rewrite H. cbn. apply K. exact H. Qed.
Lemma can_check {B} b e (f : unit -> res B) : b = true -> can (f tt) -> can (bind (check b e) f).
Proof. intros -> [c H]. exists c. exact H. Qed.
Lemma can_guard {B} b (f : unit -> res B) : b = true -> can (f tt) -> can (bind (guard b) f).
Proof. intros -> [c H]. exists c. exact H. Qed.

Lemma permission_can ty n : action_len ty = Some n -> permission ty = Ok ty.
Proof.
  intros H. apply action_len_bound in H as [_ H]. unfold permission. replace ((0 <=? ty) && (ty <=? 26)) with true by lia. reflexivity.
Qed.

(** a permission that is well-formed and unspent passes the check of its kind *)
Lemma unspent_laid a : wf_action a -> unspent a -> validate_layout (ac_ty a) (ac_data a) = Ok true.
Proof.
  intros [L _] (U1 & U2 & U3 & U4 & U5). unfold validate_layout.
  unfold P_SolRecurringLimit, P_StakeRecurringLimit, P_TokenRecurringLimit, P_SolRecurringDestinationLimit, P_TokenRecurringDestinationLimit, P_SubAccount in *.
  set (d := ac_data a) in *. set (t := ac_ty a) in *.
  assert (Q : forall n m, action_len t = Some n -> action_len t = Some m -> n = m) by congruence.
  destruct ((t =? 2) || (t =? 11)) eqn:E1.
  { assert (D : t = 2 \/ t = 11) by lia.
    assert (Ld : length d = 32%nat) by (destruct D as [D|D]; rewrite D in L; unfold action_len in L; cbn in L; congruence).
    destruct U1 as [A B]; [cbn [In]; lia|]. rewrite A, B, Ld, !beq_refl. reflexivity. }
  destruct (t =? 6) eqn:E2.
  { assert (D : t = 6) by lia. assert (Ld : length d = 64%nat) by (rewrite D in L; unfold action_len in L; cbn in L; congruence).
    destruct (U2 D) as [A B]. rewrite A, B, Ld, !beq_refl. reflexivity. }
  destruct (t =? 17) eqn:E3.
  { assert (D : t = 17) by lia. assert (Ld : length d = 64%nat) by (rewrite D in L; unfold action_len in L; cbn in L; congruence).
    destruct (U3 D) as [A B]. rewrite Ld. do 2 f_equal. cbn [Nat.eqb andb]. lia. }
  destruct (t =? 19) eqn:E4.
  { assert (D : t = 19) by lia. assert (Ld : length d = 96%nat) by (rewrite D in L; unfold action_len in L; cbn in L; congruence).
    destruct (U4 D) as [A B]. rewrite Ld. do 2 f_equal. cbn [Nat.eqb andb]. lia. }
  destruct (t =? 9) eqn:E5.
  { assert (D : t = 9) by lia. assert (Ld : length d = 72%nat) by (rewrite D in L; unfold action_len in L; cbn in L; congruence).
    rewrite (U5 D), Ld, beq_refl. reflexivity. }
  rewrite L, Nat.eqb_refl. reflexivity.
Qed.
Lemma unspent_laid_out l : Forall wf_action l -> Forall unspent l -> laid_out l.
Proof. intros W U. unfold laid_out. rewrite Forall_forall in *. intros a I. apply unspent_laid; auto. Qed.

(** ** Permission lists of a client *)
Lemma parses_at d cursor a t : (cursor <= length d)%nat -> parses (skipn cursor d) (a :: t) ->
  hdr_ty cursor d = ac_ty a /\ hdr_len cursor d = length (ac_data a) /\ sub (cursor + 8) (length (ac_data a)) d = ac_data a
  /\ parses (skipn (cursor + 8 + length (ac_data a)) d) t /\ (cursor + 8 + length (ac_data a) <= length d)%nat
  /\ action_len (ac_ty a) = Some (length (ac_data a)).
Proof.
  intros Hc Hp. destruct (parses_fields _ _ Hp _ _ eq_refl) as (F1 & F2 & F3 & F4 & F5 & F6 & F7).
  rewrite <- hdr_ty_skipn in F1. rewrite <- hdr_len_skipn in F2. rewrite <- sub_skipn in F3.
  rewrite skipn_skipn', Nat.add_assoc in F4. rewrite skipn_length in F5. repeat (split; [assumption|]). split; [lia|assumption].
Qed.

Lemma calc_can l : forall fuel d cursor count, parses (skipn cursor d) l -> (cursor <= length d)%nat -> (length l < fuel)%nat ->
  laid_out l -> 0 <= count -> count + Z.of_nat (length l) < U8 -> (0 < count \/ l <> []) ->
  calc_loop fuel d cursor count = Ok (count + Z.of_nat (length l)).
Proof.
  induction l as [|a t IH]; intros [|f] d cursor count P Hc Hf L C0 C1 C2; cbn [length] in *; try lia; cbn [calc_loop].
  - pose proof (parses_length _ _ P) as Lp. rewrite skipn_length in Lp. cbn in Lp.
    replace (cursor <? length d)%nat with false by lia.
    destruct C2 as [C2|C2]; [|congruence]. replace (count =? 0) with false by lia. cbn. f_equal. lia.
  - destruct (parses_at _ _ _ _ Hc P) as (F1 & F2 & F3 & F4 & F5 & F6). inversion L as [|? ? La Lt]; subst.
    replace (cursor <? length d)%nat with true by lia.
    replace (cursor + 8 <=? length d)%nat with true by lia. cbn [check bind].
    rewrite F2. replace (cursor + 8 + length (ac_data a) <=? length d)%nat with true by lia. cbn [check bind].
    rewrite F1, (permission_can _ _ F6). cbn [bind]. rewrite F3, La. cbn [check bind].
    replace (count + 1 <? U8) with true by lia. cbn [check bind].
    rewrite IH; try assumption; try lia. f_equal. lia.
Qed.
Lemma acts_len_count l : (8 * length l <= acts_len l)%nat.
Proof. apply acts_len_ge. Qed.
Lemma num_actions_can d l : parses d l -> laid_out l -> (1 <= length l <= 255)%nat ->
  calculate_num_actions d = Ok (Z.of_nat (length l)).
Proof.
  intros P L N. unfold calculate_num_actions. pose proof (parses_length _ _ P) as Lp. pose proof (acts_len_count l).
  rewrite (calc_can l); try assumption; try lia; try reflexivity; unfold U8; try lia.
  right. destruct l; [cbn in N; lia|discriminate].
Qed.

Lemma v2_keys_can l : forall fuel d cursor acc, parses (skipn cursor d) l -> (cursor <= length d)%nat -> (length l < fuel)%nat ->
  can (v2_keys_loop fuel d cursor acc).
Proof.
  induction l as [|a t IH]; intros [|f] d cursor acc P Hc Hf; cbn [length] in *; try lia; cbn [v2_keys_loop].
  - pose proof (parses_length _ _ P) as Lp. rewrite skipn_length in Lp. cbn in Lp.
    replace (cursor + 8 <=? length d)%nat with false by lia. apply can_ok.
  - destruct (parses_at _ _ _ _ Hc P) as (F1 & F2 & F3 & F4 & F5 & F6).
    replace (cursor + 8 <=? length d)%nat with true by lia. rewrite F2.
    apply can_check; [lia|]. rewrite F1, (permission_can _ _ F6). cbn [bind]. apply IH; [assumption|lia|lia].
Qed.
Lemma reject_dup_can d l : parses d l -> NoDup (v2_scopes l) -> reject_duplicate_v2_scoped d = Ok tt.
Proof.
  intros P N. unfold reject_duplicate_v2_scoped. pose proof (parses_length _ _ P) as Lp. pose proof (acts_len_count l).
  destruct (v2_keys_can l (S (length d)) d 0 []) as [ks K]; [exact P|lia|lia|].
  rewrite K. cbn [bind]. apply v2_keys_parses with (l := l) in K; [|exact P|lia]. rewrite app_nil_r in K. subst ks.
  assert (D : has_dup (rev (v2_scopes l)) = false) by (apply has_dup_nodup, NoDup_rev, N). rewrite D. reflexivity.
Qed.

Lemma copy_can l : forall acts ac start cur buf, parses (skipn ac acts) l -> (ac <= length acts)%nat -> laid_out l ->
  (cur + acts_len l <= length buf)%nat -> can (copy_actions (length l) acts ac start cur buf).
Proof.
  induction l as [|a t IH]; intros acts ac start cur buf P Ha L Hb; cbn [length copy_actions]; [apply can_ok|].
  destruct (parses_at _ _ _ _ Ha P) as (F1 & F2 & F3 & F4 & F5 & F6). inversion L as [|? ? La Lt]; subst. cbn [acts_len] in Hb.
  unfold slice at 1. replace (ac + 8 <=? length acts)%nat with true by lia. cbn [bind].
  rewrite F2. unfold slice. replace (ac + 8 + length (ac_data a) <=? length acts)%nat with true by lia. cbn [bind].
  rewrite F1, (permission_can _ _ F6). cbn [bind]. rewrite F3, La. cbn [check bind].
  apply can_guard; [lia|]. apply IH; [assumption|lia|exact Lt|].
  assert (H0 : length (sub ac 8 acts) = 8%nat) by (apply sub_length; lia).
  rewrite !splice_length; rewrite ?splice_length; rewrite ?splice_length, ?le_enc_length, ?H0; lia.
Qed.

(** ** A new credential *)
Lemma set_can ty c old : credential_ok ty c -> can (set_into_bytes ty c old).
Proof.
  intros H. unfold set_into_bytes.
  destruct H as [(-> & L)|[(-> & L)|[(-> & L)|[(-> & L)|[(-> & L)|[(-> & L)|(L & P & N)]]]]]];
    cbn [Z.eqb Pos.eqb T_Ed25519 T_Ed25519Session T_Secp256k1 T_Secp256k1Session T_Secp256r1 T_Secp256r1Session T_ProgramExec T_ProgramExecSession].
  1,2,4,5,6: rewrite L; apply can_ok.
  - destruct L as [-> | ->]; apply can_ok.
  - assert (P' : beq (sub 0 32 c) SELF = false) by (apply beq_neq; exact P).
    assert (N' : byte_at 32 c <=? 40 = true) by (apply Z.leb_le; exact N).
    destruct L as [(-> & L)|(-> & L)]; cbn [Z.eqb Pos.eqb]; rewrite L, P', N'; apply can_ok.
Qed.
Lemma credential_type ty c : credential_ok ty c -> authority_type ty = Ok ty /\ exists n, authority_len ty = Some n.
Proof.
  intros H. assert (D : ty = 1 \/ ty = 2 \/ ty = 3 \/ ty = 4 \/ ty = 5 \/ ty = 6 \/ ty = 7 \/ ty = 8) by (unfold credential_ok in H; tauto).
  destruct D as [-> | [-> | [-> | [-> | [-> | [-> | [-> | ->]]]]]]]; split; try reflexivity; eexists; reflexivity.
Qed.

(** ** Adding a role *)
Lemma add_role_can s slack ty adata acts l al :
  Forall wf_role (s_roles s) -> length (s_id s) = 32%nat -> length (s_pad s) = 3%nat -> is_u32 (s_counter s) ->
  Z.of_nat (length (s_roles s)) < 65536 -> Z.of_nat (roles_size (s_roles s) + length slack) < U32 ->
  credential_ok ty adata -> authority_len ty = Some al ->
  parses acts l -> laid_out l -> (1 <= length l <= 255)%nat -> NoDup (v2_scopes l) ->
  (16 + al + acts_len l <= length slack)%nat ->
  can (add_role (enc_header s) (enc_roles 0 (s_roles s) ++ slack) ty adata acts).
Proof.
  intros Wr Wid Wpad Wc Wn Hsm Cr Al P L N D Hf. unfold add_role.
  rewrite (num_actions_can _ _ P L N). cbn [bind]. rewrite (reject_dup_can _ _ P D). cbn [bind].
  assert (Hr : h_roles (enc_header s) = Z.of_nat (length (s_roles s)))
    by (rewrite <- (app_nil_r (enc_header s)); apply hf_roles; assumption).
  rewrite Hr, nat_of_nat. pose proof (enc_roles_length 0 _ Wr) as HL.
  rewrite (walk_end_at 0) by (try assumption; try (apply roles_at_enc; assumption); lia). cbn [bind Nat.add].
  rewrite Al. cbn [ok_or bind]. unfold slice, POS. rewrite app_length, HL.
  replace (roles_size (s_roles s) + 16 + al <=? roles_size (s_roles s) + length slack)%nat with true by lia. cbn [bind].
  apply can_then; [apply set_can; exact Cr|]. intros auth Ha.
  assert (La : length auth = al).
  { apply set_into_bytes_length in Ha; [|rewrite sub_length; [exact Al|rewrite app_length, HL; lia]].
    rewrite sub_length in Ha by (rewrite app_length, HL; lia). exact Ha. }
  apply can_then; [|intros; apply can_ok].
  rewrite nat_of_nat. apply copy_can; [exact P|lia|exact L|].
  rewrite !splice_length; rewrite ?splice_length; rewrite ?splice_length; rewrite ?app_length, ?le_enc_length, ?HL; lia.
Qed.
