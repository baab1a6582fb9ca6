(** * Reading configurations: the byte walkers agree with [SpecConfig]. *)
From Verif Require Import BaseFacts Actions Roles SpecConfig.

Arguments enc_action : simpl never.
Arguments enc_role : simpl never.
Arguments role_len : simpl never.
Arguments enc_header : simpl never.
Arguments nat_of : simpl never.
Arguments hdr_ty : simpl never.
Arguments hdr_len : simpl never.
Arguments hdr_boundary : simpl never.
Arguments p_type : simpl never.
Arguments p_alen : simpl never.
Arguments p_nact : simpl never.
Arguments p_id : simpl never.
Arguments p_bound : simpl never.
Arguments action_len : simpl never.
Arguments authority_len : simpl never.

Lemma nat_of_nat n : nat_of (Z.of_nat n) = n.
Proof. apply Nat2Z.id. Qed.

(** ** Splices *)
Lemma splice_adjacent o a b d :
  (o + length a + length b <= length d)%nat ->
  splice (o + length a) b (splice o a d) = splice o (a ++ b) d.
Proof.
  intros H. unfold splice at 1.
  rewrite skipn_splice by lia.
  assert (E : firstn (o + length a) (splice o a d) = firstn o d ++ a).
  { unfold splice. rewrite app_assoc. apply firstn_app_exact.
    rewrite app_length, firstn_length. lia. }
  rewrite E. unfold splice. rewrite <- !app_assoc. f_equal. f_equal. f_equal.
  f_equal. rewrite app_length. lia.
Qed.
Lemma splice_over o a c b d :
  length c = length b -> (o + length a + length c <= length d)%nat ->
  splice (o + length a) b (splice o (a ++ c) d) = splice o (a ++ b) d.
Proof.
  intros Hc H. unfold splice at 1 2 3.
  replace (firstn o d ++ (a ++ c) ++ skipn (o + length (a ++ c)) d)
    with ((firstn o d ++ a) ++ c ++ skipn (o + length (a ++ c)) d) by (rewrite !app_assoc; reflexivity).
  rewrite firstn_app_exact by (rewrite app_length, firstn_length; lia).
  rewrite (app_assoc (firstn o d ++ a) c).
  rewrite skipn_app_exact by (rewrite !app_length, firstn_length; lia).
  rewrite <- !app_assoc. rewrite !app_length. do 4 f_equal. lia.
Qed.
Lemma splice_nil o d : splice o [] d = d.
Proof. unfold splice. cbn. rewrite Nat.add_0_r. apply firstn_skipn. Qed.
Lemma splice_firstn_skipn o a d : splice o a d = firstn o d ++ a ++ skipn (o + length a) d.
Proof. reflexivity. Qed.

(** ** Lengths *)
Lemma enc_action_length st a : length (enc_action st a) = (8 + length (ac_data a))%nat.
Proof. unfold enc_action. rewrite !app_length, !le_enc_length. lia. Qed.
Lemma enc_actions_length st l : length (enc_actions st l) = acts_len l.
Proof.
  revert st; induction l as [|a t IH]; intros st; cbn; [reflexivity|].
  rewrite app_length, enc_action_length, IH. lia.
Qed.
Lemma enc_role_length st r : length (r_pad r) = 2%nat -> length (enc_role st r) = role_len r.
Proof.
  intros H. unfold enc_role, role_len. rewrite !app_length, !le_enc_length, enc_actions_length. lia.
Qed.
Lemma wf_pad r : wf_role r -> length (r_pad r) = 2%nat.
Proof. intros H; apply H. Qed.
Lemma enc_roles_length st l : Forall wf_role l -> length (enc_roles st l) = roles_size l.
Proof.
  intros H; revert st; induction H as [|r t Hr Ht IH]; intros st; cbn; [reflexivity|].
  rewrite app_length, enc_role_length, IH by (apply wf_pad; exact Hr). reflexivity.
Qed.
Lemma enc_roles_app st l1 l2 :
  enc_roles st (l1 ++ l2) = enc_roles st l1 ++ enc_roles (st + roles_size l1) l2.
Proof.
  revert st; induction l1 as [|r t IH]; intros st; cbn.
  - rewrite Nat.add_0_r; reflexivity.
  - rewrite IH, <- app_assoc. do 3 f_equal. lia.
Qed.
Lemma roles_size_app l1 l2 : roles_size (l1 ++ l2) = (roles_size l1 + roles_size l2)%nat.
Proof. induction l1; cbn; lia. Qed.
Lemma enc_actions_app st l1 l2 :
  enc_actions st (l1 ++ l2) = enc_actions st l1 ++ enc_actions (st + acts_len l1) l2.
Proof.
  revert st; induction l1 as [|r t IH]; intros st; cbn.
  - rewrite Nat.add_0_r; reflexivity.
  - rewrite IH, <- app_assoc. do 3 f_equal. lia.
Qed.
Lemma acts_len_app l1 l2 : acts_len (l1 ++ l2) = (acts_len l1 + acts_len l2)%nat.
Proof. induction l1; cbn; lia. Qed.
Lemma role_len_ge r : (16 <= role_len r)%nat.
Proof. unfold role_len; lia. Qed.
Lemma roles_size_ge l : (16 * length l <= roles_size l)%nat.
Proof. induction l as [|r t IH]; cbn [length roles_size]; [lia|]. pose proof (role_len_ge r). lia. Qed.
Lemma acts_len_ge l : (8 * length l <= acts_len l)%nat.
Proof. induction l; cbn [length acts_len]; lia. Qed.

Lemma enc_action_bytes st a : wf_action a -> all_bytes (enc_action st a).
Proof. intros [_ H]. unfold enc_action. rewrite !all_bytes_app. auto using le_enc_bytes. Qed.
Lemma enc_actions_bytes st l : Forall wf_action l -> all_bytes (enc_actions st l).
Proof.
  intros H; revert st; induction H; intros st; cbn; [constructor|].
  rewrite all_bytes_app; auto using enc_action_bytes.
Qed.
Lemma enc_role_bytes st r : wf_role r -> all_bytes (enc_role st r).
Proof.
  intros (H1 & H2 & H3 & H4 & H5 & (H6 & H7 & H8)). unfold enc_role. rewrite !all_bytes_app.
  repeat split; auto using le_enc_bytes, enc_actions_bytes.
Qed.
Lemma enc_roles_bytes st l : Forall wf_role l -> all_bytes (enc_roles st l).
Proof.
  intros H; revert st; induction H; intros st; cbn; [constructor|].
  rewrite all_bytes_app; auto using enc_role_bytes.
Qed.

(** ** Fields of one role *)
Definition role_at (o : nat) (buf : bytes) (r : role) : Prop :=
  (o + role_len r <= length buf)%nat /\ sub o (role_len r) buf = enc_role o r.

Lemma role_at_le o buf r : role_at o buf r -> (o + role_len r <= length buf)%nat.
Proof. intros [H _]; exact H. Qed.
Lemma role_at_app o pre r post : length pre = o -> wf_role r ->
  role_at o (pre ++ enc_role o r ++ post) r.
Proof.
  intros H Hr. pose proof (enc_role_length o r (wf_pad _ Hr)) as L. split.
  - rewrite !app_length, L. lia.
  - apply sub_app_exact; [exact H|exact L].
Qed.

Lemma authority_len_bound ty n : authority_len ty = Some n -> (32 <= n <= 128)%nat /\ 1 <= ty <= 8.
Proof.
  unfold authority_len, T_Ed25519, T_Ed25519Session, T_Secp256k1, T_Secp256k1Session, T_Secp256r1,
    T_Secp256r1Session, T_ProgramExec, T_ProgramExecSession.
  repeat match goal with |- context [if ?b then _ else _] => destruct b eqn:?E end;
    intros H; inv H; lia.
Qed.
Lemma action_len_bound ty n : action_len ty = Some n -> (n <= 144)%nat /\ 1 <= ty <= 26.
Proof.
  intros H.
  assert (B : 1 <= ty <= 26 \/ action_len ty = None).
  { destruct (Z_le_gt_dec 1 ty); [destruct (Z_le_gt_dec ty 26); [left; lia|]|];
    right; unfold action_len; repeat match goal with |- context [?a =? ?b] =>
      replace (a =? b) with false by (symmetry; apply Z.eqb_neq; unfold P_SolLimit, P_SolRecurringLimit,
       P_Program, P_ProgramScope, P_TokenLimit, P_TokenRecurringLimit, P_All, P_ManageAuthority, P_SubAccount,
       P_StakeLimit, P_StakeRecurringLimit, P_StakeAll, P_ProgramAll, P_ProgramCurated,
       P_AllButManageAuthority, P_SolDestinationLimit, P_SolRecurringDestinationLimit,
       P_TokenDestinationLimit, P_TokenRecurringDestinationLimit, P_CloseSwigAuthority,
       P_ReplaceAuthority, P_SubAccountV2Create, P_SubAccountV2All, P_SubAccountV2Sign,
       P_SubAccountV2Withdraw, P_SubAccountV2Toggle; lia) end; reflexivity. }
  destruct B as [B|B]; [|congruence]. split; [|exact B].
  unfold action_len in H.
  repeat match type of H with (if ?b then _ else _) = _ => destruct b; [inv H; lia|] end. discriminate.
Qed.

Lemma acts_len_bound l : Forall wf_action l -> (acts_len l <= 152 * length l)%nat.
Proof.
  induction 1 as [|a t [Ha _] Ht IH]; cbn [acts_len length]; [lia|].
  apply action_len_bound in Ha. lia.
Qed.
Lemma role_len_bound r : wf_role r -> Z.of_nat (role_len r) < 65536.
Proof.
  intros (H1 & H2 & H3 & H4 & H5 & (H6 & H7 & H8)). apply authority_len_bound in H2.
  apply acts_len_bound in H7. unfold role_len. lia.
Qed.

Section RoleFields.
  Variables (o : nat) (buf : bytes) (r : role).
  Hypothesis Hat : role_at o buf r.
  Hypothesis Hwf : wf_role r.
  Hypothesis Hsm : Z.of_nat (o + role_len r) < U32.

  Lemma role_sub k n : (k + n <= role_len r)%nat -> sub (o + k) n buf = sub k n (enc_role o r).
  Proof. intros H. destruct Hat as [_ E]. rewrite <- E, sub_sub by exact H. reflexivity. Qed.

  Lemma fld_type : p_type o buf = r_aty r.
  Proof.
    unfold p_type, u16_at. pose proof (role_len_ge r). replace o with (o + 0)%nat at 1 by lia.
    rewrite role_sub by lia. replace (sub 0 2 (enc_role o r)) with (le_enc 2 (r_aty r)) by reflexivity.
    apply le2. destruct Hwf as (_ & H2 & _). apply authority_len_bound in H2. unfold is_u16, U16. lia.
  Qed.
  Lemma fld_alen : p_alen o buf = length (r_auth r).
  Proof.
    unfold p_alen, u16_at. pose proof (role_len_ge r).
    rewrite role_sub by lia. replace (sub 2 2 (enc_role o r)) with (le_enc 2 (Z.of_nat (length (r_auth r)))) by reflexivity.
    rewrite le2; [apply nat_of_nat|].
    destruct Hwf as (_ & H2 & _). apply authority_len_bound in H2. unfold is_u16, U16. lia.
  Qed.
  Lemma fld_nact : p_nact o buf = Z.of_nat (length (r_acts r)).
  Proof.
    unfold p_nact, u16_at. pose proof (role_len_ge r).
    rewrite role_sub by lia. replace (sub 4 2 (enc_role o r)) with (le_enc 2 (Z.of_nat (length (r_acts r)))) by reflexivity.
    apply le2. destruct Hwf as (_ & _ & _ & _ & _ & H6 & _). unfold is_u16, U16. lia.
  Qed.
  Lemma fld_id : p_id o buf = r_id r.
  Proof.
    unfold p_id, u32_at. pose proof (role_len_ge r).
    rewrite role_sub by lia.
    replace (sub 8 4 (enc_role o r)) with (le_enc 4 (r_id r)).
    - apply le4. apply Hwf.
    - pose proof (wf_pad _ Hwf) as P. unfold enc_role. destruct (r_pad r) as [|p [|q [|x l]]]; try discriminate P. reflexivity.
  Qed.
  Lemma fld_bound : p_bound o buf = (o + role_len r)%nat.
  Proof.
    unfold p_bound, u32_at. pose proof (role_len_ge r).
    rewrite role_sub by lia.
    replace (sub 12 4 (enc_role o r)) with (le_enc 4 (Z.of_nat (o + role_len r))).
    - rewrite le4; [apply nat_of_nat|]. unfold is_u32; lia.
    - pose proof (wf_pad _ Hwf) as P. unfold enc_role. destruct (r_pad r) as [|p [|q [|x l]]]; try discriminate P. reflexivity.
  Qed.
  Lemma enc_role_split : exists h, length h = 16%nat /\ enc_role o r = h ++ r_auth r ++ enc_actions 0 (r_acts r).
  Proof.
    eexists. split; [|unfold enc_role; rewrite !app_assoc; reflexivity].
    rewrite !app_length, !le_enc_length, wf_pad by exact Hwf. reflexivity.
  Qed.
  Lemma fld_auth : sub (o + 16) (length (r_auth r)) buf = r_auth r.
  Proof.
    rewrite role_sub by (unfold role_len; lia). destruct enc_role_split as (h & H1 & ->).
    apply sub_app_exact; [exact H1|reflexivity].
  Qed.
  Lemma fld_acts : sub (o + 16 + length (r_auth r)) (acts_len (r_acts r)) buf = enc_actions 0 (r_acts r).
  Proof.
    rewrite <- Nat.add_assoc. rewrite role_sub by (unfold role_len; lia).
    destruct enc_role_split as (h & H1 & ->). rewrite app_assoc.
    rewrite <- (app_nil_r (enc_actions 0 (r_acts r))) at 1.
    apply sub_app_exact; [rewrite app_length; lia|apply enc_actions_length].
  Qed.
End RoleFields.

(** ** Walks over the roles *)
Fixpoint roles_at (o : nat) (buf : bytes) (l : list role) : Prop :=
  match l with
  | [] => True
  | r :: t => role_at o buf r /\ roles_at (o + role_len r) buf t
  end.
Lemma roles_at_app o pre l post : length pre = o -> Forall wf_role l ->
  roles_at o (pre ++ enc_roles o l ++ post) l.
Proof.
  intros H Hl; revert o pre H; induction Hl as [|r t Hr Ht IH]; intros o pre H; cbn; [exact I|].
  rewrite <- app_assoc. split; [apply role_at_app; assumption|].
  rewrite (app_assoc pre). apply IH. rewrite app_length, enc_role_length by (apply wf_pad; exact Hr). lia.
Qed.
Lemma roles_at_enc l post : Forall wf_role l -> roles_at 0 (enc_roles 0 l ++ post) l.
Proof. intros H. apply (roles_at_app 0 [] l post); [reflexivity|exact H]. Qed.
Lemma roles_at_len o buf l : roles_at o buf l -> l <> [] -> (o + roles_size l <= length buf)%nat.
Proof.
  revert o; induction l as [|r t IH]; intros o H Hn; [congruence|]. cbn in *. destruct H as [H1 H2].
  destruct t as [|r2 t2].
  - destruct H1 as [H1 _]. cbn. lia.
  - specialize (IH _ H2 ltac:(discriminate)). lia.
Qed.

Lemma roles_end_at o rt l : Forall wf_role l -> roles_at o rt l -> Z.of_nat (o + roles_size l) < U32 ->
  roles_end_loop (length l) rt o = Ok (o + roles_size l)%nat.
Proof.
  intros Hl; revert o; induction Hl as [|r t Hr Ht IH]; intros o Hat Hsm; cbn in *.
  - f_equal; lia.
  - destruct Hat as [H1 H2]. pose proof (role_len_ge r). pose proof (role_at_le _ _ _ H1).
    rewrite (fld_bound o rt r) by (try assumption; lia).
    replace (o + POS <=? length rt)%nat with true by (unfold POS; lia).
    replace ((o + POS <=? o + role_len r)%nat && (o + role_len r <=? length rt)%nat) with true by (unfold POS; lia).
    cbn. rewrite IH by (try assumption; lia). f_equal; lia.
Qed.

(** offset of the role with id [i] *)
Fixpoint pos_of (i : Z) (o : nat) (l : list role) : option (nat * role) :=
  match l with
  | [] => None
  | r :: t => if r_id r =? i then Some (o, r) else pos_of i (o + role_len r) t
  end.
Lemma pos_of_find i o l : option_map snd (pos_of i o l) = find (fun r => r_id r =? i) l.
Proof. revert o; induction l as [|r t IH]; intros o; cbn; [reflexivity|]. destruct (r_id r =? i); [reflexivity|apply IH]. Qed.
Lemma pos_of_split i o l p r : pos_of i o l = Some (p, r) ->
  exists l1 l2, l = l1 ++ r :: l2 /\ p = (o + roles_size l1)%nat /\ r_id r = i
                /\ (forall x, In x l1 -> r_id x <> i).
Proof.
  revert o; induction l as [|x t IH]; intros o; cbn; [discriminate|].
  destruct (r_id x =? i) eqn:E.
  - intros H; inv H. exists [], t. cbn. split; [reflexivity|split; [lia|split; [lia|intros y []]]].
  - intros H. apply IH in H as (l1 & l2 & -> & -> & H1 & H2).
    exists (x :: l1), l2. cbn. split; [reflexivity|split; [lia|split; [exact H1|intros y [<-|Hy]; [lia|auto]]]].
Qed.

Lemma find_role_at fuel i o buf l :
  Forall wf_role l -> roles_at o buf l -> length buf = (o + roles_size l)%nat ->
  Z.of_nat (length buf) < U32 -> (length l < fuel)%nat ->
  find_role_loop fuel i buf o = Ok (option_map fst (pos_of i o l)).
Proof.
  intros Hl; revert fuel o; induction Hl as [|r t Hr Ht IH]; intros fuel o Hat Hlen Hsm Hf;
    (destruct fuel as [|f]; [cbn in Hf; lia|]); cbn [find_role_loop pos_of].
  - cbn in Hlen. replace (o <? length buf)%nat with false by lia. reflexivity.
  - cbn in Hlen, Hat. destruct Hat as [H1 H2]. pose proof (role_len_ge r). pose proof (role_at_le _ _ _ H1).
    replace (o <? length buf)%nat with true by lia.
    replace (o + POS <=? length buf)%nat with true by (unfold POS; lia).
    rewrite (fld_id o buf r) by (try assumption; lia). cbn [check bind].
    destruct (r_id r =? i) eqn:E; [reflexivity|].
    rewrite (fld_bound o buf r) by (try assumption; lia).
    replace ((o + POS <=? o + role_len r)%nat && (o + role_len r <=? length buf)%nat) with true by (unfold POS; lia).
    cbn [length] in Hf. cbn [check bind]. apply IH; try assumption; lia.
Qed.

Definition view_of (o : nat) (r : role) : rview :=
  {| rv_off := o; rv_ty := r_aty r; rv_nact := Z.of_nat (length (r_acts r)) mod U8;
     rv_auth := r_auth r; rv_acts := enc_actions 0 (r_acts r) |}.

Lemma view_at_role o buf r : role_at o buf r -> wf_role r -> Z.of_nat (o + role_len r) < U32 ->
  view_at o buf = Ok (view_of o r).
Proof.
  intros Hat Hwf Hsm. unfold view_at.
  rewrite (fld_alen o buf r), (fld_type o buf r), (fld_bound o buf r), (fld_nact o buf r) by assumption.
  pose proof (role_at_le _ _ _ Hat) as Hl.
  pose proof Hwf as (W1 & W2 & W3 & W4 & W5 & W6).
  pose proof (authority_len_bound _ _ W2) as B.
  replace (o + POS + length (r_auth r) <=? length buf)%nat with true by (unfold role_len, POS in *; lia).
  cbn [guard bind]. unfold authority_type. replace ((1 <=? r_aty r) && (r_aty r <=? 8)) with true by lia.
  cbn [bind]. rewrite W2. cbn [ok_or bind]. rewrite Nat.eqb_refl. cbn [check bind].
  replace ((o + POS + length (r_auth r) <=? o + role_len r)%nat && (o + role_len r <=? length buf)%nat) with true
    by (unfold role_len, POS in *; lia).
  cbn [guard bind]. unfold view_of. f_equal. f_equal.
  - unfold POS. apply (fld_auth o buf r); assumption.
  - unfold POS. replace (o + role_len r - (o + 16 + length (r_auth r)))%nat with (acts_len (r_acts r))
      by (unfold role_len; lia).
    apply (fld_acts o buf r); assumption.
Qed.

Lemma roles_at_mid l1 r l2 o buf : roles_at o buf (l1 ++ r :: l2) -> role_at (o + roles_size l1) buf r.
Proof.
  revert o; induction l1 as [|x t IH]; intros o; cbn.
  - rewrite Nat.add_0_r. intros H; apply H.
  - intros [_ H]. apply IH in H. rewrite Nat.add_assoc. exact H.
Qed.

Definition enc_table (l : list role) : bytes := enc_roles 0 l.
Lemma get_mut_role_enc i l : Forall wf_role l -> Z.of_nat (roles_size l) < U32 ->
  get_mut_role i (enc_roles 0 l)
  = Ok (option_map (fun p => view_of (fst p) (snd p)) (pos_of i 0 l)).
Proof.
  intros Hl Hsm. unfold get_mut_role.
  pose proof (enc_roles_length 0 l Hl) as HL. pose proof (roles_size_ge l) as Hge.
  pose proof (roles_at_enc l [] Hl) as Hat. rewrite app_nil_r in Hat.
  rewrite (find_role_at _ i 0 _ l) by (try assumption; lia).
  destruct (pos_of i 0 l) as [[p r]|] eqn:E; cbn [option_map bind]; [|reflexivity].
  apply pos_of_split in E as (l1 & l2 & -> & -> & _).
  rewrite roles_size_app in *. cbn in *.
  apply Forall_app in Hl as [_ Hl]. inv Hl.
  rewrite (view_at_role _ _ r); [reflexivity| |assumption|lia].
  apply (roles_at_mid l1 r l2 0). exact Hat.
Qed.

(** ** Fields of one action *)
Definition action_at (st o : nat) (buf : bytes) (a : action) : Prop :=
  (o + 8 + length (ac_data a) <= length buf)%nat
  /\ sub o (8 + length (ac_data a)) buf = enc_action st a.
Lemma action_at_app st o pre a post : length pre = o -> action_at st o (pre ++ enc_action st a ++ post) a.
Proof.
  intros H. pose proof (enc_action_length st a) as L. split.
  - rewrite !app_length, L. lia.
  - apply sub_app_exact; [exact H|exact L].
Qed.
Section ActionFields.
  Variables (st o : nat) (buf : bytes) (a : action).
  Hypothesis Hat : action_at st o buf a.
  Hypothesis Hwf : wf_action a.

  Lemma act_sub k n : (k + n <= 8 + length (ac_data a))%nat -> sub (o + k) n buf = sub k n (enc_action st a).
  Proof. intros H. destruct Hat as [_ E]. rewrite <- E, sub_sub by exact H. reflexivity. Qed.
  Lemma afld_ty : hdr_ty o buf = ac_ty a.
  Proof.
    unfold hdr_ty, u16_at. replace o with (o + 0)%nat by lia. rewrite act_sub by lia.
    replace (sub 0 2 (enc_action st a)) with (le_enc 2 (ac_ty a)) by reflexivity.
    apply le2. destruct Hwf as (H2 & _). apply action_len_bound in H2. unfold is_u16, U16. lia.
  Qed.
  Lemma afld_len : hdr_len o buf = length (ac_data a).
  Proof.
    unfold hdr_len, u16_at. rewrite act_sub by lia.
    replace (sub 2 2 (enc_action st a)) with (le_enc 2 (Z.of_nat (length (ac_data a)))) by reflexivity.
    rewrite le2; [apply nat_of_nat|]. destruct Hwf as (H2 & _). apply action_len_bound in H2. unfold is_u16, U16. lia.
  Qed.
  Lemma afld_bound : Z.of_nat (st + 8 + length (ac_data a)) < U32 ->
    hdr_boundary o buf = (st + 8 + length (ac_data a))%nat.
  Proof.
    intros H. unfold hdr_boundary, u32_at. rewrite act_sub by lia.
    replace (sub 4 4 (enc_action st a)) with (le_enc 4 (Z.of_nat (st + 8 + length (ac_data a)))) by reflexivity.
    rewrite le4; [apply nat_of_nat|]. unfold is_u32; lia.
  Qed.
  Lemma afld_data : sub (o + 8) (length (ac_data a)) buf = ac_data a.
  Proof.
    rewrite act_sub by lia.
    assert (E : exists h, length h = 8%nat /\ enc_action st a = h ++ ac_data a ++ []).
    { eexists. split; [|unfold enc_action; rewrite app_nil_r, !app_assoc; reflexivity].
      rewrite !app_length, !le_enc_length. reflexivity. }
    destruct E as (h & E1 & E2). rewrite E2. apply sub_app_exact; [exact E1|reflexivity].
  Qed.
End ActionFields.

Fixpoint actions_at (st o : nat) (buf : bytes) (l : list action) : Prop :=
  match l with
  | [] => True
  | a :: t => action_at st o buf a
              /\ actions_at (st + 8 + length (ac_data a)) (o + 8 + length (ac_data a)) buf t
  end.
Lemma actions_at_app st o pre l post : length pre = o -> actions_at st o (pre ++ enc_actions st l ++ post) l.
Proof.
  revert st o pre; induction l as [|a t IH]; intros st o pre H; cbn; [exact I|].
  rewrite <- app_assoc. split; [apply action_at_app; exact H|].
  rewrite (app_assoc pre). apply IH. rewrite app_length, enc_action_length. lia.
Qed.

(** payload offset of the first action of type [ty] matching [q] *)
Fixpoint act_pos (ty : Z) (q : bytes) (o : nat) (l : list action) : option nat :=
  match l with
  | [] => None
  | a :: t => if (ac_ty a =? ty) && action_matches ty q (ac_data a) then Some (o + 8)%nat
              else act_pos ty q (o + 8 + length (ac_data a)) t
  end.
Lemma act_pos_has ty q o l :
  is_some (act_pos ty q o l) = existsb (fun a => (ac_ty a =? ty) && action_matches ty q (ac_data a)) l.
Proof.
  revert o; induction l as [|a t IH]; intros o; cbn; [reflexivity|].
  destruct ((ac_ty a =? ty) && action_matches ty q (ac_data a)); [reflexivity|apply IH].
Qed.
Lemma act_pos_split ty q o l p : act_pos ty q o l = Some p ->
  exists l1 a l2, l = l1 ++ a :: l2 /\ p = (o + acts_len l1 + 8)%nat /\ ac_ty a = ty
    /\ action_matches ty q (ac_data a) = true
    /\ (forall x, In x l1 -> (ac_ty x =? ty) && action_matches ty q (ac_data x) = false).
Proof.
  revert o; induction l as [|x t IH]; intros o; cbn; [discriminate|].
  destruct ((ac_ty x =? ty) && action_matches ty q (ac_data x)) eqn:E.
  - intros H; inv H. exists [], x, t. apply andb_prop in E as [E1 E2].
    cbn. split; [reflexivity|]. split; [lia|]. split; [lia|]. split; [assumption|]. intros y [].

  - intros H. apply IH in H as (l1 & a & l2 & -> & -> & H1 & H2 & H3).
    exists (x :: l1), a, l2. cbn. split; [reflexivity|]. split; [lia|]. split; [lia|]. split; [assumption|].
    intros y [<-|Hy]; [exact E|auto].
Qed.

Lemma get_action_at fuel ty q o buf l :
  Forall wf_action l -> actions_at o o buf l -> length buf = (o + acts_len l)%nat ->
  Z.of_nat (length buf) < U32 -> (length l < fuel)%nat ->
  get_action_loop fuel ty q buf o = Ok (act_pos ty q o l).
Proof.
  intros Hl; revert fuel o; induction Hl as [|a t Ha Ht IH]; intros fuel o Hat Hlen Hsm Hf;
    (destruct fuel as [|f]; [cbn in Hf; lia|]); cbn [get_action_loop act_pos].
  - cbn in Hlen. replace (o <? length buf)%nat with false by lia. reflexivity.
  - cbn [acts_len actions_at length] in Hlen, Hat, Hf. destruct Hat as [H1 H2].
    replace (o <? length buf)%nat with true by lia.
    replace (o + 8 <=? length buf)%nat with true by lia. cbn [guard bind].
    rewrite (afld_ty o o buf a) by assumption.
    rewrite (afld_bound o o buf a) by (try assumption; lia).
    pose proof Ha as [Hal _]. pose proof (action_len_bound _ _ Hal) as B.
    unfold permission. replace ((0 <=? ac_ty a) && (ac_ty a <=? 26)) with true by lia. cbn [bind].
    destruct (ac_ty a =? ty) eqn:E.
    + apply Z.eqb_eq in E. subst ty. rewrite Hal.
      replace (o + 8 + length (ac_data a) <=? length buf)%nat with true by lia. cbn [guard bind].
      rewrite (afld_data o o buf a) by assumption. cbn [andb].
      destruct (action_matches (ac_ty a) q (ac_data a)); [reflexivity|].
      apply IH; try assumption; lia.
    + cbn [andb]. apply IH; try assumption; lia.
Qed.

Lemma get_action_mut_enc ty q l : Forall wf_action l -> Z.of_nat (acts_len l) < U32 ->
  get_action_mut ty q (enc_actions 0 l) = Ok (act_pos ty q 0 l).
Proof.
  intros Hl Hs. unfold get_action_mut. pose proof (enc_actions_length 0 l) as HL. pose proof (acts_len_ge l).
  apply get_action_at; try assumption; try lia.
  pose proof (actions_at_app 0 0 [] l [] eq_refl) as A. rewrite app_nil_r in A. exact A.
Qed.
Lemma get_action_enc ty q l : l <> [] -> Forall wf_action l -> Z.of_nat (acts_len l) < U32 ->
  get_action ty q (enc_actions 0 l) = Ok (act_pos ty q 0 l).
Proof.
  intros Hn Hl Hs. unfold get_action. rewrite enc_actions_length.
  destruct l as [|a t]; [congruence|]. cbn [acts_len]. replace (8 <=? _)%nat with true by lia. cbn [check bind].
  pose proof (enc_actions_length 0 (a :: t)) as HL. cbn [acts_len] in HL.
  replace (S (8 + length (ac_data a) + acts_len t))%nat with (S (length (enc_actions 0 (a :: t)))) by lia.
  apply (get_action_mut_enc ty q (a :: t)); assumption.
Qed.

Lemma wf_role_acts_small r : wf_role r -> Z.of_nat (acts_len (r_acts r)) < U32.
Proof. intros H. apply role_len_bound in H. unfold role_len in H. unfold U32. lia. Qed.
Lemma wf_role_acts_ne r : wf_role r -> r_acts r <> [].
Proof. intros (_ & _ & _ & _ & _ & (H & _)) E. rewrite E in H. cbn in H. lia. Qed.
Lemma has_action_enc ty q r : wf_role r ->
  has_action ty q (enc_actions 0 (r_acts r)) = Ok (has ty q r).
Proof.
  intros H. unfold has_action. rewrite get_action_enc;
    [|apply wf_role_acts_ne; exact H|apply H|apply wf_role_acts_small; exact H].
  cbn [bind]. rewrite act_pos_has. reflexivity.
Qed.

(** ** Action lists supplied by a client: same as [enc_actions] except that the
    boundary words are arbitrary *)
Lemma parses_length d l : parses d l -> length d = acts_len l.
Proof. induction 1; cbn; [reflexivity|]. rewrite !app_length, !le_enc_length. lia. Qed.
Lemma parses_enc st l : Forall wf_action l -> parses (enc_actions st l) l.
Proof.
  intros H; revert st; induction H as [|a t [Ha _] Ht IH]; intros st; cbn; [constructor|].
  unfold enc_action. rewrite <- !app_assoc. destruct a as [ty data].
  apply parses_cons; [exact Ha|apply le_enc_length|apply IH].
Qed.
Lemma parses_wf d l : all_bytes d -> parses d l -> Forall wf_action l.
Proof.
  intros Hb H; induction H as [|ty bnd data rest l Hl Hbn Hp IH]; constructor.
  - split; [exact Hl|]. rewrite !all_bytes_app in Hb. apply Hb.
  - apply IH. rewrite !all_bytes_app in Hb. apply Hb.
Qed.

(** one action at the head of a buffer *)
Lemma parse_head d n : all_bytes d -> (8 + n <= length d)%nat -> hdr_len 0 d = n ->
  action_len (hdr_ty 0 d) = Some n ->
  d = le_enc 2 (hdr_ty 0 d) ++ le_enc 2 (Z.of_nat n) ++ sub 4 4 d ++ sub 8 n d ++ skipn (8 + n) d.
Proof.
  intros Hb Hl Hn Ha.
  assert (E1 : le_enc 2 (hdr_ty 0 d) = sub 0 2 d).
  { unfold hdr_ty, u16_at. rewrite <- (sub_length 0 2 d) at 1 by lia.
    apply le_enc_le, all_bytes_sub, Hb. }
  assert (E2 : le_enc 2 (Z.of_nat n) = sub 2 2 d).
  { unfold hdr_len, nat_of in Hn. pose proof (u16_bound (0 + 2) d Hb) as B. unfold is_u16 in B.
    assert (E : u16_at (0 + 2) d = Z.of_nat n) by lia.
    rewrite <- E. unfold u16_at. rewrite <- (sub_length 2 2 d) at 1 by lia.
    apply le_enc_le, all_bytes_sub, Hb. }
  rewrite E1, E2. unfold sub. cbn [skipn].
  replace (skipn (8 + n) d) with (skipn n (skipn 8 d)) by (rewrite skipn_skipn'; reflexivity).
  rewrite firstn_skipn.
  replace (skipn 8 d) with (skipn 4 (skipn 4 d)) by (rewrite skipn_skipn'; reflexivity).
  rewrite firstn_skipn.
  replace (skipn 4 d) with (skipn 2 (skipn 2 d)) by (rewrite skipn_skipn'; reflexivity).
  rewrite firstn_skipn. change (skipn 0 d) with d. symmetry. apply firstn_skipn.
Qed.

Lemma sub_skipn o k n d : sub (o + k) n d = sub k n (skipn o d).
Proof. unfold sub. rewrite skipn_skipn'. reflexivity. Qed.
Lemma hdr_ty_skipn o d : hdr_ty o d = hdr_ty 0 (skipn o d).
Proof. unfold hdr_ty, u16_at. rewrite <- (Nat.add_0_r o) at 1. rewrite sub_skipn. reflexivity. Qed.
Lemma hdr_len_skipn o d : hdr_len o d = hdr_len 0 (skipn o d).
Proof. unfold hdr_len, u16_at. rewrite sub_skipn. reflexivity. Qed.

Lemma permission_ok ty p : permission ty = Ok p -> p = ty /\ 0 <= ty <= 26.
Proof. unfold permission. destruct ((0 <=? ty) && (ty <=? 26)) eqn:E; [|discriminate]. intros H; inv H. lia. Qed.

Lemma validate_len ty data : validate_layout ty data = Ok true -> action_len ty = Some (length data).
Proof.
  unfold validate_layout. intros H.
  repeat match type of H with
  | (if ?b then _ else _) = _ => destruct b eqn:?E
  end; try (bind_inv H; inv K);
  repeat match goal with
  | h : _ && _ = true |- _ => apply andb_prop in h as [? ?]
  | h : _ || _ = true |- _ => apply orb_prop in h as [?|?]
  | h : (_ =? _) = true |- _ => apply Z.eqb_eq in h
  | h : (_ =? _)%nat = true |- _ => apply Nat.eqb_eq in h
  | h : Ok _ = Ok true |- _ => inv h
  end; subst; try match goal with h : length data = _ |- _ => rewrite h; reflexivity end.
  destruct (action_len ty) as [n|]; [|discriminate]. inv H. apply Nat.eqb_eq in H1. congruence.
Qed.

Lemma calc_parses fuel d cursor count n : all_bytes d -> (cursor <= length d)%nat ->
  calc_loop fuel d cursor count = Ok n ->
  exists l, parses (skipn cursor d) l /\ n = count + Z.of_nat (length l) /\ n <> 0
            /\ (0 <= count < U8 -> n < U8)
            /\ Forall (fun a => validate_layout (ac_ty a) (ac_data a) = Ok true) l.
Proof.
  intros Hb; revert cursor count; induction fuel as [|f IH]; intros cursor count Hc H; cbn in H; [discriminate|].
  destruct (cursor <? length d)%nat eqn:E1.
  - peel H. apply Nat.leb_le in B. apply Nat.leb_le in B0.
    apply permission_ok in B1 as [-> B1].
    assert (K : exists l, parses (skipn (cursor + 8 + hdr_len cursor d) d) l /\ n = count + 1 + Z.of_nat (length l)
            /\ n <> 0 /\ (0 <= count + 1 < U8 -> n < U8)
            /\ Forall (fun a => validate_layout (ac_ty a) (ac_data a) = Ok true) l) by (apply IH; [lia|exact H]).
    destruct K as (l & K1 & K2 & K3 & K4 & K5). subst v0.
    pose proof (validate_len _ _ B2) as V. rewrite sub_length in V by lia.
    exists (mk_action (hdr_ty cursor d) (sub (cursor + 8) (hdr_len cursor d) d) :: l).
    split; [|split; [cbn [length]; lia|split; [exact K3|split; [lia|constructor; [exact B2|exact K5]]]]].
    rewrite (parse_head (skipn cursor d) (hdr_len cursor d)).
    + rewrite <- hdr_ty_skipn, <- (sub_skipn cursor 8), skipn_skipn'.
      replace (Z.of_nat (hdr_len cursor d))
        with (Z.of_nat (length (sub (cursor + 8) (hdr_len cursor d) d))) by (rewrite sub_length by lia; reflexivity).
      apply parses_cons.
      * rewrite sub_length by lia. exact V.
      * apply sub_length. rewrite skipn_length. lia.
      * rewrite Nat.add_assoc. exact K1.
    + apply all_bytes_skipn, Hb.
    + rewrite skipn_length. lia.
    + symmetry; apply hdr_len_skipn.
    + rewrite <- hdr_ty_skipn. exact V.
  - peel H. inv H. exists []. rewrite skipn_all2 by lia.
    split; [constructor|]. cbn [length]. repeat split; try lia. constructor.
Qed.
(** permissions that pass the check of their kind on fresh data *)
Definition laid_out (l : list action) : Prop := Forall (fun a => validate_layout (ac_ty a) (ac_data a) = Ok true) l.
Lemma num_actions_parses d n : all_bytes d -> calculate_num_actions d = Ok n ->
  exists l, parses d l /\ n = Z.of_nat (length l) /\ (1 <= length l <= 255)%nat
            /\ Forall (fun a => validate_layout (ac_ty a) (ac_data a) = Ok true) l.
Proof.
  intros Hb H. apply calc_parses in H as (l & H1 & H2 & H3 & H4 & H5); [|exact Hb|lia].
  exists l. change (skipn 0 d) with d in H1. unfold U8 in H4.
  split; [exact H1|split; [lia|split; [lia|exact H5]]].
Qed.

(** skipping over a prefix of a parsed buffer *)
Lemma parses_fields d l : parses d l -> forall a t, l = a :: t ->
  hdr_ty 0 d = ac_ty a /\ hdr_len 0 d = length (ac_data a) /\ sub 8 (length (ac_data a)) d = ac_data a
  /\ parses (skipn (8 + length (ac_data a)) d) t /\ (8 + length (ac_data a) <= length d)%nat
  /\ action_len (ac_ty a) = Some (length (ac_data a))
  /\ firstn 4 d = le_enc 2 (ac_ty a) ++ le_enc 2 (Z.of_nat (length (ac_data a))).
Proof.
  intros H a t El. destruct H as [|ty bnd data rest l Hl Hbn Hp]; [discriminate|]. inv El.
  cbn [ac_ty ac_data] in *. pose proof (action_len_bound _ _ Hl) as B.
  assert (E1 : hdr_ty 0 (le_enc 2 ty ++ le_enc 2 (Z.of_nat (length data)) ++ bnd ++ data ++ rest) = ty).
  { unfold hdr_ty, u16_at. replace (sub 0 2 _) with (le_enc 2 ty) by reflexivity. apply le2. unfold is_u16, U16; lia. }
  assert (E2 : hdr_len 0 (le_enc 2 ty ++ le_enc 2 (Z.of_nat (length data)) ++ bnd ++ data ++ rest) = length data).
  { unfold hdr_len, u16_at. replace (sub _ 2 _) with (le_enc 2 (Z.of_nat (length data))) by reflexivity.
    rewrite le2 by (unfold is_u16, U16; lia). apply nat_of_nat. }
  split; [exact E1|split; [exact E2|]].
  replace (le_enc 2 ty ++ le_enc 2 (Z.of_nat (length data)) ++ bnd ++ data ++ rest)
    with ((le_enc 2 ty ++ le_enc 2 (Z.of_nat (length data)) ++ bnd) ++ data ++ rest) by (rewrite <- !app_assoc; reflexivity).
  assert (L8 : length (le_enc 2 ty ++ le_enc 2 (Z.of_nat (length data)) ++ bnd) = 8%nat)
    by (rewrite !app_length, !le_enc_length; lia).
  split; [apply sub_app_exact; [exact L8|reflexivity]|].
  split.
  { rewrite app_assoc. rewrite skipn_app_exact by (rewrite app_length; lia). assumption. }
  split; [rewrite !app_length in *; lia|]. split; [exact Hl|].
  rewrite <- !app_assoc. rewrite (app_assoc (le_enc 2 ty)). apply firstn_app_exact.
  rewrite app_length, !le_enc_length. reflexivity.
Qed.

Lemma parses_det d l1 : parses d l1 -> forall l2, parses d l2 -> l1 = l2.
Proof.
  induction 1 as [|ty bnd data rest l Hl Hbn Hp IH]; intros l2 H2.
  - inv H2. reflexivity.
  - pose proof (parses_cons ty bnd data rest l Hl Hbn Hp) as H1.
    destruct (parses_fields _ _ H1 _ _ eq_refl) as (A1 & A2 & A3 & A4 & A5 & A6 & A7).
    cbn [ac_ty ac_data] in *.
    destruct l2 as [|a2 t2].
    + apply parses_length in H2. cbn [acts_len] in H2. lia.
    + destruct (parses_fields _ _ H2 _ _ eq_refl) as (B1 & B2 & B3 & B4 & B5 & B6 & B7).
      destruct a2 as [ty2 data2]. cbn [ac_ty ac_data] in *.
      assert (ty2 = ty) by congruence. subst ty2.
      assert (length data2 = length data) by congruence.
      assert (data2 = data) by (rewrite <- B3, <- A3; congruence). subst data2.
      f_equal; [rewrite A1; reflexivity|]. apply IH.
      assert (Es : skipn (8 + length data)
         (le_enc 2 ty ++ le_enc 2 (Z.of_nat (length data)) ++ bnd ++ data ++ rest) = rest).
      { rewrite !app_assoc. apply skipn_app_exact. rewrite !app_length, !le_enc_length. lia. }
      rewrite Es in B4. exact B4.
Qed.

(** ** Duplicate V2 scopes *)
Lemma v2_key_scope ty data : action_len ty = Some (length data) ->
  v2_dedup_key ty data = v2_scope (mk_action ty data).
Proof.
  intros H. unfold v2_dedup_key, v2_scope. cbn [ac_ty ac_data].
  unfold P_SubAccountV2Create, P_SubAccountV2All, P_SubAccountV2Sign, P_SubAccountV2Withdraw, P_SubAccountV2Toggle.
  destruct (ty =? 22) eqn:E; [apply Z.eqb_eq in E; subst; reflexivity|].
  destruct ((23 <=? ty) && (ty <=? 26)) eqn:E2.
  - assert (D : ty = 23 \/ ty = 24 \/ ty = 25 \/ ty = 26) by lia.
    assert (length data = 8%nat) as L.
    { destruct D as [-> | [-> | [-> | ->]]]; unfold action_len in H; cbn in H; congruence. }
    rewrite L. destruct D as [-> | [-> | [-> | ->]]]; reflexivity.
  - replace ((ty =? 23) || (ty =? 24) || (ty =? 25) || (ty =? 26)) with false by lia. reflexivity.
Qed.
Lemma v2_keys_parses fuel d cursor acc ks l : parses (skipn cursor d) l -> (cursor <= length d)%nat ->
  v2_keys_loop fuel d cursor acc = Ok ks -> ks = rev (v2_scopes l) ++ acc.
Proof.
  revert cursor acc l; induction fuel as [|f IH]; intros cursor acc l Hp Hc H; cbn in H; [discriminate|].
  pose proof (parses_length _ _ Hp) as HL. rewrite skipn_length in HL.
  destruct (cursor + 8 <=? length d)%nat eqn:E.
  - peel H. apply Nat.leb_le in B. apply permission_ok in B0 as [-> B0].
    destruct l as [|a t]; [cbn in HL; lia|].
    destruct (parses_fields _ _ Hp _ _ eq_refl) as (F1 & F2 & F3 & F4 & F5 & F6 & F7).
    rewrite <- hdr_ty_skipn in F1. rewrite <- hdr_len_skipn in F2. rewrite <- sub_skipn in F3.
    rewrite F1, F2, F3 in H. rewrite F2 in B.
    rewrite skipn_skipn' in F4. rewrite Nat.add_assoc in F4.
    apply IH with (l := t) in H; [|exact F4|lia].
    destruct a as [ty data]. cbn [ac_ty ac_data] in *. rewrite v2_key_scope in H by exact F6.
    cbn [v2_scopes]. destruct (v2_scope {| ac_ty := ty; ac_data := data |}); [|exact H].
    cbn [rev]. rewrite <- app_assoc. exact H.
  - inv H. destruct l as [|a t]; [reflexivity|]. cbn in HL. lia.
Qed.
Lemma key2_eqb_eq a b : key2_eqb a b = true <-> a = b.
Proof.
  destruct a as [a1 a2], b as [b1 b2]. unfold key2_eqb. cbn [fst snd]. split.
  - intros H. apply andb_prop in H as [H1 H2]. apply Z.eqb_eq in H1, H2. congruence.
  - intros H; inv H. rewrite !Z.eqb_refl. reflexivity.
Qed.
Lemma has_dup_nodup l : has_dup l = false <-> NoDup l.
Proof.
  induction l as [|k t IH]; cbn.
  - split; [constructor|reflexivity].
  - rewrite Bool.orb_false_iff, IH. split.
    + intros [H1 H2]. constructor; [|exact H2]. intros Hin.
      assert (existsb (key2_eqb k) t = true).
      { apply existsb_exists. exists k. split; [exact Hin|apply key2_eqb_eq; reflexivity]. }
      congruence.
    + intros H; inv H. split; [|assumption].
      destruct (existsb (key2_eqb k) t) eqn:E; [|reflexivity].
      apply existsb_exists in E as (x & Hx & Hk). apply key2_eqb_eq in Hk. subst. contradiction.
Qed.
Lemma reject_dup_nodup d l : parses d l -> reject_duplicate_v2_scoped d = Ok tt -> NoDup (v2_scopes l).
Proof.
  intros Hp H. unfold reject_duplicate_v2_scoped in H. peel H. apply check_ok in H.
  apply v2_keys_parses with (l := l) in B; [|exact Hp|lia]. rewrite app_nil_r in B. subst.
  apply negb_true_iff, has_dup_nodup in H. apply NoDup_rev in H. rewrite rev_involutive in H. exact H.
Qed.
