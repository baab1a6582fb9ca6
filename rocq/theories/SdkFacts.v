(** * What the SDK reads of a well-formed configuration *)
From Verif Require Import BaseFacts ConfigFacts ConfigEdit AuthFacts.
From Verif Require Export Sdk.

Lemma read_role_at i : forall l o buf, Forall wf_role l -> roles_at o buf l ->
  Z.of_nat (o + roles_size l) < U32 ->
  read_role_loop (length l) i buf o
  = Ok (option_map (fun p => view_of (fst p) (snd p)) (pos_of i o l)).
Proof.
  intros l o buf Hl; revert o; induction Hl as [|r t Hr Ht IH]; intros o Hat Hs;
    cbn [length read_role_loop pos_of]; [reflexivity|].
  cbn in Hat, Hs. destruct Hat as [H1 H2]. pose proof (role_len_ge r). pose proof (role_at_le _ _ _ H1).
  replace (o + POS <=? length buf)%nat with true by (unfold POS; lia). cbn [guard bind].
  rewrite (fld_id o buf r) by (try assumption; lia). destruct (r_id r =? i) eqn:E.
  - rewrite (view_at_role o buf r) by (try assumption; lia). reflexivity.
  - rewrite (fld_bound o buf r) by (try assumption; lia). apply IH; [exact H2|lia].
Qed.
Lemma lookup_at q : forall l o buf, Forall wf_role l -> roles_at o buf l ->
  Z.of_nat (o + roles_size l) < U32 ->
  lookup_loop (length l) q buf o
  = Ok (option_map r_id (find (fun r => (32 <=? length q)%nat && match_data (r_aty r) (r_auth r) q) l)).
Proof.
  intros l o buf Hl; revert o; induction Hl as [|r t Hr Ht IH]; intros o Hat Hs;
    cbn [length lookup_loop find]; [reflexivity|].
  cbn in Hat, Hs. destruct Hat as [H1 H2]. pose proof (role_len_ge r). pose proof (role_at_le _ _ _ H1).
  replace (o + POS <=? length buf)%nat with true by (unfold POS; lia). cbn [guard bind].
  rewrite (view_at_role o buf r) by (try assumption; lia). cbn [bind view_of rv_ty rv_auth].
  destruct ((32 <=? length q)%nat && match_data (r_aty r) (r_auth r) q).
  - cbn [option_map]. rewrite (fld_id o buf r) by (try assumption; lia). reflexivity.
  - rewrite (fld_bound o buf r) by (try assumption; lia). apply IH; [exact H2|lia].
Qed.


Section Cfg.
Variable s : config.
Hypothesis W : wf_config s.
Let d := enc_config s.

Lemma read_open_enc : read_open d = Ok (enc_roles 0 (s_roles s)).
Proof. unfold read_open, d. rewrite (split_parts_enc s W). reflexivity. Qed.
Lemma count_enc : nat_of (h_roles d) = length (s_roles s).
Proof.
  pose proof W as (W1 & (W2 & W2') & W3 & W4 & W5 & W6 & W7 & W8 & W9 & W10 & W11 & W12 & W13).
  unfold d, enc_config. rewrite hf_roles by assumption. apply nat_of_nat.
Qed.
Lemma counter_enc : h_counter d = s_counter s.
Proof.
  pose proof W as (W1 & (W2 & W2') & W3 & W4 & W5 & W6 & W7 & W8 & W9 & W10 & W11 & W12 & W13).
  unfold d, enc_config. apply hf_counter; assumption.
Qed.
Lemma subctr_enc : h_subctr d = s_subctr s.
Proof.
  pose proof W as (W1 & (W2 & W2') & W3 & W4 & W5 & W6 & W7 & W8 & W9 & W10 & W11 & W12 & W13).
  unfold d, enc_config. apply hf_subctr; assumption.
Qed.
Lemma roles_wf : Forall wf_role (s_roles s).
Proof. apply W. Qed.
Lemma small : Z.of_nat (0 + roles_size (s_roles s)) < U32.
Proof. pose proof (wf_roles_small s W). unfold HDR in *. lia. Qed.

Lemma read_role_enc i : read_role d i = Ok (option_map (fun p => view_of (fst p) (snd p)) (pos_of i 0 (s_roles s))).
Proof.
  unfold read_role. rewrite read_open_enc, count_enc. cbn [bind].
  apply read_role_at; [apply roles_wf| |apply small].
  pose proof (roles_at_enc (s_roles s) [] roles_wf) as H. rewrite app_nil_r in H. exact H.
Qed.
Lemma read_role_some i r : find_role i s = Some r -> exists o, read_role d i = Ok (Some (view_of o r)).
Proof.
  intros F. rewrite read_role_enc. unfold find_role in F. rewrite <- (pos_of_find i 0) in F.
  destruct (pos_of i 0 (s_roles s)) as [[o r']|]; [|discriminate]. injection F as ->. exists o. reflexivity.
Qed.
Lemma read_role_none i : find_role i s = None -> read_role d i = Ok None.
Proof.
  intros F. rewrite read_role_enc. unfold find_role in F. rewrite <- (pos_of_find i 0) in F.
  destruct (pos_of i 0 (s_roles s)) as [[o r']|]; [discriminate|reflexivity].
Qed.
Lemma lookup_enc q : lookup_role_id d q
  = Ok (option_map r_id (find (fun r => (32 <=? length q)%nat && match_data (r_aty r) (r_auth r) q) (s_roles s))).
Proof.
  unfold lookup_role_id. rewrite read_open_enc, count_enc. cbn [bind].
  apply lookup_at; [apply roles_wf| |apply small].
  pose proof (roles_at_enc (s_roles s) [] roles_wf) as H. rewrite app_nil_r in H. exact H.
Qed.
Lemma with_role_some {A} i r (f : rview -> res A) : find_role i s = Some r -> exists o, with_role d i f = f (view_of o r).
Proof. intros F. destruct (read_role_some i r F) as (o & H). exists o. unfold with_role. rewrite H. reflexivity. Qed.
End Cfg.

(** ** Permissions *)
Definition datas (ty : Z) (l : list action) : list bytes := map ac_data (filter (fun a => ac_ty a =? ty) l).
Lemma all_of_at fuel ty : action_len ty <> None -> forall l o buf,
  Forall wf_action l -> actions_at o o buf l -> length buf = (o + acts_len l)%nat ->
  Z.of_nat (length buf) < U32 -> (length l < fuel)%nat ->
  all_of_loop fuel ty buf o = Ok (datas ty l).
Proof.
  intros Hty l o buf Hl; revert fuel o; induction Hl as [|a t Ha Ht IH]; intros fuel o Hat Hlen Hsm Hf;
    (destruct fuel as [|f]; [cbn in Hf; lia|]); cbn [all_of_loop].
  - cbn in Hlen. replace (o <? length buf)%nat with false by lia. reflexivity.
  - cbn [acts_len actions_at length] in Hlen, Hat, Hf. destruct Hat as [H1 H2].
    replace (o <? length buf)%nat with true by lia.
    replace (o + 8 <=? length buf)%nat with true by lia. cbn [guard bind].
    rewrite (afld_ty o o buf a) by assumption.
    rewrite (afld_bound o o buf a) by (try assumption; lia).
    pose proof Ha as [Hal _]. pose proof (action_len_bound _ _ Hal) as B.
    unfold permission. replace ((0 <=? ac_ty a) && (ac_ty a <=? 26)) with true by lia. cbn [bind].
    unfold datas. cbn [filter]. destruct (ac_ty a =? ty) eqn:E.
    + apply Z.eqb_eq in E. subst ty. rewrite Hal. cbn [ok_or bind].
      replace (o + 8 + length (ac_data a) <=? length buf)%nat with true by lia. cbn [guard bind].
      rewrite (afld_data o o buf a) by assumption.
      rewrite (IH f) by (try assumption; lia). reflexivity.
    + apply IH; try assumption; lia.
Qed.
Lemma all_of_enc ty l : action_len ty <> None -> l <> [] -> Forall wf_action l -> Z.of_nat (acts_len l) < U32 ->
  all_of ty (enc_actions 0 l) = Ok (datas ty l).
Proof.
  intros Hty Hn Hl Hs. unfold all_of. pose proof (enc_actions_length 0 l) as HL. pose proof (acts_len_ge l).
  destruct l as [|a t]; [congruence|].
  replace (8 <=? length (enc_actions 0 (a :: t)))%nat with true by (rewrite HL; cbn [acts_len]; lia). cbn [check bind].
  apply all_of_at; try assumption; try lia.
  pose proof (actions_at_app 0 0 [] (a :: t) [] eq_refl) as A. rewrite app_nil_r in A. exact A.
Qed.
(** the first permission of type [ty] that matches *)
Definition first (ty : Z) (q : bytes) (l : list action) : list bytes :=
  match find (fun a => (ac_ty a =? ty) && action_matches ty q (ac_data a)) l with Some a => [ac_data a] | None => [] end.
Lemma one_of_enc ty q l : l <> [] -> Forall wf_action l -> Z.of_nat (acts_len l) < U32 ->
  one_of ty q (enc_actions 0 l) = Ok (first ty q l).
Proof.
  intros Hn Hl Hs. unfold one_of. rewrite get_action_enc by assumption. cbn [bind]. unfold first.
  destruct (act_pos ty q 0 l) as [p|] eqn:E.
  - apply act_pos_split in E as (l1 & a & l2 & -> & -> & T & M & N).
    assert (F : find (fun a => (ac_ty a =? ty) && action_matches ty q (ac_data a)) (l1 ++ a :: l2) = Some a).
    { clear Hn Hl Hs. induction l1 as [|x l1 IH]; cbn [app find].
      - rewrite T, Z.eqb_refl, M. reflexivity.
      - rewrite (N x (or_introl eq_refl)). apply IH. intros y Y. apply N. right. exact Y. }
    rewrite F. apply Forall_app in Hl as [Hl1 Hl2]. inv Hl2.
    match goal with X : wf_action a |- _ => pose proof X as [Hal _] end. rewrite Hal. cbn [ok_or bind]. f_equal. f_equal.
    pose proof (actions_at_app 0 0 [] (l1 ++ a :: l2) [] eq_refl) as A. rewrite app_nil_r in A. cbn [app] in A.
    assert (G : forall l1 o, actions_at o o (enc_actions 0 (l1 ++ a :: l2)) (l1 ++ a :: l2) -> True) by auto. clear G.
    revert A. generalize (enc_actions 0 (l1 ++ a :: l2)). intros buf A.
    assert (Q : forall l o, actions_at o o buf (l ++ a :: l2) -> action_at (o + acts_len l) (o + acts_len l) buf a).
    { clear. induction l as [|x l IH]; intros o H; cbn [app actions_at acts_len] in H |- *.
      - rewrite Nat.add_0_r. apply H.
      - destruct H as [_ H]. apply IH in H. replace (o + (8 + length (ac_data x) + acts_len l))%nat
          with (o + 8 + length (ac_data x) + acts_len l)%nat by lia. exact H. }
    apply Q in A. cbn [plus] in A. exact (afld_data (acts_len l1) (acts_len l1) buf a A).
  - assert (F : find (fun a => (ac_ty a =? ty) && action_matches ty q (ac_data a)) l = None).
    { pose proof (act_pos_has ty q 0 l) as H. rewrite E in H. cbn in H.
      clear -H. induction l as [|x l IH]; cbn in *; [reflexivity|].
      destruct ((ac_ty x =? ty) && action_matches ty q (ac_data x)); [discriminate|apply IH; exact H]. }
    rewrite F. reflexivity.
Qed.

(** ** What [from_role] lists *)
Inductive pick := One (q : bytes) | All.
Definition blocks : list (Z * pick * (bytes -> grant)) :=
  [ (7, One [], fun _ => GAll);
    (8, One [], fun _ => GManage);
    (21, All, fun d => GReplace (u32_at 0 d));
    (1, One [], fun d => GSol (u64_at 0 d) None);
    (2, One [], fun d => GSol (u64_at 0 d) (ren 8 16 24 d));
    (5, All, fun d => GToken (sub 0 32 d) (u64_at 32 d) None);
    (6, All, fun d => GToken (sub 0 32 d) (u64_at 40 d) (ren 32 56 48 d));
    (18, All, fun d => GTokenTo (sub 0 32 d) (sub 32 32 d) (u64_at 64 d) None);
    (19, All, fun d => GTokenTo (sub 0 32 d) (sub 32 32 d) (u64_at 64 d) (ren 72 80 88 d));
    (16, All, fun d => GSolTo (sub 0 32 d) (u64_at 32 d) None);
    (17, All, fun d => GSolTo (sub 0 32 d) (u64_at 32 d) (ren 40 48 56 d));
    (13, One [], fun _ => GProgramAll);
    (14, One [], fun _ => GCurated);
    (3, All, fun d => GProgram (sub 0 32 d));
    (4, One SPL_TOKEN, scope_shown);
    (9, One [], fun d => GSub (sub 0 32 d));
    (22, One [], fun _ => GV2Create);
    (23, All, fun d => GV2All (u32_at 0 d));
    (24, All, fun d => GV2Sign (u32_at 0 d));
    (25, All, fun d => GV2Withdraw (u32_at 0 d));
    (26, All, fun d => GV2Toggle (u32_at 0 d));
    (10, One [], fun d => GStake (u64_at 0 d) None);
    (11, One [], fun d => GStake (u64_at 0 d) (ren 8 16 24 d));
    (12, One [], fun _ => GStakeAll);
    (15, One [], fun _ => GAllButManage) ].
Definition block_of (l : list action) (b : Z * pick * (bytes -> grant)) : list grant :=
  let '(ty, p, f) := b in map f (match p with One q => first ty q l | All => datas ty l end).
Definition shown_list (l : list action) : list grant := flat_map (block_of l) blocks.

Lemma from_role_enc l : l <> [] -> Forall wf_action l -> Z.of_nat (acts_len l) < U32 ->
  from_role (enc_actions 0 l) = Ok (shown_list l).
Proof.
  intros Hn Hl Hs. unfold from_role. cbv beta zeta.
  rewrite !(fun ty q => one_of_enc ty q l Hn Hl Hs).
  repeat match goal with |- context [all_of ?ty _] => rewrite (all_of_enc ty l ltac:(discriminate) Hn Hl Hs) end.
  cbn [bind]. unfold shown_list, blocks. cbn [flat_map block_of]. reflexivity.
Qed.
