(** * Editing one permission in place; the remaining configuration handlers *)
From Verif Require Import BaseFacts SpecConfig ConfigFacts ConfigEdit ConfigEdit2 ConfigEdit3.
From Verif Require Export HandlerRoles2.

Lemma splice_mid o off new a b c : o = (length a + off)%nat -> (off + length new <= length b)%nat ->
  splice o new (a ++ b ++ c) = a ++ splice off new b ++ c.
Proof.
  intros -> H. unfold splice. rewrite firstn_app_2, <- !app_assoc. f_equal.
  rewrite firstn_app. replace (off - length b)%nat with O by lia. cbn [firstn]. rewrite app_nil_r. f_equal. f_equal.
  replace (length a + off + length new)%nat with (length a + (off + length new))%nat by lia.
  rewrite <- skipn_skipn'. rewrite skipn_app_exact by reflexivity. rewrite skipn_app.
  replace (off + length new - length b)%nat with O by lia. reflexivity.
Qed.

(** ** One permission's payload *)
Lemma set_first_split ty q p' l1 a l2 : ac_ty a = ty -> action_matches ty q (ac_data a) = true ->
  (forall x, In x l1 -> (ac_ty x =? ty) && action_matches ty q (ac_data x) = false) ->
  set_first ty q p' (l1 ++ a :: l2) = l1 ++ mk_action ty p' :: l2
  /\ first_of ty q (l1 ++ a :: l2) = Some (ac_data a).
Proof.
  intros H1 H2 H3. induction l1 as [|x t IH]; cbn [app set_first first_of].
  - rewrite H1, Z.eqb_refl, H2. split; reflexivity.
  - rewrite (H3 x) by (left; reflexivity). destruct IH as [A B]; [intros y Hy; apply H3; right; exact Hy|].
    rewrite A, B. split; reflexivity.
Qed.

Lemma enc_actions_app o l1 l2 : enc_actions o (l1 ++ l2) = enc_actions o l1 ++ enc_actions (o + acts_len l1) l2.
Proof.
  revert o; induction l1 as [|a t IH]; intros o; cbn [app enc_actions acts_len]; [f_equal; lia|].
  rewrite IH, <- app_assoc. do 3 f_equal. lia.
Qed.
Lemma acts_len_app l1 l2 : acts_len (l1 ++ l2) = (acts_len l1 + acts_len l2)%nat.
Proof. induction l1 as [|a t IH]; cbn [app acts_len]; [reflexivity|]. rewrite IH. lia. Qed.

Lemma splice_action ty q o l p p' old : act_pos ty q o l = Some (o + p)%nat -> first_of ty q l = Some old ->
  length p' = length old ->
  splice p p' (enc_actions o l) = enc_actions o (set_first ty q p' l)
  /\ sub p (length old) (enc_actions o l) = old.
Proof.
  intros Hp Hf Hl. apply act_pos_split in Hp as (l1 & a & l2 & E1 & E2 & E3 & E4 & E5). subst l.
  destruct (set_first_split ty q p' l1 a l2 E3 E4 E5) as [A B]. rewrite A. rewrite B in Hf. injection Hf as <-.
  assert (p = acts_len l1 + 8)%nat by lia. subst p.
  rewrite !enc_actions_app. cbn [enc_actions ac_data ac_ty]. rewrite !Hl. unfold enc_action. cbn [ac_ty ac_data]. rewrite E3, Hl.
  set (H8 := le_enc 2 ty ++ le_enc 2 (Z.of_nat (length (ac_data a)))
     ++ le_enc 4 (Z.of_nat (o + acts_len l1 + 8 + length (ac_data a)))).
  assert (L8 : length H8 = 8%nat) by (unfold H8; rewrite !app_length, !le_enc_length; reflexivity).
  assert (R : forall d X, (le_enc 2 ty ++ le_enc 2 (Z.of_nat (length (ac_data a)))
     ++ le_enc 4 (Z.of_nat (o + acts_len l1 + 8 + length (ac_data a))) ++ d) ++ X = H8 ++ d ++ X).
  { intros d X. unfold H8. rewrite <- !app_assoc. reflexivity. }
  rewrite !R. rewrite !(app_assoc (enc_actions o l1) H8).
  pose proof (enc_actions_length o l1) as L1.
  split.
  - apply splice_app_exact; [rewrite app_length; lia|lia].
  - apply sub_app_exact; [rewrite app_length; lia|reflexivity].
Qed.

Lemma set_first_len ty q p' old l : first_of ty q l = Some old -> length p' = length old ->
  acts_len (set_first ty q p' l) = acts_len l /\ length (set_first ty q p' l) = length l.
Proof.
  revert old; induction l as [|a t IH]; intros old; cbn [first_of set_first]; [discriminate|].
  destruct (_ && _); intros H L.
  - injection H as <-. cbn [acts_len length ac_data]. rewrite L. split; reflexivity.
  - cbn [acts_len length]. destruct (IH _ H L) as [-> ->]. split; reflexivity.
Qed.

(** The V2 scopes of a list do not depend on payloads of other kinds *)
Lemma set_first_scopes ty q p' l : ty < 22 \/ 26 < ty -> v2_scopes (set_first ty q p' l) = v2_scopes l.
Proof.
  intros Ht. induction l as [|a t IH]; cbn [set_first]; [reflexivity|].
  destruct ((ac_ty a =? ty) && action_matches ty q (ac_data a)) eqn:E.
  - apply andb_prop in E as [E _].
    assert (S0 : forall d, v2_scope (mk_action ty d) = None).
    { intros d. unfold v2_scope; cbn. replace (ty =? 22) with false by lia.
      replace ((23 <=? ty) && (ty <=? 26)) with false by lia. reflexivity. }
    cbn [v2_scopes]. rewrite S0. destruct a as [aty ad]. cbn in E. replace aty with ty by lia. rewrite S0. reflexivity.
  - cbn [v2_scopes]. rewrite IH. reflexivity.
Qed.
Lemma set_first_wf ty q p' old l : (ty < 22 \/ 26 < ty) -> first_of ty q l = Some old -> length p' = length old ->
  all_bytes p' -> wf_actions l -> wf_actions (set_first ty q p' l).
Proof.
  intros Ht Hf Hl Hb (W1 & W2 & W3). unfold wf_actions.
  destruct (set_first_len ty q p' old l Hf Hl) as [_ ->]. split; [exact W1|].
  rewrite set_first_scopes by exact Ht. split; [|exact W3].
  clear W1 W3. revert old Hf Hl. induction W2 as [|a t Ha W2 IH]; intros old Hf Hl; cbn [set_first first_of] in *; [constructor|].
  destruct ((ac_ty a =? ty) && action_matches ty q (ac_data a)) eqn:E.
  - constructor; [|exact W2]. injection Hf as <-. apply andb_prop in E as [E _].
    destruct Ha as [Ha _]. split; cbn; [rewrite Hl; replace ty with (ac_ty a) by lia; exact Ha|exact Hb].
  - constructor; [exact Ha|eapply IH; eassumption].
Qed.

(** Rewriting the payload at its place in the role table *)
Lemma put_acts_enc s i p tr ty q off p' old :
  wf_config s -> pos_of i 0 (s_roles s) = Some (p, tr) ->
  (ty < 22 \/ 26 < ty) ->
  act_pos ty q 0 (r_acts tr) = Some off -> first_of ty q (r_acts tr) = Some old ->
  length p' = length old -> all_bytes p' ->
  enc_header s ++ splice (p + POS + length (r_auth tr) + off) p' (enc_roles 0 (s_roles s)) ++ enc_claimer (s_claimer s)
    = enc_config (on_role i (fun r => with_acts r (set_first ty q p' (r_acts tr))) s)
  /\ wf_config (on_role i (fun r => with_acts r (set_first ty q p' (r_acts tr))) s).
Proof.
  intros W Hp Ht Ha Hf Hl Hb.
  pose proof W as (W1 & (W2 & W2') & W3 & W4 & W5 & W6 & W7 & W8 & W9 & W10 & W11 & W12 & W13).
  pose proof (pos_find _ _ _ _ Hp) as Ef. destruct (find_split _ _ _ Ef) as (l1 & l2 & E1 & E2 & E3).
  rewrite Hp in E3. injection E3 as ->. subst i.
  assert (Wr : wf_role tr). { rewrite E1 in W8. apply Forall_app in W8 as [_ W8]. exact (Forall_inv W8). }
  destruct (set_first_len _ _ _ _ _ Hf Hl) as [SL1 SL2].
  destruct (splice_action ty q 0 _ off p' old Ha Hf Hl) as [S1 _].
  rewrite (on_role_split _ s l1 tr l2 W9 E1). split.
  - unfold enc_config. cbn [s_roles with_roles s_claimer]. f_equal.
    + symmetry. apply enc_header_roles. rewrite E1, !app_length. reflexivity.
    + f_equal. rewrite E1, !enc_roles_app. cbn [enc_roles Nat.add].
      assert (RL : role_len (with_acts tr (set_first ty q p' (r_acts tr))) = role_len tr)
        by (unfold role_len; cbn [with_acts r_auth r_acts]; rewrite SL1; reflexivity).
      rewrite RL.
      rewrite E1 in W8. apply Forall_app in W8 as [W8a W8b].
      pose proof (enc_roles_length 0 _ W8a) as L1.
      rewrite !enc_role_h16. rewrite RL.
      assert (H16 : forall e, h16 (with_acts tr (set_first ty q p' (r_acts tr))) e = h16 tr e).
      { intros e. unfold h16, h8. cbn [with_acts r_aty r_auth r_acts r_pad r_id]. rewrite SL2. reflexivity. }
      rewrite H16. cbn [with_acts r_acts]. rewrite <- S1.
      pose proof (h16_length tr (roles_size l1 + role_len tr) Wr) as L16.
      set (h := h16 tr _) in *. set (R := enc_roles _ l2).
      rewrite <- !app_assoc.
      assert (Lo : (off + length p' <= length (enc_actions 0 (r_acts tr)))%nat).
      { apply act_pos_split in Ha as (k1 & a & k2 & X1 & X2 & X3 & X4 & X5).
        destruct (set_first_split ty q p' k1 a k2 X3 X4 X5) as [_ B]. rewrite <- X1, Hf in B. injection B as ->.
        rewrite enc_actions_length, X1, acts_len_app. cbn [acts_len]. lia. }
      rewrite (app_assoc (enc_roles 0 l1) h), (app_assoc (enc_roles 0 l1) h).
      rewrite (splice_mid _ off); [reflexivity| |exact Lo]. rewrite app_length, L1, L16. unfold POS. lia.
  - apply (wf_config_edit (fun r => with_acts r (set_first ty q p' (r_acts tr)))); try assumption; try reflexivity.
    + apply with_acts_wf; [exact Wr|]. eapply set_first_wf; try eassumption. apply Wr.
    + unfold role_len; cbn [with_acts r_auth r_acts]. rewrite SL1. reflexivity.
Qed.

(** ** Where the acting role sits *)
Lemma pos_of_map f i o l : (forall r, In r l -> r_id (f r) = r_id r /\ role_len (f r) = role_len r) ->
  pos_of i o (map f l) = option_map (fun pr => (fst pr, f (snd pr))) (pos_of i o l).
Proof.
  revert o; induction l as [|a t IH]; intros o H; cbn [map pos_of]; [reflexivity|].
  destruct (H a (or_introl eq_refl)) as [-> ->]. destruct (r_id a =? i); [reflexivity|].
  apply IH. intros r Hr. apply H. right. exact Hr.
Qed.
Lemma pos_on_role i j g s : wf_config s -> wf_config (on_role j g s) ->
  (forall r, r_id (g r) = r_id r /\ r_aty (g r) = r_aty r /\ acts_len (r_acts (g r)) = acts_len (r_acts r)) ->
  pos_of i 0 (s_roles (on_role j g s))
  = option_map (fun pr => (fst pr, if r_id (snd pr) =? j then g (snd pr) else snd pr)) (pos_of i 0 (s_roles s)).
Proof.
  intros W W' Hg. unfold on_role. cbn [with_roles s_roles]. apply pos_of_map. intros r Hr.
  destruct (r_id r =? j) eqn:E; [|split; reflexivity]. destruct (Hg r) as (G1 & G2 & G3). split; [exact G1|].
  destruct W as (_ & _ & _ & _ & _ & _ & _ & W8 & _). destruct W' as (_ & _ & _ & _ & _ & _ & _ & W8' & _).
  rewrite Forall_forall in W8, W8'. destruct (W8 r Hr) as (_ & A & _).
  assert (Hi : In (g r) (s_roles (on_role j g s))).
  { unfold on_role. cbn [with_roles s_roles]. apply in_map_iff. exists r. rewrite E. split; [reflexivity|exact Hr]. }
  destruct (W8' _ Hi) as (_ & B & _). rewrite G2, A in B. injection B as B. unfold role_len. rewrite <- B, G3. reflexivity.
Qed.
Lemma open_role_pos E cx s rid payload sdata o : wf_config s ->
  open_role E cx (enc_config s) rid payload sdata = Ok o ->
  exists r, pos_of rid 0 (s_roles s) = Some (rv_off (o_role o), r)
    /\ o_role o = view_of (rv_off (o_role o)) r.
Proof.
  intros W H. unfold open_role, open_with in H. rewrite split_parts_enc in H by exact W. cbn [bind] in H.
  pose proof (wf_roles_small s W) as Hsm.
  rewrite get_mut_role_enc in H by (try apply W; lia). cbn [bind] in H.
  destruct (pos_of rid 0 (s_roles s)) as [[p r]|] eqn:Ep; cbn [option_map ok_or bind fst snd] in H; [|discriminate].
  bind_inv H. apply ok_inj in K. subst o. cbn [o_role rv_off view_of]. exists r. split; reflexivity.
Qed.
Lemma open_pos E cx s rid payload sdata o r s1 : wf_config s -> wf_config s1 ->
  open_role E cx (enc_config s) rid payload sdata = Ok o ->
  acting E cx s rid payload sdata r s1 ->
  exists r1, pos_of rid 0 (s_roles s1) = Some (rv_off (o_role o), r1) /\ r_acts r1 = r_acts r
    /\ length (r_auth r1) = length (rv_auth (o_role o)) /\ r_aty r1 = r_aty r.
Proof.
  intros W W1 H (A1 & auth & A2 & A3). apply open_role_pos in H as (r0 & P1 & P2); [|exact W].
  pose proof (pos_find _ _ _ _ P1) as Ef. rewrite A1 in Ef. injection Ef as <-. unfold find_role in A1.
  subst s1. rewrite (pos_on_role rid rid _ s W W1) by (intros; auto). rewrite P1. cbn [option_map fst snd].
  assert (Hi : r_id r =? rid = true). { apply find_some in A1 as [_ A1]. exact A1. }
  rewrite Hi. eexists; split; [reflexivity|]. split; [reflexivity|]. split; [|reflexivity].
  rewrite P2. cbn [view_of rv_auth with_auth r_auth].
  assert (W8 : Forall wf_role (s_roles s)) by apply W.
  rewrite Forall_forall in W8. pose proof (find_some _ _ A1) as [Hin _].
  destruct (W8 r Hin) as (_ & B & _).
  assert (W8' : Forall wf_role (s_roles (on_role rid (fun r => with_auth r auth) s))) by apply W1.
  rewrite Forall_forall in W8'. specialize (W8' (with_auth r auth)).
  destruct W8' as (_ & C & _).
  { unfold on_role. cbn [with_roles s_roles]. apply in_map_iff. exists r. rewrite Hi. split; [reflexivity|exact Hin]. }
  cbn [with_auth r_aty r_auth] in C. congruence.
Qed.

Lemma first_of_pos ty q o l p : act_pos ty q o l = Some p -> exists d, first_of ty q l = Some d.
Proof.
  revert o; induction l as [|a t IH]; intros o; cbn; [discriminate|]. destruct (_ && _); [eauto|apply IH].
Qed.
Lemma first_of_wf ty q l d : Forall wf_action l -> first_of ty q l = Some d ->
  action_len ty = Some (length d) /\ all_bytes d /\ action_matches ty q d = true.
Proof.
  induction 1 as [|a t Ha Ht IH]; cbn; [discriminate|]. destruct (_ && _) eqn:E; intros H; [|auto].
  injection H as <-. apply andb_prop in E as [E1 E2]. apply Z.eqb_eq in E1. subst ty. split; [apply Ha|split; [apply Ha|exact E2]].
Qed.
Lemma has_first_of ty q r : has ty q r = is_some (first_of ty q (r_acts r)).
Proof.
  unfold has. induction (r_acts r) as [|a t IH]; cbn; [reflexivity|]. destruct (_ && _); [reflexivity|exact IH].
Qed.

Lemma bytes_ge0 o d : all_bytes d -> is_byte (byte_at o d).
Proof.
  intros H. unfold byte_at. destruct (nth_in_or_default o d 0) as [Hin| ->]; [|unfold is_byte; lia].
  unfold all_bytes in H. rewrite Forall_forall in H. apply H. exact Hin.
Qed.

Lemma hdr_id s : wf_config s -> h_id (enc_header s) = s_id s.
Proof. intros (_ & (W2 & _) & _ & _ & W5 & _). rewrite <- (app_nil_r (enc_header s)). apply hf_id; assumption. Qed.

Lemma check_pda_ok E seeds k e u : check_pda E seeds k e = Ok u -> pda E seeds = Some k.
Proof.
  unfold check_pda. intros H. bind_inv H. apply ok_or_ok in B. apply check_ok in K. apply beq_eq in K. congruence.
Qed.

Lemma create_sub_v1_spec E cx w w' s :
  wf_ctx cx -> create_sub_account_v1 E cx w = Ok w' ->
  let swig := mkey (c_metas cx) 0 in let sa := mkey (c_metas cx) 2 in let data := c_data cx in
  let rid := u32_at 4 data in let bump := byte_at 8 data in
  a_data (w swig) = enc_config s -> wf_config s ->
  exists r s1 old, acts_as E cx s rid 16 r s1
    /\ first_of P_SubAccount [] (r_acts r) = Some old
    /\ pda E (seeds_sub (s_id s) rid bump) = Some sa
    /\ a_owner (w swig) = SELF /\ a_owner (w sa) = SYSTEM
    /\ let new := sa ++ [bump; 1] ++ sub 34 2 old ++ le_enc 4 rid ++ s_id s in
       let s' := on_role rid (fun r0 => with_acts r0 (set_first P_SubAccount [] new (r_acts r))) s1 in
       only_data w w' swig (enc_config s') /\ wf_config s'.
Proof.
  intros (Wc1 & Wc2) H swig sa data rid bump Hd W.
  unfold create_sub_account_v1 in H. cbv zeta in H. fold swig sa data in H. fold rid bump in H.
  peel H. cfg s Hd W. grab (open_role _ _ _ _ _ _ = Ok _) as Bo. pose proof Bo as Bo'. opening W.
  destruct (open_pos _ _ _ _ _ _ _ _ _ W O3 Bo O1) as (r1 & P1 & P2 & P3 & P4).
  grab (get_action_mut P_SubAccount _ _ = Ok _) as Bg. rewrite O8 in Bg.
  rewrite get_action_mut_enc in Bg; [|apply O2|apply wf_role_acts_small; exact O2].
  apply ok_inj in Bg. subst.
  grab (act_pos _ _ _ _ = Some _) as Bp. grab (check_pda _ _ _ _ = Ok _) as Bk.
  grab ((16 <=? _)%nat = true) as Bn.
  destruct (first_of_pos _ _ _ _ _ Bp) as (old & Bf).
  destruct (first_of_wf _ _ _ _ ltac:(apply O2) Bf) as (Lf & Af & _). cbn in Lf. injection Lf as Lf.
  assert (Hk : wf_key sa).
  { apply nth_wf; [exact Wc2|]. grab ((4 <=? _)%nat = true) as Bnd. apply Nat.leb_le in Bnd. lia. }
  destruct Hk as [Lk Ak].
  assert (Hid : h_id (o_hdr v0) = s_id s) by (rewrite O4, hdr_id by exact O3; exact F2).
  rewrite Hid in *.
  assert (Hs : sub v3 SA_LEN (o_acts v0) = old).
  { rewrite O8. destruct (splice_action P_SubAccount [] 0 (r_acts r) v3 old old Bp Bf eq_refl) as [_ G].
    unfold SA_LEN. rewrite Lf. exact G. }
  rewrite Hs in *.
  set (new := sa ++ [bump; 1] ++ sub 34 2 old ++ le_enc 4 rid ++ s_id s) in *.
  pose proof W as (_ & (Wi1 & Wi2) & _).
  assert (Ln : length new = length old).
  { unfold new. rewrite !app_length, le_enc_length, Lk, Wi1, sub_length by lia. cbn. lia. }
  assert (An : all_bytes new).
  { unfold new. apply all_bytes_app; split; [exact Ak|]. apply all_bytes_app; split.
    { constructor; [apply bytes_ge0; exact Wc1|]. constructor; [unfold is_byte; lia|constructor]. }
    apply all_bytes_app; split; [apply all_bytes_sub; exact Af|].
    apply all_bytes_app; split; [apply le_enc_bytes|exact Wi2]. }
  rewrite <- P2 in Bp, Bf.
  destruct (put_acts_enc s1 rid _ r1 P_SubAccount [] v3 new old O3 P1 ltac:(left; reflexivity) Bp Bf Ln An) as (G1 & G2).
  apply set_data_only in H as (H1 & _).
  unfold put_acts in H1. rewrite <- P3, O4, O5, O6, G1 in H1.
  grab (rent_topup _ _ _ _ _ _ = Ok _) as Br. apply rent_topup_keeps in Br.
  exists r, s1, old. split; [split; [apply Nat.leb_le; exact Bn|exact O1]|].
  split; [rewrite <- P2; exact Bf|].
  split; [eapply check_pda_ok; exact Bk|].
  split; [apply beq_eq; assumption|]. split; [apply beq_eq; assumption|].
  cbv zeta. rewrite P2 in *. split; [eapply only_data_keeps_l; eassumption|exact G2].
Qed.

Lemma splice_nested off k new old (X : bytes) : sub off (length old) X = old ->
  (off + length old <= length X)%nat -> (k + length new <= length old)%nat ->
  splice (off + k) new X = splice off (splice k new old) X.
Proof.
  intros Hs HX Hk. pose proof (split3 off (length old) X HX) as E. rewrite Hs in E.
  set (a := firstn off X) in *. set (c := skipn (off + length old) X) in *.
  assert (La : length a = off) by (unfold a; rewrite firstn_length; lia). clearbody a c. subst X.
  rewrite (splice_mid (off + k) k new a old c) by lia.
  symmetry. apply splice_app_exact; [exact La|]. symmetry. apply splice_length. lia.
Qed.
Lemma put_nested off k new old p (A : bytes) : (p + off + length old <= length A)%nat ->
  sub (p + off) (length old) A = old -> (k + length new <= length old)%nat ->
  splice (p + (off + k)) new A = splice (p + off) (splice k new old) A.
Proof. intros H1 H2 H3. rewrite Nat.add_assoc. apply splice_nested; assumption. Qed.

(** one byte of a stored permission *)
Lemma put_byte_enc s i p tr ty q off k b old :
  wf_config s -> pos_of i 0 (s_roles s) = Some (p, tr) ->
  (ty < 22 \/ 26 < ty) ->
  act_pos ty q 0 (r_acts tr) = Some off -> first_of ty q (r_acts tr) = Some old ->
  (k < length old)%nat -> is_byte b ->
  let s' := on_role i (fun r => with_acts r (set_first ty q (splice k [b] old) (r_acts tr))) s in
  enc_header s ++ splice (p + POS + length (r_auth tr) + (off + k)) [b] (enc_roles 0 (s_roles s)) ++ enc_claimer (s_claimer s)
    = enc_config s' /\ wf_config s'.
Proof.
  intros W Hp Ht Ha Hf Hk Hb s'.
  assert (Ab : all_bytes old).
  { pose proof (pos_find _ _ _ _ Hp) as Ef. apply find_some in Ef as [Hin _].
    destruct W as (_ & _ & _ & _ & _ & _ & _ & W8 & _). rewrite Forall_forall in W8.
    eapply first_of_wf; [|exact Hf]. apply W8. exact Hin. }
  assert (Lp : length (splice k [b] old) = length old) by (apply splice_length; cbn; lia).
  assert (Ap : all_bytes (splice k [b] old)) by (apply all_bytes_splice; [repeat constructor; apply Hb|exact Ab]).
  destruct (put_acts_enc s i p tr ty q off (splice k [b] old) old W Hp Ht Ha Hf Lp Ap) as [G1 G2].
  split; [|exact G2]. unfold s'. rewrite <- G1. f_equal. f_equal.
  (* the payload is where [off] says *)
  pose proof (pos_find _ _ _ _ Hp) as Ef. destruct (find_split _ _ _ Ef) as (l1 & l2 & E1 & E2 & E3).
  rewrite Hp in E3. injection E3 as ->.
  assert (W8 : Forall wf_role (s_roles s)) by apply W. rewrite E1 in W8. apply Forall_app in W8 as [W8a W8b].
  pose proof (Forall_inv W8b) as Wr.
  pose proof (enc_roles_length 0 _ W8a) as L1.
  destruct (splice_action ty q 0 _ off old old Ha Hf eq_refl) as [_ S2].
  assert (Lo : (off + length old <= length (enc_actions 0 (r_acts tr)))%nat).
  { apply act_pos_split in Ha as (k1 & a & k2 & X1 & X2 & X3 & X4 & X5).
    destruct (set_first_split ty q old k1 a k2 X3 X4 X5) as [_ B]. rewrite <- X1, Hf in B. injection B as ->.
    rewrite enc_actions_length, X1, acts_len_app. cbn [acts_len]. lia. }
  rewrite E1, enc_roles_app. cbn [enc_roles Nat.add]. rewrite enc_role_h16.
  pose proof (h16_length tr (roles_size l1 + role_len tr) Wr) as L16.
  set (h := h16 tr _) in *. rewrite <- !app_assoc.
  rewrite !(app_assoc (enc_roles 0 l1) h).
  set (A := enc_roles 0 l1 ++ h).
  assert (LA : length A = (roles_size l1 + POS + length (r_auth tr))%nat)
    by (unfold A; rewrite !app_length, L1, L16; unfold POS; lia).
  rewrite <- LA. apply put_nested.
  - rewrite !app_length. lia.
  - rewrite sub_app_r by lia. replace (length A + off - length A)%nat with off by lia.
    rewrite sub_app_l by lia. exact S2.
  - cbn. lia.
Qed.

Lemma toggle_sub_v1_spec E cx w w' s :
  wf_ctx cx -> toggle_sub_account_v1 E cx w = Ok w' ->
  let swig := mkey (c_metas cx) 0 in let sa := mkey (c_metas cx) 2 in let data := c_data cx in
  let rid := u32_at 8 data in let actor := u32_at 12 data in
  a_data (w swig) = enc_config s -> wf_config s ->
  exists r s1 tr old, acts_as E cx s actor 16 r s1
    /\ (actor = rid \/ can_manage r = true)
    /\ find_role rid s1 = Some tr
    /\ first_of P_SubAccount sa (r_acts tr) = Some old
    /\ a_owner (w swig) = SELF
    /\ let s' := on_role rid (fun r0 => with_acts r0
                   (set_first P_SubAccount sa (splice 33 [byte_at 2 data] old) (r_acts tr))) s1 in
       only_data w w' swig (enc_config s') /\ wf_config s'.
Proof.
  intros (Wc1 & Wc2) H swig sa data rid actor Hd W.
  unfold toggle_sub_account_v1 in H. cbv zeta in H. fold swig sa data in H. fold rid actor in H.
  peel H. cfg s Hd W. grab (open_role _ _ _ _ _ _ = Ok _) as Bo. pose proof Bo as Bo'. opening W.
  destruct (open_pos _ _ _ _ _ _ _ _ _ W O3 Bo O1) as (r1 & P1 & P2 & P3 & P4).
  grab ((if negb _ then _ else _) = Ok _) as Bv.
  grab (get_action_mut P_SubAccount _ _ = Ok _) as Bg.
  grab ((16 <=? _)%nat = true) as Bn.
  assert (Hv : exists tr, (actor = rid \/ can_manage r = true) /\ pos_of rid 0 (s_roles s1) = Some (rv_off v1, tr)
    /\ length (rv_auth v1) = length (r_auth tr) /\ rv_acts v1 = enc_actions 0 (r_acts tr)).
  { destruct (actor =? rid) eqn:Er; cbn [negb] in Bv.
    - apply ok_inj in Bv. subst v1. apply Z.eqb_eq in Er. rewrite Er in P1. exists r1. split; [left; exact Er|].
      split; [exact P1|]. split; [congruence|]. rewrite P2. exact O8.
    - apply bind_ok in Bv as (m & Q1 & Bv). rewrite O8, (manages_enc r O2) in Q1. apply ok_inj in Q1. subst m.
      apply bind_ok in Bv as (u & Q1 & Bv). apply check_ok in Q1.
      apply bind_ok in Bv as (t & Q2 & Bv). apply ok_or_ok in Bv. subst t.
      rewrite O5, get_mut_role_find in Q2 by exact O3.
      destruct (find_role rid s1) as [tr|] eqn:Et; [|discriminate].
      destruct (pos_of rid 0 (s_roles s1)) as [[p tr']|] eqn:Ep; cbn [option_map fst snd] in Q2; [|discriminate].
      apply ok_inj in Q2. injection Q2 as <-. exists tr'. cbn [rv_off rv_auth rv_acts view_of].
      split; [right; exact Q1|]. repeat split. }
  destruct Hv as (tr & Hv1 & Hv2 & Hv3 & Hv4). rewrite Hv4 in Bg.
  pose proof (pos_find _ _ _ _ Hv2) as Et.
  assert (Wr : wf_role tr).
  { apply find_some in Et as [Hin _]. destruct O3 as (_ & _ & _ & _ & _ & _ & _ & W8 & _). rewrite Forall_forall in W8. apply W8; exact Hin. }
  rewrite get_action_mut_enc in Bg; [|apply Wr|apply wf_role_acts_small; exact Wr].
  apply ok_inj in Bg. subst. grab (act_pos _ _ _ _ = Some _) as Bp.
  destruct (first_of_pos _ _ _ _ _ Bp) as (old & Bf).
  destruct (first_of_wf _ _ _ _ ltac:(apply Wr) Bf) as (Lf & Af & _). cbn in Lf. injection Lf as Lf.
  pose proof (bytes_ge0 2 data Wc1) as Hb.
  destruct (put_byte_enc s1 rid _ tr P_SubAccount sa _ 33 (byte_at 2 data) old O3 Hv2 ltac:(left; reflexivity) Bp Bf ltac:(lia) Hb) as [G1 G2].
  apply set_data_only in H as (H1 & _). unfold put_acts in H1. rewrite Hv3, O4, O5, O6 in H1. cbv zeta in G1. rewrite G1 in H1.
  exists r, s1, tr, old. split; [split; [apply Nat.leb_le; exact Bn|exact O1]|]. split; [exact Hv1|]. split; [exact Et|].
  split; [exact Bf|]. split; [apply beq_eq; assumption|]. split; [exact H1|exact G2].
Qed.
