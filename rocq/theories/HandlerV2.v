(** * V2 sub-accounts *)
From Verif Require Import BaseFacts SpecConfig ConfigFacts ConfigEdit ConfigEdit2 ConfigEdit3.
From Verif Require Export HandlerLife.

Definition scope_hit (specific id : Z) (all : bool) (a : action) : bool :=
  ((ac_ty a =? specific) || (all && (ac_ty a =? P_SubAccountV2All))) && beq (sub 0 4 (ac_data a)) (le_enc 4 id).

Lemma scoped_at fuel specific id all o buf l :
  23 <= specific <= 26 ->
  Forall wf_action l -> actions_at o o buf l -> length buf = (o + acts_len l)%nat ->
  (length l < fuel)%nat ->
  scoped_loop fuel buf specific id all o = Ok (existsb (scope_hit specific id all) l).
Proof.
  intros Hsp Hl; revert fuel o; induction Hl as [|a t Ha Ht IH]; intros fuel o Hat Hlen Hf;
    (destruct fuel as [|f]; [cbn in Hf; lia|]); cbn [scoped_loop existsb].
  - cbn in Hlen. replace (o + 8 <=? length buf)%nat with false by lia. reflexivity.
  - cbn [acts_len actions_at length] in Hlen, Hat, Hf. destruct Hat as [H1 H2].
    replace (o + 8 <=? length buf)%nat with true by lia.
    rewrite (afld_ty o o buf a) by assumption. rewrite (afld_len o o buf a) by assumption.
    replace (o + 8 + length (ac_data a) <=? length buf)%nat with true by lia. cbn [check bind].
    pose proof Ha as [Hal _]. pose proof (action_len_bound _ _ Hal) as B.
    unfold permission. replace ((0 <=? ac_ty a) && (ac_ty a <=? 26)) with true by lia. cbn [bind].
    assert (Hh : ((ac_ty a =? specific) || all && (ac_ty a =? P_SubAccountV2All))
       && (4 <=? length (ac_data a))%nat && beq (sub (o + 8) 4 buf) (le_enc 4 id) = scope_hit specific id all a).
    { unfold scope_hit. destruct ((ac_ty a =? specific) || all && (ac_ty a =? P_SubAccountV2All)) eqn:Et; [|reflexivity].
      assert (L8 : length (ac_data a) = 8%nat).
      { assert (23 <= ac_ty a <= 26).
        { apply orb_true_iff in Et as [Et|Et]; [lia|]. apply andb_prop in Et as [_ Et]. unfold P_SubAccountV2All in Et. lia. }
        assert (Hc : ac_ty a = 23 \/ ac_ty a = 24 \/ ac_ty a = 25 \/ ac_ty a = 26) by lia.
        destruct Hc as [Hc|[Hc|[Hc|Hc]]]; rewrite Hc in Hal; cbn in Hal; injection Hal as Hal; lia. }
      replace (4 <=? length (ac_data a))%nat with true by lia. cbn [andb].
      rewrite <- (afld_data o o buf a) at 1 by assumption. rewrite sub_sub by lia.
      replace (o + 8 + 0)%nat with (o + 8)%nat by lia. reflexivity. }
    rewrite Hh. destruct (scope_hit specific id all a); [reflexivity|]. cbn [orb].
    apply IH; try assumption; lia.
Qed.
Lemma scope_hit_has specific id l : 23 <= specific <= 26 ->
  existsb (scope_hit specific id true) l
  = existsb (fun a => (ac_ty a =? specific) && action_matches specific (le_enc 4 id) (ac_data a)) l
    || existsb (fun a => (ac_ty a =? P_SubAccountV2All) && action_matches P_SubAccountV2All (le_enc 4 id) (ac_data a)) l.
Proof.
  intros H. assert (Hm : forall d, action_matches specific (le_enc 4 id) d = beq (sub 0 4 d) (le_enc 4 id)).
  { intros d. assert (Hc : specific = 23 \/ specific = 24 \/ specific = 25 \/ specific = 26) by lia.
    destruct Hc as [-> | [-> | [-> | ->]]]; reflexivity. }
  assert (Hm2 : forall d, action_matches P_SubAccountV2All (le_enc 4 id) d = beq (sub 0 4 d) (le_enc 4 id)) by reflexivity.
  induction l as [|a t IH]; [reflexivity|]. cbn [existsb]. rewrite IH, Hm, Hm2. unfold scope_hit. cbn [andb].
  destruct (ac_ty a =? specific), (ac_ty a =? P_SubAccountV2All), (beq (sub 0 4 (ac_data a)) (le_enc 4 id));
    cbn [andb orb]; try reflexivity; try rewrite orb_true_r; try reflexivity.
Qed.
Lemma has_scoped_enc specific id r : 23 <= specific <= 26 -> wf_role r ->
  has_scoped_v2 (enc_actions 0 (r_acts r)) specific id true = Ok (scoped specific id r).
Proof.
  intros H Hr. unfold has_scoped_v2, scoped, has. rewrite <- scope_hit_has by exact H.
  pose proof (enc_actions_length 0 (r_acts r)) as HL. pose proof (acts_len_ge (r_acts r)).
  apply scoped_at; try assumption; try lia; [apply Hr|].
  pose proof (actions_at_app 0 0 [] (r_acts r) [] eq_refl) as A. rewrite app_nil_r in A. exact A.
Qed.
Lemma has_granted_enc id r : wf_role r ->
  has_scoped_v2 (enc_actions 0 (r_acts r)) P_SubAccountV2All id false = Ok (has P_SubAccountV2All (le_enc 4 id) r).
Proof.
  intros Hr. unfold has_scoped_v2.
  rewrite (scoped_at _ P_SubAccountV2All id false 0 _ (r_acts r)).
  - f_equal. unfold has. induction (r_acts r) as [|a t IH]; [reflexivity|]. cbn [existsb]. rewrite IH. f_equal.
    unfold scope_hit. cbn [andb]. rewrite orb_false_r. reflexivity.
  - unfold P_SubAccountV2All. lia.
  - apply Hr.
  - pose proof (actions_at_app 0 0 [] (r_acts r) [] eq_refl) as A. rewrite app_nil_r in A. exact A.
  - apply enc_actions_length.
  - pose proof (enc_actions_length 0 (r_acts r)). pose proof (acts_len_ge (r_acts r)). lia.
Qed.
Lemma authorize_enc specific id r u : 23 <= specific <= 26 -> wf_role r ->
  authorize_scoped_v2 (enc_actions 0 (r_acts r)) specific id = Ok u -> scoped specific id r = true.
Proof.
  intros H Hr A. unfold authorize_scoped_v2 in A. rewrite has_scoped_enc in A by assumption. cbn [bind] in A.
  apply check_ok in A. exact A.
Qed.

Lemma require_v2_enc s u : wf_config s -> require_swig_v2 (enc_config s) = Ok u -> is_v2 s.
Proof.
  intros (_ & (W2 & _) & _ & _ & W5 & _) H. unfold require_swig_v2 in H. bind_inv H. apply check_ok in K.
  unfold is_swig_v2 in K. apply andb_prop in K as [K1 K2].
  unfold enc_config in *. change (byte_at 40 ?d) with (h_wbump d) in K1. change (sub 41 3 ?d) with (h_pad d) in K2.
  rewrite hf_wbump in K1 by assumption. rewrite hf_pad in K2 by assumption. apply beq_eq in K2.
  split; [|exact K2]. destruct (s_wbump s =? 0) eqn:E; [discriminate|]. lia.
Qed.

Lemma set_subctr_wf s n : wf_config s -> is_u32 n -> wf_config (set_subctr s n).
Proof.
  intros W Hn. destruct W as (W1 & W2 & W3 & W4 & W5 & W6 & W7 & W8 & W9 & W10 & W11 & W12 & W13).
  unfold wf_config, ids. cbn [set_subctr s_bump s_id s_roles s_counter s_wbump s_pad s_subctr s_claimer].
  do 6 (split; [assumption|]). split; [exact Hn|]. do 4 (split; [assumption|]). split; [|exact W13].
  unfold enc_config in *. cbn [set_subctr s_roles s_claimer]. rewrite !app_length in *.
  rewrite enc_header_length in * by (cbn; first [apply W2|assumption|reflexivity]). exact W12.
Qed.
Lemma set_subctr_enc s n : wf_config s ->
  splice 44 (le_enc 4 n) (enc_header s) ++ enc_roles 0 (s_roles s) ++ enc_claimer (s_claimer s)
  = enc_config (set_subctr s n).
Proof.
  intros (_ & (W2 & _) & _ & _ & W5 & _). rewrite header_set_subctr by assumption. reflexivity.
Qed.
Lemma parses_all_powers id l : parses (v2_all_action id) l -> l = [all_powers id].
Proof.
  intros H. pose proof (parses_cons P_SubAccountV2All (zeros 4) (le_enc 4 id ++ zeros 4) [] []) as P.
  apply (parses_det _ _ H).
  unfold all_powers, v2_all_action. rewrite app_nil_r in P. 
  apply P; [rewrite app_length, le_enc_length; reflexivity|reflexivity|constructor].
Qed.

(** [w'] differs from [w], up to lamports, at most in the data of [k1] and in
    the account [k2] *)
Lemma sys_allocate_spec ms pdas w k n w' : sys_allocate_assign ms pdas w k n = Ok w' ->
  a_owner (w k) = SYSTEM /\ a_data (w k) = [] /\ a_owner (w' k) = SELF /\ a_data (w' k) = zeros n
  /\ (forall k', k' <> k -> kept w w' k').
Proof.
  unfold sys_allocate_assign. intros H. peel H. apply ok_inj in H. subst w'.
  split; [apply beq_eq; assumption|].
  split. { grab ((length (a_data (w k)) =? 0)%nat = true) as Bz. apply Nat.eqb_eq in Bz. destruct (a_data (w k)); [reflexivity|discriminate]. }
  rewrite upd_same. split; [reflexivity|]. split; [reflexivity|].
  intros k' Hk. unfold kept. rewrite upd_other by exact Hk. split; reflexivity.
Qed.

Lemma SYSTEM_SELF : SYSTEM <> SELF. Proof. discriminate. Qed.

Lemma create_sub_v2_spec E cx w w' s :
  wf_ctx cx -> create_sub_account_v2 E cx w = Ok w' ->
  let swig := mkey (c_metas cx) 0 in let state := mkey (c_metas cx) 2 in let sa := mkey (c_metas cx) 3 in
  let data := c_data cx in
  let rid := u32_at 4 data in let bump := byte_at 8 data in let abump := byte_at 9 data in
  let id := s_subctr s in
  a_data (w swig) = enc_config s -> wf_config s ->
  exists r s1, acts_as E cx s rid 16 r s1
    /\ has P_SubAccountV2Create [] r = true
    /\ is_v2 s /\ id + 1 < U32
    /\ pda E (seeds_v2_state (s_id s) id bump) = Some state
    /\ pda E (seeds_v2_asset (s_id s) id abump) = Some sa
    /\ a_owner (w swig) = SELF /\ a_owner (w state) = SYSTEM /\ a_data (w state) = []
    /\ a_owner (w sa) = SYSTEM
    /\ let s2 := set_subctr s1 (id + 1) in
       let s' := if has P_SubAccountV2All (le_enc 4 id) r then s2
                 else on_role rid (fun r0 => with_acts r0 (r_acts r0 ++ [all_powers id])) s2 in
       a_data (w' swig) = enc_config s' /\ a_owner (w' swig) = SELF /\ wf_config s'
       /\ a_data (w' state) = v2_record bump abump 1 id (s_id s) sa /\ a_owner (w' state) = SELF
       /\ (forall k, k <> swig -> k <> state -> kept w w' k)
       /\ (has P_SubAccountV2All (le_enc 4 id) r = true \/ laid_out (r_acts r)).
Proof.
  intros (Wc1 & Wc2) H swig state sa data rid bump abump id Hd W.
  unfold create_sub_account_v2 in H. cbv zeta in H. fold swig state sa data in H. fold rid bump abump in H.
  peel H. cfg s Hd W. opening W. rewrite O8 in *.
  grab (require_swig_v2 _ = Ok _) as Bv. apply require_v2_enc in Bv; [|exact W].
  grab (has_action _ _ _ = Ok _) as Bh. rewrite has_action_enc in Bh by exact O2. apply ok_inj in Bh. subst.
  grab (has P_SubAccountV2Create [] r = true) as Bc.
  grab (has_scoped_v2 _ _ _ _ = Ok _) as Bg. rewrite has_granted_enc in Bg by exact O2. apply ok_inj in Bg. subst.
  grab (check_pda _ (seeds_v2_state _ _ _) _ _ = Ok _) as Bk1. apply check_pda_ok in Bk1.
  grab (check_pda _ (seeds_v2_asset _ _ _) _ _ = Ok _) as Bk2. apply check_pda_ok in Bk2.
  assert (Hid : h_id (o_hdr v1) = s_id s) by (rewrite O4, hdr_id by exact O3; exact F2).
  assert (Hsc : h_subctr (o_hdr v1) = id).
  { rewrite O4, <- (app_nil_r (enc_header s1)).
    destruct O3 as (_ & (V2 & _) & _ & _ & V5 & _ & V7 & _). rewrite hf_subctr by assumption. exact F6. }
  rewrite Hid, Hsc in *.
  grab ((id + 1 <? U32) = true) as Bid. grab ((16 <=? _)%nat = true) as Bn.
  grab (rent_topup _ _ w _ _ _ = Ok _) as Br1. apply rent_topup_keeps in Br1.
  grab (sys_allocate_assign _ _ _ _ _ = Ok _) as Bl. apply sys_allocate_spec in Bl as (L1 & L2 & L3 & L4 & L5).
  grab (set_data _ _ state _ = Ok _) as Bs. apply set_data_only in Bs as (S1 & _).
  grab (rent_topup _ _ _ _ sa _ = Ok _) as Br2. apply rent_topup_keeps in Br2.
  assert (Hu : is_u32 (id + 1)). { destruct W as (_ & _ & _ & _ & _ & _ & W7 & _). unfold is_u32 in *. fold id in W7. lia. }
  pose proof (set_subctr_wf s1 (id + 1) O3 Hu) as W2.
  grab (beq (a_owner (w swig)) SELF = true) as Bo1. apply beq_eq in Bo1.
  grab (beq (a_owner (w state)) SYSTEM = true) as Bo2. apply beq_eq in Bo2.
  grab (beq (a_owner (w sa)) SYSTEM = true) as Bo3. apply beq_eq in Bo3.
  assert (Hne : swig <> state) by (intros Heq; rewrite Heq in Bo1; rewrite Bo1 in Bo2; discriminate).
  rewrite O4, O5, O6, (set_subctr_enc s1 (id + 1) O3) in H.
  (* everything before the last write *)
  assert (K : forall k, k <> state -> kept w v9 k).
  { intros k Hk. destruct S1 as (_ & _ & S1). destruct (Br1 k), (L5 k Hk), (S1 k Hk), (Br2 k). split; congruence. }
  assert (Ks : a_data (v9 state) = v2_record bump abump 1 id (s_id s) sa /\ a_owner (v9 state) = SELF).
  { destruct S1 as (S1 & S2 & _). destruct (Br2 state). split; congruence. }
  assert (Hfin : forall dd, only_data v9 w' swig dd ->
     a_data (w' swig) = dd /\ a_owner (w' swig) = SELF
     /\ a_data (w' state) = v2_record bump abump 1 id (s_id s) sa /\ a_owner (w' state) = SELF
     /\ (forall k, k <> swig -> k <> state -> kept w w' k)).
  { intros dd (D1 & D2 & D3). destruct (K swig Hne) as [_ Ko]. destruct Ks as [Ks1 Ks2].
    destruct (D3 state ltac:(congruence)) as [E1 E2].
    split; [exact D1|]. split; [congruence|]. split; [congruence|]. split; [congruence|].
    intros k H1 H2. destruct (K k H2), (D3 k H1). split; congruence. }
  exists r, s1. split; [split; [apply Nat.leb_le; exact Bn|exact O1]|]. split; [exact Bc|]. split; [exact Bv|].
  split; [lia|]. split; [exact Bk1|]. split; [exact Bk2|]. split; [exact Bo1|]. split; [exact Bo2|].
  split; [destruct (Br1 state); congruence|]. split; [exact Bo3|]. cbv zeta.
  destruct (has P_SubAccountV2All (le_enc 4 id) r) eqn:Eg.
  - apply set_data_only in H as (H1 & _). destruct (Hfin _ H1) as (Q1 & Q2 & Q3 & Q4 & Q5).
    split; [exact Q1|]. split; [exact Q2|]. split; [exact W2|]. split; [exact Q3|]. split; [exact Q4|]. split; [exact Q5|left; reflexivity].
  - peel H. grab (append_actions _ _ _ = Ok _) as Ba.
    apply append_actions_enc in Ba; [|exact W2| |].
    2:{ unfold v2_all_action. repeat (apply all_bytes_app; split); try apply le_enc_bytes; apply all_bytes_zeros. }
    2:{ unfold v2_all_action. rewrite !app_length, !le_enc_length, !zeros_length. lia. }
    destruct Ba as (r0 & la & A1 & A2 & A3 & A4 & A5 & A6). apply parses_all_powers in A2. subst la.
    apply write_data_only in H as (H1 & H2 & _).
    grab (rent_topup _ _ v9 _ _ _ = Ok _) as Br3. apply rent_topup_keeps in Br3.
    pose proof (only_data_keeps_l _ _ _ _ _ Br3 H1) as H3.
    destruct (Hfin _ H3) as (Q1 & Q2 & Q3 & Q4 & Q5).
    split; [congruence|]. split; [exact Q2|]. split; [apply A5; exact H2|]. split; [exact Q3|]. split; [exact Q4|]. split; [exact Q5|right].
    assert (Ra : r_acts r0 = r_acts r).
    { destruct O1 as (F0 & auth & _ & Es). change (find_role rid s1 = Some r0) in A1. rewrite Es in A1.
      rewrite find_on_role, F0 in A1 by reflexivity. cbn [option_map] in A1. injection A1 as <-. destruct (r_id r =? rid); reflexivity. }
    rewrite Ra in A6. apply Forall_app in A6. apply A6.
Qed.

Lemma check_v2_record_ok w state sid id rd : check_v2_record w state sid id = Ok rd ->
  rd = a_data (w state) /\ length rd = V2_LEN /\ byte_at 0 rd = D_SubV2
  /\ (v2_enabled rd = 0 \/ v2_enabled rd = 1) /\ v2_swig_id rd = sid /\ v2_id rd = id.
Proof.
  unfold check_v2_record. intros H. peel H. apply ok_inj in H. subst rd.
  split; [reflexivity|]. split; [apply Nat.eqb_eq; assumption|]. split; [lia|]. split; [|split; [apply beq_eq; assumption|lia]].
  grab (_ || _ = true) as Bo. apply orb_true_iff in Bo as [Bo|Bo]; [left|right]; lia.
Qed.

Lemma toggle_sub_v2_spec E cx w w' s :
  wf_ctx cx -> toggle_sub_account_v2 E cx w = Ok w' ->
  let swig := mkey (c_metas cx) 0 in let state := mkey (c_metas cx) 2 in
  let data := c_data cx in let id := u32_at 8 data in let en := byte_at 2 data in
  a_data (w swig) = enc_config s -> wf_config s ->
  exists r s1, acts_as E cx s (u32_at 4 data) 16 r s1
    /\ scoped P_SubAccountV2Toggle id r = true
    /\ is_v2 s /\ (en = 0 \/ en = 1)
    /\ let rd := a_data (w state) in
       length rd = V2_LEN /\ byte_at 0 rd = D_SubV2 /\ v2_swig_id rd = s_id s /\ v2_id rd = id
    /\ pda E (seeds_v2_state (s_id s) id (v2_bump rd)) = Some state
    /\ swig <> state /\ a_owner (w swig) = SELF /\ a_owner (w state) = SELF
    /\ a_data (w' swig) = enc_config s1 /\ wf_config s1
    /\ a_data (w' state) = splice 3 [en] rd
    /\ (forall k, a_owner (w' k) = a_owner (w k))
    /\ (forall k, k <> swig -> k <> state -> kept w w' k).
Proof.
  intros (Wc1 & Wc2) H swig state data id en Hd W.
  unfold toggle_sub_account_v2 in H. cbv zeta in H. fold swig state data in H. fold id en in H.
  peel H. cfg s Hd W. opening W. rewrite O8 in *.
  grab (require_swig_v2 _ = Ok _) as Bv. apply require_v2_enc in Bv; [|exact W].
  grab (authorize_scoped_v2 _ _ _ = Ok _) as Ba. apply authorize_enc in Ba; [|unfold P_SubAccountV2Toggle; lia|exact O2].
  assert (Hid : h_id (o_hdr v1) = s_id s) by (rewrite O4, hdr_id by exact O3; exact F2). rewrite Hid in *.
  grab (set_data _ w _ _ = Ok _) as Bs. apply set_data_only in Bs as ((S1 & S2 & S3) & _). rewrite O7 in S1.
  grab (check_v2_record _ _ _ _ = Ok _) as Bc. apply check_v2_record_ok in Bc as (C1 & C2 & C3 & C4 & C5 & C6).
  grab (check_pda _ _ _ _ = Ok _) as Bk. apply check_pda_ok in Bk.
  apply set_data_only in H as ((T1 & T2 & T3) & _).
  grab (beq (a_owner (w swig)) SELF = true) as Bo1. apply beq_eq in Bo1.
  grab (beq (a_owner (w state)) SELF = true) as Bo2. apply beq_eq in Bo2.
  grab ((en <=? 1) = true) as Ben. grab ((16 <=? _)%nat = true) as Bn.
  assert (Hne : swig <> state).
  { intros Heq. rewrite <- Heq, S1 in C1. rewrite C1 in C3. discriminate C3. }
  destruct (S3 state ltac:(congruence)) as [S3a S3b]. rewrite S3a in C1.
  pose proof (bytes_ge0 2 data Wc1) as Hb. fold en in Hb. unfold is_byte in Hb.
  exists r, s1. split; [split; [apply Nat.leb_le; exact Bn|exact O1]|]. split; [exact Ba|]. split; [exact Bv|].
  split; [lia|]. cbv zeta. rewrite <- C1.
  split; [exact C2|]. split; [exact C3|]. split; [exact C5|]. split; [exact C6|]. split; [exact Bk|].
  split; [exact Hne|]. split; [exact Bo1|]. split; [exact Bo2|].
  destruct (T3 swig Hne) as [T3a T3b].
  split; [congruence|]. split; [exact O3|]. split; [exact T1|].
  split.
  - intros k. destruct (bytes_dec k swig) as [->|N1]; [congruence|].
    destruct (bytes_dec k state) as [->|N2]; [congruence|]. destruct (S3 k N1), (T3 k N2). congruence.
  - intros k N1 N2. destruct (S3 k N1), (T3 k N2). split; congruence.
Qed.
