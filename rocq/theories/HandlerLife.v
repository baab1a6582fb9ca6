(** * Creation, migration and closing *)
From Verif Require Import BaseFacts SpecConfig ConfigFacts ConfigEdit NewCredential ConfigEdit2 ConfigEdit3.
From Verif Require Export HandlerSub.

(** ** Migration *)
Lemma migrated_wf s wb : wf_config s -> is_byte wb -> wf_config (migrated s wb).
Proof.
  intros W Hb. pose proof (enc_config_length s W) as L.
  destruct W as (W1 & W2 & W3 & W4 & W5 & W6 & W7 & W8 & W9 & W10 & W11 & W12 & W13).
  unfold wf_config, ids. cbn [migrated s_bump s_id s_roles s_counter s_wbump s_pad s_subctr s_claimer].
  do 3 (split; [assumption|]). split; [exact Hb|]. split; [reflexivity|]. split; [apply all_bytes_zeros|].
  split; [unfold is_u32, U32; lia|]. do 4 (split; [assumption|]). split; [|exact W13].
  unfold enc_config in *. cbn [migrated s_roles s_claimer]. rewrite !app_length in *.
  rewrite enc_header_length in * by (cbn; first [apply W2|assumption|reflexivity]). exact W12.
Qed.
Lemma migrated_header s wb : wf_config s ->
  header (h_bump (enc_config s)) (h_id (enc_config s)) (h_roles (enc_config s)) (h_counter (enc_config s)) wb (zeros 3) 0
  = enc_header (migrated s wb).
Proof.
  intros (W1 & (W2 & _) & W3 & W4 & W5 & W6 & W7 & W8 & W9 & W10 & W11 & W12 & W13).
  unfold enc_config. rewrite hf_bump, hf_id, hf_roles, hf_counter by assumption. reflexivity.
Qed.

Lemma migrate_spec E cx w w' s :
  wf_ctx cx -> migrate_v1 E cx w = Ok w' ->
  let swig := mkey (c_metas cx) 0 in let wallet := mkey (c_metas cx) 3 in let data := c_data cx in
  let wb := byte_at 2 data in
  a_data (w swig) = enc_config s -> wf_config s ->
  exists r s1, acts_as E cx s (u32_at 4 data) 8 r s1
    /\ can_manage r = true
    /\ pda E (seeds_wallet swig wb) = Some wallet
    /\ a_owner (w wallet) = SYSTEM /\ a_data (w wallet) = []
    /\ (enc_config (migrated s1 wb) <> enc_config s -> a_owner (w swig) = SELF)
    /\ only_data w w' swig (enc_config (migrated s1 wb)) /\ wf_config (migrated s1 wb).
Proof.
  intros (Wc1 & Wc2) H swig wallet data wb Hd W.
  unfold migrate_v1 in H. cbv zeta in H. fold swig wallet data in H. fold wb in H. rewrite Hd in H.
  peel H. opening W. grab (check_pda _ _ _ _ = Ok _) as Bk. grab (can_manage _ = true) as Bm.
  grab ((8 <=? _)%nat = true) as Bn. grab (set_data _ _ _ _ = Ok _) as Bs.
  grab (beq _ SYSTEM = true) as Bo. grab ((_ =? 0)%nat = true) as Bz.
  apply set_data_only in Bs as (H1 & H2 & _). apply rent_topup_keeps in H.
  rewrite (migrated_header s wb W), O5, O6 in H1, H2.
  assert (Eh : enc_header (migrated s wb) = enc_header (migrated s1 wb)).
  { unfold enc_header, migrated. cbn [s_bump s_id s_roles s_counter s_wbump s_pad s_subctr]. rewrite F1, F2, F3, F8. reflexivity. }
  rewrite Eh in H1, H2. change (enc_header (migrated s1 wb) ++ enc_roles 0 (s_roles s1) ++ enc_claimer (s_claimer s1))
    with (enc_config (migrated s1 wb)) in H1, H2.
  exists r, s1. split; [split; [apply Nat.leb_le; exact Bn|exact O1]|]. split; [exact Bm|].
  split; [eapply check_pda_ok; exact Bk|].
  split; [apply beq_eq; exact Bo|].
  split; [apply Nat.eqb_eq in Bz; destruct (a_data (w wallet)); [reflexivity|discriminate]|].
  split; [intros Hne; apply H2; rewrite Hd; exact Hne|].
  split; [eapply only_data_keeps_r; eassumption|].
  apply migrated_wf; [exact O3|apply bytes_ge0; exact Wc1].
Qed.

(** ** Closing *)
Lemma may_close_enc r : wf_role r -> may_close (enc_actions 0 (r_acts r)) = Ok (can_close r).
Proof. intros H. unfold may_close. rewrite !has_action_enc by exact H. reflexivity. Qed.
Lemma check_claimer_enc c dest u : (forall k, c = Some k -> wf_key k) ->
  check_claimer (enc_claimer c) dest = Ok u -> forall k, c = Some k -> dest = k.
Proof.
  intros Hw H k ->. unfold check_claimer in H. rewrite read_strict_enc in H by exact Hw. cbn [bind] in H.
  apply check_ok in H. apply beq_eq in H. exact H.
Qed.

(** lamports handed to [dest] when [swig] is left with [keep] *)
Lemma pay_out_ok ms w swig dest sl keep w' : pay_out ms w swig dest sl keep = Ok w' ->
  writable ms swig = true /\ writable ms dest = true
  /\ (swig <> dest -> a_lamports (w' swig) = keep
       /\ a_lamports (w' dest) = a_lamports (w dest) + sat_sub sl keep
       /\ a_lamports (w' swig) + a_lamports (w' dest) = a_lamports (w swig) + a_lamports (w dest))
  /\ (swig = dest -> a_lamports (w' swig) = a_lamports (w swig))
  /\ (forall k, k <> swig -> k <> dest -> w' k = w k).
Proof.
  unfold pay_out. intros H. peel H. apply ok_inj in H.
  set (w2 := upd _ dest _) in *. subst w'. 
  grab (_ && _ = true) as Bw. apply andb_prop in Bw as [Bw1 Bw2].
  grab ((if beq swig dest then _ else _) = true) as Be.
  split; [exact Bw1|]. split; [exact Bw2|]. split; [|split].
  - intros Hne. pose proof Hne as Hb. apply beq_neq in Hb. rewrite Hb in Be.
    assert (E1 : a_lamports (w2 swig) = keep) by (unfold w2; rewrite upd_other, upd_same by congruence; reflexivity).
    split; [exact E1|]. split; [|apply Z.eqb_eq; exact Be].
    unfold w2. rewrite upd_same. cbn [a_lamports]. rewrite upd_other by congruence. reflexivity.
  - intros Heq. rewrite <- Heq, beq_refl in Be. apply Z.eqb_eq in Be. rewrite <- Heq in *. exact Be.
  - intros k H1 H2. unfold w2. rewrite !upd_other by congruence. reflexivity.
Qed.

Lemma close_swig_spec E cx w w' s :
  close_swig_v1 E cx w = Ok w' ->
  let swig := mkey (c_metas cx) 0 in let wallet := mkey (c_metas cx) 1 in
  let dest := mkey (c_metas cx) 2 in let data := c_data cx in
  a_data (w swig) = enc_config s -> wf_config s ->
  exists r s1, acts_as E cx s (u32_at 4 data) 8 r s1
    /\ can_close r = true
    /\ (forall k, s_claimer s = Some k -> dest = k)
    /\ wallet = fst (find_pda E (seeds_wallet0 swig))
    /\ a_lamports (w swig) <= rent E (length (enc_config s)) /\ a_lamports (w wallet) <= rent E 0
    /\ a_owner (w swig) = SELF
    /\ only_data w w' swig [D_Closed].
Proof.
  intros H swig wallet dest data Hd W.
  unfold close_swig_v1 in H. cbv zeta in H. fold swig wallet dest data in H.
  peel H. cfg s Hd W. opening W.
  grab (may_close _ = Ok _) as Bm. rewrite O8, (may_close_enc r O2) in Bm. apply ok_inj in Bm. subst.
  grab (can_close _ = true) as Bm. grab (check_claimer _ _ = Ok _) as Bc. rewrite O6, F7 in Bc.
  grab ((if 0 <? _ then _ else _) = Ok _) as Bt. grab (pay_out _ _ _ _ _ _ = Ok _) as Bp.
  apply write_data_only in H as (H1 & _ & _ & H4). apply pay_out_keeps in Bp.
  grab (beq wallet _ = true) as Bw. grab ((8 <=? _)%nat = true) as Bn.
  assert (K1 : keeps w v3).
  { destruct (_ <? _) in Bt; [eapply sys_transfer_keeps; exact Bt|apply ok_inj in Bt; subst; apply keeps_refl]. }
  exists r, s1. split; [split; [apply Nat.leb_le; exact Bn|exact O1]|]. split; [exact Bm|].
  split; [eapply check_claimer_enc; [apply W|exact Bc]|].
  split; [apply beq_eq; exact Bw|]. split; [lia|]. split; [lia|]. split; [apply beq_eq; assumption|].
  eapply only_data_keeps_l; [eapply keeps_trans; eassumption|exact H1].
Qed.

(** ** Creation *)
Definition empty_config (id : bytes) (bump wbump : Z) : config :=
  mk_config bump id 0 wbump (zeros 3) 0 [] None.
Lemma new_header_enc id bump wbump : new_header id bump wbump = enc_header (empty_config id bump wbump).
Proof. reflexivity. Qed.

Lemma sys_create_account_spec ms pdas w from k amt n w' : sys_create_account ms pdas w from k amt n = Ok w' ->
  a_lamports (w k) = 0 /\ a_owner (w k) = SYSTEM /\ a_data (w k) = []
  /\ a_owner (w' k) = SELF /\ a_data (w' k) = zeros n /\ Z.of_nat n <= 10240
  /\ (forall k', k' <> k -> kept w w' k').
Proof.
  unfold sys_create_account. intros H. peel H. grab (sys_transfer _ _ _ _ _ _ = Ok _) as Bt.
  pose proof (sys_transfer_keeps _ _ _ _ _ _ _ Bt) as K. unfold sys_allocate_assign in H. peel H.
  apply ok_inj in H. subst w'.
  split; [lia|]. split; [apply beq_eq; assumption|].
  split. { grab ((length (a_data (w k)) =? 0)%nat = true) as Bz. apply Nat.eqb_eq in Bz. destruct (a_data (w k)); [reflexivity|discriminate]. }
  rewrite upd_same. cbn [a_owner a_data]. split; [reflexivity|]. split; [reflexivity|]. split; [lia|].
  intros k' Hk. destruct (K k') as [K1 K2]. unfold kept. rewrite upd_other by exact Hk. split; assumption.
Qed.

Lemma create_v1_spec E cx w w' :
  wf_ctx cx -> create_v1 E cx w = Ok w' ->
  let swig := mkey (c_metas cx) 0 in let wallet := mkey (c_metas cx) 2 in let data := c_data cx in
  let alen := nat_of (u16_at 4 data) in let bump := byte_at 6 data in let wbump := byte_at 7 data in
  let id := sub 8 32 data in let acts := skipn (40 + alen) data in
  exists nr, let s' := add_to (empty_config id bump wbump) nr in
    wf_config s' /\ r_id nr = 0 /\ r_aty nr = u16_at 2 data
    /\ r_auth nr = new_credential (r_aty nr) (sub 40 alen data) /\ r_pad nr = zeros 2
    /\ parses acts (r_acts nr)
    /\ (exists m a, find_action P_ManageAuthority acts = Ok m /\ find_action P_All acts = Ok a /\ m || a = true)
    /\ pda E (seeds_swig id bump) = Some swig
    /\ pda E (seeds_wallet swig wbump) = Some wallet
    /\ a_owner (w swig) = SYSTEM /\ a_data (w swig) = [] /\ a_lamports (w swig) = 0
    /\ a_owner (w wallet) = SYSTEM /\ a_data (w wallet) = []
    /\ a_owner (w' swig) = SELF /\ a_data (w' swig) = enc_config s'
    /\ (forall k, k <> swig -> kept w w' k) /\ exec_outside nr.
Proof.
  intros (Wc1 & Wc2) H swig wallet data alen bump wbump id acts.
  unfold create_v1 in H. cbv zeta in H. fold swig wallet data in H. fold alen bump wbump id in H. fold acts in H.
  peels H. peel H. 
  grab (check_pda _ (seeds_swig _ _) _ _ = Ok _) as Bk1. apply check_pda_ok in Bk1.
  grab (check_pda _ (seeds_wallet _ _) _ _ = Ok _) as Bk2. apply check_pda_ok in Bk2.
  grab (sys_create_account _ _ _ _ _ _ _ = Ok _) as Bc.
  apply sys_create_account_spec in Bc as (C1 & C2 & C3 & C4 & C5 & C6 & C7).
  grab (rent_topup _ _ _ _ _ _ = Ok _) as Br. apply rent_topup_keeps in Br.
  grab (add_role _ _ _ _ _ = Ok _) as Ba. destruct (Br swig) as [Br1 Br2].
  rewrite Br1, C5 in Ba. rewrite new_header_enc in Ba.
  grab (authority_type _ = Ok _) as Bty. apply authority_type_id in Bty. subst.
  grab (authority_len _ = Some _) as Bal. rename v4 into al.
  set (s0 := empty_config id bump wbump) in *.
  set (size := align8 (HDR + POS + al + length acts)) in *.
  grab ((40 <=? _)%nat = true) as Bn. apply Nat.leb_le in Bn.
  assert (Lid : length id = 32%nat) by (apply sub_length; unfold data in *; lia).
  assert (Aid : all_bytes id) by (apply all_bytes_sub; exact Wc1).
  pose proof (align8_ge (HDR + POS + al + length acts)) as Hge. fold size in Hge.
  assert (Ez : skipn HDR (zeros size) = zeros (size - HDR)).
  { unfold zeros. replace size with (HDR + (size - HDR))%nat at 1 by (unfold HDR in *; lia).
    rewrite repeat_app. apply skipn_app_exact. apply repeat_length. }
  rewrite Ez in Ba.
  change (zeros (size - HDR)) with (enc_roles 0 (s_roles s0) ++ zeros (size - HDR)) in Ba.
  assert (Hsl : length (zeros (size - HDR)) = (size - HDR)%nat) by apply zeros_length.
  apply add_role_enc in Ba; try assumption; try reflexivity.
  2:{ constructor. }
  2:{ unfold is_u32, U32; cbn; lia. }
  2:{ apply all_bytes_zeros. }
  2:{ apply all_bytes_sub; exact Wc1. }
  2:{ apply all_bytes_skipn; exact Wc1. }
  2:{ rewrite Hsl. cbn [roles_size s_roles s0 empty_config]. unfold U32. lia. }
  destruct Ba as (auth & lacts & A1 & A2 & A3 & A4 & A5 & A6). cbv zeta in *.
  set (nr := mk_role (s_counter s0) _ _ auth lacts) in *.
  assert (Lnr : role_len nr = (16 + al + length acts)%nat).
  { unfold role_len. cbn [nr r_auth r_acts]. rewrite (parses_length _ _ A1).
    pose proof A2 as (_ & A2' & _). cbn [nr r_aty r_auth] in A2'. rewrite Bal in A2'. injection A2' as ->. lia. }
  assert (Esz : (size - HDR)%nat = role_len nr).
  { destruct (role_len_8 nr A2) as [q Hq]. unfold size.
    replace (HDR + POS + al + length acts)%nat with (8 * (6 + q))%nat by (unfold HDR, POS; lia).
    rewrite align8_id. unfold HDR. lia. }
  rewrite skipn_all2 in A6 by (rewrite zeros_length; lia). rewrite app_nil_r in A6.
  rewrite header_set_counts in A5 by (try exact Lid; reflexivity).
  rewrite !Z.mod_small in A5 by (unfold U16, U32; cbn; lia).
  rewrite (enc_header_add s0 nr) in A5.
  apply set_data_only in H as (H1 & _). rewrite A5, A6 in H1.
  assert (Ee : enc_header (add_to s0 nr) ++ enc_roles 0 (s_roles s0 ++ [nr]) = enc_config (add_to s0 nr)).
  { unfold enc_config. cbn [add_to s_claimer s0 empty_config enc_claimer s_roles app]. rewrite app_nil_r. reflexivity. }
  rewrite Ee in H1.
  assert (W0 : wf_config s0).
  { unfold wf_config, s0, ids. cbn [empty_config s_bump s_id s_roles s_counter s_wbump s_pad s_subctr s_claimer].
    split; [apply bytes_ge0; exact Wc1|]. split; [split; assumption|]. split; [unfold is_u32, U32; lia|].
    split; [apply bytes_ge0; exact Wc1|]. split; [reflexivity|]. split; [apply all_bytes_zeros|].
    split; [unfold is_u32, U32; lia|]. split; [constructor|]. split; [constructor|]. split; [intros i []|].
    split; [cbn; lia|]. split; [|congruence].
    unfold enc_config. cbn [empty_config s_roles s_claimer enc_roles enc_claimer app]. rewrite app_nil_r.
    rewrite enc_header_length by (try exact Lid; reflexivity). unfold HDR. lia. }
  exists nr. cbv zeta. split.
  { apply wf_config_add; try assumption; try reflexivity.
    - unfold room, U32, U16. cbn. lia.
    - unfold enc_config. cbn [add_to s_roles s_claimer s0 empty_config enc_claimer app].
      rewrite !app_length. rewrite enc_header_length by (try exact Lid; reflexivity).
      rewrite enc_roles_length by (constructor; [exact A2|constructor]). cbn [roles_size length]. unfold HDR in *. lia. }
  split; [reflexivity|]. split; [reflexivity|].
  assert (Lau : length auth = al) by (destruct A2 as (_ & A2 & _); cbn [nr r_aty r_auth] in A2; congruence).
  assert (Nc : r_auth nr = new_credential (r_aty nr) (sub 40 alen data)). { eapply set_into_bytes_new; [exact A4| |].
    - rewrite sub_length; [cbn [nr r_aty]; congruence|]. rewrite zeros_length. unfold role_len in Esz. cbn [nr r_auth] in Esz. lia.
    - unfold sub. rewrite skipn_zeros, firstn_zeros, skipn_zeros. reflexivity. }
  split; [exact Nc|].
  split. { cbn [nr r_pad]. unfold sub. rewrite skipn_zeros, firstn_zeros. f_equal. unfold role_len in Esz. lia. }
  split; [exact A1|].
  split; [do 2 eexists; repeat split; eassumption|]. split; [exact Bk1|]. split; [exact Bk2|].
  split; [exact C2|]. split; [exact C3|]. split; [exact C1|].
  grab (beq (a_owner (w wallet)) SYSTEM = true) as Bo. grab ((length (a_data (w wallet)) =? 0)%nat = true) as Bz.
  split; [apply beq_eq; exact Bo|]. split; [apply Nat.eqb_eq in Bz; destruct (a_data (w wallet)); [reflexivity|discriminate]|].
  destruct H1 as (D1 & D2 & D3).
  split; [congruence|]. split; [exact D1|]. split; [|exact (set_into_bytes_exec nr _ _ _ A4 Nc)].
  intros k Hk. destruct (D3 k Hk), (Br k), (C7 k Hk). split; congruence.
Qed.
