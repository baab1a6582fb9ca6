(** * The decoder of inner instructions reads exactly the documented format *)
From Verif Require Import BaseFacts SpecConfig ConfigFacts ConfigEdit ConfigEdit2 ConfigEdit3.
From Verif Require Export SpecSign SignTrace.

Lemma parse_accts_meant ms sk n : forall l ims u r, parse_accts ms sk n l = Ok (ims, u, r) ->
  exists idx, l = idx ++ r /\ length idx = n
    /\ Forall2 (fun a m => exists m0, nth_error ms (Z.to_nat a) = Some m0
                /\ m = mk_meta (m_key m0) (m_signer m0 || beq (m_key m0) sk) (m_writable m0)) idx ims.
Proof.
  induction n as [|n IH]; intros l ims u r H; cbn [parse_accts] in H.
  - apply ok_inj in H. injection H as <- <- <-. exists []. split; [reflexivity|]. split; [reflexivity|constructor].
  - destruct l as [|i l]; [discriminate|]. bind_inv H. apply ok_or_ok in B. bind_inv K.
    destruct v0 as [[ims' u'] r']. apply ok_inj in K0. injection K0 as <- <- <-.
    destruct (IH _ _ _ _ B0) as (idx & -> & L & F). exists (i :: idx). split; [reflexivity|]. split; [cbn; lia|].
    constructor; [|exact F]. exists v. split; [exact B|]. rewrite orb_comm. reflexivity.
Qed.
Lemma accts_meant_parse ms sk idx ims r :
  Forall2 (fun a m => exists m0, nth_error ms (Z.to_nat a) = Some m0
                /\ m = mk_meta (m_key m0) (m_signer m0 || beq (m_key m0) sk) (m_writable m0)) idx ims ->
  exists u, parse_accts ms sk (length idx) (idx ++ r) = Ok (ims, u, r).
Proof.
  induction 1 as [|a m idx ims (m0 & H1 & ->) F (u & IH)]; cbn [parse_accts length app]; [eexists; reflexivity|].
  unfold nat_of. rewrite H1. cbn [ok_or bind]. rewrite IH. cbn [bind]. eexists. rewrite (orb_comm (m_signer m0)). reflexivity.
Qed.
Lemma u16_split r : all_bytes r -> (2 <= length r)%nat -> r = le_enc 2 (u16_at 0 r) ++ skipn 2 r.
Proof.
  intros B L. rewrite <- (firstn_skipn 2 r) at 1. f_equal. unfold u16_at, sub. cbn [skipn].
  replace 2%nat with (length (firstn 2 r)) at 2 by (rewrite firstn_length; lia). symmetry. apply le_enc_le, all_bytes_firstn, B.
Qed.
Lemma parse_one_listed ms sk l x r : all_bytes l -> parse_one ms sk l = Ok (x, r) ->
  exists prog accts data, l = enc_inner prog accts data ++ r /\ meant ms sk prog accts data (in_ix x)
    /\ (length accts <= 254)%nat /\ Z.of_nat (length data) < 65536.
Proof.
  intros Hb H. unfold parse_one in H. destruct l as [|p l]; [discriminate|]. bind_inv H. apply ok_or_ok in B.
  destruct l as [|n l]; [discriminate|]. bind_inv K. destruct v0 as [[ims u] r2]. peel K0. apply ok_inj in K0.
  apply pair_equal_spec in K0 as [<- <-]. destruct (parse_accts_meant _ _ _ _ _ _ _ B0) as (idx & -> & L & F).
  inversion Hb as [|? ? Hp H1]; subst. inversion H1 as [|? ? Hn H2]; subst. apply all_bytes_app in H2 as [Hi Hr].
  set (d := nat_of (u16_at 0 r2)) in *. assert (D16 : is_u16 (u16_at 0 r2)) by (apply u16_bound; exact Hr). unfold is_u16 in D16.
  assert (Ld : length (firstn d (skipn 2 r2)) = d) by (rewrite firstn_length; lia).
  exists p, idx, (firstn d (skipn 2 r2)). unfold is_byte in Hn.
  split; [|split; [|split]].
  - unfold enc_inner. rewrite Ld, L. unfold nat_of in *. cbn [app]. f_equal. rewrite Z2Nat.id by lia. f_equal.
    rewrite <- app_assoc. f_equal. rewrite (u16_split r2) at 1 by (try assumption; lia).
    unfold d. rewrite Z2Nat.id by lia. rewrite <- app_assoc. f_equal. symmetry. apply firstn_skipn.
  - split; [exists v; split; [exact B|reflexivity]|]. split; [exact F|reflexivity].
  - unfold nat_of in L. lia.
  - rewrite Ld. unfold d, nat_of. unfold U16 in D16. lia.
Qed.
Lemma parse_n_listed ms sk n : forall l xs, all_bytes l -> parse_n ms sk n l = Ok xs -> listed ms sk l (map in_ix xs) /\ length xs = n.
Proof.
  induction n as [|n IH]; intros l xs Hb H; cbn [parse_n] in H.
  - apply ok_inj in H. subst. split; [constructor|reflexivity].
  - bind_inv H. destruct v as [x r]. bind_inv K. apply ok_inj in K0. subst xs.
    pose proof (parse_one_ok _ _ _ _ _ Hb B) as [_ Hr].
    destruct (parse_one_listed _ _ _ _ _ Hb B) as (p & ac & d & -> & M & L1 & L2). destruct (IH _ _ Hr B0) as [F L].
    split; [cbn [map]; constructor; assumption|cbn; lia].
Qed.
Theorem parse_all_inner ms sk l xs : all_bytes l -> parse_all ms sk l = Ok xs -> inner_ixs ms sk l (map in_ix xs).
Proof.
  intros Hb H. pose proof (parse_all_ok _ _ _ _ Hb H) as [_ L]. unfold parse_all in H. destruct l as [|n l]; [discriminate|].
  inversion Hb as [|? ? Hn Hl]; subst. destruct (parse_n_listed _ _ _ _ _ Hl H) as [F Ln]. unfold is_byte in Hn.
  split; [rewrite map_length; exact L|]. exists l. split; [|exact F]. rewrite map_length, Ln. unfold nat_of. rewrite Z2Nat.id by lia. reflexivity.
Qed.

Lemma listed_parse_one ms sk prog accts data x r : meant ms sk prog accts data x ->
  (length accts <= 254)%nat -> Z.of_nat (length data) < 65536 ->
  exists y, parse_one ms sk (enc_inner prog accts data ++ r) = Ok (y, r) /\ in_ix y = x.
Proof.
  intros ((pm & P1 & P2) & F & Dx) L1 L2. destruct x as [xp xm xd]; cbn in *. subst xp xd.
  destruct (accts_meant_parse ms sk accts xm (le_enc 2 (Z.of_nat (length data)) ++ data ++ r) F) as (u & Hu).
  unfold enc_inner. rewrite <- !app_assoc. cbn [app]. unfold parse_one. cbv beta iota. unfold nat_of in *. rewrite P1. cbn [ok_or bind].
  rewrite Nat2Z.id. rewrite Hu. cbn [bind]. replace (Z.of_nat (length accts) <=? 254) with true by lia. cbn [guard bind].
  assert (Ll : length (le_enc 2 (Z.of_nat (length data))) = 2%nat) by apply le_enc_length.
  replace (2 <=? length (le_enc 2 (Z.of_nat (length data)) ++ data ++ r))%nat with true by (rewrite app_length, Ll; lia). cbn [check bind].
  assert (U : u16_at 0 (le_enc 2 (Z.of_nat (length data)) ++ data ++ r) = Z.of_nat (length data)).
  { unfold u16_at, sub. rewrite skipn_O, firstn_app, Ll, Nat.sub_diag, firstn_O, app_nil_r, firstn_all2 by (rewrite Ll; lia).
    apply le_le_enc. cbn. lia. }
  rewrite U, Nat2Z.id.
  assert (Sk : skipn 2 (le_enc 2 (Z.of_nat (length data)) ++ data ++ r) = data ++ r) by reflexivity.
  change (match le_enc 2 (Z.of_nat (length data)) ++ data ++ r with _ :: _ :: l0 => l0 | _ => [] end)
    with (skipn 2 (le_enc 2 (Z.of_nat (length data)) ++ data ++ r)). rewrite Sk.
  replace (length data <=? length (data ++ r))%nat with true by (rewrite app_length; lia). cbn [check bind].
  eexists. split; [apply (f_equal Ok); apply pair_equal_spec; split; [reflexivity|]|].
  - rewrite skipn_app, skipn_all2, Nat.sub_diag by lia. reflexivity.
  - cbn [in_ix]. f_equal. rewrite firstn_app, firstn_all, Nat.sub_diag. cbn. apply app_nil_r.
Qed.
Lemma listed_parse_n ms sk l xs : listed ms sk l xs -> exists ys, parse_n ms sk (length xs) l = Ok ys /\ map in_ix ys = xs.
Proof.
  induction 1 as [rest|prog accts data x rest xs M L1 L2 H (ys & I1 & I2)]; [exists []; split; reflexivity|].
  destruct (listed_parse_one _ _ _ _ _ _ rest M L1 L2) as (y & Y1 & Y2). exists (y :: ys). cbn [length parse_n map].
  rewrite Y1. cbn [bind]. rewrite I1. cbn [bind]. split; [reflexivity|]. rewrite Y2, I2. reflexivity.
Qed.
Theorem inner_parse_all ms sk l xs : inner_ixs ms sk l xs -> exists ys, parse_all ms sk l = Ok ys /\ map in_ix ys = xs.
Proof.
  intros (L & rest & -> & H). unfold parse_all, nat_of. rewrite Nat2Z.id. apply listed_parse_n. exact H.
Qed.
