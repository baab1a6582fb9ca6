(** * The SDK's listing of permissions is true and, but for two kinds, complete *)
From Verif Require Import BaseFacts ConfigFacts ConfigEdit AuthFacts AuthProps2.
From Verif Require Export SdkFacts.

Lemma le_app a b : le (a ++ b) = le a + 256 ^ Z.of_nat (length a) * le b.
Proof.
  induction a as [|x a IH]; [cbn; lia|]. cbn [app le length]. rewrite IH, Nat2Z.inj_succ, Z.pow_succ_r by lia. lia.
Qed.
Lemma le_low (l : bytes) : all_bytes l -> length l = 16%nat -> le l mod U64 = le (firstn 8 l).
Proof.
  intros A L. rewrite <- (firstn_skipn 8 l) at 1. rewrite le_app.
  assert (F : length (firstn 8 l) = 8%nat) by (rewrite firstn_length; lia). rewrite F.
  assert (B : all_bytes (firstn 8 l)) by (apply Forall_forall; intros x X; eapply Forall_forall; [exact A|]; rewrite <- (firstn_skipn 8 l); apply in_or_app; auto).
  pose proof (le_bound _ B) as P. rewrite F in P.
  change (256 ^ Z.of_nat 8) with U64 in *. rewrite (Z.mul_comm U64), Z.mod_add by discriminate.
  apply Z.mod_small. exact P.
Qed.

Lemma u64_bound o d : all_bytes d -> is_u64 (u64_at o d).
Proof. intros A. unfold u64_at. exact (le_sub_bound o 8 d A). Qed.
Lemma u32_bound o d : all_bytes d -> is_u32 (u32_at o d).
Proof. intros A. unfold u32_at. exact (le_sub_bound o 4 d A). Qed.
Lemma enc64 o d : all_bytes d -> (o + 8 <= length d)%nat -> amount_of (u64_at o d) = sub o 8 d.
Proof. apply le_enc_sub. Qed.
Lemma enc32 o d : all_bytes d -> (o + 4 <= length d)%nat -> le_enc 4 (u32_at o d) = sub o 4 d.
Proof. apply le_enc_sub. Qed.
Lemma whole o d : length d = o -> sub 0 o d = d.
Proof. intros <-. apply sub_all. Qed.

Lemma cut o n m k (d : bytes) : k = (n + m)%nat -> sub o k d = sub o n d ++ sub (o + n) m d.
Proof. intros ->. apply sub_app_split. Qed.
Lemma tells_of a ty p f : In (ty, p, f) blocks -> wf_action a -> ac_ty a = ty -> tells a (f (ac_data a)).
Proof.
  intros I [L A] T. destruct a as [t d]; cbn [ac_ty ac_data] in *. subst t.
  cbn in I.
  repeat (destruct I as [I|I]; [injection I as <- <- <-|]); [..|destruct I]; match type of L with action_len ?t = _ => let v := eval vm_compute in (action_len t) in change (action_len t) with v in L end;
    injection L as L; symmetry in L;
    try (apply length_zero_iff_nil in L; subst d; constructor).
  (* replace *)
  - rewrite <- (whole _ d L) at 1. rewrite (cut 0 4 4 8 d eq_refl); cbn [Nat.add]. rewrite <- (enc32 0 d) by (try assumption; lia).
    constructor; [apply u32_bound; exact A|apply sub_length; lia].
  - rewrite <- (whole _ d L) at 1. rewrite <- (enc64 0 d) by (try assumption; lia). constructor; apply u64_bound; exact A.
  - rewrite <- (whole _ d L) at 1. rewrite (cut 0 8 24 32 d eq_refl); cbn [Nat.add]. rewrite (cut 8 8 16 24 d eq_refl); cbn [Nat.add]. rewrite (cut 16 8 8 16 d eq_refl); cbn [Nat.add].
    rewrite <- !enc64 by (try assumption; lia). constructor; apply u64_bound; exact A.
  - rewrite <- (whole _ d L) at 1. rewrite (cut 0 32 8 40 d eq_refl); cbn [Nat.add].
    rewrite <- !enc64 by (try assumption; lia). constructor; [apply sub_length; lia|apply u64_bound; exact A].
  - rewrite <- (whole _ d L) at 1. rewrite (cut 0 32 32 64 d eq_refl); cbn [Nat.add]. rewrite (cut 32 8 24 32 d eq_refl); cbn [Nat.add]. rewrite (cut 40 8 16 24 d eq_refl); cbn [Nat.add]. rewrite (cut 48 8 8 16 d eq_refl); cbn [Nat.add].
    rewrite <- !enc64 by (try assumption; lia). constructor; [apply sub_length; lia|apply u64_bound; exact A..].
  - rewrite <- (whole _ d L) at 1. rewrite (cut 0 32 40 72 d eq_refl); cbn [Nat.add]. rewrite (cut 32 32 8 40 d eq_refl); cbn [Nat.add].
    rewrite <- !enc64 by (try assumption; lia). constructor; [apply sub_length; lia|apply sub_length; lia|apply u64_bound; exact A..].
  - rewrite <- (whole _ d L) at 1. rewrite (cut 0 32 64 96 d eq_refl); cbn [Nat.add]. rewrite (cut 32 32 32 64 d eq_refl); cbn [Nat.add]. rewrite (cut 64 8 24 32 d eq_refl); cbn [Nat.add]. rewrite (cut 72 8 16 24 d eq_refl); cbn [Nat.add]. rewrite (cut 80 8 8 16 d eq_refl); cbn [Nat.add].
    rewrite <- !enc64 by (try assumption; lia). constructor; [apply sub_length; lia|apply sub_length; lia|apply u64_bound; exact A..].
  - rewrite <- (whole _ d L) at 1. rewrite (cut 0 32 8 40 d eq_refl); cbn [Nat.add].
    rewrite <- !enc64 by (try assumption; lia). constructor; [apply sub_length; lia|apply u64_bound; exact A..].
  - rewrite <- (whole _ d L) at 1. rewrite (cut 0 32 32 64 d eq_refl); cbn [Nat.add]. rewrite (cut 32 8 24 32 d eq_refl); cbn [Nat.add]. rewrite (cut 40 8 16 24 d eq_refl); cbn [Nat.add]. rewrite (cut 48 8 8 16 d eq_refl); cbn [Nat.add].
    rewrite <- !enc64 by (try assumption; lia). constructor; [apply sub_length; lia|apply u64_bound; exact A..].
  - constructor. exact L.
  - rewrite (whole _ d L). constructor. exact L.
  (* scope *)
  - unfold scope_shown. rewrite <- (whole _ d L) at 1.
    rewrite (cut 0 16 128 144 d eq_refl); cbn [Nat.add]. rewrite (cut 16 16 112 128 d eq_refl); cbn [Nat.add]. rewrite (cut 32 8 104 112 d eq_refl); cbn [Nat.add]. rewrite (cut 40 8 96 104 d eq_refl); cbn [Nat.add]. rewrite (cut 48 32 64 96 d eq_refl); cbn [Nat.add]. rewrite (cut 80 32 32 64 d eq_refl); cbn [Nat.add]. rewrite (cut 112 8 24 32 d eq_refl); cbn [Nat.add]. rewrite (cut 120 8 16 24 d eq_refl); cbn [Nat.add]. rewrite (cut 128 8 8 16 d eq_refl); cbn [Nat.add].
    cbn [Nat.add]. rewrite le_low; [|apply all_bytes_sub; exact A|apply sub_length; lia].
    rewrite <- (enc64 32 d), <- (enc64 112 d), <- (enc64 120 d), <- (enc64 128 d), <- (enc64 136 d) by (try assumption; lia).
    constructor; first [apply sub_length; lia|apply u64_bound; exact A].
  - rewrite <- (whole _ d L) at 1. rewrite (cut 0 32 40 72 d eq_refl); cbn [Nat.add]. constructor; apply sub_length; lia.
  - rewrite <- (whole _ d L) at 1. rewrite (cut 0 4 4 8 d eq_refl); cbn [Nat.add]. rewrite <- (enc32 0 d) by (try assumption; lia).
    constructor; [apply u32_bound; exact A|apply sub_length; lia].
  - rewrite <- (whole _ d L) at 1. rewrite (cut 0 4 4 8 d eq_refl); cbn [Nat.add]. rewrite <- (enc32 0 d) by (try assumption; lia).
    constructor; [apply u32_bound; exact A|apply sub_length; lia].
  - rewrite <- (whole _ d L) at 1. rewrite (cut 0 4 4 8 d eq_refl); cbn [Nat.add]. rewrite <- (enc32 0 d) by (try assumption; lia).
    constructor; [apply u32_bound; exact A|apply sub_length; lia].
  - rewrite <- (whole _ d L) at 1. rewrite (cut 0 4 4 8 d eq_refl); cbn [Nat.add]. rewrite <- (enc32 0 d) by (try assumption; lia).
    constructor; [apply u32_bound; exact A|apply sub_length; lia].
  - rewrite <- (whole _ d L) at 1. rewrite <- (enc64 0 d) by (try assumption; lia). constructor; apply u64_bound; exact A.
  - rewrite <- (whole _ d L) at 1. rewrite (cut 0 8 24 32 d eq_refl); cbn [Nat.add]. rewrite (cut 8 8 16 24 d eq_refl); cbn [Nat.add]. rewrite (cut 16 8 8 16 d eq_refl); cbn [Nat.add].
    rewrite <- !enc64 by (try assumption; lia). constructor; apply u64_bound; exact A.
Qed.

Lemma enc8_inj x y : is_u64 x -> is_u64 y -> amount_of x = amount_of y -> x = y.
Proof. intros X Y. apply le_enc_inj; assumption. Qed.
Lemma enc4_inj x y : is_u32 x -> is_u32 y -> le_enc 4 x = le_enc 4 y -> x = y.
Proof. intros X Y. apply le_enc_inj; assumption. Qed.
Lemma amount_length n : length (amount_of n) = 8%nat.
Proof. apply le_enc_length. Qed.
Lemma tells_det a g g' : tells a g -> tells a g' -> g = g'.
Proof.
  intros H H'. remember a as b eqn:Q in H'. destruct H; destruct H'; try discriminate Q; apply (f_equal ac_data) in Q; cbn [ac_data] in Q;
  repeat match goal with
  | E : ?a ++ ?b = ?c ++ ?d |- _ => apply app_len_l in E as [? ?]; [|rewrite ?amount_length, ?le_enc_length; congruence]
  | E : amount_of ?a = amount_of ?b |- _ => apply enc8_inj in E; [subst|assumption..]
  | E : le_enc 4 ?a = le_enc 4 ?b |- _ => apply enc4_inj in E; [subst|assumption..]
  end; subst; try reflexivity.
Qed.
Lemma tells_block a g : tells a g -> exists p f, In (ac_ty a, p, f) blocks.
Proof.
  intros H. destruct H; cbn [ac_ty];
  do 2 eexists; unfold blocks; repeat (first [left; reflexivity | right]).
Qed.
(** every line of the listing describes a permission of the role *)
Lemma find_cut {A} (P : A -> bool) l a : find P l = Some a -> exists l1 l2, l = l1 ++ a :: l2 /\ forall b, In b l1 -> P b = false.
Proof.
  induction l as [|x t IH]; cbn [find]; [discriminate|]. destruct (P x) eqn:Px; intros H.
  - injection H as <-. exists [], t. split; [reflexivity|intros b []].
  - destruct (IH H) as (l1 & l2 & -> & N). exists (x :: l1), l2. split; [reflexivity|]. intros b [<-|I]; [exact Px|exact (N b I)].
Qed.
Lemma listed_true l g : Forall wf_action l -> In g (shown_list l) -> exists a, in_use l a /\ tells a g.
Proof.
  intros Hl H. unfold shown_list in H. apply in_flat_map in H as ([[ty p] f] & B & H). cbn [block_of] in H.
  apply in_map_iff in H as (d & <- & H).
  assert (X : exists a, in_use l a /\ ac_ty a = ty /\ ac_data a = d).
  { destruct p as [q|].
    - unfold first in H. destruct (find _ l) as [a|] eqn:F; [|destruct H]. destruct H as [<-|[]].
      pose proof (find_some _ _ F) as [_ M]. apply andb_prop in M as [M _]. exists a. split; [|split; [lia|reflexivity]].
      destruct (find_cut _ _ _ F) as (l1 & l2 & -> & N). exists l1, l2. split; [reflexivity|]. intros S b Ib Tb.
      pose proof (N b Ib) as Nb. cbn beta in Nb. replace (ac_ty b =? ty) with true in Nb by lia. cbn [andb] in Nb.
      assert (Ta : ac_ty a = ty) by lia. rewrite Ta in S. clear - B S Nb. cbn in B.
      repeat (destruct B as [B|B]; [try discriminate B; injection B as <- <- <-; first [discriminate S|discriminate Nb]|]). destruct B.
    - unfold datas in H. apply in_map_iff in H as (a & <- & H). apply filter_In in H as [I M]. exists a. split; [|split; [lia|reflexivity]].
      apply in_split in I as (l1 & l2 & ->). exists l1, l2. split; [reflexivity|]. intros S. exfalso.
      assert (Ta : ac_ty a = ty) by lia. rewrite Ta in S. clear - B S. cbn in B.
      repeat (destruct B as [B|B]; [try discriminate B; injection B as <- <-; discriminate S|]). destruct B. }
  destruct X as (a & I & T & <-). exists a. split; [exact I|].
  eapply tells_of; [exact B| |exact T]. eapply Forall_forall; [exact Hl|]. destruct I as (l1 & l2 & -> & _). apply in_elt.
Qed.
(** every permission that is in use is listed, but for those left out *)
Lemma first_some ty q l a : In a l -> ac_ty a = ty -> action_matches ty q (ac_data a) = true ->
  exists b, In b l /\ ac_ty b = ty /\ action_matches ty q (ac_data b) = true /\ first ty q l = [ac_data b].
Proof.
  intros I T M. unfold first. destruct (find _ l) as [b|] eqn:F.
  - apply find_some in F as [B F]. apply andb_prop in F as [F1 F2]. exists b. repeat split; [exact B|lia|exact F2].
  - exfalso. pose proof (find_none _ _ F a I) as H. cbn in H. rewrite T, Z.eqb_refl, M in H. discriminate.
Qed.
Lemma listed_all l a g : Forall wf_action l -> in_use l a -> ~ left_out g -> tells a g -> In g (shown_list l).
Proof.
  intros Hl (l1 & l2 & E & U) N T. destruct (tells_block a g T) as (p & f & B).
  assert (Ia : In a l) by (rewrite E; apply in_elt).
  assert (Wa : wf_action a) by (eapply Forall_forall; [exact Hl|exact Ia]).
  pose proof (tells_of a _ p f B Wa eq_refl) as T'. pose proof (tells_det _ _ _ T T') as Q.
  unfold shown_list. apply in_flat_map. exists (ac_ty a, p, f). split; [exact B|]. cbn [block_of].
  destruct p as [q|].
  2:{ apply in_map_iff. exists (ac_data a). split; [symmetry; exact Q|]. unfold datas. apply in_map_iff. exists a. split; [reflexivity|].
      apply filter_In. split; [exact Ia|apply Z.eqb_refl]. }
  assert (N4 : ac_ty a <> 4) by (intros X; apply N; destruct T; discriminate X || exact I).
  destruct (Z.eq_dec (ac_ty a) 9) as [X9|N9].
  - assert (G : exists k rest, a = mk_action 9 (k ++ rest) /\ g = GSub k /\ length k = 32%nat)
      by (destruct T; try discriminate X9; eauto).
    destruct G as (k & rest & Ea & Eg & Lk). rewrite Eg in N |- *. cbn [left_out] in N.
    assert (Z : k = zeros 32) by (destruct (list_eq_dec Z.eq_dec k (zeros 32)); [assumption|exfalso; tauto]).
    assert (Pf : q = [] /\ f = fun d => GSub (sub 0 32 d)).
    { rewrite X9 in B. clear -B. cbn in B. repeat (destruct B as [B|B]; [try discriminate B; injection B as <- <-; auto|]). destruct B. }
    destruct Pf as [-> ->]. rewrite X9.
    destruct (first_some 9 [] l a Ia X9) as (b & Ib & Tb & Mb & ->).
    { subst a. cbn [ac_data action_matches Z.eqb orb]. change (action_matches 9 [] (k ++ rest)) with (beq (sub 0 32 (k ++ rest)) (zeros 32)).
      rewrite sub_app_l by lia. rewrite <- Lk at 1. rewrite sub_all, Z. apply beq_refl. }
    left. f_equal. change (beq (sub 0 32 (ac_data b)) (zeros 32) = true) in Mb. rewrite Z. apply beq_eq. exact Mb.
  - assert (S : single (ac_ty a) = true /\ forall d, action_matches (ac_ty a) q d = true).
    { clear - B N4 N9. revert B N4 N9. generalize (ac_ty a). intros ty B N4 N9. cbn in B.
      repeat (destruct B as [B|B]; [try discriminate B; injection B as <- <- <-; first [contradiction N4; reflexivity|contradiction N9; reflexivity|split; [reflexivity|intros d; reflexivity]]|]).
      destruct B. }
    destruct S as [S M]. specialize (U S). unfold first.
    assert (F : find (fun b => (ac_ty b =? ac_ty a) && action_matches (ac_ty a) q (ac_data b)) l = Some a).
    { rewrite E. clear Hl E. induction l1 as [|x l1 IH]; cbn [app find].
      - rewrite Z.eqb_refl, M. reflexivity.
      - pose proof (U x (or_introl eq_refl)). replace (ac_ty x =? ac_ty a) with false by lia. apply IH.
        intros y Y. apply U. right. exact Y. }
    rewrite F. left. symmetry. exact Q.
Qed.

(** ** Permissions that were granted through the SDK *)
Lemma client_tells g : grant_ok g -> (forall p t n l w a b, g <> GScope p t n l w a b) -> tells (client_action g) (at_start g).
Proof.
  intros O N. destruct g; cbn [client_action at_start grant_ok start_full option_map] in *;
    try (constructor; first [assumption|reflexivity]); try apply t_curated; try reflexivity.
  - destruct r as [q|]; [|destruct O as ((L & _) & U & _); constructor; assumption].
    destruct O as ((L & _) & U & R). apply t_token_rec; try assumption; split; discriminate || reflexivity.
  - destruct r as [q|]; [|destruct O as ((L & _) & (L' & _) & U & _); constructor; assumption].
    destruct O as ((L & _) & (L' & _) & U & R). apply t_token_to_rec; try assumption; split; discriminate || reflexivity.
  - destruct r as [q|]; [|destruct O as (U & _); constructor; assumption].
    destruct O as (U & R). apply t_sol_rec; try assumption; split; discriminate || reflexivity.
  - destruct r as [q|]; [|destruct O as ((L & _) & U & _); constructor; assumption].
    destruct O as ((L & _) & U & R). apply t_sol_to_rec; try assumption; split; discriminate || reflexivity.
  - constructor. apply O.
  - exfalso. eapply N. reflexivity.
  - apply t_sub; [apply O|reflexivity].
  - destruct r as [q|]; [|destruct O as (U & _); constructor; assumption].
    destruct O as (U & R). apply t_stake_rec; try assumption; split; discriminate || reflexivity.
Qed.
