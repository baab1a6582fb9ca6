(** * Opening and switching sub-accounts.  Proofs *)
From Verif Require Import BaseFacts SpecConfig ConfigFacts ConfigEdit ConfigEdit2 ConfigEdit3.
From Verif Require Import AuthProps HandlerRoles2 HandlerSub HandlerLife HandlerV2 SignSpec.
From Verif Require Export LifeProps.

Lemma set_first_parts ty q p' l d : first_of ty q l = Some d ->
  exists l1 a l2, l = l1 ++ a :: l2 /\ ac_ty a = ty /\ ac_data a = d /\ action_matches ty q d = true
    /\ set_first ty q p' l = l1 ++ mk_action ty p' :: l2.
Proof.
  induction l as [|a t IH]; cbn [first_of set_first]; [discriminate|].
  destruct ((ac_ty a =? ty) && action_matches ty q (ac_data a)) eqn:Q.
  - intros [= <-]. apply andb_prop in Q as [Q1 Q2]. apply Z.eqb_eq in Q1. exists [], a, t. auto 6.
  - intros F. destruct (IH F) as (l1 & b & l2 & -> & A & B & C & ->). exists (a :: l1), b, l2. auto 6.
Qed.

Section One.
Variables (E : env) (cx : ctx) (w w' : world) (s : config).
Hypothesis (He : hashes_ok E) (Hc : wf_ctx cx) (S : is_cfg (w (acct cx 0)) s) (H : succeeds E cx w w').
Notation data := (c_data cx).
Notation k := (acct cx 0).
Notation s1 := (used (actor_of (c_data cx)) s).

Ltac acting_role Ht A Ax r s1' :=
  assert (Ax : acted E cx s r s1') by acted_by Ht A;
  let U := fresh "U" in pose proof (acted_used _ _ _ _ _ (proj2 (proj2 S)) Ax) as [U _]; subst s1';
  apply acted_acts in Ax; [|exact He|exact Hc|apply S|unfold tag; rewrite Ht; discriminate].

Lemma sub1_created : tag data = 6 -> let sa := acct cx 2 in let bump := byte_at 8 data in
  exists r before a after, acts E cx s r /\ r_acts r = before ++ a :: after
    /\ ac_ty a = 9 /\ sub 0 32 (ac_data a) = zeros 32
    /\ pda E (seeds_sub (s_id s) (r_id r) bump) = Some sa /\ a_owner (w sa) = SYSTEM
    /\ is_cfg (w' k) (on_role (r_id r) (fun r0 => with_acts r0
         (before ++ mk_action 9 (sub_v1 sa bump 1 (sub 34 2 (ac_data a)) (r_id r) (s_id s)) :: after)) s1)
    /\ others_kept w w' k.
Proof.
  intros T sa bump. pose proof S as (So & Sd & Sw). pose proof H as P. pose proof T as T'. by_tag P T'.
  destruct (create_sub_v1_spec _ _ _ _ _ Hc P Sd Sw) as (r & s1 & old & A & Fo & Pd & _ & Osa & D & W).
  assert (Rid : u32_at 4 data = actor_of data) by (unfold actor_of, auth_layout, tag; rewrite T'; reflexivity).
  acting_role T' A Ax r s1. pose proof Ax as [Fr _]. apply find_role_in in Fr as [_ Fr].
  cbv zeta in D, W. fold sa bump in D, W, Pd.
  match type of D with context[set_first _ _ ?n _] => destruct (set_first_parts _ _ n _ _ Fo) as (before & a & after & La & Ta & Da & Ma & Q) end.
  rewrite Q in D, W. rewrite Rid, <- Fr in D, W, Pd. subst old.
  exists r, before, a, after. split; [exact Ax|]. split; [exact La|]. split; [exact Ta|].
  split; [apply beq_eq in Ma; exact Ma|]. split; [exact Pd|]. split; [exact Osa|].
  rewrite <- Fr. destruct D as (D1 & D2 & D3). split.
  - split; [unfold acct in *; congruence|]. split; [exact D1|exact W].
  - intros k' N. destruct (D3 k' N). split; assumption.
Qed.

Lemma sub1_toggled : tag data = 10 -> let rid := u32_at 8 data in
  exists r tr before a after, acts E cx s r /\ (r_id r = rid \/ manager r)
    /\ find_role rid s = Some tr /\ r_acts tr = before ++ a :: after
    /\ ac_ty a = 9 /\ sub 0 32 (ac_data a) = acct cx 2
    /\ is_cfg (w' k) (on_role rid (fun r0 => with_acts r0
         (before ++ mk_action 9 (splice 33 [byte_at 2 data] (ac_data a)) :: after)) s1)
    /\ others_kept w w' k.
Proof.
  intros T rid. pose proof S as (So & Sd & Sw). pose proof H as P. pose proof T as T'. by_tag P T'.
  destruct (toggle_sub_v1_spec _ _ _ _ _ Hc P Sd Sw) as (r & s1 & tr & old & A & M & Ft & Fo & _ & D & W).
  assert (Rid : u32_at 12 data = actor_of data) by (unfold actor_of, auth_layout, tag; rewrite T'; reflexivity).
  acting_role T' A Ax r s1. pose proof Ax as [Fr _]. apply find_role_in in Fr as [_ Fr].
  rewrite find_used in Ft. destruct (find_role rid s) as [tr0|] eqn:F0; [|unfold rid in F0; rewrite F0 in Ft; discriminate Ft].
  unfold rid in F0. rewrite F0 in Ft. cbn [option_map] in Ft.
  assert (Qa : r_acts tr = r_acts tr0) by (injection Ft as <-; destruct (_ =? _); [apply after_use_acts|reflexivity]).
  cbv zeta in D, W.
  match type of D with context[set_first _ _ ?n _] => destruct (set_first_parts _ _ n _ _ Fo) as (before & a & after & La & Ta & Da & Ma & Q) end.
  rewrite Q in D, W. subst old. rewrite Qa in La.
  exists r, tr0, before, a, after. split; [exact Ax|]. split.
  { destruct M as [M|M]; [left; unfold rid; lia|right; apply can_manage_holds; exact M]. }
  split; [reflexivity|]. split; [exact La|]. split; [exact Ta|]. split.
  { unfold action_matches in Ma. cbn [Z.eqb Pos.eqb orb] in Ma.
    assert (Wk : wf_key (acct cx 2)).
    { apply nth_wf; [apply Hc|]. unfold toggle_sub_account_v1 in P. cbv zeta in P. unfold need in P. apply bind_ok in P as (u1 & Pn & _).
      destruct (_ <=? _)%nat eqn:Qn in Pn; [|discriminate]. apply Nat.leb_le in Qn. lia. }
    fold (acct cx 2) in Ma. destruct (acct cx 2) as [|z t]; [destruct Wk; discriminate|].
    apply andb_prop in Ma as [_ Ma]. apply beq_eq in Ma. exact Ma. }
  destruct D as (D1 & D2 & D3). split.
  - split; [unfold acct in *; congruence|]. split; [exact D1|exact W].
  - intros k' N. destruct (D3 k' N). split; assumption.
Qed.

Lemma sub2_toggled : good_world E w -> tag data = 19 -> let n := u32_at 8 data in let st := acct cx 2 in let en := byte_at 2 data in
  exists r bump abump en0 sa, acts E cx s r /\ (holds_for 26 n r \/ holds_for 23 n r) /\ (en = 0 \/ en = 1)
    /\ a_owner (w st) = SELF /\ a_data (w st) = state_record bump abump en0 n (s_id s) sa
    /\ a_owner (w' st) = SELF /\ a_data (w' st) = state_record bump abump en n (s_id s) sa
    /\ is_cfg (w' k) s1 /\ (forall k', k' <> k -> k' <> st -> kept_acct (w k') (w' k')).
Proof.
  intros G T n st en. pose proof S as (So & Sd & Sw). assert (Hn : is_u32 n) by (apply u32_bound; apply Hc).
  pose proof H as P; pose proof T as T'; by_tag P T'.
  destruct (toggle_sub_v2_spec _ _ _ _ _ Hc P Sd Sw) as (r & s1 & A & M & _ & En & L & B0 & Sid & Id & _ & _ & _ & O & D1 & W1 & D2 & Ow & K).
  acting_role T' A Ax r s1. cbv zeta in *. change (mkey (c_metas cx) 2) with st in *. fold n in Id.
  destruct (good_record _ _ _ (G st O) B0) as (b & ab & en0 & n0 & sid & sa0 & D & _ & W1' & W2 & W3 & W4 & W5 & _).
  destruct W4 as [W4 W4'].
  assert (F3 : v2_id (a_data (w st)) = n0).
  { rewrite D. unfold v2_id, u32_at, v2_record. rewrite (sub_mid [D_SubV2; b; ab; en0]) by (rewrite ?le_enc_length; reflexivity).
    apply le_le_enc. exact W3. }
  assert (F4 : v2_swig_id (a_data (w st)) = sid).
  { rewrite D. unfold v2_swig_id, v2_record. rewrite (app_assoc [_; _; _; _]). apply sub_mid; [|exact W4].
    rewrite app_length, le_enc_length. reflexivity. }
  rewrite Sid in F4. rewrite Id in F3.
  exists r, b, ab, en0, sa0. split; [exact Ax|]. split.
  { apply scoped_holds in M; [exact M|cbn; tauto|exact Hn|]. destruct Ax as (F & _). apply (wf_find _ _ _ Sw F). }
  split; [exact En|]. split; [exact O|]. split; [rewrite D, F3, F4; reflexivity|].
  split; [unfold acct in *; rewrite Ow; exact O|]. split; [unfold acct in *; rewrite D2, D, F3, F4; reflexivity|].
  split; [split; [unfold acct in *; rewrite Ow; exact So|split; [exact D1|exact W1]]|].
  intros k' N1 N2. destruct (K k' N1 N2). split; assumption.
Qed.
End One.
