(** * The permissions handed out by the wallet program are unspent, and a role
      that holds a spent one cannot be updated *)
From Verif Require Import BaseFacts SpecConfig ConfigFacts ConfigEdit ConfigEdit2 ConfigEdit3.
From Verif Require Import Frame HandlerRoles HandlerLife HandlerV2 World Actors ConfigProps SpecLife LifeProps SpecSign SignRules SignProps.

Lemma add_role_laid h b ty ad acts p l : all_bytes acts -> add_role h b ty ad acts = Ok p -> parses acts l -> laid_out l.
Proof.
  intros B H P. unfold add_role in H. bind_inv H.
  apply num_actions_parses in B0 as (l1 & P1 & _ & _ & P4); [|exact B].
  pose proof (parses_det _ _ P _ P1) as ->. exact P4.
Qed.

Section F.
Variables (E : env) (cx : ctx) (w w' : world) (s : config).
Hypothesis (He : hashes_ok E) (Hc : wf_ctx cx) (H : succeeds E cx w w').
Notation data := (c_data cx).
Notation k := (acct cx 0).

Lemma create_unspent s' : auth_layout data = None -> is_cfg (w' k) s' -> exists r, s_roles s' = [r] /\ Forall unspent (r_acts r).
Proof.
  intros L C. destruct (create_cfg _ _ _ _ Hc H L) as (nr & C' & HH). assert (A : parses (skipn (40 + nat_of (u16_at 4 data)) data) (r_acts nr)) by tauto. clear HH.
  pose proof (is_cfg_inj _ _ _ C C') as ->. exists nr. split; [reflexivity|].
  apply laid_unspent. pose proof H as P0. apply none_create in P0; [|exact L]. unfold create_v1 in P0. cbv zeta in P0. peel P0.
  grab (add_role _ _ _ _ _ = Ok _) as Ba. eapply add_role_laid; [|exact Ba|exact A].
  apply all_bytes_skipn. apply Hc.
Qed.

Lemma add_unspent : is_cfg (w k) s -> tag data = 1 -> room 1 s ->
  exists nr, Forall unspent (r_acts nr) /\ is_cfg (w' k) (add_to (used (actor_of data) s) nr).
Proof.
  intros S T R. destruct (add_ok E cx w w' s He Hc S H T R) as (r & nr & _ & _ & _ & _ & _ & _ & P & C & _).
  exists nr. split; [|exact C]. apply laid_unspent.
  pose proof H as P0. by_tag P0 T. unfold add_authority_v1 in P0. cbv zeta in P0. peel P0. destruct v1 as [[? ?] ?]. peel P0.
  grab (add_role _ _ _ _ _ = Ok _) as Ba. eapply add_role_laid; [|exact Ba|exact P].
  apply all_bytes_sub. apply Hc.
Qed.

Lemma spent_stuck tr : is_cfg (w k) s -> tag data = 3 -> fst (update_op data) = 1 ->
  find_role (u32_at 12 data) s = Some tr -> Forall unspent (r_acts tr).
Proof.
  intros S T O F. destruct (update_ok E cx w w' s He Hc S H T) as (r & tr' & l' & _ & _ & F' & U & _ & _ & Un).
  rewrite F in F'. injection F' as <-. rewrite O in U.
  destruct U as [[U _]|[(_ & la & _ & ->)|[[U _]|[U _]]]]; try discriminate U.
  apply Forall_app in Un. apply Un.
Qed.

Lemma v2_create_unspent : is_cfg (w k) s -> tag data = 18 ->
  exists r, acts E cx s r /\ (holds_for 23 (s_subctr s) r \/ Forall unspent (r_acts r)).
Proof.
  intros S T. pose proof S as (So & Sd & Sw). pose proof H as P. by_tag P T.
  destruct (create_sub_v2_spec _ _ _ _ _ Hc P Sd Sw) as (r & s1 & A & _ & _ & _ & _ & _ & _ & _ & _ & _ & _ & _ & _ & _ & _ & _ & Q).
  assert (Ax : acted E cx s r s1) by acted_by T A.
  apply acted_acts in Ax; [|exact He|exact Hc|exact Sw|unfold tag; rewrite T; discriminate].
  exists r. split; [exact Ax|]. destruct Q as [Q|Q]; [left|right; apply laid_unspent; exact Q].
  destruct Ax as (Fr & _). apply find_role_in in Fr as [Fr _].
  apply (has_holds_for P_SubAccountV2All); [cbn; tauto| | |exact Q].
  - destruct Sw as (_ & _ & _ & _ & _ & _ & Wc & _). exact Wc.
  - destruct Sw as (_ & _ & _ & _ & _ & _ & _ & Wr & _). rewrite Forall_forall in Wr. apply Wr. exact Fr.
Qed.
End F.

(** ** The curated programs *)
Lemma not_curated prog : In prog [SPL_TOKEN_2022; STAKING] -> ~ In prog CURATED.
Proof.
  intros P I. assert (Q : existsb (beq prog) CURATED = true) by (apply existsb_exists; exists prog; split; [exact I|apply beq_eq; reflexivity]).
  destruct P as [<-|[<-|[]]]; vm_compute in Q; discriminate Q.
Qed.
Lemma curated_lacks E cx w w' s r prog : foreign_ok E -> good_world E w -> admissible E w (Call cx) ->
  is_cfg (w (acct cx 0)) s -> tag (c_data cx) = 11 -> succeeds E cx w w' ->
  find_role (actor_of (c_data cx)) s = Some r -> limited r -> ~ holds 13 r ->
  In prog [SPL_TOKEN_2022; STAKING] -> perm 3 prog (r_acts r) = None ->
  exists xs, inner_ixs (c_metas cx) (acct cx 1) (inner_payload (c_data cx)) xs
  /\ forall pre x post, xs = pre ++ x :: post -> carries (acct cx 1) x -> ix_prog x = prog ->
     exists y, In y pre /\ ix_prog y = SELF.
Proof.
  intros F G A C T H Fr L N P Np. destruct (programs_allowed E cx w w' s r F G A C T H Fr L N) as (xs & I & Q).
  exists xs. split; [exact I|]. intros pre x post Ex Ca Px. destruct (Q pre x post Ex Ca) as [[Al|[_ Al]]|Al]; [| |exact Al].
  - rewrite Px in Al. congruence.
  - rewrite Px in Al. destruct (not_curated _ P Al).
Qed.
