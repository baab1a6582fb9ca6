(** * Permissions granted and read back through the SDK *)
From Verif Require Import BaseFacts ConfigFacts ConfigEdit AuthFacts AuthProps2 Avail4.
From Verif Require Export SdkFacts2 SpecWorks SpecSdk.

Lemma report a s i r : is_cfg a s -> find_role i s = Some r ->
  get_role_permissions (a_data a) i = Ok (shown_list (r_acts r)).
Proof.
  intros (_ & -> & W) F. unfold get_role_permissions.
  destruct (with_role_some s W i r (fun v => from_role (rv_acts v)) F) as (o & ->). cbn [rv_acts view_of].
  assert (R : wf_role r) by (apply find_some in F as [I _]; eapply Forall_forall; [apply (roles_wf s W)|exact I]).
  apply from_role_enc; [apply wf_role_acts_ne; exact R|apply R|apply wf_role_acts_small; exact R].
Qed.
Lemma report_fair a s i r : is_cfg a s -> find_role i s = Some r ->
  exists l, get_role_permissions (a_data a) i = Ok l
    /\ (forall g, In g l -> exists p, in_use (r_acts r) p /\ tells p g)
    /\ (forall p g, in_use (r_acts r) p -> tells p g -> ~ left_out g -> In g l).
Proof.
  intros C F. exists (shown_list (r_acts r)). split; [exact (report a s i r C F)|].
  assert (R : Forall wf_action (r_acts r)).
  { destruct C as (_ & _ & W). apply find_some in F as [I _]. pose proof (roles_wf s W) as H.
    rewrite Forall_forall in H. apply (H r I). }
  split; [intros g; apply listed_true; exact R|]. intros p g U T N. exact (listed_all _ p g R U N T).
Qed.
Lemma report_none a s i : is_cfg a s -> find_role i s = None -> get_role_permissions (a_data a) i = Err PInvalidArgument.
Proof.
  intros (_ & -> & W) F. unfold get_role_permissions, with_role. rewrite (read_role_none s W i F). reflexivity.
Qed.

Ltac bytes_ok := repeat (apply all_bytes_app; split) || idtac; auto using le_enc_bytes.
Lemma all_app a b : all_bytes a -> all_bytes b -> all_bytes (a ++ b).
Proof. intros A B. apply Forall_app. auto. Qed.
Lemma zeros_bytes n : all_bytes (zeros n).
Proof. apply Forall_forall. intros x X. apply repeat_spec in X. subst. split; [discriminate|reflexivity]. Qed.
Ltac wfa := split; cbn [ac_ty ac_data];
  [rewrite ?app_length, ?le_enc_length, ?zeros_length;
   repeat match goal with L : length ?x = 32%nat |- context [length ?x] => rewrite L end; reflexivity
  |repeat apply all_app; try apply le_enc_bytes; try apply zeros_bytes; try assumption; try apply Forall_nil].
Lemma client_wf g : grant_ok g -> wf_action (client_action g).
Proof.
  intros O. destruct g; cbn [grant_ok] in O; cbn [client_action].
  all: repeat match goal with
       | H : _ /\ _ |- _ => destruct H
       | H : wf_key _ |- _ => destruct H
       end.
  all: try (destruct r as [q|]); try wfa.
  destruct window as [?|], limit as [?|]; wfa.
Qed.
Lemma sub_l0 n (a b : bytes) : length a = n -> sub 0 n (a ++ b) = a.
Proof. intros L. rewrite sub_app_l by lia. rewrite <- L. apply sub_all. Qed.
Lemma sub_cut n (a : bytes) : length a = n -> sub 0 n a = a.
Proof. intros <-. apply sub_all. Qed.
Lemma sub_skip o n (a b : bytes) k : length a = k -> (k <= o)%nat -> sub o n (a ++ b) = sub (o - k) n b.
Proof. intros <- L. apply sub_app_r. lia. Qed.
Ltac skips := repeat (
  first [ rewrite sub_l0 by (assumption || apply le_enc_length)
        | rewrite sub_cut by (apply le_enc_length)
        | match goal with |- context [sub ?o ?n (?a ++ ?b)] => 
            let k := match a with le_enc 8 _ => constr:(8%nat) | _ => constr:(32%nat) end in
            rewrite (sub_skip o n a b k) by (assumption || apply le_enc_length || lia); cbn [Nat.sub] end ]).
Lemma client_unspent g : grantable g -> unspent (client_action g).
Proof.
  intros (O & X). unfold unspent. 
  destruct g; cbn [client_action]; repeat match goal with r : option renewal |- _ => destruct r as [?q|] end;
  cbn [ac_ty ac_data In grant_ok] in *;
  repeat match goal with
       | H : _ /\ _ |- _ => destruct H
       | H : wf_key _ |- _ => destruct H
       end;
  try (destruct window as [?|], limit as [?|]; cbn [ac_ty]);
  unfold u64_at; repeat split; intros; try (exfalso; lia);
  try (skips; rewrite ?le8 by assumption; reflexivity || lia).
  subst address. reflexivity.
Qed.

Lemma used_counter i s : s_counter (used i s) = s_counter s.
Proof. reflexivity. Qed.
Lemma granted_listed E cx w s r ty c gs : wf_ctx cx -> is_cfg (w (acct cx 0)) s -> admin_accounts cx w s ->
  In r (s_roles s) -> manager r -> let l := to_client_actions gs in asks E cx r (AddRole ty c (enc_actions 0 l)) ->
  room 1 s -> credential_ok ty c -> (1 <= length gs <= 255)%nat -> Forall grantable gs -> NoDup (v2_scopes l) ->
  let nr := new_role s ty c l in let size := length (enc_config (add_to s nr)) in
  Z.of_nat (role_len nr) <= 10240 -> Z.of_nat size <= 10485760 -> funded E cx w (acct cx 0) (acct cx 1) size ->
  exists w' given, succeeds E cx w w' /\ get_role_permissions (a_data (w' (acct cx 0))) (s_counter s) = Ok given
    /\ forall g, In g gs -> in_use l (client_action g) -> ~ left_out g -> In (at_start g) given.
Proof.
  intros Wc C Aa I M l A Rm Cr Lg G Nd nr size S1 S2 F.
  assert (Wl : wf_actions l).
  { split; [unfold l, to_client_actions; rewrite map_length; exact Lg|]. split; [|exact Nd].
    apply Forall_forall. intros a Ia. apply in_map_iff in Ia as (g & <- & Ig). apply client_wf.
    rewrite Forall_forall in G. apply (G g Ig). }
  assert (Ul : Forall unspent l).
  { apply Forall_forall. intros a Ia. apply in_map_iff in Ia as (g & <- & Ig). apply client_unspent.
    rewrite Forall_forall in G. apply (G g Ig). }
  destruct (add_asked E cx w s r ty c l Wc C Aa I M A Rm Cr Wl Ul S1 S2 F) as (w' & P & C').
  assert (Fi : find_role (s_counter s) (add_to (used (r_id r) s) nr) = Some nr).
  { destruct C' as (_ & _ & W'). apply find_added with (s := used (r_id r) s); [|reflexivity].
    destruct C as (_ & _ & W). apply used_wf. exact W. }
  destruct (report_fair _ _ _ _ C' Fi) as (given & R & _ & Q). exists w', given. split; [exact P|]. split; [exact R|].
  intros g Ig U N. rewrite Forall_forall in G. pose proof (G g Ig) as [Og _].
  apply (Q (client_action g)); [exact U| |].
  - apply client_tells; [exact Og|]. intros p t n l0 w0 a b ->. apply N. exact Logic.I.
  - destruct g; cbn in N |- *; try exact N; tauto.
Qed.

(** ** Asking for one permission *)
Lemma same_renewal_eq a b : same_renewal a b = true <-> a = b.
Proof.
  destruct a as [[x1 x2 x3]|], b as [[y1 y2 y3]|]; cbn; split; intros H; try discriminate; try reflexivity.
  - rewrite !andb_true_iff, !Z.eqb_eq in H. destruct H as ((-> & ->) & ->). reflexivity.
  - injection H as -> -> ->. rewrite !Z.eqb_refl. reflexivity.
Qed.
Lemma same_opt_eq a b : same_opt a b = true <-> a = b.
Proof.
  destruct a as [x|], b as [y|]; cbn; split; intros H; try discriminate; try reflexivity.
  - apply Z.eqb_eq in H. congruence.
  - injection H as ->. apply Z.eqb_refl.
Qed.
Lemma same_grant_eq a b : same_grant a b = true <-> a = b.
Proof.
  split.
  - destruct a, b; cbn [same_grant]; intros H; try discriminate; try reflexivity;
    repeat rewrite andb_true_iff in H; repeat match goal with H : _ /\ _ |- _ => destruct H end;
    repeat match goal with
    | H : beq _ _ = true |- _ => apply beq_eq in H
    | H : (_ =? _) = true |- _ => apply Z.eqb_eq in H
    | H : same_renewal _ _ = true |- _ => apply same_renewal_eq in H
    | H : same_opt _ _ = true |- _ => apply same_opt_eq in H
    end; subst; reflexivity.
  - intros ->. destruct b; cbn [same_grant]; rewrite ?beq_refl, ?Z.eqb_refl; try reflexivity;
    repeat match goal with
    | |- context [same_renewal ?x ?x] => replace (same_renewal x x) with true by (symmetry; apply same_renewal_eq; reflexivity)
    | |- context [same_opt ?x ?x] => replace (same_opt x x) with true by (symmetry; apply same_opt_eq; reflexivity)
    end; reflexivity.
Qed.
Lemma asked_permission a s i r g : is_cfg a s -> find_role i s = Some r -> exists b,
  role_has_permission (a_data a) i g = Ok b
  /\ (b = true -> exists p, in_use (r_acts r) p /\ tells p g)
  /\ (forall p, in_use (r_acts r) p -> tells p g -> ~ left_out g -> b = true).
Proof.
  intros C F. destruct (report_fair a s i r C F) as (l & G & A & B). unfold role_has_permission. rewrite G. cbn [bind].
  eexists. split; [reflexivity|]. split.
  - intros H. apply existsb_exists in H as (x & Ix & Sx). apply same_grant_eq in Sx as <-. apply A. exact Ix.
  - intros p U T N. apply existsb_exists. exists g. split; [exact (B p g U T N)|]. apply same_grant_eq. reflexivity.
Qed.
Lemma type_of_grant g : to_action_type g = ac_ty (client_action g).
Proof.
  destruct g; try reflexivity; try (destruct r as [?|]; reflexivity). cbn. destruct window, limit; reflexivity.
Qed.
