(** * Examples for what managers can do, and for a wallet nobody can manage *)
From Verif Require Import BaseFacts SpecConfig ConfigProps Avail2 Avail3 Lock Lock2 LifeProps.
From Verif Require Export DemoLife DemoRent SpecAvail.

(** ** The theorems with managers and roles described by what they hold *)

(** ** An environment in which nobody touches the system program's account *)
Definition untouched (w : world) (r : res world) : res world :=
  let* w' := r in
  check (beq (a_data (w' SYSTEM)) (a_data (w SYSTEM)) && beq (a_owner (w' SYSTEM)) (a_owner (w SYSTEM))) RExternalDataModified ;;
  Ok w'.
Definition solid : env :=
  mk_env (sha256 toy) (keccak toy) (recover toy) (utf8_ok toy) (pda toy) (find_pda toy) (rent toy)
    (fun w x => untouched w (foreign toy w x)).
Lemma untouched_ok w x w' : foreign solid w x = Ok w' -> foreign toy w x = Ok w' /\ kept_acct (w SYSTEM) (w' SYSTEM).
Proof.
  cbn [foreign solid]. unfold untouched. intros H. destruct (bind_ok _ _ _ H) as (w1 & H1 & H2). clear H.
  destruct (beq _ _ && _) eqn:Q; [|discriminate H2]. cbn [check bind] in H2. injection H2 as <-.
  apply andb_prop in Q as [Q1 Q2]. apply beq_eq in Q1, Q2. split; [exact H1|]. split; assumption.
Qed.
Lemma solid_foreign_ok : foreign_ok solid.
Proof. intros w x w' H. apply untouched_ok in H as [H _]. exact (toy_foreign_ok w x w' H). Qed.
Lemma solid_system_kept : system_kept solid.
Proof. intros w x w' H _. apply untouched_ok in H as [_ H]. exact H. Qed.

(** ** The second example wallet where the system program's account is the native
    loader's, with the program's name as data *)
Definition dawn : world := look
  [(K 10, sol 100000000000); (K 11, sol 50000000000); (K 12, sol 1000000000); (K 40, sol 1000000);
   (SYSTEM, mk_account 1 (K 99) (repeat 115 14))].
Definition ward (es : list event) : world := run solid dawn (open2 ++ es).
(** role 2 of account 13 may only manage; it gives account 14 a role that watches
    the system program, for a balance at its bytes 8 to 16 *)
Definition p_watch (ty e : Z) := mk_action 4
  (zeros 16 ++ le_enc 16 5 ++ le_enc 8 0 ++ le_enc 8 0 ++ K 86 ++ SYSTEM ++ le_enc 8 ty ++ le_enc 8 2 ++ le_enc 8 (e - 8) ++ le_enc 8 e).
Definition m2 := mk_role 2 1 (zeros 2) (K 13) [p_manage].
Definition m3 (a : action) := mk_role 3 1 (zeros 2) (K 14) [a].
Definition s_ward (l : list role) : config := mk_config 255 ID2 (2 + Z.of_nat (length l)) 255 (zeros 3) 0 (m0 :: m1 lm :: l) None.
Definition hire : event := Call (c_plus2 (K 13) [p_manage]).
Definition c_by2 (d : bytes) : ctx := call 7 [rw SWIG2; payer; ro SYSTEM; sg (K 13)] d.
Definition c_watch (a : action) : ctx := c_by2 (add_data 2 1 (K 14) [a] 3).

Lemma dawn_fresh : fresh dawn.
Proof. apply look_fresh. calc. Qed.
Lemma ward_ok es : (length es <=? 40)%nat = true -> playable solid dawn (open2 ++ es) = true ->
  reach solid dawn (ward es) /\ good_world solid (ward es).
Proof.
  intros L P. apply Nat.leb_le in L.
  assert (R : reach solid dawn (ward es)).
  { apply fresh_reach; [exact solid_foreign_ok|exact dawn_fresh|rewrite app_length; cbn; lia|exact P]. }
  split; [exact R|]. eapply reach_good; [exact solid_foreign_ok|apply fresh_good; exact dawn_fresh|exact R].
Qed.

(** ** Checking by computation *)
Definition watchesb (k : key) (a : action) : bool := (ac_ty a =? 4) && beq (sub 80 32 (ac_data a)) k.
Lemma watchesb_iff k a : watchesb k a = true <-> watches k a.
Proof. unfold watchesb, watches. rewrite andb_true_iff, Z.eqb_eq, beq_eq. reflexivity. Qed.
Definition ordinaryb (w : world) (s : config) (k : key) : bool :=
  negb (beq (a_owner (w k)) STAKING) && forallb (fun r => forallb (fun a => negb (watchesb k a)) (r_acts r)) (s_roles s).
Lemma ordinaryb_ok w s k : ordinaryb w s k = true -> ordinary w s k.
Proof.
  intros H. apply andb_prop in H as [A B]. split; [apply beq_neq, negb_true_iff; exact A|].
  intros r a I J W. rewrite forallb_forall in B. specialize (B r I). rewrite forallb_forall in B. specialize (B a J).
  apply watchesb_iff in W. rewrite W in B. discriminate B.
Qed.
Definition adminb (cx : ctx) (w : world) (s : config) : bool :=
  (3 <=? length (c_metas cx))%nat && (length (c_metas cx) <=? 254)%nat && beq (acct cx 2) SYSTEM
  && writable (c_metas cx) (acct cx 0) && writable (c_metas cx) (acct cx 1) && signer (c_metas cx) (acct cx 1)
  && forallb (fun m => ordinaryb w s (m_key m)) (tl (c_metas cx)).
Lemma adminb_ok cx w s : adminb cx w s = true -> admin_accounts cx w s.
Proof.
  unfold adminb. rewrite !andb_true_iff. intros ((((((A & B) & C) & D) & F) & G) & H).
  apply Nat.leb_le in A, B. apply beq_eq in C. split; [split; assumption|]. split; [exact C|]. split; [exact D|]. split; [exact F|].
  split; [exact G|]. intros m I. rewrite forallb_forall in H. apply ordinaryb_ok, H, I.
Qed.
Definition unreadableb (d : bytes) (a : action) : bool :=
  negb (u64_at 112 (ac_data a) =? 0) && (Z.of_nat (length d) <? u64_at 136 (ac_data a)).
Definition lockedb (w : world) (s : config) : bool :=
  let l := flat_map r_acts (s_roles s) in
  existsb (watchesb SYSTEM) l && forallb (fun a => negb (watchesb SYSTEM a) || unreadableb (a_data (w SYSTEM)) a) l.
Lemma lockedb_ok w s : lockedb w s = true -> locked w s.
Proof.
  intros H. apply andb_prop in H as [A B]. split.
  - apply existsb_exists in A as (a & I & Q). apply in_flat_map in I as (r & I & J). apply watchesb_iff in Q. eauto.
  - intros r a I J W. rewrite forallb_forall in B. specialize (B a). apply watchesb_iff in W. rewrite W in B.
    cbn [negb orb] in B. assert (X : unreadableb (a_data (w SYSTEM)) a = true) by (apply B, in_flat_map; eauto).
    apply andb_prop in X as [X1 X2]. split; lia.
Qed.
Definition nativeb (w : world) : bool :=
  negb (existsb (beq (a_owner (w SYSTEM))) [SELF; SYSTEM; STAKING; SPL_TOKEN; SPL_TOKEN_2022]).
Lemma nativeb_ok w : nativeb w = true -> native w.
Proof.
  intros H I. apply negb_true_iff in H. rewrite <- Bool.not_true_iff_false in H. apply H.
  apply existsb_exists. eexists. split; [exact I|apply beq_refl].
Qed.
Definition wf_actionsb (l : list action) : bool := roleb (mk_role 0 1 (zeros 2) (zeros 32) l).
Lemma wf_actionsb_ok l : wf_actionsb l = true -> wf_actions l.
Proof. intros H. apply roleb_ok in H. apply H. Qed.
Definition unspentb (a : action) : bool := negb (existsb (Z.eqb (ac_ty a)) [2; 6; 9; 11; 17; 19]).
Lemma unspentb_ok l : forallb unspentb l = true -> Forall unspent l.
Proof.
  intros H. apply Forall_forall. intros a I. rewrite forallb_forall in H. specialize (H a I). unfold unspentb in H.
  cbn in H. unfold unspent. cbn. repeat split; intros; exfalso; lia.
Qed.
Ltac avail :=
  repeat match goal with
  | |- _ /\ _ => split
  | |- reach solid dawn (ward _) => apply ward_ok; calc
  | |- good_world solid (ward _) => apply ward_ok; calc
  | |- foreign_ok solid => exact solid_foreign_ok
  | |- system_kept solid => exact solid_system_kept
  | |- fresh dawn => exact dawn_fresh
  | |- admin_accounts _ _ _ => apply adminb_ok; calc
  | |- locked _ _ => apply lockedb_ok; calc
  | |- native _ => apply nativeb_ok; calc
  | |- wf_actions _ => apply wf_actionsb_ok; calc
  | |- Forall unspent _ => apply unspentb_ok; calc
  | |- _ <= _ => apply Z.leb_le; calc
  | |- _ < _ => apply Z.ltb_lt; calc
  end; life.

(** ** A manager locks everybody out *)
Definition bad : action := p_watch 1 16.
Definition before : world := ward [hire].
Definition after : world := ward [hire; Call (c_watch bad)].
Definition c_fire : ctx := call 7 admin2 (remove_data 0 1 1).
Definition six : list ctx :=
  [c_plus2 (K 14) [p_all]; c_fire; c_update2 1 0 (enc_actions 0 [p_v2create]); c_close2 (K 40); c_claim2 (K 40); c_sub2 0 255].
Lemma six_work : forall t, In t [1; 2; 3; 15; 17; 18] ->
  exists cx w', tag (c_data cx) = t /\ acct cx 0 = SWIG2 /\ succeeds solid cx before w'.
Proof.
  assert (X : forall cx, In cx six -> acct cx 0 = SWIG2 /\ succeeds solid cx before (step solid before (Call cx))).
  { intros cx I. cbn [six In] in I.
    repeat match goal with H : _ \/ _ |- _ => destruct H as [H|H] end; try contradiction; subst cx; (split; [calc|run_it]). }
  intros t I. assert (Y : forallb (fun t => existsb (fun cx => tag (c_data cx) =? t) six) [1; 2; 3; 15; 17; 18] = true) by calc.
  rewrite forallb_forall in Y. apply Y, existsb_exists in I as (cx & I & Q).
  destruct (X cx I) as (X1 & X2). exists cx. eexists. split; [lia|]. split; [exact X1|exact X2].
Qed.
Lemma locked_out : exists E w0 w1 cx w2 k s r, foreign_ok E /\ system_kept E /\ fresh w0 /\ native w0 /\ reach E w0 w1
  /\ is_cfg (w1 k) s
  /\ (forall t, In t [1; 2; 3; 15; 17; 18] -> exists cx' w', tag (c_data cx') = t /\ acct cx' 0 = k /\ succeeds E cx' w1 w')
  /\ find_role (actor_of (c_data cx)) s = Some r /\ ~ holds 7 r /\ tag (c_data cx) = 1 /\ acct cx 0 = k
  /\ succeeds E cx w1 w2
  /\ forall w3, reach E w2 w3 -> (exists s3, is_cfg (w3 k) s3)
     /\ forall cx' w4, acct cx' 0 = k -> In (tag (c_data cx')) [1; 2; 3; 15; 17; 18] \/ In SYSTEM (map m_key (tl (c_metas cx'))) ->
        ~ succeeds E cx' w3 w4.
Proof.
  exists solid, dawn, before, (c_watch bad), after, SWIG2, (s_ward [m2]), m2. unfold before, after.
  do 6 (split; [avail|]). split; [exact six_work|]. split; [calc|]. split; [avail|]. split; [calc|]. split; [calc|]. split; [run_it|].
  intros w3 R. assert (G : good_world solid after) by (unfold after; avail).
  assert (C : is_cfg (after SWIG2) (s_ward [m2; m3 bad])) by (unfold after; avail).
  assert (L : locked after (s_ward [m2; m3 bad])) by (unfold after; avail).
  assert (N : native after) by (unfold after; avail).
  destruct (locked_forever solid solid_foreign_ok solid_system_kept after w3 SWIG2 _ G R N C L) as (N3 & s3 & C3 & L3).
  split; [exists s3; exact C3|]. intros cx' w4 K T. rewrite <- K in C3. eapply locked_fails; eassumption.
Qed.
Lemma shows_by2 d : shows (c_by2 d) m2 3.
Proof. split; [unfold is_byte; lia|]. exists (sg (K 13)). split; [reflexivity|]. split; [reflexivity|]. left. split; reflexivity. Qed.
