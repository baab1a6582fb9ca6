(** * Cases for the theorems of PropertiesFound *)
From Verif Require Import BaseFacts SpecConfig SpecFound Client Bystander LifeProps.
From Verif Require Export DemoWorks.

(** ** An environment in which nobody can sign for [k], which is no asset address *)
Definition unsignedb (k : key) (ms : list meta) : bool := forallb (fun m => negb (beq (m_key m) k && m_signer m)) ms.
Lemma unsignedb_iff k ms : unsignedb k ms = true <-> unsigned k ms.
Proof.
  unfold unsignedb, unsigned. rewrite forallb_forall. split; intros H m I.
  - intros Q. specialize (H m I). rewrite Q, beq_refl in H. destruct (m_signer m); [discriminate H|reflexivity].
  - specialize (H m I). destruct (beq (m_key m) k) eqn:Q; [|reflexivity]. apply beq_eq in Q. rewrite (H Q). reflexivity.
Qed.
Definition stayb (w w' : world) (k : key) : bool :=
  beq (a_owner (w' k)) (a_owner (w k)) && beq (a_data (w' k)) (a_data (w k)) && (a_lamports (w k) <=? a_lamports (w' k)).
Definition moat_foreign (k : key) (w : world) (x : ix) : res world :=
  let* w' := foreign toy w x in
  check (negb (unsignedb k (ix_metas x)) || stayb w w' k) RExternalDataModified ;;
  Ok w'.
Definition moat_pda (k : key) (sd : list bytes) : option key :=
  if beq (toy_pda sd) k && negb (beq (hd [] sd) (hd [] (seeds_swig [] 0))) then None else Some (toy_pda sd).
Definition moat (k : key) : env :=
  mk_env (sha256 toy) (keccak toy) (recover toy) (utf8_ok toy) (moat_pda k) (find_pda toy) (rent toy) (moat_foreign k).
Lemma moat_inv k w x w' : foreign (moat k) w x = Ok w' ->
  foreign toy w x = Ok w' /\ (unsigned k (ix_metas x) -> stayb w w' k = true).
Proof.
  cbn [foreign moat]. unfold moat_foreign. intros H. destruct (bind_ok _ _ _ H) as (w1 & H1 & H2). clear H.
  destruct (_ || _) eqn:Q; [|discriminate H2]. cbn [check bind] in H2. injection H2 as <-. split; [exact H1|].
  intros U. apply unsignedb_iff in U. rewrite U in Q. exact Q.
Qed.
Lemma moat_foreign_ok k : foreign_ok (moat k).
Proof. intros w x w' H. apply moat_inv in H as [H _]. exact (toy_foreign_ok w x w' H). Qed.
Lemma moat_guarded k : guarded (moat k) k.
Proof.
  intros w x w' H U (V1 & V2) _. apply moat_inv in H as [_ H]. specialize (H U). unfold stayb in H.
  apply andb_prop in H as [H L]. apply andb_prop in H as [O D]. apply beq_eq in O, D. apply Z.leb_le in L.
  split; [split; congruence|exact L].
Qed.
Lemma moat_no_asset k : no_asset (moat k) k.
Proof.
  assert (X : forall sd, beq (hd [] sd) (hd [] (seeds_swig [] 0)) = false -> pda (moat k) sd <> Some k).
  { intros sd N H. cbn [pda moat] in H. unfold moat_pda in H. rewrite N in H. destruct (beq (toy_pda sd) k) eqn:Q; [discriminate H|].
    injection H as H. rewrite H, beq_refl in Q. discriminate Q. }
  split; [|intros; apply X; reflexivity].
  intros sd [(k0 & b & ->)|[(id & i & b & ->)|(id & i & b & ->)]]; apply X; reflexivity.
Qed.

(** ** Histories that [k] does not sign *)
Definition silentb (k : key) (e : event) : bool :=
  match e with Call cx => unsignedb k (c_metas cx) | Other x => unsignedb k (ix_metas x) end.
Lemma silentb_ok k e : silentb k e = true -> unsigned_event k e.
Proof. destruct e; apply unsignedb_iff. Qed.
Lemma unsigned_app E k w1 w2 w3 : unsigned_history E k w1 w2 -> unsigned_history E k w2 w3 -> unsigned_history E k w1 w3.
Proof. intros H H2. induction H2; [exact H|]. apply unsigned_next; assumption. Qed.
Lemma playable_unsigned E k m es : foreign_ok E -> 0 <= m -> forall w, good_world E w ->
  roomy (300 + m + 257 * Z.of_nat (length es)) w -> m + 300 + 257 * Z.of_nat (length es) <= 65000 ->
  playable E w es = true -> forallb (silentb k) es = true -> unsigned_history E k w (run E w es).
Proof.
  intros F M. induction es as [|e es IH]; intros w G R L P U; [constructor|].
  cbn [playable] in P. apply andb_prop in P as [P1 P2]. cbn [length] in *. cbn [forallb] in U. apply andb_prop in U as [U1 U2].
  assert (A : admissible E w e).
  { apply eventb_ok; [eapply roomy_le; [|exact R]; lia|]. destruct e as [cx|x]; [|reflexivity]. apply andb_prop in P1 as [P1 _]. exact P1. }
  cbn [run fold_left]. eapply unsigned_app; [eapply unsigned_next; [constructor|exact A|apply silentb_ok, U1]|].
  apply (IH (step E w e)); [apply event_good; assumption| |lia|exact P2|exact U2].
  apply step_roomy; try assumption; try lia. eapply roomy_le; [|exact R]. lia.
Qed.
Lemma fresh_unsigned E k es w : foreign_ok E -> fresh w -> (length es <= 50)%nat -> playable E w es = true ->
  forallb (silentb k) es = true -> unsigned_history E k w (run E w es).
Proof.
  intros F Fr L P U. apply (playable_unsigned E k 0); try assumption; try lia; [apply fresh_good; exact Fr|].
  eapply roomy_le; [|apply (fresh_roomy (300 + 0 + 257 * Z.of_nat (length es))); exact Fr]. lia.
Qed.

(** ** The instruction that creates the example wallet *)
Definition x_new : ix := create SWIG 255 (K 10) WALLET 254 1 (K 10) [p_all; p_sol 500] WID.
(** account 11 sends one lamport to the address of the wallet to come *)
Definition nudge : event := Other (mk_ix SYSTEM [sw (K 11); rw SWIG] (sys_pay 1)).
Definition nudged : world := run (moat SWIG) dawn [nudge].

(** A history in which wallets, payments and sub-accounts come and go around account 40 *)
Definition bustle : list event :=
  open2 ++ [pays WALLET2 50000000; Call c_sub1; pays SUB1 20000000; Call (c_subsign1 7); Call (c_wd1 1 5)].

Lemma nudge_blocks : exists E w0 w1 cx k payer wal id b wb ty c l, let n := length (enc_config (founded id b wb ty c l)) in
  foreign_ok E /\ fresh w0 /\ native w0 /\ unsigned_history E k w0 w1 /\ a_lamports (w0 k) = 0 /\ a_lamports (w1 k) = 1
  /\ sent cx (create k b payer wal wb ty c l id) /\ wf_ctx cx /\ length id = 32%nat /\ is_byte b /\ is_byte wb
  /\ NoDup [k; payer; wal] /\ native w1 /\ vacant w1 k /\ vacant w1 wal
  /\ pda E (seeds_swig id b) = Some k /\ pda E (seeds_wallet k wb) = Some wal
  /\ credential_ok ty c /\ wf_actions l /\ Forall unspent l /\ (exists a, In a l /\ (ac_ty a = 7 \/ ac_ty a = 8))
  /\ Z.of_nat n <= 10240 /\ 0 <= rent E n < U64 /\ rent E 0 < U64 /\ can_pay w1 payer (rent E n + missing E w1 wal 0)
  /\ (exists w', succeeds E cx w0 w')
  /\ forall w2, unsigned_history E k w1 w2 -> vacant w2 k /\ forall w3, ~ succeeds E cx w2 w3.
Proof.
  exists (moat SWIG), dawn, nudged, (post 5 x_new), SWIG, (K 10), WALLET, WID, 255, 254, 1, (K 10), [p_all; p_sol 500]. cbv zeta.
  assert (U : unsigned_history (moat SWIG) SWIG dawn nudged).
  { apply fresh_unsigned; [apply moat_foreign_ok|exact dawn_fresh|cbn; lia|calc|calc]. }
  assert (Wc : wf_ctx (post 5 x_new)) by demo.
  assert (V : vacant nudged SWIG) by (split; calc).
  assert (G : good_world (moat SWIG) nudged).
  { eapply reach_good; [apply moat_foreign_ok|apply fresh_good; exact dawn_fresh|].
    apply (fresh_reach (moat SWIG) [nudge]); [apply moat_foreign_ok|exact dawn_fresh|cbn; lia|calc]. }
  assert (Pos : 0 < a_lamports (nudged SWIG)) by (apply Z.ltb_lt; calc).
  split; [apply moat_foreign_ok|]. split; [exact dawn_fresh|]. split; [apply nativeb_ok; calc|]. split; [exact U|]. split; [calc|]. split; [calc|].
  split; [apply exact_sent, post_sent|]. split; [exact Wc|]. split; [reflexivity|]. split; [split; [discriminate|reflexivity]|].
  split; [split; [discriminate|reflexivity]|]. split; [apply (nodupb_ok beq _ beq_refl); calc|]. split; [apply nativeb_ok; calc|].
  split; [exact V|]. split; [split; calc|]. split; [calc|]. split; [calc|]. split; [left; split; reflexivity|].
  split; [apply wf_actionsb_ok; calc|]. split; [apply unspentb_ok; calc|]. split; [exists p_all; split; [left; reflexivity|left; reflexivity]|].
  split; [apply Z.leb_le; calc|]. split; [split; [apply Z.leb_le; calc|apply Z.ltb_lt; calc]|]. split; [apply Z.ltb_lt; calc|].
  split; [split; [calc|split; [calc|apply Z.leb_le; calc]]|].
  split; [eexists; run_it|].
  intros w2 H2. split.
  - apply (bystander (moat SWIG) SWIG (moat_guarded SWIG) (moat_no_asset SWIG) nudged w2 (moat_foreign_ok SWIG) G H2 V Pos).
  - intros w3. apply (squatted (moat SWIG) SWIG nudged w2 (post 5 x_new) w3); try assumption;
      [apply moat_foreign_ok|apply moat_guarded|apply moat_no_asset|calc|calc].
Qed.

Definition foundingb (cx : ctx) (w : world) : bool :=
  (4 <=? length (c_metas cx))%nat && (length (c_metas cx) <=? 254)%nat && nodupb beq [acct cx 0; acct cx 1; acct cx 2]
  && writable (c_metas cx) (acct cx 0) && writable (c_metas cx) (acct cx 1) && writable (c_metas cx) (acct cx 2)
  && signer (c_metas cx) (acct cx 1)
  && forallb (fun m => negb (beq (a_owner (w (m_key m))) SELF) && negb (beq (a_owner (w (m_key m))) STAKING)) (c_metas cx).
Lemma foundingb_ok cx w : foundingb cx w = true -> founding_accounts cx w.
Proof.
  unfold foundingb. rewrite !andb_true_iff. intros (((((((A & B) & N) & W0) & W1) & W2) & S) & F). apply Nat.leb_le in A, B.
  split; [split; assumption|]. split; [apply (nodupb_ok beq _ beq_refl), N|]. repeat (split; [assumption|]).
  intros m I. rewrite forallb_forall in F. specialize (F m I). apply andb_prop in F as [F1 F2].
  apply Bool.negb_true_iff, beq_neq in F1, F2. split; assumption.
Qed.
