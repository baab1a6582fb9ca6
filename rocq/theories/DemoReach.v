(** * Checking by computation that a list of events is a history *)
From Verif Require Import BaseFacts SpecConfig.
From Verif Require Export Demo History.

Definition clashb (E : env) (cx : ctx) (w : world) : bool :=
  let k := mkey (c_metas cx) 0 in
  (tag (c_data cx) =? 11) &&
  match classify_all w (c_metas cx) with
  | Ok cs => match sign_v2_inner E cx cs w with
             | Ok (w1, w2) => negb (beq (a_data (w1 k)) (a_data (w2 k)))
             | _ => false
             end
  | _ => false
  end.
Lemma clashb_ok E cx w : clashb E cx w = false -> ~ clash E cx w.
Proof.
  intros H (cs & w1 & w2 & T & C & I & N & _). unfold clashb in H. rewrite T, C, I in H.
  cbn [Z.eqb Pos.eqb andb] in H. apply Bool.negb_false_iff, beq_eq in H. contradiction.
Qed.

Fixpoint playable (E : env) (w : world) (es : list event) : bool :=
  match es with
  | [] => true
  | e :: r =>
    match e with
    | Call cx => ctxb cx && flagsb (c_metas cx) && negb (clashb E cx w) && okb (process E cx w)
    | Other x => okb (foreign E w x)
    end && playable E (step E w e) r
  end.

Lemma fresh_roomy n w : fresh w -> roomy n w.
Proof. intros Fr k s (O & _). exfalso. exact (Fr k O). Qed.
Lemma step_roomy E w e n : foreign_ok E -> good_world E w -> n + 257 <= 65000 -> 300 <= n + 257 -> admissible E w e ->
  roomy (n + 257) w -> roomy n (step E w e).
Proof.
  intros F G B B' A R. destruct e as [cx|x]; cbn [step].
  - destruct A as (Hc & Hf & R0 & Nc). destruct (process E cx w) as [w'| |] eqn:P; try (eapply roomy_le; [|exact R]; lia).
    destruct (process_trace E cx w w' Hc Hf G F R0 P) as [(m & L & T)|]; [|contradiction].
    eapply trace_roomy; [exact T| lia |]. eapply roomy_le; [|exact R]. lia.
  - destruct (foreign E w x) as [w'| |] eqn:P; try (eapply roomy_le; [|exact R]; lia).
    intros k s (O & D & W). destruct (F _ _ _ P k) as [F1 F2].
    destruct (bytes_dec (a_owner (w k)) SELF) as [Q|Q].
    + destruct (F1 Q) as ((D1 & O1) & _). assert (room (n + 257) s) as (X & Y).
      { apply (R k). split; [exact Q|]. split; [congruence|exact W]. } split; lia.
    + destruct (F2 Q O) as (z & Z). rewrite D in Z. apply (f_equal (byte_at 0)) in Z.
      rewrite enc_config_byte, zeros_byte in Z. discriminate Z.
Qed.

Lemma reach_app E w1 w2 w3 : reach E w1 w2 -> reach E w2 w3 -> reach E w1 w3.
Proof. intros H H2. induction H2; [exact H|]. apply reach_event; assumption. Qed.

Definition eventb (E : env) (w : world) (e : event) : bool :=
  match e with Call cx => ctxb cx && flagsb (c_metas cx) && negb (clashb E cx w) | Other _ => true end.
Lemma eventb_ok E w e : roomy 300 w -> eventb E w e = true -> admissible E w e.
Proof.
  intros R P. destruct e as [cx|x]; [|exact I]. cbn [eventb] in P. apply andb_prop in P as [P P3]. apply andb_prop in P as [P0 P1].
  split; [apply ctxb_ok; exact P0|]. split; [apply flagsb_ok; exact P1|].
  split; [exact R|]. apply clashb_ok, Bool.negb_true_iff. exact P3.
Qed.

Lemma playable_reach E m es : foreign_ok E -> 0 <= m -> forall w, good_world E w ->
  roomy (300 + m + 257 * Z.of_nat (length es)) w -> m + 300 + 257 * Z.of_nat (length es) <= 65000 ->
  playable E w es = true -> reach E w (run E w es) /\ roomy (300 + m) (run E w es).
Proof.
  intros F M. induction es as [|e es IH]; intros w G R L P; [split; [constructor|eapply roomy_le; [|exact R]; lia]|].
  cbn [playable] in P. apply andb_prop in P as [P1 P2]. cbn [length] in *.
  assert (A : admissible E w e).
  { apply eventb_ok; [eapply roomy_le; [|exact R]; lia|]. destruct e as [cx|x]; [|reflexivity]. apply andb_prop in P1 as [P1 _]. exact P1. }
  destruct (IH (step E w e)) as [H1 H2]; [apply event_good; assumption| |lia|exact P2|].
  { apply step_roomy; try assumption; try lia. eapply roomy_le; [|exact R]. lia. }
  split; [|exact H2]. cbn [run fold_left]. eapply reach_app; [eapply reach_event; [constructor|exact A]|exact H1].
Qed.
Lemma fresh_plays E es w : foreign_ok E -> fresh w -> (length es <= 50)%nat -> playable E w es = true ->
  reach E w (run E w es) /\ roomy 50000 (run E w es).
Proof. intros F Fr L P. apply (playable_reach E 49700); try assumption; try lia; [apply fresh_good|apply fresh_roomy]; exact Fr. Qed.
Lemma fresh_reach E es w : foreign_ok E -> fresh w -> (length es <= 50)%nat -> playable E w es = true -> reach E w (run E w es).
Proof. intros F Fr L P. apply (fresh_plays E es w F Fr L P). Qed.
