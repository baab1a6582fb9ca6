(** * Histories: what is assumed of each event, and the wallet as a machine. *)
From Verif Require Export SpecWorld.

(** An event of a history is admissible in world [w]: account addresses have 32
    bytes and instruction data are bytes, the runtime gives all mentions of an
    account the same flags, no wallet is within 300 of the end of its 16-bit
    role count or 32-bit role-id counter, and the call does not exhibit a
    SHA-256 collision on the contents of the configuration account. *)
Definition admissible (E : env) (w : world) (e : event) : Prop :=
  match e with
  | Call cx => wf_ctx cx /\ flags_ok (c_metas cx) /\ roomy 300 w /\ ~ clash E cx w
  | Other _ => True
  end.

(** Any number of events, successful or failed, of the wallet program and of
    other programs *)
Inductive reach (E : env) (w : world) : world -> Prop :=
| reach_nil : reach E w w
| reach_event w1 e : reach E w w1 -> admissible E w1 e -> reach E w (step E w1 e).

(** No account belongs to the wallet program yet *)
Definition fresh (w : world) : Prop := forall k, a_owner (w k) <> SELF.

(** The wallet at address [k] goes from [s] to [s'] by steps whose instruction
    data are listed.  A call whose role spends from its allowances makes one
    step for the use of the credential and further ones for the charges. *)
Inductive path (E : env) (k : key) : list bytes -> config -> config -> Prop :=
| path_nil s : path E k [] s s
| path_step ds s s1 s2 cx w : path E k ds s s1 -> is_cfg (w k) s1 -> config_step E cx k w s1 s2 ->
    wf_config s2 -> path E k (ds ++ [c_data cx]) s s2.
(** Role [i] opens a session; the credential of role [i] is replaced; the
    number of steps by role [i] *)
Definition opens (i : Z) (d : bytes) : Prop := tag d = 5 /\ actor_of d = i.
Definition rotates (i : Z) (d : bytes) : Prop := tag d = 16 /\ u32_at 8 d = i.
Definition steps_by (i : Z) (ds : list bytes) : nat := length (filter (fun d => actor_of d =? i) ds).

Definition is_closed (a : account) : Prop := a_owner a = SELF /\ a_data a = [D_Closed].

(** Two V2 sub-account records that differ at most in the enabled flag *)
Definition same_record (d d' : bytes) : Prop :=
  exists bump abump en en' id sid sa, d = v2_record bump abump en id sid sa /\ d' = v2_record bump abump en' id sid sa.
