(** * Histories in which everything succeeds, however full the wallets are *)
From Verif Require Export SpecAvail SpecHistory.

(** the configuration [s] without any role, its counter one higher *)
Definition wiped (s : config) : config :=
  mk_config (s_bump s) (s_id s) (s_counter s + 1) (s_wbump s) (s_pad s) (s_subctr s) [] (s_claimer s).

(** Starting in [w], every event of the list succeeds *)
Fixpoint smooth (E : env) (w : world) (es : list event) : Prop :=
  match es with
  | [] => True
  | e :: r =>
    match e with
    | Call cx => wf_ctx cx /\ flags_ok (c_metas cx) /\ exists w', succeeds E cx w w'
    | Other x => exists w', foreign E w x = Ok w'
    end /\ smooth E (step E w e) r
  end.
