(** * The program entry point and histories of instructions.

    Models program/src/lib.rs:87-340 and program/src/actions/mod.rs:60-130. *)
From Verif Require Export Sign.

(** One top-level (or nested) call of the wallet program *)
Definition process (E : env) (cx : ctx) (w : world) : res world :=
  let* cs := classify_all w (c_metas cx) in
  check (2 <=? length (c_data cx))%nat PInvalidInstructionData ;;
  let t := u16_at 0 (c_data cx) in
  if t =? 11 then sign_v2 E cx cs w
  else if t =? 9 then sub_account_sign_v1 E cx w
  else if t =? 20 then sub_account_sign_v2 E cx w
  else dispatch E cx w.

(** What the chain does with one instruction: a failed one changes nothing (the
    runtime discards its writes).  An event is either a call of the wallet
    program or an instruction of another program. *)
Inductive event :=
| Call (cx : ctx)
| Other (x : ix).

Definition step (E : env) (w : world) (e : event) : world :=
  match e with
  | Call cx => match process E cx w with Ok w' => w' | _ => w end
  | Other x => match foreign E w x with Ok w' => w' | _ => w end
  end.

Definition run (E : env) (w : world) (es : list event) : world := fold_left (step E) es w.
