(** * Examples for the command line tool *)
From Coq Require Import String.
From Verif Require Import BaseFacts.
From Verif Require Export DemoSdk DemoFound CliProps2 Demo DemoAvail DemoClient DemoWallet.
Local Notation length := List.length.

Definition txt (s : string) : bytes := ascii_bytes s.
Definition quoted (s : string) : bytes := [34] ++ txt s ++ [34].
(** the text of an object with field "type" *)
Definition typed_as (s : string) : bytes := [123] ++ quoted "type" ++ [58] ++ quoted s ++ [125].
(** the text of {"type":"sol","amount":5} *)
Definition sol_five : bytes := [123] ++ quoted "type" ++ [58] ++ quoted "sol" ++ [44] ++ quoted "amount" ++ [58; 53; 125].
Definition v_sol_five : json := JObj [(txt "type", word "sol"); (txt "amount", JNat 5)].
(** a reader that knows these texts *)
Definition some_words : list string := ["all"; "sol"; "manageAuthority"; "program"]%string.
Definition small_reader (t : bytes) : option json :=
  if beq t sol_five then Some v_sol_five
  else match find (fun s => beq t (typed_as s)) some_words with
       | Some s => Some (JObj [(txt "type", word s)])
       | None => None
       end.
Lemma small_reader_ok : json_reader small_reader.
Proof.
  assert (S : starts_value 123) by (left; cbn; tauto). unfold small_reader. split.
  - intros t l H. destruct (beq t sol_five) eqn:B.
    + injection H as <-. apply beq_eq in B. subst t. vm_compute. lia.
    + destruct (find _ some_words); [|discriminate]. injection H as <-. cbn. lia.
  - intros t v H. destruct (beq t sol_five) eqn:B.
    + apply beq_eq in B. subst t. exact S.
    + destruct (find _ some_words) as [s|] eqn:F; [|discriminate]. apply find_some in F as [_ F]. apply beq_eq in F. subst t. exact S.
Qed.
(** base58, for the text of one key *)
Definition small_b58 (t : bytes) : option key := if beq t (txt "key 40") then Some (K 40) else None.
Lemma small_b58_ok : keys32 small_b58.
Proof. intros t k H. unfold small_b58 in H. destruct (beq _ _); [|discriminate]. injection H as <-. reflexivity. Qed.

Lemma not_typed c : existsb (fun x => (x <? 32) || (126 <? x)) c = true -> ~ typed c.
Proof.
  intros H T. apply existsb_exists in H as (x & I & H). unfold typed in T. rewrite Forall_forall in T. specialize (T x I). lia.
Qed.
Lemma home_untyped t i : typed t -> cli_remove_target (a_data (home SWIG)) t <> Ok i.
Proof.
  intros T H. pose proof home_cfg as C.
  destruct (removal_by_text _ _ _ _ C T H) as (r & I & _ & _ & Q). revert Q. apply not_typed.
  unfold s_home in I. cbn [s_roles In] in I. decompose [or] I; try contradiction; subst r; reflexivity.
Qed.
(** a role whose key consists of letters *)
Definition letters : bytes := repeat 65 32.
Definition x_letters : ix := sdk_add_ed SWIG (K 10) (K 10) 0 1 letters [GAll].
Definition lettered : world := run toy home [Call (post 6 x_letters)].
