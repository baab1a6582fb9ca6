(** * Token accounts of a wallet: closing them and moving their tokens.

    Vocabulary for the theorems that say that what is asked for is done. *)
From Verif Require Export SpecSub1.

(** The two token programs *)
Definition token_program (p : key) : Prop := p = SPL_TOKEN \/ p = SPL_TOKEN_2022.
(** A token account of the token program [prog] that [auth] disposes of *)
Definition token_of (prog auth : key) (a : account) : Prop :=
  a_owner a = prog /\ (72 <= length (a_data a))%nat /\ sub 32 32 (a_data a) = auth.
(** The requests to the token program: close [t] in favour of [dest], move [n]
    tokens from [src] to [dst] *)
Definition close_request (prog t dest auth : key) : ix :=
  mk_ix prog [mk_meta t false true; mk_meta dest false true; mk_meta auth true false] [9].
Definition move_request (prog src dst auth : key) (n : Z) : ix :=
  mk_ix prog [mk_meta src false true; mk_meta dst false true; mk_meta auth true false] ([3] ++ le_enc 8 n).
(** The token program closes the accounts [ts], each of the wallet or of its
    configuration account, one after the other *)
Inductive all_closed (E : env) (prog dest swig wallet : key) : list key -> world -> world -> Prop :=
| closed_none w : all_closed E prog dest swig wallet [] w w
| closed_one t ts w w1 w2 auth : auth = swig \/ auth = wallet -> token_of prog auth (w t) ->
    foreign E w (close_request prog t dest auth) = Ok w1 -> all_closed E prog dest swig wallet ts w1 w2 ->
    all_closed E prog dest swig wallet (t :: ts) w w2.
(** The tokens of the configuration account are moved to the wallet: for each
    group of three accounts - source, destination, token program - all of them *)
Inductive all_moved (E : env) (ms : list meta) (swig wallet : key) : list meta -> world -> world -> Prop :=
| moved_none w : all_moved E ms swig wallet [] w w
| moved_one a b c ts w w1 w2 : let n := le (sub 64 8 (a_data (w (m_key a)))) in
    writable ms (m_key a) = true -> writable ms (m_key b) = true ->
    token_program (m_key c) -> token_of (m_key c) swig (w (m_key a)) -> token_of (m_key c) wallet (w (m_key b)) -> n <> 0 ->
    foreign E w (move_request (m_key c) (m_key a) (m_key b) swig n) = Ok w1 -> all_moved E ms swig wallet ts w1 w2 ->
    all_moved E ms swig wallet (a :: b :: c :: ts) w w2.
