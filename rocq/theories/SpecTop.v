(** * Vocabulary: requests that come from other programs *)
From Verif Require Export SpecActs.

(** The same request, at depth [n] of calls: depth 1 is an instruction of the
    transaction, larger depths are calls made by programs *)
Definition at_height (n : nat) (cx : ctx) : ctx :=
  mk_ctx (c_slot cx) n (c_ixs cx) (c_cur cx) (c_metas cx) (c_data cx).
