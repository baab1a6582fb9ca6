(** * Vocabulary for payments *)
From Verif Require Export SpecRent.

(** The balances after are the ones before, except that [n] lamports went from
    [from] to [to] (nothing moves when these are the same account) *)
Definition moved_only (w w' : world) (from to : key) (n : Z) : Prop :=
  (from = to -> forall k, a_lamports (w' k) = a_lamports (w k))
  /\ (from <> to -> a_lamports (w' from) = a_lamports (w from) - n
       /\ a_lamports (w' to) = a_lamports (w to) + n
       /\ forall k, k <> from -> k <> to -> a_lamports (w' k) = a_lamports (w k)).
(** the size of an account's data *)
Definition size (w : world) (k : key) : nat := length (a_data (w k)).
(** no balance changes *)
Definition no_flow (w w' : world) : Prop := forall k, a_lamports (w' k) = a_lamports (w k).
(** [from] paid the amounts of the list to the accounts in it; no other balance changes *)
Definition paid_out (w w' : world) (from : key) (l : list (key * Z)) : Prop :=
  a_lamports (w' from) = a_lamports (w from) - fold_right Z.add 0 (map snd l)
  /\ (forall k n, In (k, n) l -> a_lamports (w' k) = a_lamports (w k) + n)
  /\ forall k, k <> from -> ~ In k (map fst l) -> a_lamports (w' k) = a_lamports (w k).
