(** * Vocabulary for balances: rent *)
From Verif Require Export SpecActs SpecHistory.

(** The account holds the rent-exempt minimum for its size.  The chain removes
    accounts that hold less, so losing it would mean losing the account. *)
Definition exempt (E : env) (a : account) : Prop := rent E (length (a_data a)) <= a_lamports a.
(** Larger accounts do not cost less *)
Definition rent_grows (E : env) : Prop := forall m n, (m <= n)%nat -> 0 <= rent E m <= rent E n.
