(** Vocabulary for comparing searches and errors. *)
From Verif Require Import Base ErrorValuesM Spec_EV Spec_Match.
Local Open Scope Z_scope.

(** The call does not change a price. *)
Definition not_price (c : m_call) : Prop := match c with MErr _ => False | _ => True end.

(** For a query of [n] letters: every edit costs something. *)
Definition all_cost (e : errvals) (n : nat) : Prop :=
  0 < getInsertionError e /\ 0 < getDeletionError e /\ 0 < getEndDeletionError e /\ 0 < getStartInsertionError e (N.of_nat n) /\ 0 < getTransposeError e /\
  forall a b, a <> b -> forall v, getSubstituteError e a b = Ok v -> 0 < v.
(** Adding or leaving out a letter costs [k], wherever it is. *)
Definition even_handed (e : errvals) (n : nat) (k : Z) : Prop :=
  getInsertionError e = k /\ getDeletionError e = k /\ getEndDeletionError e = k /\ getStartInsertionError e (N.of_nat n) = k.
(** Adding or leaving out a letter costs at least [k]. *)
Definition letters_cost (e : errvals) (n : nat) (k : Z) : Prop :=
  0 <= k /\ k <= getInsertionError e /\ k <= getDeletionError e /\ k <= getEndDeletionError e /\ k <= getStartInsertionError e (N.of_nat n).
(** No edit but a swap costs more than [B]. *)
Definition edits_cost_at_most (e : errvals) (n : nat) (B : Z) : Prop :=
  getInsertionError e <= B /\ getDeletionError e <= B /\ getEndDeletionError e <= B /\ getStartInsertionError e (N.of_nat n) <= B /\
  forall a b v, getSubstituteError e a b = Ok v -> v <= B.
