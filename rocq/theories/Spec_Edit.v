(** Independent specification of the error of a word against a query: the
    cheapest way to rewrite the query into the word, letter by letter from the
    left. *)
From Verif Require Import Base ErrorValuesM.
Local Open Scope Z_scope.

(** Prices of the elementary edits. *)
Record prices := mkPrices {
  p_ins : Z;              (* an extra query letter, after the first word letter  *)
  p_del : Z;              (* an extra query letter at the front of the query, or
                             a missing word letter in the middle of the query    *)
  p_edel : Z;             (* a missing word letter after the end of the query    *)
  p_sins : Z;             (* a missing word letter before the start of the query *)
  p_sub : N -> N -> Z;    (* query letter a against word letter b                *)
  p_trans : Z             (* two adjacent letters swapped                        *)
}.

(** [edit P n i j q w c]: with [i] letters of a query of length [n] and [j]
    letters of the word already dealt with, the rest [q] of the query can be
    turned into the rest [w] of the word at total price [c]. *)
Inductive edit (P : prices) (n : nat) : nat -> nat -> word -> word -> Z -> Prop :=
| ed_nil i j : edit P n i j [] [] 0
| ed_sub i j a b q w c :
    edit P n (S i) (S j) q w c -> edit P n i j (a :: q) (b :: w) (p_sub P a b + c)
| ed_drop i j a q w c :
    edit P n (S i) j q w c ->
    edit P n i j (a :: q) w ((if Nat.eqb j 0 then p_del P else p_ins P) + c)
| ed_add i j b q w c :
    edit P n i (S j) q w c ->
    edit P n i j q (b :: w)
      ((if Nat.eqb i 0 then p_sins P else if Nat.eqb i n then p_edel P else p_del P) + c)
| ed_swap i j a b q w c :
    edit P n (S (S i)) (S (S j)) q w c ->
    edit P n i j (a :: b :: q) (b :: a :: w) (p_trans P + c).

(** [c] is the price of some rewriting of [q] into [w] ... *)
Definition edit_cost (P : prices) (q w : word) (c : Z) : Prop := edit P (length q) 0 0 q w c.
(** ... and no rewriting is cheaper. *)
Definition min_cost (P : prices) (q w : word) (c : Z) : Prop :=
  edit_cost P q w c /\ forall c', edit_cost P q w c' -> c <= c'.

(** The prices the getters of an ErrorValues object quote for a query of [n]
    letters. *)
Definition prices_of (e : errvals) (n : nat) : prices :=
  mkPrices (getInsertionError e) (getDeletionError e) (getEndDeletionError e)
           (getStartInsertionError e (N.of_nat n))
           (fun a b => match getSubstituteError e a b with Ok v => v | _ => 0 end)
           (getTransposeError e).
