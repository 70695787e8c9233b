(** Vocabulary of the LevenshteinIndex properties. *)
From Verif Require Import Base TrieM ErrorValuesM LevIndexM Spec_Hist Spec_Edit.
Local Open Scope m_scope.

(** A client calling [insertWord(w,id)] for each pair of the list, in order. *)
Fixpoint lev_insert_all (E : env) (ops : list (word * N)) : M levindex unit :=
  match ops with
  | [] => ret tt
  | (w, id) :: r => li_insertWord E w id ;;; lev_insert_all E r
  end.

Definition nonempty (w : word) : bool := match w with [] => false | _ => true end.
(** The insertions that count: those of a non-empty word. *)
Definition real (ops : list (word * N)) : list (word * N) := filter (fun op => nonempty (fst op)) ops.

(** What a client may insert: the empty word (ignored) or an insertable word, under
    an id other than the reserved one. *)
Definition lev_ops (ops : list (word * N)) : Prop :=
  Forall (fun op => (fst op = [] \/ insertable (fst op)) /\ snd op <> INVALID_WORDID) ops.

Definition times (id : N) (ops : list (word * N)) : N :=
  N.of_nat (length (filter (fun op => (snd op =? id)%N) (real ops))).
Definition longest (ops : list (word * N)) : nat :=
  fold_right (fun op n => Nat.max (length (fst op)) n) O ops.

(** [B] bounds all prices of [e], and no sum the search forms overflows. *)
Definition fits (e : errvals) (ops : list (word * N)) (q : word) : Prop :=
  exists B : Z, (0 <= B)%Z /\
  (- B <= getInsertionError e <= B)%Z /\ (- B <= getDeletionError e <= B)%Z /\
  (- B <= getEndDeletionError e <= B)%Z /\ (- B <= getStartInsertionError e (N.of_nat (length q)) <= B)%Z /\
  (- B <= getTransposeError e <= B)%Z /\
  (forall a b v, getSubstituteError e a b = Ok v -> - B <= v <= B)%Z /\
  (Z.of_nat (longest ops + length q + 2) * B + 10000 <= 2147483647)%Z.

(** No price is negative. *)
Definition nonneg (e : errvals) : Prop :=
  (0 <= getInsertionError e)%Z /\ (0 <= getDeletionError e)%Z /\ (0 <= getEndDeletionError e)%Z /\
  (forall n, 0 <= getStartInsertionError e n)%Z /\ (0 <= getTransposeError e)%Z /\
  (forall a b v, getSubstituteError e a b = Ok v -> 0 <= v)%Z.

(** A swap is never cheaper than replacing one letter, or never cheaper than
    adding one letter anywhere but at the end. *)
Definition swaps_not_cheap (e : errvals) (n : nat) : Prop :=
  (forall a b v, getSubstituteError e a b = Ok v -> v <= getTransposeError e)%Z \/
  (getDeletionError e <= getTransposeError e /\ getStartInsertionError e (N.of_nat n) <= getTransposeError e)%Z.

(** Every proper beginning of the word can be reached within the limit from some
    beginning of the query. *)
Definition begins_near (P : prices) (q w : word) (maxE : Z) : Prop :=
  forall a b, w = a ++ b -> a <> [] -> b <> [] ->
  exists k c, (k <= length q)%nat /\ edit P (length q) 0 0 (firstn k q) a c /\ (c <= maxE)%Z.

(** ** Histories of ErrorValues calls with bounded arguments *)
From Verif Require Import Spec_EV.
Definition value_in (lo hi : Z) (c : ev_call) : Prop :=
  match c with
  | SetError _ _ v | SetGroupError _ v | SetInsertionError v | SetDeletionError v | SetEndDeletionError v
  | SetStartInsertionError v | SetTransposeError v => (lo <= v <= hi)%Z
  | _ => True
  end.
Definition no_transpose (c : ev_call) : Prop := match c with SetTransposeError _ => False | _ => True end.
(** Prices between 0 and 100 everywhere, transposition left at its default: the
    defaults, substring mode, the standard error tables, accents, keyboard and
    number pad. *)
Definition default_like (calls : list ev_call) : Prop :=
  Forall (fun c => value_in 0 100 c /\ no_transpose c) calls.
