(** Running out of memory in Document::getFieldNames: src/Document.cc:81-85. *)
From Verif Require Import Base TrieM WordM MapM DoubleM ContM OwnM OomM.

(** The loop, lines 82-84: addWord of each key; the WordList is what it is when one throws. *)
Fixpoint names_to (ts : list (oword * olist)) (l : olist) : T (olist * option stop) :=
  match ts with
  | [] => val (l, None)
  | t :: r =>
    x <- try (l_add l (fst t)) ;;
    match x with
    | inl l' => names_to r l'
    | inr p => val (l, Some p)
    end
  end%t.
(** Document::getFieldNames, Document.cc:81-85: the WordList after it, and the exception if
    any. *)
Definition d_getFieldNames (d : odoc) (l : olist) : T (olist * option stop) := names_to (od_texts d) l.
