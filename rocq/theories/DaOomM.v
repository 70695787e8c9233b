(** Running out of memory in the assignment of a Document: src/Document.cc:87-93.

    operator= of std::map is not in /repo: as in libstdc++ it takes the nodes of the old
    elements for the new ones as long as there are any, and frees all elements, old and
    new, when an exception passes.  Simplified: it copies in the order of the keys. *)
From Verif Require Import Base TrieM WordM MapM DoubleM ContM OwnM OomM.

(** Construction of an element in a node that is there; the node is freed if it fails
    (C++ library). *)
Definition node_fill (t : oword * olist) : T (oword * olist) :=
  (k <- cleanup (o_copy (fst t)) free ;;
   l <- cleanup (l_copy (snd t)) (o_destroy k ;;; free) ;;
   val (k, l))%t.
(** The same after the element that was in the node is destroyed (C++ library). *)
Definition node_reuse (old t : oword * olist) : T (oword * olist) :=
  (o_destroy (fst old) ;;; l_destroy (snd old) ;;; node_fill t)%t.
(** operator= of the map of texts (C++ library). *)
Fixpoint texts_assign (old from : list (oword * olist)) : T (list (oword * olist)) :=
  match from with
  | [] => t_all node_destroy old ;;; val []
  | t :: r =>
    match old with
    | [] => n <- node_copy t ;; ns <- cleanup (texts_assign [] r) (node_destroy n) ;; val (n :: ns)
    | x :: rest => n <- cleanup (node_reuse x t) (t_all node_destroy rest) ;; ns <- cleanup (texts_assign rest r) (node_destroy n) ;; val (n :: ns)
    end
  end%t.
(** Document::operator=, Document.cc:87-93, of another Document: the identifier is changed
    before the texts.  The Document after it, and the exception if any. *)
Definition d_assign (x d : odoc) : T (odoc * option stop) :=
  (r <- try (texts_assign (od_texts x) (od_texts d)) ;;
   match r with
   | inl ts => val (mkOD (od_id d) ts, None)
   | inr p => val (mkOD (od_id d) [], Some p)
   end)%t.
