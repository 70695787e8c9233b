(** Vocabulary of C116: how a client of the class Trie walks from node to node. *)
From Verif Require Import Base TrieM Spec_Hist.
Local Open Scope N_scope.

(** The list of siblings that starts with [s], 0 being its end: for each its offset, its
    letter and its child; [hasSibling] tells whether there is another one. *)
Inductive siblings (t : trie) : N -> list (N * N * N) -> Prop :=
| no_more : siblings t 0 []
| one_more s l c next rest : s <> 0 -> getLetter t s = Ok l -> getChild t s = Ok c -> getNextSibling t s = Ok next ->
    hasSibling t s = Ok (match rest with [] => false | _ => true end) -> siblings t next rest -> siblings t s ((s, l, c) :: rest).

(** The id a word was first inserted with. *)
Fixpoint first_id (ops : list (word * N)) (w : word) : option N :=
  match ops with
  | [] => None
  | (v, id) :: r => if weqb v w then Some id else first_id r w
  end.
