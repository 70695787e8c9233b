(** Vocabulary for C125: the document that is what was typed. *)
From Verif Require Import Base WordM MapM DoubleM ContM MatcherM Spec_Edit Spec_Match.
From Coq Require Import Permutation.
Local Open Scope N_scope.

(** The text of field [f] of document [D] is the query, up to the order of the words. *)
Definition reads_as (D : document) (f : word) (q : list word) : Prop :=
  exists t, doc_getText D f = Ok t /\ Permutation q t.
(** [hits] has every word of the document (with its field) that is close to a word of the query. *)
Definition all_hits (calls : list m_call) (q : list word) (d : N) (hits : list (word * word)) : Prop :=
  forall g w qw err, In (d, g, w) (occ calls) -> In qw q -> near (prices_after calls) sp_new qw w err -> In (g, w) hits.
(** The words of a document that are close to the query weigh less than a hundred together:
    there are [length hits] of them, in fields of weight [K] or less. *)
Definition light (calls : list m_call) (q : list word) (d : N) : Prop :=
  exists K hits, all_hits calls q d hits /\ (forall g w, In (g, w) hits -> at_least (d_of_Z K) (weight_after calls g)) /\
    (0 <= K)%Z /\ (K * Z.of_nat (length hits) < 100)%Z.
(** Document [d] is at place [i] of the results. *)
Definition at_place (r : mresults) (i d : N) : Prop := snd (mr_getDocumentID i r) = Ok d.
