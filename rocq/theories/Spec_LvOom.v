(** Vocabulary of LevenshteinIndexes that run out of memory. *)
From Verif Require Import Base TrieM LevIndexM Spec_Hist Spec_Lev FailM LvOomM.

(** The call returned or ran out of memory. *)
Definition went (o : fres unit) : Prop := o = Val tt \/ o = Out.
(** The insertions that returned. *)
Fixpoint finished (ops : list (word * N)) (os : list (fres unit)) : list (word * N) :=
  match ops, os with
  | op :: r, Val _ :: t => op :: finished r t
  | _ :: r, _ :: t => finished r t
  | _, _ => []
  end.
(** No word is longer than all those whose insertion returned. *)
Definition covered (ops : list (word * N)) (os : list (fres unit)) : Prop := (longest ops <= longest (finished ops os))%nat.
