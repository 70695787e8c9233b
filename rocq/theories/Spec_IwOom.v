(** Vocabulary of IndexWeights and MatcherStatistics that run out of memory. *)
From Verif Require Import Base FailM.

(** The calls that returned. *)
Fixpoint returned {C} (calls : list C) (os : list (fres unit)) : list C :=
  match calls, os with
  | c :: r, Val _ :: t => c :: returned r t
  | _ :: r, _ :: t => returned r t
  | _, _ => []
  end.
(** A call returned or ran out of memory. *)
Definition as_told (o : fres unit) : Prop := o = Val tt \/ o = Out.
