(** std::map, as the code uses it: a list ordered by key.  A lookup only asks the
    key order, as the tree does. *)
From Verif Require Import Base.
Local Open Scope N_scope.

Section Map.
Context {K V : Type} (lt : K -> K -> bool).
(** find (and end() when absent). *)
Fixpoint mp_find (k : K) (m : list (K * V)) : option V :=
  match m with
  | [] => None
  | (k', v) :: r => if lt k k' then None else if lt k' k then mp_find k r else Some v
  end.
(** m[k] = v. *)
Fixpoint mp_set (k : K) (v : V) (m : list (K * V)) : list (K * V) :=
  match m with
  | [] => [(k, v)]
  | (k', v') :: r => if lt k k' then (k, v) :: m
                     else if lt k' k then (k', v') :: mp_set k v r
                     else (k', v) :: r
  end.
End Map.

(** operator< of pair<uint64_t,uint32_t>. *)
Definition pair_lt (a b : N * N) : bool :=
  (fst a <? fst b) || (negb (fst b <? fst a) && (snd a <? snd b)).
