(** Running out of memory in IndexWeights and MatcherStatistics: src/IndexWeights.cc and
    src/MatcherStatistics.cc.

    Simplified: a new element of the hash map of MatcherStatistics is one allocation; its
    table is not counted. *)
From Verif Require Import Base TrieM WordM MapM DoubleM ContM FailM.

(** An object, for each allocation to come, whether it succeeds (all do after the end), and
    the number of blocks allocated. *)
Record held_obj (A : Type) := mkHO { ho_obj : A; ho_plan : list bool; ho_live : nat }.
Arguments mkHO {A}.
Arguments ho_obj {A}.
Arguments ho_plan {A}.
Arguments ho_live {A}.

(** operator new: whether it succeeds, and the allocations after it. *)
Definition grab (p : list bool) : bool * list bool := match p with [] => (true, []) | b :: r => (b, r) end.

(** IndexWeights::setWeight, IndexWeights.cc:41-43.  std::map::operator[] with a new key
    allocates a node and in it copies the Word (Word.cc:110-122, which allocates nothing
    for the empty Word); when that throws the node is freed.  [Out] is std::bad_alloc. *)
Definition i_setWeight (c : word * double) (st : held_obj weights) : held_obj weights * fres unit :=
  let w := fst c in
  let after := iw_setWeight w (snd c) (ho_obj st) in
  match mp_find wltb w (ho_obj st) with
  | Some _ => (mkHO after (ho_plan st) (ho_live st), Val tt)
  | None =>
    match grab (ho_plan st) with
    | (false, p) => (mkHO (ho_obj st) p (ho_live st), Out)
    | (true, p) =>
      let live := S (ho_live st) in
      if Nat.eqb (length w) 0 then (mkHO after p live, Val tt) else
      match grab p with
      | (false, p2) => (mkHO (ho_obj st) p2 (live - 1), Out)
      | (true, p2) => (mkHO after p2 (S live), Val tt)
      end
    end
  end.
(** The blocks of a map of weights, by its elements. *)
Definition i_blocks (m : weights) : nat :=
  fold_right (fun x n => ((if Nat.eqb (length (fst x)) 0 then 1 else 2) + n)%nat) O m.

(** MatcherStatistics::wordProcessed, MatcherStatistics.cc:48-55. *)
Definition t_wordProcessed (id : N) (st : held_obj mstats) : held_obj mstats * fres unit :=
  match st_find (ho_obj st) id with
  | Some c => (mkHO (st_set (ho_obj st) id (c + 1)%N) (ho_plan st) (ho_live st), Val tt)
  | None =>
    match grab (ho_plan st) with
    | (false, p) => (mkHO (ho_obj st) p (ho_live st), Out)
    | (true, p) => (mkHO (st_set (ho_obj st) id 1%N) p (S (ho_live st)), Val tt)
    end
  end.
(** The blocks of a map of counts. *)
Definition t_blocks (m : mstats) : nat := length m.

(** A client that makes one call after another, catches std::bad_alloc and goes on. *)
Fixpoint o_all {A C} (f : C -> held_obj A -> held_obj A * fres unit) (calls : list C) (st : held_obj A) : held_obj A * list (fres unit) :=
  match calls with
  | [] => (st, [])
  | c :: r => let (st1, o) := f c st in let (st2, os) := o_all f r st1 in (st2, o :: os)
  end.
(** The whole life of an object: constructor, calls, destructor: IndexWeights.cc:31-38,
    MatcherStatistics.cc:39-46.  The constructor allocates the private part. *)
Definition o_life {A C} (f : C -> held_obj A -> held_obj A * fres unit) (blocks : A -> nat) (empty : A) (calls : list C) (p : list bool) (live : nat) : list (fres unit) * nat :=
  match grab p with
  | (false, _) => ([Out], live)
  | (true, p1) => let (st, os) := o_all f calls (mkHO empty p1 (S live)) in (os, (ho_live st - S (blocks (ho_obj st)))%nat)
  end.
