(** Running out of memory in a LevenshteinIndex that is used alone:
    src/LevenshteinIndex.cc.

    Simplified: the trie lives in a mapped file and allocates nothing else (C06 has the
    mapping), so insertWord has one allocation, that of a new element of wordCounts.  A
    search that runs out of memory changes nothing in the index; SrOomM has it. *)
From Verif Require Import Base TrieM LevIndexM FailM.
Local Open Scope N_scope.

(** The index, and for each allocation to come, whether it succeeds (all do after the
    end). *)
Record lstate := mkLO { lo_index : levindex; lo_plan : list bool }.

(** LevenshteinIndex::insertWord, LevenshteinIndex.cc:81-98; [Out] is std::bad_alloc. *)
Definition l_insertWord (E : env) (w : word) (wordID : N) (st : lstate) : lstate * fres unit :=
  if Nat.eqb (length w) 0 then (st, Val tt) else
  let s := lo_index st in
  let count := counts_find (li_counts s) wordID in
  let newCount := match count with Some c => c + 1 | None => 1 end in
  let (s1, o) := on_li_trie (insertWord E w wordID) s in
  match o with
  | Ok _ =>
    let rest := mkLI (counts_set (li_counts s1) wordID newCount) (if li_max s1 <? newCount then newCount else li_max s1)
                     (if Nat.ltb (li_longest s1) (length w) then length w else li_longest s1) (li_trie s1) in
    match count, lo_plan st with
    | Some _, p => (mkLO rest p, Val tt)
    | None, false :: p => (mkLO s1 p, Out)
    | None, p => (mkLO rest (tl p), Val tt)
    end
  | Throw x => (mkLO s1 (lo_plan st), Thrown x)
  | Abort => (mkLO s1 (lo_plan st), Aborted)
  | UB => (mkLO s1 (lo_plan st), Undefined)
  | Fuel => (mkLO s1 (lo_plan st), NoFuel)
  end.
(** A client calling insertWord for each pair in order, that catches std::bad_alloc and
    goes on; nothing comes after another end. *)
Fixpoint l_all (E : env) (ops : list (word * N)) (st : lstate) : lstate * list (fres unit) :=
  match ops with
  | [] => (st, [])
  | (w, id) :: r =>
    match l_insertWord E w id st with
    | (st1, Val _) => let (st2, os) := l_all E r st1 in (st2, Val tt :: os)
    | (st1, Out) => let (st2, os) := l_all E r st1 in (st2, Out :: os)
    | (st1, o) => (st1, [o])
    end
  end.
