(** Running out of memory in a search: LevenshteinIndex::findWords of
    src/LevenshteinIndex.cc, with src/ErrorMatrix.cc and src/IndexMatches.cc.

    Simplified: where the vector of matches has room left, push_back allocates nothing,
    which is an allocation that succeeds.  The Words in the matches are empty and own
    nothing; std::sort allocates nothing.  Only the blocks of the ErrorMatrix are counted,
    those of the vector are the caller's. *)
From Verif Require Import Base TrieM ErrorValuesM LevIndexM FailM.

(** The search once more, with, for each allocation to come, whether it succeeds (all do
    after the end). *)
Definition R (A : Type) := (sstate * list bool) -> (sstate * list bool) * fres A.
(** Statements in sequence: an exception ends them (C++ semantics). *)
Definition rbind {A B} (x : R A) (k : A -> R B) : R B := fun s =>
  match x s with
  | (s1, Val a) => k a s1
  | (s1, Out) => (s1, Out)
  | (s1, Thrown e) => (s1, Thrown e)
  | (s1, Aborted) => (s1, Aborted)
  | (s1, Undefined) => (s1, Undefined)
  | (s1, NoFuel) => (s1, NoFuel)
  end.
(** A step that allocates nothing, as in LevIndexM. *)
Definition quiet {A} (x : M sstate A) : R A := fun s => let (s1, o) := x (fst s) in ((s1, snd s), as_res o).
(** The end of a branch without statements (C++ semantics). *)
Definition rret : R unit := quiet (ret tt).
(** IndexMatches::addMatch, IndexMatches.cc:53-58: push_back. *)
Definition r_addMatch (query : word) (id : N) (error : Z) : R unit := fun s =>
  match snd s with
  | false :: p => ((fst s, p), Out)
  | p => (((fst (fst s), im_addMatch query id error (snd (fst s))), tl p), Val tt)
  end.
(** The sibling loop, LevenshteinIndex.cc:114-120 and 158-164. *)
Fixpoint r_sib_loop (fuel : nat) (t : trie) (visit : N -> N -> R unit) (sibling : N) : R unit :=
  match fuel with
  | O => fun s => (s, NoFuel)
  | S f =>
    if (sibling =? 0)%N then rret else
    rbind (quiet (reads (fun _ => getLetter t sibling))) (fun l =>
    rbind (quiet (reads (fun _ => getChild t sibling))) (fun nextNode =>
    rbind (visit nextNode l) (fun _ =>
    rbind (quiet (reads (fun _ => getNextSibling t sibling))) (fun next =>
    r_sib_loop f t visit next))))
  end.
(** LevenshteinIndex::searchRecursive, LevenshteinIndex.cc:144-166. *)
Fixpoint r_search (fuel : nat) (t : trie) (query : word) (e : errvals) (maxError : Z)
    (node letter previousLetter : N) (depth : nat) : R unit :=
  match fuel with
  | O => fun s => (s, NoFuel)
  | S f =>
    rbind (quiet (row_loop (length query) 0 depth letter previousLetter query e)) (fun _ =>
    rbind (quiet (reads (fun s => em_total (fst s) depth))) (fun total =>
    rbind (if (total <=? maxError)%Z then
             rbind (quiet (reads (fun _ => getWordID t node))) (fun id =>
             if negb (id =? INVALID_WORDID)%N then r_addMatch query id total else rret)
           else rret) (fun _ =>
    rbind (quiet (reads (fun s => em_min (fst s) depth))) (fun mn =>
    if (mn <=? maxError)%Z then
      rbind (quiet (reads (fun _ => getSiblingList t node))) (fun sibling =>
      r_sib_loop (t_fuel t) t (fun n l => r_search f t query e maxError n l letter (S depth)) sibling)
    else rret))))
  end.

(** The caller's matches, the allocations to come, and the number of allocated blocks. *)
Record rstate := mkSR { sr_matches : imatches; sr_plan : list bool; sr_live : nat }.

(** [n] allocations one after another: how many succeeded, whether all did, and the
    allocations to come. *)
Fixpoint blocks (n : nat) (p : list bool) : nat * bool * list bool :=
  match n, p with
  | O, _ => (O, true, p)
  | S _, false :: r => (O, false, r)
  | S n', _ => match blocks n' (tl p) with (k, b, r) => (S k, b, r) end
  end.
(** The statements of findWords after the constructor, LevenshteinIndex.cc:110-121, and
    ErrorMatrix::~ErrorMatrix, ErrorMatrix.cc:41-47, which frees [n] blocks, also when an
    exception leaves findWords. *)
Definition r_rest (E : env) (s : levindex) (query : word) (e : errvals) (maxError : Z) (em0 : ematrix) (n : nat) (st : rstate) : rstate * fres unit :=
  let r :=
    rbind (quiet (reads (fun st => em_get (fst st) 0 0))) (fun z =>
    rbind (quiet (massert E (z =? 0)%Z)) (fun _ =>
    rbind (if Nat.ltb 0 (length query) then
             rbind (quiet (reads (fun st => em_get (fst st) 0 1))) (fun v => quiet (massert E (v =? getInsertionError e)%Z))
           else rret) (fun _ =>
    rbind (quiet (reads (fun _ => getSiblingList (li_trie s) (getRoot (li_trie s))))) (fun sibling =>
    r_sib_loop (t_fuel (li_trie s)) (li_trie s)
      (fun n l => r_search (t_fuel (li_trie s)) (li_trie s) query e maxError n l 0 1) sibling))))
    ((em0, sr_matches st), sr_plan st) in
  let m := snd (fst (fst r)) in
  let p := snd (fst r) in
  match snd r with
  | Val _ => (mkSR (im_sort E m) p (sr_live st - n), Val tt)
  | Out => (mkSR m p (sr_live st - n), Out)
  | Thrown x => (mkSR m p (sr_live st - n), Thrown x)
  | o => (mkSR m p (sr_live st), o)
  end.
(** LevenshteinIndex::findWords, LevenshteinIndex.cc:104-122.  The constructor
    ErrorMatrix.cc:27-39 allocates the array of rows and longestWordLength+2 rows; when it
    is left by an exception there is no ErrorMatrix, so no destructor runs. *)
Definition r_findWords (E : env) (s : levindex) (query : word) (e : errvals) (maxError : Z) (st : rstate) : rstate * fres unit :=
  let n := (li_longest s + 3)%nat in
  match blocks n (sr_plan st) with
  | (k, false, p) => (mkSR (sr_matches st) p (sr_live st + k), Out)
  | (k, true, p) =>
    let st1 := mkSR (sr_matches st) p (sr_live st + k) in
    match em_new (S (li_longest s)) (S (length query)) (getDeletionError e) (getStartInsertionError e (N.of_nat (length query))) with
    | Ok em0 => r_rest E s query e maxError em0 n st1
    | Throw x => (st1, Thrown x)
    | Abort => (st1, Aborted)
    | UB => (st1, Undefined)
    | Fuel => (st1, NoFuel)
    end
  end.
