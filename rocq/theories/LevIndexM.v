(** Models of src/ErrorMatrix.cc, src/IndexMatches.cc, src/LevenshteinIndex.cc. *)
From Verif Require Import Base TrieM ErrorValuesM.
Local Open Scope m_scope.

(** ** ErrorMatrix *)

(** class ErrorMatrix, ErrorMatrix.hh:36-38.  [em_m r c] is [None] while the cell
    is uninitialised. *)
Record ematrix := mkEM {
  em_rows : nat;
  em_cols : nat;
  em_m : nat -> nat -> option Z
}.

(** The store m[r][c] = v, as in ErrorMatrix.cc:30-38 and 54. *)
Definition m_set (r c : nat) (v : Z) (m : nat -> nat -> option Z) : nat -> nat -> option Z :=
  fun r' c' => if Nat.eqb r' r && Nat.eqb c' c then Some v else m r' c'.

(** Any access m[r][c]: UB outside the (rows+1) x (columns+1) array or when the
    cell has not been written. *)
Definition em_get (em : ematrix) (r c : nat) : outcome Z :=
  if Nat.leb r (em_rows em) && Nat.leb c (em_cols em)
  then match em_m em r c with Some v => Ok v | None => UB end
  else UB.

(** Last loop of the constructor, ErrorMatrix.cc:37-38: [n] rows remain, next row
    is [i]. *)
Fixpoint em_col0 (n i : nat) (del : Z) (m : nat -> nat -> option Z) : outcome (nat -> nat -> option Z) :=
  match n with
  | O => Ok m
  | S n' =>
    match m (pred i) O with
    | None => UB
    | Some prev => let! v := iadd prev del in em_col0 n' (S i) del (m_set i O v m)
    end
  end.

(** ErrorMatrix::ErrorMatrix, ErrorMatrix.cc:27-39.  In [m[0][i] = i*insertError]
    the product is computed in size_t and converted back to int. *)
Definition em_new (rows cols : nat) (insertError deletionError : Z) : outcome ematrix :=
  let m0 := fun r c => if Nat.eqb r 0 && Nat.leb c cols
                       then Some (wrap_i32 (Z.of_nat c * insertError)) else None in
  let! m := em_col0 rows 1 deletionError m0 in
  Ok (mkEM rows cols m).

(** ErrorMatrix::set, ErrorMatrix.cc:49-55. *)
Definition em_set (r c : nat) (v : Z) (em : ematrix) : ematrix * outcome unit :=
  if Nat.ltb (em_rows em) r then (em, Throw EOutOfRange) else
  if Nat.ltb (em_cols em) c then (em, Throw EOutOfRange) else
  (mkEM (em_rows em) (em_cols em) (m_set r c v (em_m em)), Ok tt).

(** ErrorMatrix::totalError, ErrorMatrix.cc:57-59 (columns is at least 1 in every
    use; columns-1 would otherwise be out of range). *)
Definition em_total (em : ematrix) (r : nat) : outcome Z :=
  match em_cols em with
  | O => UB
  | S c => em_get em r c
  end.

(** ErrorMatrix::minError, ErrorMatrix.cc:61-67. *)
Fixpoint em_min_loop (em : ematrix) (r : nat) (i n : nat) (result : Z) : outcome Z :=
  match n with
  | O => Ok result
  | S n' => let! v := em_get em r i in
            em_min_loop em r (S i) n' (if (v <? result)%Z then v else result)
  end.
(** The function around that loop, ErrorMatrix.cc:61-67. *)
Definition em_min (em : ematrix) (r : nat) : outcome Z :=
  let! v := em_get em r 0 in em_min_loop em r 1 (em_cols em - 1) v.

(** ** IndexMatches *)

(** struct IndexMatchesPrivate, IndexMatches.cc:41-43.  A MatchData is the pair
    (matchedWord, error); its queryWord is always the default empty Word because
    addMatch ignores its first argument (IndexMatches.cc:53-58). *)
Definition imatches := list (N * Z).
(** IndexMatches::addMatch, IndexMatches.cc:53-58. *)
Definition im_addMatch (queryWord : word) (id : N) (error : Z) (m : imatches) : imatches := m ++ [(id, error)].
(** IndexMatches::size, IndexMatches.cc:60-62. *)
Definition im_size (m : imatches) : N := N.of_nat (length m).
(** getMatch / getQuery / getMatchError, IndexMatches.cc:64-98. *)
Definition im_getMatch (m : imatches) (num : N) : outcome N :=
  match nth_error m (N.to_nat num) with Some p => Ok (fst p) | None => Throw EOutOfRange end.
(** IndexMatches::getQuery, IndexMatches.cc:76-86: the empty Word, see above. *)
Definition im_getQuery (m : imatches) (num : N) : outcome word :=
  match nth_error m (N.to_nat num) with Some p => Ok [] | None => Throw EOutOfRange end.
(** IndexMatches::getMatchError, IndexMatches.cc:88-98. *)
Definition im_getMatchError (m : imatches) (num : N) : outcome Z :=
  match nth_error m (N.to_nat num) with Some p => Ok (snd p) | None => Throw EOutOfRange end.
(** IndexMatches::clear and sort, IndexMatches.cc:100-106. *)
Definition im_clear (m : imatches) : imatches := [].
(** IndexMatches::sort, IndexMatches.cc:104-106: std::sort, the environment's. *)
Definition im_sort (E : env) (m : imatches) : imatches := e_sort E m.

(** ** LevenshteinIndex *)

(** struct LevenshteinIndexPrivate, LevenshteinIndex.cc:57-64 (the members
    numNodes and numWords are never used).  [wordCounts] is an association list
    with one entry per id. *)
Record levindex := mkLI {
  li_counts : list (N * N);
  li_max : N;
  li_longest : nat;
  li_trie : trie
}.

(** LevenshteinIndex::LevenshteinIndex, LevenshteinIndex.cc:67-71. *)
Definition li_new (E : env) : outcome levindex :=
  let! t := trie_new E in Ok (mkLI [] 0 0 t).

(** wordCounts.find, LevenshteinIndex.cc:81-98 and 168-173. *)
Definition counts_find (c : list (N * N)) (id : N) : option N :=
  match find (fun p => (fst p =? id)%N) c with Some p => Some (snd p) | None => None end.
(** wordCounts[id] = v, LevenshteinIndex.cc:81-98. *)
Fixpoint counts_set (c : list (N * N)) (id v : N) : list (N * N) :=
  match c with
  | [] => [(id, v)]
  | p :: r => if (fst p =? id)%N then (id, v) :: r else p :: counts_set r id v
  end.

(** A call on the member p->trie, LevenshteinIndex.cc:57-64. *)
Definition on_li_trie {A} (m : M trie A) : M levindex A := fun s =>
  let (t', r) := m (li_trie s) in (mkLI (li_counts s) (li_max s) (li_longest s) t', r).

(** LevenshteinIndex::insertWord, LevenshteinIndex.cc:81-98.  size_t counters do
    not wrap (2^64 insertions). *)
Definition li_insertWord (E : env) (w : word) (wordID : N) : M levindex unit :=
  if Nat.eqb (length w) 0 then ret tt else
  newCount <- reads (fun s => Ok (match counts_find (li_counts s) wordID with
                                  | Some c => (c + 1)%N | None => 1%N end)) ;;
  on_li_trie (insertWord E w wordID) ;;;
  (fun s => (mkLI (counts_set (li_counts s) wordID newCount)
                  (if (li_max s <? newCount)%N then newCount else li_max s)
                  (if Nat.ltb (li_longest s) (length w) then length w else li_longest s)
                  (li_trie s), Ok tt)).

(** LevenshteinIndex::hasWord, LevenshteinIndex.cc:100-102. *)
Definition li_hasWord (s : levindex) (w : word) : outcome bool := hasWord (li_trie s) w.

(** LevenshteinIndex::findOptimalError, LevenshteinIndex.cc:124-142, for column
    i = [S k].  [query.text[i]] is a raw array access. *)
Definition qat (query : word) (i : nat) : outcome N :=
  match nth_error query i with Some l => Ok l | None => UB end.

(** LevenshteinIndex::findOptimalError, LevenshteinIndex.cc:124-142. *)
Definition findOptimalError (letter previousLetter : N) (query : word) (k depth : nat)
    (em : ematrix) (e : errvals) : outcome Z :=
  let i := S k in
  let! a := em_get em depth k in
  let! insertError := iadd a (getInsertionError e) in
  match depth with
  | O => UB
  | S d1 =>
    let! b := em_get em d1 i in
    let! deleteError := (if Nat.leb (length query) i
                         then iadd b (getEndDeletionError e)
                         else iadd b (getDeletionError e)) in
    let! c := em_get em d1 k in
    let! qk := qat query k in
    let! s := getSubstituteError e qk letter in
    let! substituteError := iadd c s in
    let! transposeError :=
      (match k with
       | O => iadd insertError 10000
       | S k2 =>
         let! q2 := qat query k2 in
         if (qk =? previousLetter)%N && (q2 =? letter)%N then
           match d1 with
           | O => UB
           | S d2 => let! x := em_get em d2 k2 in iadd x (getTransposeError e)
           end
         else iadd insertError 10000
       end) in
    Ok (Z.min insertError (Z.min deleteError (Z.min substituteError transposeError)))
  end.

(** State threaded through the search: the matrix and the matches. *)
Definition sstate := (ematrix * imatches)%type.

(** First loop of searchRecursive, LevenshteinIndex.cc:148-151: [n] columns
    remain, the next is S [k]. *)
Fixpoint row_loop (n k depth : nat) (letter previousLetter : N) (query : word) (e : errvals)
  : M sstate unit :=
  match n with
  | O => ret tt
  | S n' =>
    minError <- reads (fun s => findOptimalError letter previousLetter query k depth (fst s) e) ;;
    (fun s => let (em', r) := em_set depth (S k) minError (fst s) in ((em', snd s), r)) ;;;
    row_loop n' (S k) depth letter previousLetter query e
  end.

(** The sibling loop of searchRecursive and findWords, LevenshteinIndex.cc:114-120
    and 158-164. *)
Fixpoint sib_loop (fuel : nat) (t : trie) (visit : N -> N -> M sstate unit) (sibling : N) : M sstate unit :=
  match fuel with
  | O => fun s => (s, Fuel)
  | S f =>
    if (sibling =? 0)%N then ret tt else
    l <- reads (fun _ => getLetter t sibling) ;;
    nextNode <- reads (fun _ => getChild t sibling) ;;
    visit nextNode l ;;;
    next <- reads (fun _ => getNextSibling t sibling) ;;
    sib_loop f t visit next
  end.

(** LevenshteinIndex::searchRecursive, LevenshteinIndex.cc:144-166. *)
Fixpoint searchRecursive (fuel : nat) (t : trie) (query : word) (e : errvals) (maxError : Z)
    (node letter previousLetter : N) (depth : nat) : M sstate unit :=
  match fuel with
  | O => fun s => (s, Fuel)
  | S f =>
    row_loop (length query) 0 depth letter previousLetter query e ;;;
    total <- reads (fun s => em_total (fst s) depth) ;;
    (if (total <=? maxError)%Z then
       (id <- reads (fun _ => getWordID t node) ;;
        if negb (id =? INVALID_WORDID)%N
        then (fun s => ((fst s, im_addMatch query id total (snd s)), Ok tt))
        else ret tt)
     else ret tt) ;;;
    mn <- reads (fun s => em_min (fst s) depth) ;;
    if (mn <=? maxError)%Z then
      (sibling <- reads (fun _ => getSiblingList t node) ;;
       sib_loop (t_fuel t) t
         (fun n l => searchRecursive f t query e maxError n l letter (S depth)) sibling)
    else ret tt
  end.

(** LevenshteinIndex::findWords, LevenshteinIndex.cc:104-122, as an operation on the
    caller's IndexMatches. *)
Definition findWords (E : env) (s : levindex) (query : word) (e : errvals) (maxError : Z) : M imatches unit :=
  fun matches =>
  match em_new (S (li_longest s)) (S (length query)) (getDeletionError e)
               (getStartInsertionError e (N.of_nat (length query))) with
  | Ok em0 =>
    let r :=
      (z <- reads (fun st => em_get (fst st) 0 0) ;;
       massert E (z =? 0)%Z ;;;
       (if Nat.ltb 0 (length query) then
          (v <- reads (fun st => em_get (fst st) 0 1) ;;
           massert E (v =? getInsertionError e)%Z)
        else ret tt) ;;;
       sibling <- reads (fun _ => getSiblingList (li_trie s) (getRoot (li_trie s))) ;;
       sib_loop (t_fuel (li_trie s)) (li_trie s)
         (fun n l => searchRecursive (t_fuel (li_trie s)) (li_trie s) query e maxError n l 0 1) sibling)
      (em0, matches) in
    match snd r with
    | Ok _ => (im_sort E (snd (fst r)), Ok tt)
    | o => (snd (fst r), o)
    end
  | Throw x => (matches, Throw x)
  | Abort => (matches, Abort)
  | UB => (matches, UB)
  | Fuel => (matches, Fuel)
  end.

(** wordCount, maxCount, numNodes, numWords, LevenshteinIndex.cc:168-185. *)
Definition li_wordCount (s : levindex) (id : N) : N :=
  match counts_find (li_counts s) id with Some c => c | None => 0%N end.
(** LevenshteinIndex::maxCount, LevenshteinIndex.cc:175-177. *)
Definition li_maxCount (s : levindex) : N := li_max s.
(** LevenshteinIndex::numNodes, LevenshteinIndex.cc:179-181. *)
Definition li_numNodes (s : levindex) : outcome N := numNodes (li_trie s).
(** LevenshteinIndex::numWords, LevenshteinIndex.cc:183-185. *)
Definition li_numWords (s : levindex) : outcome N := numWords (li_trie s).
