(** Running out of memory in a Matcher: src/Matcher.cc, src/WordStore.cc and
    src/LevenshteinIndex.cc once more, with every allocation that may fail while objects
    change.  What is computed is as in MatcherM.v.

    Simplified: an insertion into a container is one allocation, which may fail whether or
    not the container has room left (a failure where there is room is one that does not
    happen); containers are left as they were when it fails, as the standard says.  All
    allocations for local variables between two changes of the Matcher are one.  Changing
    prices (ErrorValues) does not run out of memory here, and what is lost (leaked) by a
    failure is not counted. *)
From Verif Require Import Base TrieM WordStoreM ErrorValuesM LevIndexM WordM MapM DoubleM ContM MatcherM.
Local Open Scope N_scope.

(** Where an allocation failed. *)
Inductive place :=
| AtLocal     (* local variables                                           *)
| AtWordIndex (* wordIndex.push_back(node), WordStore.cc:60                *)
| AtSizes     (* originalSizes[lengths], Matcher.cc:286                    *)
| AtStats     (* totalWordCounts[w], MatcherStatistics.cc:51               *)
| AtNewIndex  (* new LevenshteinIndex(), Matcher.cc:303                    *)
| AtIndexes   (* indexes[indexID], Matcher.cc:304                          *)
| AtCounts    (* wordCounts[wordID], LevenshteinIndex.cc:92                *)
| AtReverse   (* the sets of ReverseIndex::add, Matcher.cc:106-119         *)
| AtWeights.  (* weigths[w], IndexWeights.cc:42                            *)
(** [f_plan]: for each allocation to come, whether it succeeds (all do after the end);
    [f_failed]: where allocations failed so far, which only theorems look at. *)
Record fst_ := mkF { f_m : matcher; f_plan : list bool; f_failed : list place }.
(** How a function ends; [Out] is std::bad_alloc. *)
Inductive fres (A : Type) := Val (a : A) | Out | Thrown (e : exn) | Aborted | Undefined | NoFuel.
Arguments Val {A} a.
Arguments Out {A}.
Arguments Thrown {A} e.
Arguments Aborted {A}.
Arguments Undefined {A}.
Arguments NoFuel {A}.
(** Code that may run out of memory (C++ semantics). *)
Definition F (A : Type) := fst_ -> fst_ * fres A.
(** A normal return (C++ semantics). *)
Definition val {A} (a : A) : F A := fun s => (s, Val a).
(** Statement after statement (C++ semantics). *)
Definition fbind {A B} (x : F A) (k : A -> F B) : F B := fun s =>
  match x s with
  | (s1, Val a) => k a s1
  | (s1, Out) => (s1, Out)
  | (s1, Thrown e) => (s1, Thrown e)
  | (s1, Aborted) => (s1, Aborted)
  | (s1, Undefined) => (s1, Undefined)
  | (s1, NoFuel) => (s1, NoFuel)
  end.
Declare Scope f_scope.
Delimit Scope f_scope with f.
Notation "x <- m ;; k" := (fbind m (fun x => k)) (at level 100, m at next level, right associativity, k at level 200) : f_scope.
Notation "m ;;; k" := (fbind m (fun _ => k)) (at level 100, right associativity) : f_scope.
Local Open Scope f_scope.
(** An outcome of MatcherM. *)
Definition as_res {A} (o : outcome A) : fres A :=
  match o with Ok a => Val a | Throw e => Thrown e | Abort => Aborted | UB => Undefined | Fuel => NoFuel end.
(** A step that allocates nothing, as in MatcherM. *)
Definition on_m {A} (x : M matcher A) : F A := fun s =>
  let (m', o) := x (f_m s) in (mkF m' (f_plan s) (f_failed s), as_res o).
(** An allocation: std::bad_alloc if there is no memory (C++ semantics). *)
Definition need (p : place) : F unit := fun s =>
  match f_plan s with
  | [] => (s, Val tt)
  | true :: r => (mkF (f_m s) r (f_failed s), Val tt)
  | false :: r => (mkF (f_m s) r (f_failed s ++ [p]), Out)
  end.
(** An allocation that is made only if something is not there yet. *)
Definition need_if (p : place) (b : matcher -> bool) : F unit := fun s =>
  if b (f_m s) then need p s else (s, Val tt).

(** WordStore::getID, WordStore.cc:55-63. *)
Definition f_getID (E : env) (w : word) : F N :=
  has <- on_m (reads (fun m => ws_hasWord (mt_store m) w)) ;;
  if has : bool then on_m (on_store (ws_getID E w))
  else
    (n <- on_m (reads (fun m => Ok (u32 (N.of_nat (length (ws_index (mt_store m))))))) ;;
     node <- on_m (on_store (on_trie (insertWord E w n))) ;;
     need AtWordIndex ;;;
     on_m (on_store (fun s => (mkWS (ws_trie s) (ws_index s ++ [node]), Ok tt))) ;;;
     on_m (reads (fun m => Ok (u32 (N.of_nat (length (ws_index (mt_store m))) - 1))))).

(** A call on p->indexes[id], Matcher.cc:299-309. *)
Definition on_index {A} (id : N) (f : M levindex A) : M matcher A := fun m =>
  match mp_find N.ltb id (mt_idx m) with
  | Some li => let (li', o) := f li in (set_idx id li' m, o)
  | None => (m, UB)
  end.
(** LevenshteinIndex::insertWord, LevenshteinIndex.cc:81-98. *)
Definition f_insertWord (E : env) (w : word) (wordID indexID : N) : F unit :=
  if Nat.eqb (length w) 0 then val tt else
  count <- on_m (on_index indexID (reads (fun s => Ok (counts_find (li_counts s) wordID)))) ;;
  let newCount := match count with Some c => (c + 1)%N | None => 1%N end in
  on_m (on_index indexID (on_li_trie (insertWord E w wordID))) ;;;
  need_if AtCounts (fun _ => match count with Some _ => false | None => true end) ;;;
  on_m (on_index indexID (fun s => (mkLI (counts_set (li_counts s) wordID newCount)
    (if (li_max s <? newCount)%N then newCount else li_max s)
    (if Nat.ltb (li_longest s) (length w) then length w else li_longest s)
    (li_trie s), Ok tt))).
(** Matcher::addToIndex, Matcher.cc:299-309. *)
Definition f_addToIndex (E : env) (w : word) (wordID indexID : N) : F unit :=
  known <- on_m (reads (fun m => Ok (match mp_find N.ltb indexID (mt_idx m) with Some _ => true | None => false end))) ;;
  (if known : bool then val tt else
   (need AtNewIndex ;;;
    target <- on_m (reads (fun _ => li_new E)) ;;
    need AtIndexes ;;;
    on_m (fun m => (set_idx indexID target m, Ok tt)))) ;;;
  f_insertWord E w wordID indexID.
(** ReverseIndex::add, Matcher.cc:106-119.  When the copy of the new set fails its entry is
    there already, and empty. *)
Definition f_add (wordID indexID id : N) : F unit :=
  known <- on_m (reads (fun m => Ok (match mp_find pair_lt (indexID, wordID) (mt_rev m) with Some _ => true | None => false end))) ;;
  need AtReverse ;;;
  (if known : bool then val tt else (on_m (set_rev (mp_set pair_lt (indexID, wordID) [])) ;;; need AtReverse)) ;;;
  on_m (set_rev (rev_add wordID indexID id)).

(** Matcher::buildIndexes, Matcher.cc:274-297: the loop over the words of a text. *)
Fixpoint f_words (E : env) (doc fieldID : N) (ws : wordlist) : F unit :=
  match ws with
  | [] => val tt
  | w :: r =>
    wordID <- f_getID E w ;;
    need_if AtStats (fun m => match st_find (mt_stats m) wordID with Some _ => false | None => true end) ;;;
    on_m (set_stats (st_wordProcessed wordID)) ;;;
    f_addToIndex E w wordID fieldID ;;;
    f_add wordID fieldID doc ;;;
    f_words E doc fieldID r
  end.
(** The loop over the fields of one document, Matcher.cc:279-295. *)
Fixpoint f_fields (E : env) (d : document) (names : wordlist) : F unit :=
  match names with
  | [] => val tt
  | f :: r =>
    fieldID <- f_getID E f ;;
    text <- on_m (reads (fun _ => doc_getText d f)) ;;
    need_if AtSizes (fun m => match mp_find pair_lt (doc_getID d, fieldID) (mt_sizes m) with Some _ => false | None => true end) ;;;
    on_m (set_size (doc_getID d) fieldID (wl_size text)) ;;;
    f_words E (doc_getID d) fieldID text ;;;
    f_fields E d r
  end.
(** Matcher::buildIndexes, Matcher.cc:274-297, and Matcher::index, Matcher.cc:253-265. *)
Fixpoint f_index (E : env) (c : corpus) : F unit :=
  match c with
  | [] => val tt
  | d :: r => need AtLocal ;;; f_fields E d (fst (doc_getFieldNames d [])) ;;; f_index E r
  end.

(** The two ids of subtermsMatch, Matcher.cc:236-247. *)
Definition f_both_ids (E : env) (value filterName : word) : F (N * N) :=
  if e_rtl E
  then (f <- f_getID E filterName ;; v <- f_getID E value ;; val (v, f))
  else (v <- f_getID E value ;; f <- f_getID E filterName ;; val (v, f)).
(** subtermsMatch, Matcher.cc:236-247. *)
Fixpoint f_subtermsMatch (E : env) (filter : rfilter) (term : N) (id : N) (n : nat) (sub : N) : F bool :=
  match n with
  | O => val true
  | S n' =>
    filterName <- on_m (reads (fun _ => rf_getField filter term sub)) ;;
    value <- on_m (reads (fun _ => rf_getWord filter term sub)) ;;
    ids <- f_both_ids E value filterName ;;
    found <- on_m (reads (fun m => Ok (documentHasTerm (mt_rev m) (fst ids) (snd ids) id))) ;;
    if found : bool then f_subtermsMatch E filter term id n' (sub + 1) else val false
  end.
(** The loop over the terms in Matcher::match, Matcher.cc:355-360. *)
Fixpoint f_termsMatch (E : env) (filter : rfilter) (id : N) (n : nat) (term : N) : F bool :=
  match n with
  | O => val false
  | S n' =>
    k <- on_m (reads (fun _ => rf_numSubTerms filter term)) ;;
    ok <- f_subtermsMatch E filter term id (N.to_nat k) 0 ;;
    if ok : bool then val true else f_termsMatch E filter id n' (term + 1)
  end.
(** The loop over the results, Matcher.cc:353-361. *)
Fixpoint f_filter_loop (E : env) (filter : rfilter) (n : nat) (i : N) (allMatches matched : mresults) : F mresults :=
  match n with
  | O => val matched
  | S n' =>
    let (all', o) := mr_getDocumentID i allMatches in
    id <- on_m (reads (fun _ => o)) ;;
    ok <- f_termsMatch E filter id (N.to_nat (rf_numTerms filter)) 0 ;;
    if ok : bool then
      (need AtLocal ;;;
       let (matched', o') := mr_copyResult all' i matched in
       _ <- on_m (reads (fun _ => o')) ;; f_filter_loop E filter n' (i + 1) all' matched')
    else f_filter_loop E filter n' (i + 1) all' matched
  end.
(** Matcher::match, Matcher.cc:332-363. *)
Definition f_match (E : env) (query : wordlist) (p : sparams) : F mresults :=
  need AtLocal ;;;
  match query with
  | [] => val mr_new
  | _ =>
    matches <- on_m (reads (fun m => relevancyMatch E m query p 0 mr_new)) ;;
    let allMatches := fst (mr_addResults matches mr_new) in
    f_filter_loop E (sp_filter p) (N.to_nat (mr_size allMatches)) 0 allMatches mr_new
  end.

(** countExacts, Matcher.cc:391-406. *)
Fixpoint f_countExacts (E : env) (query : wordlist) (indexID : N) (c : list (N * N)) : F (list (N * N)) :=
  match query with
  | [] => val c
  | w :: r =>
    if Nat.eqb (length w) 0 then f_countExacts E r indexID c else
    has <- on_m (reads (fun m => ws_hasWord (mt_store m) w)) ;;
    if negb has then f_countExacts E r indexID c else
    curWord <- f_getID E w ;;
    exacts <- on_m (reads (fun m => Ok (findDocuments E (mt_rev m) curWord indexID))) ;;
    f_countExacts E r indexID (count_docs exacts c)
  end.
(** The loop over [stats], Matcher.cc:435-441. *)
Fixpoint f_exact_scores (qsize indexID : N) (stats : list (N * N)) (acc : list (N * double)) : F (list (N * double)) :=
  match stats with
  | [] => val acc
  | (id, matches) :: r =>
    let base := d_of_Z (Z.of_N (2 * matches)) in
    perfect <- (if matches =? qsize then
                  (need_if AtSizes (fun m => match mp_find pair_lt (id, indexID) (mt_sizes m) with Some _ => false | None => true end) ;;;
                   on_m (fun m => match mp_find pair_lt (id, indexID) (mt_sizes m) with
                                  | Some n => (m, Ok (matches =? n))
                                  | None => let (m', _) := set_size id indexID 0 m in (m', Ok (matches =? 0))
                                  end))
                else val false) ;;
    f_exact_scores qsize indexID r (mp_set N.ltb id (if perfect : bool then d_add base (d_of_Z 100) else base) acc)
  end.
(** Matcher::onlineMatch, Matcher.cc:413-453. *)
Definition f_onlineMatch (E : env) (query : wordlist) (primaryIndex : word) : F mresults :=
  need AtLocal ;;;
  known <- on_m (reads (fun m => ws_hasWord (mt_store m) primaryIndex)) ;;
  if negb known then (_ <- on_m (reads (fun _ => asUtf8 primaryIndex)) ;; on_m (mthrow EInvalidArg)) else
  indexID <- f_getID E primaryIndex ;;
  stats <- f_countExacts E query indexID [] ;;
  acc <- f_exact_scores (wl_size query) indexID stats [] ;;
  fuzzy <- f_match E query sp_new ;;
  acc' <- on_m (reads (fun _ => add_fuzzy (N.to_nat (mr_size fuzzy)) 0 fuzzy acc)) ;;
  need AtLocal ;;;
  val (add_all acc' mr_new).
(** IndexWeights::setWeight, IndexWeights.cc:41-43. *)
Definition f_setWeight (w : word) (x : double) : F unit :=
  need_if AtWeights (fun m => match mp_find wltb w (mt_w m) with Some _ => false | None => true end) ;;;
  on_m (set_w (iw_setWeight w x)).
