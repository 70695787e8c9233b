(** Models of src/WordList.cc, Corpus.cc, Document.cc, IndexWeights.cc,
    ResultFilter.cc, SearchParameters.cc, MatcherStatistics.cc, MatchResults.cc.
    Objects are values here (who owns what is in OwnM.v). *)
From Verif Require Import Base TrieM WordM MapM DoubleM.
Local Open Scope N_scope.
Local Open Scope m_scope.

(** vector::operator[] behind a bounds check that throws. *)
Definition at_or_throw {A} (l : list A) (i : N) : outcome A :=
  if N.of_nat (length l) <=? i then Throw EOutOfRange else
  match nth_error l (N.to_nat i) with Some a => Ok a | None => UB end.

(** ** WordList, WordList.cc:29-62, 80-86 *)
Definition wordlist := list word.
(** WordList::size, WordList.cc:51-53. *)
Definition wl_size (l : wordlist) : N := N.of_nat (length l).
(** WordList::operator[], WordList.cc:54-58. *)
Definition wl_at (l : wordlist) (i : N) : outcome word := at_or_throw l i.
(** WordList::addWord, WordList.cc:60-62. *)
Definition wl_addWord (w : word) : M wordlist unit := fun l => (l ++ [w], Ok tt).
(** WordList::operator==, WordList.cc:80-82: equality of the vectors. *)
Fixpoint wl_eqb (a b : wordlist) : bool :=
  match a, b with
  | [], [] => true
  | x :: a', y :: b' => weqb x y && wl_eqb a' b'
  | _, _ => false
  end.

(** ** Document, Document.cc:30-113 *)
Record document := mkDoc { d_id : N; d_texts : list (word * wordlist) }.
(** Document::Document, Document.cc:38-41. *)
Definition doc_new (id : N) : document := mkDoc id [].
(** addText(Word,WordList), lines 53-55. *)
Definition doc_addText (field : word) (words : wordlist) : M document unit := fun d =>
  (mkDoc (d_id d) (mp_set wltb field words (d_texts d)), Ok tt).
(** addText with UTF-8 text, lines 57-63. *)
Definition doc_addText_utf8 (E : env) (field : word) (text : list N) : M document unit :=
  words <- reads (fun _ => splitToWords E text) ;; doc_addText field words.
(** getText, lines 65-71. *)
Definition doc_getText (d : document) (field : word) : outcome wordlist :=
  match mp_find wltb field (d_texts d) with Some t => Ok t | None => Throw EInvalidArg end.
(** fieldCount, getID, getFieldNames (appends to the list given), lines 73-85. *)
Definition doc_fieldCount (d : document) : N := N.of_nat (length (d_texts d)).
(** Document::getID, Document.cc:77-79. *)
Definition doc_getID (d : document) : N := d_id d.
(** Document::getFieldNames, Document.cc:81-85: appends in the order of the map. *)
Definition doc_getFieldNames (d : document) : M wordlist unit := fun l => (l ++ map fst (d_texts d), Ok tt).
(** wordCount, lines 95-105. *)
Definition count_word (w : word) (t : wordlist) : N := N.of_nat (length (filter (fun x => weqb x w) t)).
(** Document::wordCount, Document.cc:95-105. *)
Definition doc_wordCount (d : document) (w field : word) : N :=
  match mp_find wltb field (d_texts d) with None => 0 | Some t => count_word w t end.
(** totalWordCount, lines 107-113. *)
Definition doc_totalWordCount (d : document) (w : word) : N :=
  fold_left (fun n p => n + doc_wordCount d w (fst p)) (d_texts d) 0.

(** ** Corpus, Corpus.cc:40-52 *)
Definition corpus := list document.
(** Corpus::addDocument, Corpus.cc:40-42. *)
Definition co_addDocument (d : document) : M corpus unit := fun c => (c ++ [d], Ok tt).
(** Corpus::size, Corpus.cc:44-46. *)
Definition co_size (c : corpus) : N := N.of_nat (length c).
(** Corpus::getDocument, Corpus.cc:48-52. *)
Definition co_getDocument (c : corpus) (i : N) : outcome document := at_or_throw c i.

(** ** IndexWeights, IndexWeights.cc:41-50 *)
Definition weights := list (word * double).
(** The constant 1.0 of IndexWeights.cc:45-50 and Matcher.cc:184. *)
Definition d_one : double := d_of_Z 1.
(** IndexWeights::setWeight, IndexWeights.cc:41-43. *)
Definition iw_setWeight (w : word) (x : double) (m : weights) : weights := mp_set wltb w x m.
(** IndexWeights::getWeight, IndexWeights.cc:45-50. *)
Definition iw_getWeight (m : weights) (w : word) : double :=
  match mp_find wltb w m with Some x => x | None => d_one end.

(** ** ResultFilter, ResultFilter.cc:33-75 *)
Definition rfilter := list (list (word * word)).
(** ResultFilter::addNewTerm, ResultFilter.cc:42-45. *)
Definition rf_addNewTerm : M rfilter unit := fun f => (f ++ [[]], Ok tt).
(** ResultFilter::ResultFilter, ResultFilter.cc:33-36: starts with one empty term. *)
Definition rf_new : rfilter := fst (rf_addNewTerm []).
(** [termList.back()] of an empty vector is undefined. *)
Definition rf_addNewSubTerm (field w : word) : M rfilter unit := fun f =>
  match rev f with
  | [] => (f, UB)
  | last :: front => (rev front ++ [last ++ [(field, w)]], Ok tt)
  end.
(** ResultFilter::numTerms, ResultFilter.cc:67-69. *)
Definition rf_numTerms (f : rfilter) : N := N.of_nat (length f).
(** ResultFilter::numSubTerms, ResultFilter.cc:71-75. *)
Definition rf_numSubTerms (f : rfilter) (term : N) : outcome N :=
  let! t := at_or_throw f term in Ok (N.of_nat (length t)).
(** ResultFilter::getField, ResultFilter.cc:51-57. *)
Definition rf_getField (f : rfilter) (term sub : N) : outcome word :=
  let! t := at_or_throw f term in let! p := at_or_throw t sub in Ok (fst p).
(** ResultFilter::getWord, ResultFilter.cc:59-65. *)
Definition rf_getWord (f : rfilter) (term sub : N) : outcome word :=
  let! t := at_or_throw f term in let! p := at_or_throw t sub in Ok (snd p).

(** ** SearchParameters, SearchParameters.cc:29-83 (nosearchFields is a set<Word>). *)
Record sparams := mkSP { sp_dynamic : bool; sp_filter : rfilter; sp_nosearch : list (word * unit) }.
(** SearchParameters::SearchParameters, SearchParameters.cc:35-38. *)
Definition sp_new : sparams := mkSP true rf_new [].
(** SearchParameters::setDynamic, SearchParameters.cc:47-49. *)
Definition sp_setDynamic (b : bool) (p : sparams) : sparams := mkSP b (sp_filter p) (sp_nosearch p).
(** SearchParameters::addNonsearchingField, SearchParameters.cc:73-75. *)
Definition sp_addNonsearchingField (w : word) (p : sparams) : sparams :=
  mkSP (sp_dynamic p) (sp_filter p) (mp_set wltb w tt (sp_nosearch p)).
(** SearchParameters::isNonsearchingField, SearchParameters.cc:77-79. *)
Definition sp_isNonsearchingField (p : sparams) (w : word) : bool :=
  match mp_find wltb w (sp_nosearch p) with Some _ => true | None => false end.
(** LevenshteinIndex::getDefaultError is ErrorValues' default 100. *)
Definition DEFAULT_ERROR : Z := 100.
(** SearchParameters::getDynamicError, SearchParameters.cc:57-63. *)
Definition sp_getDynamicError (p : sparams) (w : word) : Z :=
  if N.of_nat (length w) <? 2 then DEFAULT_ERROR else (2 * DEFAULT_ERROR)%Z.

(** ** MatcherStatistics, MatcherStatistics.cc:48-65 *)
Definition mstats := list (N * N).
(** totalWordCounts.find, MatcherStatistics.cc:48-65. *)
Definition st_find (s : mstats) (id : N) : option N :=
  match find (fun p => fst p =? id) s with Some p => Some (snd p) | None => None end.
(** totalWordCounts[id] = v, MatcherStatistics.cc:48-55. *)
Fixpoint st_set (s : mstats) (id v : N) : mstats :=
  match s with
  | [] => [(id, v)]
  | p :: r => if fst p =? id then (id, v) :: r else p :: st_set r id v
  end.
(** MatcherStatistics::wordProcessed, MatcherStatistics.cc:48-55. *)
Definition st_wordProcessed (id : N) (s : mstats) : mstats :=
  match st_find s id with None => st_set s id 1 | Some c => st_set s id (c + 1) end.
(** MatcherStatistics::getTotalWordCount, MatcherStatistics.cc:57-65. *)
Definition st_getTotalWordCount (s : mstats) (id : N) : N :=
  match st_find s id with None => 0 | Some c => c end.

(** ** MatchResults, MatchResults.cc:29-120 *)
Record mresults := mkMR { mr_results : list (double * N); mr_sorted : bool }.
(** MatchResults::MatchResults, MatchResults.cc:34-37. *)
Definition mr_new : mresults := mkMR [] true.
(** MatchResults::addResult, MatchResults.cc:69-75. *)
Definition mr_addResult (id : N) (relevancy : double) : M mresults unit := fun r =>
  (mkMR (mr_results r ++ [(relevancy, id)]) false, Ok tt).
(** addResults, lines 77-80, of another object ([r.addResults(r)] hands a vector its
    own range, which is undefined: see [w_step]). *)
Definition mr_addResults (other : mresults) : M mresults unit := fun r =>
  (mkMR (mr_results r ++ mr_results other) false, Ok tt).
(** MatchResults::size, MatchResults.cc:83-85. *)
Definition mr_size (r : mresults) : N := N.of_nat (length (mr_results r)).
(** copyResult, lines 87-93. *)
Definition mr_copyResult (other : mresults) (i : N) : M mresults unit := fun r =>
  match at_or_throw (mr_results other) i with
  | Ok x => (mkMR (mr_results r ++ [x]) false, Ok tt)
  | Throw e => (r, Throw e)
  | Abort => (r, Abort)
  | UB => (r, UB)
  | Fuel => (r, Fuel)
  end.
(** stable_sort with the comparator a.first < b.first: the stable order is unique,
    so insertion stands for it. *)
Fixpoint ss_insert (x : double * N) (l : list (double * N)) : list (double * N) :=
  match l with
  | [] => [x]
  | y :: r => if d_lt (fst y) (fst x) then y :: ss_insert x r else x :: l
  end.
(** std::stable_sort as called in MatchResults.cc:95-104. *)
Definition stable_sort (l : list (double * N)) : list (double * N) := fold_right ss_insert [] l.
(** sortIfRequired, lines 95-104: the range is traversed backwards.  With a NaN among
    several elements the comparator is not a strict weak order: undefined. *)
Definition mr_sortIfRequired : M mresults unit := fun r =>
  if mr_sorted r then (r, Ok tt) else
  if existsb (fun x => is_nan (fst x)) (mr_results r) && Nat.ltb 1 (length (mr_results r)) then (r, UB) else
  (mkMR (rev (stable_sort (rev (mr_results r)))) true, Ok tt).
(** getDocumentID and getRelevancy, lines 106-120.  Const in C++, but they reorder. *)
Definition mr_get (i : N) : M mresults (double * N) := fun r =>
  if N.of_nat (length (mr_results r)) <=? i then (r, Throw EOutOfRange) else
  (mr_sortIfRequired ;;; reads (fun r => match nth_error (mr_results r) (N.to_nat i) with Some x => Ok x | None => UB end)) r.
(** MatchResults::getDocumentID, MatchResults.cc:106-112. *)
Definition mr_getDocumentID (i : N) : M mresults N := x <- mr_get i ;; ret (snd x).
(** MatchResults::getRelevancy, MatchResults.cc:114-120. *)
Definition mr_getRelevancy (i : N) : M mresults double := x <- mr_get i ;; ret (fst x).

(** A program holding several MatchResults objects (numbered), and its calls. *)
Inductive r_call :=
| RNew                              (* MatchResults r;                *)
| RClone (j : nat)                  (* MatchResults r(other);         *)
| RAssign (i j : nat)               (* r_i = r_j                      *)
| RAdd (i : nat) (id : N) (x : double)
| RAddAll (i j : nat)
| RCopy (i j : nat) (k : N)
| RGetID (i : nat) (k : N)
| RGetRel (i : nat) (k : N).
(** The MatchResults objects of the program, as values (MatchResults.cc:28-67). *)
Definition world := list mresults.
(** Run a method of object [i]. *)
Definition on_obj {A} (i : nat) (m : M mresults A) : M world unit := fun w =>
  match nth_error w i with
  | None => (w, UB)
  | Some r => let (r', o) := m r in (upd i r' w, let! _ := o in Ok tt)
  end.
(** The argument of a call is object [j]; an object that does not exist is UB. *)
Definition with_obj {A} (j : nat) (k : mresults -> M world A) : M world A := fun w =>
  match nth_error w j with None => (w, UB) | Some r => k r w end.
(** What one call does, MatchResults.cc:34-120. *)
Definition w_step (c : r_call) : M world unit :=
  match c with
  | RNew => fun w => (w ++ [mr_new], Ok tt)
  | RClone j => with_obj j (fun r w => (w ++ [r], Ok tt))
  | RAssign i j => with_obj j (fun r => on_obj i (fun _ => (r, Ok tt)))
  | RAdd i id x => on_obj i (mr_addResult id x)
  | RAddAll i j => with_obj j (fun r => if Nat.eqb i j then (fun w => (w, UB)) else on_obj i (mr_addResults r))
  | RCopy i j k => with_obj j (fun r => on_obj i (mr_copyResult r k))
  | RGetID i k => on_obj i (mr_getDocumentID k)
  | RGetRel i k => on_obj i (mr_getRelevancy k)
  end.
