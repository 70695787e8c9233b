(** Model of src/Matcher.cc (built without DEBUG_MESSAGES, so debugMessage and the
    timestamps do nothing).  The private statistics object is kept although no
    public call reads it. *)
From Verif Require Import Base TrieM WordStoreM ErrorValuesM LevIndexM WordM MapM DoubleM ContM.
Local Open Scope N_scope.
Local Open Scope m_scope.

(** DocumentSet, Matcher.cc:71: a hash set, here an ordered map to unit; the order in
    which it is walked is the environment's ([e_order]). *)
Definition docset := list (N * unit).
(** struct MatcherPrivate, Matcher.cc:96-104. *)
Record matcher := mkMt {
  mt_idx : list (N * levindex);          (* indexes: hash map by field id        *)
  mt_rev : list ((N * N) * docset);      (* reverseIndex: (field id, word id)    *)
  mt_ev : errvals;                       (* e                                    *)
  mt_w : weights;                        (* weights                              *)
  mt_stats : mstats;                     (* stats                                *)
  mt_store : wstore;                     (* store                                *)
  mt_sizes : list ((N * N) * N)          (* originalSizes: (document, field id)  *)
}.
(** Matcher::Matcher, Matcher.cc:249-251. *)
Definition mt_new (E : env) : outcome matcher :=
  let! s := ws_new E in Ok (mkMt [] [] ev_new [] [] s []).

(** A call on the member p->store, Matcher.cc:96-104. *)
Definition on_store {A} (f : M wstore A) : M matcher A := fun m =>
  let (s', o) := f (mt_store m) in
  (mkMt (mt_idx m) (mt_rev m) (mt_ev m) (mt_w m) (mt_stats m) s' (mt_sizes m), o).
(** A call on the member p->e, which getErrorValues hands out (Matcher.cc:96-104). *)
Definition on_ev {A} (f : M errvals A) : M matcher A := fun m =>
  let (e', o) := f (mt_ev m) in
  (mkMt (mt_idx m) (mt_rev m) e' (mt_w m) (mt_stats m) (mt_store m) (mt_sizes m), o).
(** A call on the member p->weights, which getIndexWeights hands out
    (Matcher.cc:96-104). *)
Definition set_w (f : weights -> weights) : M matcher unit := fun m =>
  (mkMt (mt_idx m) (mt_rev m) (mt_ev m) (f (mt_w m)) (mt_stats m) (mt_store m) (mt_sizes m), Ok tt).
(** A call on the member p->stats, Matcher.cc:290. *)
Definition set_stats (f : mstats -> mstats) : M matcher unit := fun m =>
  (mkMt (mt_idx m) (mt_rev m) (mt_ev m) (mt_w m) (f (mt_stats m)) (mt_store m) (mt_sizes m), Ok tt).
(** p->originalSizes[make_pair(doc, field)] = len, Matcher.cc:286 and 439. *)
Definition set_size (doc field len : N) : M matcher unit := fun m =>
  (mkMt (mt_idx m) (mt_rev m) (mt_ev m) (mt_w m) (mt_stats m) (mt_store m)
        (mp_set pair_lt (doc, field) len (mt_sizes m)), Ok tt).
(** A call on the member p->reverseIndex, Matcher.cc:293. *)
Definition set_rev (f : list ((N * N) * docset) -> list ((N * N) * docset)) : M matcher unit := fun m =>
  (mkMt (mt_idx m) (f (mt_rev m)) (mt_ev m) (mt_w m) (mt_stats m) (mt_store m) (mt_sizes m), Ok tt).
(** p->indexes[id], Matcher.cc:299-309. *)
Definition set_idx (id : N) (li : levindex) (m : matcher) : matcher :=
  mkMt (mp_set N.ltb id li (mt_idx m)) (mt_rev m) (mt_ev m) (mt_w m) (mt_stats m) (mt_store m) (mt_sizes m).

(** ReverseIndex::add, Matcher.cc:106-119. *)
Definition rev_add (wordID indexID id : N) (r : list ((N * N) * docset)) : list ((N * N) * docset) :=
  match mp_find pair_lt (indexID, wordID) r with
  | None => mp_set pair_lt (indexID, wordID) (mp_set N.ltb id tt []) r
  | Some set => mp_set pair_lt (indexID, wordID) (mp_set N.ltb id tt set) r
  end.
(** ReverseIndex::documentHasTerm, Matcher.cc:121-129. *)
Definition documentHasTerm (r : list ((N * N) * docset)) (wordID indexID id : N) : bool :=
  match mp_find pair_lt (indexID, wordID) r with
  | None => false
  | Some set => match mp_find N.ltb id set with Some _ => true | None => false end
  end.
(** ReverseIndex::findDocuments, Matcher.cc:131-142. *)
Definition findDocuments (E : env) (r : list ((N * N) * docset)) (wordID indexID : N) : list N :=
  match mp_find pair_lt (indexID, wordID) r with
  | None => []
  | Some set => e_order E [indexID; wordID] (map fst set)
  end.

(** Matcher::addToIndex, Matcher.cc:299-309. *)
Definition addToIndex (E : env) (w : word) (wordID indexID : N) : M matcher unit := fun m =>
  let put li := let (li', o) := li_insertWord E w wordID li in (set_idx indexID li' m, o) in
  match mp_find N.ltb indexID (mt_idx m) with
  | Some li => put li
  | None => match li_new E with
            | Ok li => put li
            | Throw e => (m, Throw e)
            | Abort => (m, Abort)
            | UB => (m, UB)
            | Fuel => (m, Fuel)
            end
  end.

(** Matcher::buildIndexes, Matcher.cc:274-297: the loops over the words of a text, the
    fields of a document and the documents of a corpus. *)
Fixpoint index_words (E : env) (doc fieldID : N) (ws : wordlist) : M matcher unit :=
  match ws with
  | [] => ret tt
  | w :: r =>
    wordID <- on_store (ws_getID E w) ;;
    set_stats (st_wordProcessed wordID) ;;;
    addToIndex E w wordID fieldID ;;;
    set_rev (rev_add wordID fieldID doc) ;;;
    index_words E doc fieldID r
  end.
(** The loop over the fields of one document, Matcher.cc:279-295. *)
Fixpoint index_fields (E : env) (d : document) (names : wordlist) : M matcher unit :=
  match names with
  | [] => ret tt
  | f :: r =>
    fieldID <- on_store (ws_getID E f) ;;
    text <- reads (fun _ => doc_getText d f) ;;
    set_size (doc_getID d) fieldID (wl_size text) ;;;
    index_words E (doc_getID d) fieldID text ;;;
    index_fields E d r
  end.
(** Matcher::buildIndexes, Matcher.cc:274-297: the loop over the documents. *)
Fixpoint buildIndexes (E : env) (c : corpus) : M matcher unit :=
  match c with
  | [] => ret tt
  | d :: r => index_fields E d (fst (doc_getFieldNames d [])) ;;; buildIndexes E r
  end.
(** Matcher::index, Matcher.cc:253-265. *)
Definition mt_index := buildIndexes.

(** BestIndexMatches, Matcher.cc:78-80. *)
Definition bests := list (N * list (N * Z)).
(** addMatches, Matcher.cc:149-170. *)
Definition add_match (x : N * Z) (em : list (N * Z)) : list (N * Z) :=
  match mp_find N.ltb (fst x) em with
  | None => mp_set N.ltb (fst x) (snd x) em
  | Some old => if (snd x <? old)%Z then mp_set N.ltb (fst x) (snd x) em else em
  end.
(** addMatches, Matcher.cc:149-170: all matches of one index. *)
Definition addMatches (b : bests) (indexID : N) (matches : imatches) : bests :=
  let b' := match mp_find N.ltb indexID b with Some _ => b | None => mp_set N.ltb indexID [] b end in
  let em := match mp_find N.ltb indexID b' with Some em => em | None => [] end in
  mp_set N.ltb indexID (fold_left (fun em x => add_match x em) matches em) b'.

(** calculateRelevancy, Matcher.cc:177-187. *)
Definition relevancy_of (error : Z) (count maxCount : N) (weight : double) : double :=
  let errorMultiplier := d_div (d_of_Z 100) (d_add (d_of_Z 100) (d_of_Z error)) in
  let frequencyMultiplier := d_sub d_one (d_div (d_of_Z (Z.of_N count)) (d_of_Z (Z.of_N (maxCount + 1)))) in
  d_mul (d_mul errorMultiplier frequencyMultiplier) weight.
(** calculateRelevancy, Matcher.cc:177-187: the look-ups and asserts around the
    formula. *)
Definition calculateRelevancy (E : env) (m : matcher) (wID indexID : N) (error : Z) : outcome double :=
  match mp_find N.ltb indexID (mt_idx m) with
  | None => UB
  | Some ind =>
    let indexCount := li_wordCount ind wID in
    let indexMaxCount := li_maxCount ind in
    let! _ := oassert E (0 <? indexCount) in
    let! _ := oassert E (0 <? indexMaxCount) in
    let! name := ws_getWord E (mt_store m) indexID in
    Ok (relevancy_of error indexCount indexMaxCount (iw_getWeight (mt_w m) name))
  end.

(** matchIndexes, Matcher.cc:190-211: the inner loop over the indexes (in hash order)
    and the outer loop over the query. *)
Fixpoint match_keys (E : env) (m : matcher) (p : sparams) (w : word) (maxError : Z) (keys : list N) (b : bests) : outcome bests :=
  match keys with
  | [] => Ok b
  | k :: r =>
    let! name := ws_getWord E (mt_store m) k in
    if sp_isNonsearchingField p name then match_keys E m p w maxError r b else
    match mp_find N.ltb k (mt_idx m) with
    | None => UB
    | Some li =>
      let (ms, o) := findWords E li w (mt_ev m) maxError [] in
      let! _ := o in
      match_keys E m p w maxError r (addMatches b k ms)
    end
  end.
(** matchIndexes, Matcher.cc:190-211: the loop over the words of the query. *)
Fixpoint matchIndexes (E : env) (m : matcher) (query : wordlist) (p : sparams) (extraError : Z) (b : bests) : outcome bests :=
  match query with
  | [] => Ok b
  | w :: r =>
    let maxError := ((if sp_dynamic p then sp_getDynamicError p w else 2 * DEFAULT_ERROR) + extraError)%Z in
    let! b' := match_keys E m p w maxError (e_order E [] (map fst (mt_idx m))) b in
    matchIndexes E m r p extraError b'
  end.

(** gatherMatchedDocuments, Matcher.cc:213-234. *)
Fixpoint gather_docs (E : env) (m : matcher) (wID indexID : N) (error : Z) (tmp : list N) (docs : list (N * double)) : outcome (list (N * double)) :=
  match tmp with
  | [] => Ok docs
  | d :: r =>
    let! relevancy := calculateRelevancy E m wID indexID error in
    gather_docs E m wID indexID error r
      (mp_set N.ltb d (match mp_find N.ltb d docs with None => relevancy | Some x => d_add x relevancy end) docs)
  end.
(** The loop over the matched words of one index, Matcher.cc:213-234. *)
Fixpoint gather_words (E : env) (m : matcher) (indexID : N) (em : list (N * Z)) (docs : list (N * double)) : outcome (list (N * double)) :=
  match em with
  | [] => Ok docs
  | (wID, error) :: r =>
    let! docs' := gather_docs E m wID indexID error (findDocuments E (mt_rev m) wID indexID) docs in
    gather_words E m indexID r docs'
  end.
(** gatherMatchedDocuments, Matcher.cc:213-234: the loop over the indexes. *)
Fixpoint gather (E : env) (m : matcher) (b : bests) (docs : list (N * double)) : outcome (list (N * double)) :=
  match b with
  | [] => Ok docs
  | (indexID, em) :: r => let! docs' := gather_words E m indexID em docs in gather E m r docs'
  end.

(** Matcher::relevancyMatch, Matcher.cc:312-330, with [matchedDocuments] = [r0]. *)
Fixpoint add_all (docs : list (N * double)) (r : mresults) : mresults :=
  match docs with
  | [] => r
  | (d, x) :: rest => add_all rest (fst (mr_addResult d x r))
  end.
(** Matcher::relevancyMatch, Matcher.cc:312-330. *)
Definition relevancyMatch (E : env) (m : matcher) (query : wordlist) (p : sparams) (extraError : Z) (r0 : mresults) : outcome mresults :=
  let! b := matchIndexes E m query p extraError [] in
  let! docs := gather E m b [] in
  Ok (add_all docs r0).

(** subtermsMatch, Matcher.cc:236-247.  The two getID calls are arguments of one
    call: the compiler chooses their order. *)
Definition both_ids (E : env) (value filterName : word) : M matcher (N * N) :=
  if e_rtl E
  then (f <- on_store (ws_getID E filterName) ;; v <- on_store (ws_getID E value) ;; ret (v, f))
  else (v <- on_store (ws_getID E value) ;; f <- on_store (ws_getID E filterName) ;; ret (v, f)).
(** [n] subterms remain, the next is [sub]. *)
Fixpoint subtermsMatch (E : env) (filter : rfilter) (term : N) (id : N) (n : nat) (sub : N) : M matcher bool :=
  match n with
  | O => ret true
  | S n' =>
    filterName <- reads (fun _ => rf_getField filter term sub) ;;
    value <- reads (fun _ => rf_getWord filter term sub) ;;
    ids <- both_ids E value filterName ;;
    found <- reads (fun m => Ok (documentHasTerm (mt_rev m) (fst ids) (snd ids) id)) ;;
    if found then subtermsMatch E filter term id n' (sub + 1) else ret false
  end.
(** The loop over the terms in Matcher::match, Matcher.cc:355-360. *)
Fixpoint termsMatch (E : env) (filter : rfilter) (id : N) (n : nat) (term : N) : M matcher bool :=
  match n with
  | O => ret false
  | S n' =>
    k <- reads (fun _ => rf_numSubTerms filter term) ;;
    ok <- subtermsMatch E filter term id (N.to_nat k) 0 ;;
    if ok then ret true else termsMatch E filter id n' (term + 1)
  end.
(** The loop over the results, Matcher.cc:353-361: allMatches and matchedDocuments are
    locals, the matcher is the object. *)
Fixpoint filter_loop (E : env) (filter : rfilter) (n : nat) (i : N) (allMatches matched : mresults) : M matcher mresults :=
  match n with
  | O => ret matched
  | S n' =>
    let (all', o) := mr_getDocumentID i allMatches in
    id <- reads (fun _ => o) ;;
    ok <- termsMatch E filter id (N.to_nat (rf_numTerms filter)) 0 ;;
    if ok then
      (let (matched', o') := mr_copyResult all' i matched in
       _ <- reads (fun _ => o') ;; filter_loop E filter n' (i + 1) all' matched')
    else filter_loop E filter n' (i + 1) all' matched
  end.
(** Matcher::match, Matcher.cc:332-363.  maxIterations is 1, so the search loop runs
    once, with extraError 0, and always takes the break. *)
Definition mt_match (E : env) (query : wordlist) (p : sparams) : M matcher mresults :=
  match query with
  | [] => ret mr_new
  | _ =>
    matches <- reads (fun m => relevancyMatch E m query p 0 mr_new) ;;
    let allMatches := fst (mr_addResults matches mr_new) in
    filter_loop E (sp_filter p) (N.to_nat (mr_size allMatches)) 0 allMatches mr_new
  end.
(** The overloads, Matcher.cc:365-385; a std::string goes through c_str, which ends at
    the first NUL. *)
Definition mt_match_list (E : env) (query : wordlist) : M matcher mresults := mt_match E query sp_new.
(** Matcher::match(const char*, params), Matcher.cc:365-385. *)
Definition mt_match_utf8 (E : env) (text : list N) (p : sparams) : M matcher mresults :=
  q <- reads (fun _ => splitToWords E text) ;; mt_match E q p.
(** std::string::c_str read as a C string, for Matcher.cc:365-385. *)
Fixpoint c_str (s : list N) : list N :=
  match s with [] => [] | b :: r => if b =? 0 then [] else b :: c_str r end.
(** Matcher::match(const string&), Matcher.cc:365-385. *)
Definition mt_match_string (E : env) (text : list N) : M matcher mresults := mt_match_utf8 E (c_str text) sp_new.

(** countExacts, Matcher.cc:391-406. *)
Fixpoint count_docs (ds : list N) (c : list (N * N)) : list (N * N) :=
  match ds with
  | [] => c
  | d :: r => count_docs r (mp_set N.ltb d (match mp_find N.ltb d c with Some n => n + 1 | None => 1 end) c)
  end.
(** countExacts, Matcher.cc:391-406: the loop over the words of the query. *)
Fixpoint countExacts (E : env) (query : wordlist) (indexID : N) (c : list (N * N)) : M matcher (list (N * N)) :=
  match query with
  | [] => ret c
  | w :: r =>
    if Nat.eqb (length w) 0 then countExacts E r indexID c else
    has <- reads (fun m => ws_hasWord (mt_store m) w) ;;
    if negb has then countExacts E r indexID c else
    curWord <- on_store (ws_getID E w) ;;
    exacts <- reads (fun m => Ok (findDocuments E (mt_rev m) curWord indexID)) ;;
    countExacts E r indexID (count_docs exacts c)
  end.
(** The loop over [stats], Matcher.cc:435-441.  originalSizes[...] would insert a zero
    entry for an unknown pair. *)
Fixpoint exact_scores (qsize indexID : N) (stats : list (N * N)) (acc : list (N * double)) : M matcher (list (N * double)) :=
  match stats with
  | [] => ret acc
  | (id, matches) :: r =>
    let base := d_of_Z (Z.of_N (2 * matches)) in
    perfect <- (if matches =? qsize then
                  (fun m => match mp_find pair_lt (id, indexID) (mt_sizes m) with
                            | Some n => (m, Ok (matches =? n))
                            | None => let (m', _) := set_size id indexID 0 m in (m', Ok (matches =? 0))
                            end)
                else ret false) ;;
    exact_scores qsize indexID r (mp_set N.ltb id (if perfect : bool then d_add base (d_of_Z 100) else base) acc)
  end.
(** The loop over the fuzzy results, Matcher.cc:444-447. *)
Definition d_zero : double := S754_zero false.
(** The loop over the fuzzy results, Matcher.cc:444-447. *)
Fixpoint add_fuzzy (n : nat) (i : N) (r : mresults) (acc : list (N * double)) : outcome (list (N * double)) :=
  match n with
  | O => Ok acc
  | S n' =>
    let (r1, o1) := mr_getDocumentID i r in
    let! docid := o1 in
    let (r2, o2) := mr_getRelevancy i r1 in
    let! x := o2 in
    add_fuzzy n' (i + 1) r2
      (mp_set N.ltb docid (d_add (match mp_find N.ltb docid acc with Some y => y | None => d_zero end) x) acc)
  end.
(** Matcher::onlineMatch, Matcher.cc:413-453.  The text of the exception is made with
    asUtf8, which may throw too. *)
Definition mt_onlineMatch (E : env) (query : wordlist) (primaryIndex : word) : M matcher mresults :=
  known <- reads (fun m => ws_hasWord (mt_store m) primaryIndex) ;;
  if negb known then (_ <- reads (fun _ => asUtf8 primaryIndex) ;; mthrow EInvalidArg) else
  indexID <- on_store (ws_getID E primaryIndex) ;;
  stats <- countExacts E query indexID [] ;;
  acc <- exact_scores (wl_size query) indexID stats [] ;;
  fuzzy <- mt_match_list E query ;;
  acc' <- reads (fun _ => add_fuzzy (N.to_nat (mr_size fuzzy)) 0 fuzzy acc) ;;
  ret (add_all acc' mr_new).
