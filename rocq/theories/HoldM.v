(** What Matchers take from the operating system: src/Matcher.cc, src/WordStore.cc and
    src/LevenshteinIndex.cc once more.  The tries are those of ResM.v, with their files and
    mappings; all else is as in MatcherM.v.

    Simplified as in ResM.v: tmpfile succeeds, and memory of new and delete is not counted. *)
From Verif Require Import Base TrieM WordStoreM ErrorValuesM LevIndexM WordM MapM DoubleM ContM MatcherM ResM.
Local Open Scope N_scope.
Local Open Scope m_scope.

(** Trie::insertWord on a trie of the program, Trie.cc:169-210, with the offset it returns. *)
Definition t_insertWord (E : env) (i : nat) (w : word) (id : N) : M sys N := fun s =>
  match nth_error (s_tries s) i with
  | Some (Some rt) =>
    match r_insertWord E w id (s_k s, rt) with
    | ((k', rt'), o) => (mkSys k' (upd i (Some rt') (s_tries s)), o)
    end
  | _ => (s, UB)
  end.

(** struct WordStorePrivate, WordStore.cc:41-44; [words] is a trie by its number. *)
Record hstore := mkHS { hs_trie : nat; hs_index : list N }.
(** struct LevenshteinIndexPrivate, LevenshteinIndex.cc:57-64. *)
Record hlev := mkHL { hl_counts : list (N * N); hl_max : N; hl_longest : nat; hl_trie : nat }.
(** struct MatcherPrivate, Matcher.cc:96-104. *)
Record hmatcher := mkHM {
  h_idx : list (N * hlev);
  h_rev : list ((N * N) * docset);
  h_ev : errvals;
  h_w : weights;
  h_stats : mstats;
  h_store : hstore;
  h_sizes : list ((N * N) * N)
}.
(** What a method of Matcher changes. *)
Definition hst := (sys * hmatcher)%type.

(** ** Reading: the objects with the contents of their tries *)
Definition see_trie (s : sys) (i : nat) : option trie :=
  match nth_error (s_tries s) i with Some (Some rt) => Some (rt_t rt) | _ => None end.
(** The word store, WordStore.cc:41-44. *)
Definition see_store (s : sys) (x : hstore) : option wstore :=
  match see_trie s (hs_trie x) with Some t => Some (mkWS t (hs_index x)) | None => None end.
(** An index, LevenshteinIndex.cc:57-64. *)
Definition see_lev (s : sys) (x : hlev) : option levindex :=
  match see_trie s (hl_trie x) with Some t => Some (mkLI (hl_counts x) (hl_max x) (hl_longest x) t) | None => None end.
(** All indexes, Matcher.cc:97. *)
Fixpoint see_idx (s : sys) (l : list (N * hlev)) : option (list (N * levindex)) :=
  match l with
  | [] => Some []
  | (k, x) :: r =>
    match see_lev s x, see_idx s r with
    | Some li, Some r' => Some ((k, li) :: r')
    | _, _ => None
    end
  end.
(** The matcher, Matcher.cc:96-104. *)
Definition see (s : sys) (h : hmatcher) : option matcher :=
  match see_idx s (h_idx h), see_store s (h_store h) with
  | Some idx, Some st => Some (mkMt idx (h_rev h) (h_ev h) (h_w h) (h_stats h) st (h_sizes h))
  | _, _ => None
  end.
(** A part of a method that only reads; reading a destroyed trie is undefined. *)
Definition h_look {A} (f : matcher -> outcome A) : M hst A := fun s =>
  (s, match see (fst s) (snd s) with Some m => f m | None => UB end).

(** ** Writing *)
(** A call on a trie. *)
Definition h_sys {A} (f : M sys A) : M hst A := fun s =>
  let (k, o) := f (fst s) in ((k, snd s), o).
(** An assignment to members that are not tries. *)
Definition h_set (f : hmatcher -> hmatcher) : M hst unit := fun s => ((fst s, f (snd s)), Ok tt).
(** p->wordIndex.push_back(node), WordStore.cc:60. *)
Definition h_push (node : N) (h : hmatcher) : hmatcher :=
  mkHM (h_idx h) (h_rev h) (h_ev h) (h_w h) (h_stats h) (mkHS (hs_trie (h_store h)) (hs_index (h_store h) ++ [node])) (h_sizes h).
(** p->stats.wordProcessed, Matcher.cc:290. *)
Definition h_put_stats (f : mstats -> mstats) (h : hmatcher) : hmatcher :=
  mkHM (h_idx h) (h_rev h) (h_ev h) (h_w h) (f (h_stats h)) (h_store h) (h_sizes h).
(** p->reverseIndex.add, Matcher.cc:293. *)
Definition h_put_rev (f : list ((N * N) * docset) -> list ((N * N) * docset)) (h : hmatcher) : hmatcher :=
  mkHM (h_idx h) (f (h_rev h)) (h_ev h) (h_w h) (h_stats h) (h_store h) (h_sizes h).
(** p->originalSizes[...] = len, Matcher.cc:286 and 439. *)
Definition h_put_size (doc field len : N) (h : hmatcher) : hmatcher :=
  mkHM (h_idx h) (h_rev h) (h_ev h) (h_w h) (h_stats h) (h_store h) (mp_set pair_lt (doc, field) len (h_sizes h)).
(** p->indexes[id] = target, Matcher.cc:303, and writes through the pointer. *)
Definition h_put_idx (id : N) (x : hlev) (h : hmatcher) : hmatcher :=
  mkHM (mp_set N.ltb id x (h_idx h)) (h_rev h) (h_ev h) (h_w h) (h_stats h) (h_store h) (h_sizes h).

(** WordStore::getID, WordStore.cc:55-63. *)
Definition h_getID (E : env) (w : word) : M hst N :=
  has <- h_look (fun m => hasWord (ws_trie (mt_store m)) w) ;;
  if has then
    h_look (fun m => let! n := findWord (ws_trie (mt_store m)) w in getWordID (ws_trie (mt_store m)) n)
  else
    (n <- h_look (fun m => Ok (u32 (N.of_nat (length (ws_index (mt_store m)))))) ;;
     node <- (fun s => h_sys (t_insertWord E (hs_trie (h_store (snd s))) w n) s) ;;
     h_set (h_push node) ;;;
     h_look (fun m => Ok (u32 (N.of_nat (length (ws_index (mt_store m))) - 1)))).

(** LevenshteinIndex::insertWord, LevenshteinIndex.cc:81-98, on the index [x] of field
    [indexID]. *)
Definition h_li_insertWord (E : env) (w : word) (wordID indexID : N) (x : hlev) : M hst unit :=
  if Nat.eqb (length w) 0 then ret tt else
  let newCount := match counts_find (hl_counts x) wordID with Some c => c + 1 | None => 1 end in
  h_sys (t_insertWord E (hl_trie x) w wordID) ;;;
  h_set (h_put_idx indexID (mkHL (counts_set (hl_counts x) wordID newCount)
                                 (if hl_max x <? newCount then newCount else hl_max x)
                                 (if Nat.ltb (hl_longest x) (length w) then length w else hl_longest x)
                                 (hl_trie x))).
(** Matcher::addToIndex, Matcher.cc:299-309, with LevenshteinIndex::LevenshteinIndex,
    LevenshteinIndex.cc:67-71: the new trie gets the next number. *)
Definition h_addToIndex (E : env) (w : word) (wordID indexID : N) : M hst unit := fun s =>
  match mp_find N.ltb indexID (h_idx (snd s)) with
  | Some x => h_li_insertWord E w wordID indexID x s
  | None =>
    let x := mkHL [] 0 0 (length (s_tries (fst s))) in
    (h_sys (t_new E) ;;; h_set (h_put_idx indexID x) ;;; h_li_insertWord E w wordID indexID x) s
  end.

(** Matcher::buildIndexes, Matcher.cc:274-297: the loop over the words of a text. *)
Fixpoint h_words (E : env) (doc fieldID : N) (ws : wordlist) : M hst unit :=
  match ws with
  | [] => ret tt
  | w :: r =>
    wordID <- h_getID E w ;;
    h_set (h_put_stats (st_wordProcessed wordID)) ;;;
    h_addToIndex E w wordID fieldID ;;;
    h_set (h_put_rev (rev_add wordID fieldID doc)) ;;;
    h_words E doc fieldID r
  end.
(** The loop over the fields of one document, Matcher.cc:279-295. *)
Fixpoint h_fields (E : env) (d : document) (names : wordlist) : M hst unit :=
  match names with
  | [] => ret tt
  | f :: r =>
    fieldID <- h_getID E f ;;
    text <- h_look (fun _ => doc_getText d f) ;;
    h_set (h_put_size (doc_getID d) fieldID (wl_size text)) ;;;
    h_words E (doc_getID d) fieldID text ;;;
    h_fields E d r
  end.
(** Matcher::buildIndexes, Matcher.cc:274-297, and Matcher::index, Matcher.cc:253-265. *)
Fixpoint h_index (E : env) (c : corpus) : M hst unit :=
  match c with
  | [] => ret tt
  | d :: r => h_fields E d (fst (doc_getFieldNames d [])) ;;; h_index E r
  end.

(** The two ids of subtermsMatch, Matcher.cc:236-247. *)
Definition h_both_ids (E : env) (value filterName : word) : M hst (N * N) :=
  if e_rtl E
  then (f <- h_getID E filterName ;; v <- h_getID E value ;; ret (v, f))
  else (v <- h_getID E value ;; f <- h_getID E filterName ;; ret (v, f)).
(** subtermsMatch, Matcher.cc:236-247. *)
Fixpoint h_subtermsMatch (E : env) (filter : rfilter) (term : N) (id : N) (n : nat) (sub : N) : M hst bool :=
  match n with
  | O => ret true
  | S n' =>
    filterName <- h_look (fun _ => rf_getField filter term sub) ;;
    value <- h_look (fun _ => rf_getWord filter term sub) ;;
    ids <- h_both_ids E value filterName ;;
    found <- h_look (fun m => Ok (documentHasTerm (mt_rev m) (fst ids) (snd ids) id)) ;;
    if found then h_subtermsMatch E filter term id n' (sub + 1) else ret false
  end.
(** The loop over the terms in Matcher::match, Matcher.cc:355-360. *)
Fixpoint h_termsMatch (E : env) (filter : rfilter) (id : N) (n : nat) (term : N) : M hst bool :=
  match n with
  | O => ret false
  | S n' =>
    k <- h_look (fun _ => rf_numSubTerms filter term) ;;
    ok <- h_subtermsMatch E filter term id (N.to_nat k) 0 ;;
    if ok then ret true else h_termsMatch E filter id n' (term + 1)
  end.
(** The loop over the results, Matcher.cc:353-361. *)
Fixpoint h_filter_loop (E : env) (filter : rfilter) (n : nat) (i : N) (allMatches matched : mresults) : M hst mresults :=
  match n with
  | O => ret matched
  | S n' =>
    let (all', o) := mr_getDocumentID i allMatches in
    id <- h_look (fun _ => o) ;;
    ok <- h_termsMatch E filter id (N.to_nat (rf_numTerms filter)) 0 ;;
    if ok then
      (let (matched', o') := mr_copyResult all' i matched in
       _ <- h_look (fun _ => o') ;; h_filter_loop E filter n' (i + 1) all' matched')
    else h_filter_loop E filter n' (i + 1) all' matched
  end.
(** Matcher::match, Matcher.cc:332-363. *)
Definition h_match (E : env) (query : wordlist) (p : sparams) : M hst mresults :=
  match query with
  | [] => ret mr_new
  | _ =>
    matches <- h_look (fun m => relevancyMatch E m query p 0 mr_new) ;;
    let allMatches := fst (mr_addResults matches mr_new) in
    h_filter_loop E (sp_filter p) (N.to_nat (mr_size allMatches)) 0 allMatches mr_new
  end.

(** countExacts, Matcher.cc:391-406. *)
Fixpoint h_countExacts (E : env) (query : wordlist) (indexID : N) (c : list (N * N)) : M hst (list (N * N)) :=
  match query with
  | [] => ret c
  | w :: r =>
    if Nat.eqb (length w) 0 then h_countExacts E r indexID c else
    has <- h_look (fun m => ws_hasWord (mt_store m) w) ;;
    if negb has then h_countExacts E r indexID c else
    curWord <- h_getID E w ;;
    exacts <- h_look (fun m => Ok (findDocuments E (mt_rev m) curWord indexID)) ;;
    h_countExacts E r indexID (count_docs exacts c)
  end.
(** The loop over [stats], Matcher.cc:435-441. *)
Fixpoint h_exact_scores (qsize indexID : N) (stats : list (N * N)) (acc : list (N * double)) : M hst (list (N * double)) :=
  match stats with
  | [] => ret acc
  | (id, matches) :: r =>
    let base := d_of_Z (Z.of_N (2 * matches)) in
    perfect <- (if matches =? qsize then
                  (fun s => match mp_find pair_lt (id, indexID) (h_sizes (snd s)) with
                            | Some n => (s, Ok (matches =? n))
                            | None => (h_set (h_put_size id indexID 0) ;;; ret (matches =? 0)) s
                            end)
                else ret false) ;;
    h_exact_scores qsize indexID r (mp_set N.ltb id (if perfect : bool then d_add base (d_of_Z 100) else base) acc)
  end.
(** Matcher::onlineMatch, Matcher.cc:413-453. *)
Definition h_onlineMatch (E : env) (query : wordlist) (primaryIndex : word) : M hst mresults :=
  known <- h_look (fun m => ws_hasWord (mt_store m) primaryIndex) ;;
  if negb known then (_ <- h_look (fun _ => asUtf8 primaryIndex) ;; mthrow EInvalidArg) else
  indexID <- h_getID E primaryIndex ;;
  stats <- h_countExacts E query indexID [] ;;
  acc <- h_exact_scores (wl_size query) indexID stats [] ;;
  fuzzy <- h_match E query sp_new ;;
  acc' <- h_look (fun _ => add_fuzzy (N.to_nat (mr_size fuzzy)) 0 fuzzy acc) ;;
  ret (add_all acc' mr_new).
(** A call on p->e, which getErrorValues hands out (Matcher.cc:96-104). *)
Definition h_on_ev {A} (f : M errvals A) : M hst A := fun s =>
  let h := snd s in
  let (e', o) := f (h_ev h) in
  ((fst s, mkHM (h_idx h) (h_rev h) e' (h_w h) (h_stats h) (h_store h) (h_sizes h)), o).
(** A call on p->weights, which getIndexWeights hands out (Matcher.cc:96-104). *)
Definition h_put_w (f : weights -> weights) (h : hmatcher) : hmatcher :=
  mkHM (h_idx h) (h_rev h) (h_ev h) (f (h_w h)) (h_stats h) (h_store h) (h_sizes h).

(** ** Programs *)
(** A program holds matchers, numbered as they are made; a destroyed one is None. *)
Record msys := mkMS { ms_sys : sys; ms_ms : list (option hmatcher) }.
(** When the program starts. *)
Definition msys0 : msys := mkMS sys0 [].
(** Matcher::Matcher, Matcher.cc:249-251, with WordStore::WordStore, WordStore.cc:46-49:
    the only member that can fail is the trie of the store. *)
Definition h_new (E : env) : M msys unit := fun s =>
  let t := length (s_tries (ms_sys s)) in
  let (k, o) := t_new E (ms_sys s) in
  match o with
  | Ok _ => (mkMS k (ms_ms s ++ [Some (mkHM [] [] ev_new [] [] (mkHS t []) [])]), Ok tt)
  | _ => (mkMS k (ms_ms s), o)
  end.
(** A call of a method on matcher [i]. *)
Definition h_on {A} (i : nat) (f : M hst A) : M msys A := fun s =>
  match nth_error (ms_ms s) i with
  | Some (Some h) => let '((k, h'), o) := f (ms_sys s, h) in (mkMS k (upd i (Some h') (ms_ms s)), o)
  | _ => (s, UB)
  end.
(** delete of the indexes, one after the other, Matcher.cc:267-270. *)
Fixpoint t_delete_all (l : list nat) : M sys unit :=
  match l with
  | [] => ret tt
  | i :: r => t_delete i ;;; t_delete_all r
  end.
(** Matcher::~Matcher, Matcher.cc:267-272: the indexes, then the members of MatcherPrivate,
    of which the word store owns a trie (WordStore.cc:51-53). *)
Definition h_delete (i : nat) : M msys unit := fun s =>
  match nth_error (ms_ms s) i with
  | Some (Some h) =>
    let (k, o) := t_delete_all (map (fun x => hl_trie (snd x)) (h_idx h) ++ [hs_trie (h_store h)]) (ms_sys s) in
    (mkMS k (upd i None (ms_ms s)), o)
  | _ => (s, UB)
  end.
