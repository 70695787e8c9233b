(** Model of the C interface, src/ColumbusCAPI.cc, over the models of the classes. *)
From Verif Require Import Base TrieM WordStoreM ErrorValuesM LevIndexM WordM MapM DoubleM ContM MatcherM DataFileM.
Local Open Scope N_scope.
Local Open Scope m_scope.

(** The objects a C program holds.  Objects are numbered in the order of their creation;
    a deleted object leaves its number unused. *)
Inductive obj := OWord (w : word) | ODoc (d : document) | OMatcher (m : matcher) | OResults (r : mresults) | OCorpus (c : corpus).
(** The memory of the C program, as far as ColumbusCAPI.cc sees it. *)
Definition heap := list (option obj).
(** The void pointers of columbus.h:44-50: null, an object, or the ErrorValues or
    IndexWeights member of a matcher. *)
Inductive ptr := PNull | PAt (n : nat) | PErr (n : nat) | PWeights (n : nat).
(** What a function gives back.  [VText] is what col_word_as_utf8 stores in the buffer
    (after an exception, as if nothing; the bytes are then unspecified). *)
Inductive c_val := VVoid | VPtr (p : ptr) | VSize (n : N) | VDocID (d : N) | VDouble (x : double) | VText (s : list N).
Definition INVALID_DOCID : N := 18446744073709551615.   (* (uintptr_t)-1, ColumbusCore.hh.in:220-221 *)

(** The functions with their arguments; a char pointer is the bytes up to the NUL (a null
    char pointer is not modelled). *)
Inductive c_call :=
| col_word_new (utf8_word : list N)
| col_word_delete (w : ptr)
| col_word_length (w : ptr)
| col_word_as_utf8 (w : ptr) (bufSize : N)
| col_document_new (id : N)
| col_document_delete (doc : ptr)
| col_document_get_id (doc : ptr)
| col_document_add_text (doc field_name : ptr) (text_as_utf8 : list N)
| col_matcher_new
| col_matcher_delete (m : ptr)
| col_matcher_index (m c : ptr)
| col_matcher_match (m : ptr) (query_as_utf8 : list N)
| col_matcher_get_error_values (m : ptr)
| col_matcher_get_index_weights (m : ptr)
| col_match_results_new
| col_match_results_delete (mr : ptr)
| col_match_results_size (mr : ptr)
| col_match_results_get_id (mr : ptr) (i : N)
| col_match_results_get_relevancy (mr : ptr) (i : N)
| col_corpus_new
| col_corpus_delete (c : ptr)
| col_corpus_add_document (c d : ptr)
| col_error_values_add_standard_errors (ev : ptr)
| col_error_values_set_substring_mode (ev : ptr)
| col_index_weights_set_weight (weights field : ptr) (new_weight : double)
| col_index_weights_get_weight (weights field : ptr).

(** new T(...), after the constructor returned. *)
Definition alloc (o : obj) : M heap ptr := fun h => (h ++ [Some o], Ok (PAt (length h))).
(** Using a pointer that is null, dangling or of another class is undefined. *)
Definition get_obj (h : heap) (n : nat) : option obj := match nth_error h n with Some o => o | None => None end.
(** Using a handle: reinterpret_cast and dereference, as in every function of
    ColumbusCAPI.cc. *)
Definition deref (p : ptr) : M heap (nat * obj) := fun h =>
  match p with
  | PAt n => match get_obj h n with Some o => (h, Ok (n, o)) | None => (h, UB) end
  | _ => (h, UB)
  end.
(** A ColWord handle used as a Word, ColumbusCAPI.cc. *)
Definition the_word (p : ptr) : M heap word :=
  x <- deref p ;; match snd x with OWord w => ret w | _ => fun h => (h, UB) end.
(** A ColDocument handle used as a Document, ColumbusCAPI.cc. *)
Definition the_doc (p : ptr) : M heap (nat * document) :=
  x <- deref p ;; match snd x with ODoc d => ret (fst x, d) | _ => fun h => (h, UB) end.
(** A ColCorpus handle used as a Corpus, ColumbusCAPI.cc. *)
Definition the_corpus (p : ptr) : M heap (nat * corpus) :=
  x <- deref p ;; match snd x with OCorpus c => ret (fst x, c) | _ => fun h => (h, UB) end.
(** A ColMatchResults handle used as a MatchResults, ColumbusCAPI.cc. *)
Definition the_results (p : ptr) : M heap (nat * mresults) :=
  x <- deref p ;; match snd x with OResults r => ret (fst x, r) | _ => fun h => (h, UB) end.
(** A ColMatcher handle used as a Matcher, ColumbusCAPI.cc. *)
Definition the_matcher (p : ptr) : M heap (nat * matcher) :=
  x <- deref p ;; match snd x with OMatcher m => ret (fst x, m) | _ => fun h => (h, UB) end.
(** A ColErrorValues handle: the member of a matcher that still exists. *)
Definition the_errors (p : ptr) : M heap (nat * matcher) :=
  match p with PErr n => the_matcher (PAt n) | _ => fun h => (h, UB) end.
(** A ColIndexWeights handle: the member of a matcher that still exists. *)
Definition the_weights (p : ptr) : M heap (nat * matcher) :=
  match p with PWeights n => the_matcher (PAt n) | _ => fun h => (h, UB) end.
(** A call of a member function: the object keeps its new state whatever the outcome. *)
Definition method {S A} (n : nat) (s : S) (wrap : S -> obj) (f : M S A) : M heap A := fun h =>
  let (s', o) := f s in (upd n (Some (wrap s')) h, o).
(** delete p: nothing for a null pointer. *)
Definition del (p : ptr) (mine : obj -> bool) : M heap unit := fun h =>
  match p with
  | PNull => (h, Ok tt)
  | PAt n => match get_obj h n with
             | Some o => if mine o then (upd n None h, Ok tt) else (h, UB)
             | None => (h, UB)
             end
  | _ => (h, UB)
  end.
(** try { ... } catch(exception &e) { fprintf(stderr, ...); } return fallback; all three
    exception classes derive from std::exception. *)
Definition caught (fallback : c_val) (m : M heap c_val) : M heap c_val := fun h =>
  match m h with
  | (h', Throw _) => (h', Ok fallback)
  | r => r
  end.

(** ColumbusCAPI.cc:38-277, function by function. *)
Definition c_do (E : env) (W : world) (c : c_call) : M heap c_val :=
  match c with
  | col_word_new s =>                                          (* 38-46 *)
    caught (VPtr PNull) (w <- reads (fun _ => word_of_utf8 E s) ;; p <- alloc (OWord w) ;; ret (VPtr p))
  | col_word_delete w =>                                       (* 48-54 *)
    caught VVoid (del w (fun o => match o with OWord _ => true | _ => false end) ;;; ret VVoid)
  | col_word_length w =>                                       (* 56-63 *)
    caught (VSize 0) (x <- the_word w ;; ret (VSize (N.of_nat (length x))))
  | col_word_as_utf8 w bufSize =>                              (* 65-71 *)
    caught VVoid (x <- the_word w ;; t <- reads (fun _ => w_toUtf8 x bufSize) ;; ret (VText t))
  | col_document_new id =>                                     (* 73-80 *)
    caught (VPtr PNull) (p <- alloc (ODoc (doc_new id)) ;; ret (VPtr p))
  | col_document_delete doc =>                                 (* 82-88 *)
    caught VVoid (del doc (fun o => match o with ODoc _ => true | _ => false end) ;;; ret VVoid)
  | col_document_get_id doc =>                                 (* 90-97 *)
    caught (VDocID INVALID_DOCID) (x <- the_doc doc ;; ret (VDocID (doc_getID (snd x))))
  | col_document_add_text doc field_name text =>               (* 99-107 *)
    caught VVoid (d <- the_doc doc ;; w <- the_word field_name ;;
                  method (fst d) (snd d) ODoc (doc_addText_utf8 E w text) ;;; ret VVoid)
  | col_matcher_new =>                                         (* 109-116 *)
    caught (VPtr PNull) (m <- reads (fun _ => mt_new E) ;; p <- alloc (OMatcher m) ;; ret (VPtr p))
  | col_matcher_delete m =>                                    (* 118-124 *)
    caught VVoid (del m (fun o => match o with OMatcher _ => true | _ => false end) ;;; ret VVoid)
  | col_matcher_index m c =>                                   (* 126-134 *)
    caught VVoid (x <- the_matcher m ;; corp <- the_corpus c ;;
                  method (fst x) (snd x) OMatcher (mt_index E (snd corp)) ;;; ret VVoid)
  | col_matcher_match m query =>                               (* 136-146 *)
    caught (VPtr PNull) (x <- the_matcher m ;;
                         r <- method (fst x) (snd x) OMatcher (mt_match_utf8 E query sp_new) ;;
                         p <- alloc (OResults r) ;; ret (VPtr p))
  | col_matcher_get_error_values m =>                          (* 148-156 *)
    caught (VPtr PNull) (x <- the_matcher m ;; ret (VPtr (PErr (fst x))))
  | col_matcher_get_index_weights m =>                         (* 158-166 *)
    caught (VPtr PNull) (x <- the_matcher m ;; ret (VPtr (PWeights (fst x))))
  | col_match_results_new =>                                   (* 168-175 *)
    caught (VPtr PNull) (p <- alloc (OResults mr_new) ;; ret (VPtr p))
  | col_match_results_delete mr =>                             (* 176-182 *)
    caught VVoid (del mr (fun o => match o with OResults _ => true | _ => false end) ;;; ret VVoid)
  | col_match_results_size mr =>                               (* 184-191 *)
    caught (VSize 0) (x <- the_results mr ;; ret (VSize (mr_size (snd x))))
  | col_match_results_get_id mr i =>                           (* 193-201 *)
    caught (VDocID INVALID_DOCID) (x <- the_results mr ;; d <- method (fst x) (snd x) OResults (mr_getDocumentID i) ;; ret (VDocID d))
  | col_match_results_get_relevancy mr i =>                    (* 203-211: getDocumentID, converted to double *)
    caught (VDouble (d_of_Z (-1)))
      (x <- the_results mr ;; d <- method (fst x) (snd x) OResults (mr_getDocumentID i) ;; ret (VDouble (d_of_Z (Z.of_N d))))
  | col_corpus_new =>                                          (* 213-220 *)
    caught (VPtr PNull) (p <- alloc (OCorpus []) ;; ret (VPtr p))
  | col_corpus_delete c =>                                     (* 223-229 *)
    caught VVoid (del c (fun o => match o with OCorpus _ => true | _ => false end) ;;; ret VVoid)
  | col_corpus_add_document c d =>                             (* 231-239 *)
    caught VVoid (corp <- the_corpus c ;; doc <- the_doc d ;;
                  method (fst corp) (snd corp) OCorpus (co_addDocument (snd doc)) ;;; ret VVoid)
  | col_error_values_add_standard_errors ev =>                 (* 241-248 *)
    caught VVoid (x <- the_errors ev ;; method (fst x) (snd x) OMatcher (on_ev (addStandardErrors_file E W)) ;;; ret VVoid)
  | col_error_values_set_substring_mode ev =>                  (* 250-257 *)
    caught VVoid (x <- the_errors ev ;; method (fst x) (snd x) OMatcher (on_ev (fun e => (setSubstringMode e, Ok tt))) ;;; ret VVoid)
  | col_index_weights_set_weight ws field new_weight =>        (* 259-267 *)
    caught VVoid (x <- the_weights ws ;; w <- the_word field ;;
                  method (fst x) (snd x) OMatcher (set_w (iw_setWeight w new_weight)) ;;; ret VVoid)
  | col_index_weights_get_weight ws field =>                   (* 269-278 *)
    caught (VDouble d_one) (x <- the_weights ws ;; w <- the_word field ;; ret (VDouble (iw_getWeight (mt_w (snd x)) w)))
  end.

(** A C program as the sequence of its calls. *)
Fixpoint c_run (E : env) (W : world) (calls : list c_call) : M heap (list c_val) :=
  match calls with
  | [] => ret []
  | c :: r => v <- c_do E W c ;; vs <- c_run E W r ;; ret (v :: vs)
  end.
