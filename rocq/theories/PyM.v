(** Model of the Python module, python/columbus.cc, over the models of the classes, and of
    the parts of Boost.Python it uses:
    - class_<T>: an object that holds a C++ value, or a pointer to one;
    - return_internal_reference: the object returned holds a pointer into the object the
      method was called on, and keeps that object alive (life support).  It drops const, so
      every method of the class can be called on it;
    - an argument without a converter is a TypeError (Boost.Python.ArgumentError); the
      module registers none for the struct Letter (ColumbusCore.hh.in:147-202);
    - integers outside the range of the C++ type are an OverflowError;
    - C++ exceptions become Python exceptions (handle_exception);
    - CPython frees an object when its last reference goes.
    These are read from the documentation of Boost.Python, which is not in /repo.

    Simplified: each result is bound to a variable of its own, numbered by creation, and a
    variable is unbound with del; numbers are not reused; a str is its UTF-8 encoding. *)
From Verif Require Import Base TrieM WordStoreM ErrorValuesM LevIndexM WordM MapM DoubleM ContM MatcherM DataFileM.
Local Open Scope N_scope.
Local Open Scope m_scope.

(** A str with its UTF-8 bytes; one with a lone surrogate has none.  Or None, which is a
    null pointer for const char* and no std::string. *)
Inductive py_str := Utf8 (bytes : list N) | Unencodable | PyNone.
(** The C++ values the classes of columbus.cc:31-93 hold. *)
Inductive obj :=
| OWord (w : word) | OList (l : wordlist) | ODoc (d : document) | OCorpus (c : corpus)
| OResults (r : mresults) | OMatcher (m : matcher) | OErrors (e : errvals) | OWeights (w : weights).
(** Where a WordList lies: a value of its own, or a text of a Document (columbus.cc:56-57). *)
Inductive l_place := LVal (n : nat) | LText (n : nat) (field : word).
(** What a pointer of return_internal_reference points to (columbus.cc:46-47, 56-57,
    71-74): word [i] of a list as it was when [moves] of its moves had happened; a text;
    the members of a Matcher. *)
Inductive place := AtWord (l : l_place) (i : N) (moves : nat) | AtText (n : nat) (field : word) | AtErrors (n : nat) | AtWeights (n : nat).
(** A Python object; [ward] is kept alive by a pointer object. *)
Inductive py_obj := Holds (o : obj) | Points (p : place) (ward : nat).
(** The objects ([None]: freed), which of their variables are bound, and the lists whose
    vector was moved or overwritten, by time. *)
Record py_state := mkPy { py_objs : list (option py_obj); py_bound : list bool; py_moves : list l_place }.

(** The exceptions: those of handle_exception (columbus.cc:31-93 raise no others), of
    Boost.Python's converters, and of the interpreter. *)
Inductive py_exn := PyIndexError | PyValueError | PyRuntimeError | PyTypeError | PyOverflowError | PyUnicodeError | PyNameError.
(** What a call gives: a value, or a new object. *)
Inductive py_val := VNone | VInt (z : Z) | VFloat (x : double) | VStr (utf8 : list N) | VObj (k : nat).
(** How a statement ends for the interpreter. *)
Inductive py_res := Returns (v : py_val) | Raises (x : py_exn).

(** The calls; a [nat] is a variable. *)
Inductive py_call :=
| Word_ (s : py_str) | get_string (w : nat) | len_word (w : nat)
| WordList_ | WordList_copy (l : nat) | len_list (l : nat) | getitem (l : nat) (i : Z) | add_word (l w : nat)
| split_to_words (s : py_str)
| Document_ (id : Z) | Document_copy (d : nat) | field_count (d : nat) | get_id (d : nat) | get_text (d w : nat) | add_text (d w : nat) (s : py_str)
| Corpus_ | size (c : nat) | add_document (c d : nat)
| MatchResults_ | add_results (r other : nat) | get_document_id (r : nat) (i : Z) | get_relevancy (r : nat) (i : Z) | len_results (r : nat)
| Matcher_ | index (m c : nat) | match_ (m : nat) (s : py_str) | get_errorvalues (m : nat) | get_indexweights (m : nat)
| ErrorValues_ | add_standard_errors (e : nat) | set_substring_mode (e : nat) | set_end_deletion_error (e : nat) (v : Z)
| set_error (e : nat) (a b v : Z) | get_substitute_error (e : nat) (a b : Z)
| get_default_error | get_substring_default_end_deletion_error | clear_errors (e : nat)
| IndexWeights_ | set_weight (w f : nat) (x : double) | get_weight (w f : nat)
| del (k : nat).

(** ** The interpreter *)
(** A Python-level step: it may raise. *)
Definition P A := M py_state (A + py_exn).
(** A normal result. *)
Definition pret {A} (a : A) : P A := ret (inl a).
(** raise. *)
Definition raise {A} (x : py_exn) : P A := ret (inr x).
(** One step after another, unless an exception is raised. *)
Definition pbind {A B} (m : P A) (k : A -> P B) : P B :=
  r <- m ;; match r with inl a => k a | inr x => raise x end.
Notation "x <~ m ;; k" := (pbind m (fun x => k)) (at level 100, m at next level, right associativity, k at level 200).
(** Boost.Python's handle_exception. *)
Definition py_of (e : exn) : py_exn :=
  match e with EOutOfRange => PyIndexError | EInvalidArg => PyValueError | ERuntime => PyRuntimeError end.
(** A C++ function called from the wrapper: its exception is translated. *)
Definition cpp {A} (o : outcome A) : P A := fun s =>
  (s, match o with Ok a => Ok (inl a) | Throw e => Ok (inr (py_of e)) | Abort => Abort | UB => UB | Fuel => Fuel end).
(** A new object, bound to a variable. *)
Definition create (x : py_obj) : P py_val := fun s =>
  (mkPy (py_objs s ++ [Some x]) (py_bound s ++ [true]) (py_moves s), Ok (inl (VObj (length (py_objs s))))).
(** The object with this number, if it was not freed. *)
Definition py_get (s : py_state) (k : nat) : option py_obj := match nth_error (py_objs s) k with Some x => x | None => None end.
(** The object of a variable. *)
Definition look (k : nat) : P py_obj := fun s =>
  if nth k (py_bound s) false then (s, match py_get s k with Some x => Ok (inl x) | None => UB end) else (s, Ok (inr PyNameError)).
(** Follow a pointer to a C++ object held by object [n]; freed: undefined. *)
Definition held (n : nat) : P obj := fun s =>
  (s, match py_get s n with Some (Holds o) => Ok (inl o) | _ => UB end).
(** Store the C++ object back after a method call. *)
Definition store (n : nat) (o : obj) : P unit := fun s =>
  (mkPy (upd n (Some (Holds o)) (py_objs s)) (py_bound s) (py_moves s), Ok (inl tt)).
(** Undefined behaviour. *)
Definition pub {A} : P A := fun s => (s, UB).

(** Equality of places of lists. *)
Definition l_eqb (a b : l_place) : bool :=
  match a, b with
  | LVal n, LVal k => Nat.eqb n k
  | LText n f, LText k g => Nat.eqb n k && weqb f g
  | _, _ => false
  end.
(** How often the vector of a list was moved or overwritten. *)
Definition moves_of (l : l_place) (s : py_state) : nat := length (filter (l_eqb l) (py_moves s)).
(** The vector of a list got new storage, or new contents. *)
Definition note_move (moved : bool) (l : l_place) : P unit := fun s =>
  (mkPy (py_objs s) (py_bound s) (if moved then l :: py_moves s else py_moves s), Ok (inl tt)).

(** The WordList at a place. *)
Definition list_at (l : l_place) : P wordlist :=
  match l with
  | LVal n => o <~ held n ;; match o with OList ws => pret ws | _ => pub end
  | LText n f => o <~ held n ;; match o with
                                | ODoc d => match mp_find wltb f (d_texts d) with Some ws => pret ws | None => pub end
                                | _ => pub
                                end
  end.
(** The WordList at a place changed. *)
Definition put_list (l : l_place) (ws : wordlist) : P unit :=
  match l with
  | LVal n => store n (OList ws)
  | LText n f => o <~ held n ;; match o with
                                | ODoc d => store n (ODoc (mkDoc (d_id d) (mp_set wltb f ws (d_texts d))))
                                | _ => pub
                                end
  end.

(** ** Arguments: an object of another class is a TypeError *)
(** const Word&, columbus.cc:37-40. *)
Definition word_arg (k : nat) : P word :=
  x <~ look k ;;
  match x with
  | Holds (OWord w) => pret w
  | Points (AtWord l i v) _ =>
    ws <~ list_at l ;;
    now_ <- reads (fun s => Ok (moves_of l s)) ;;
    if Nat.eqb now_ v then match nth_error ws (N.to_nat i) with Some w => pret w | None => pub end else pub
  | _ => raise PyTypeError
  end.
(** const WordList&, columbus.cc:42-49. *)
Definition list_arg (k : nat) : P l_place :=
  x <~ look k ;;
  match x with
  | Holds (OList _) => pret (LVal k)
  | Points (AtText n f) _ => pret (LText n f)
  | _ => raise PyTypeError
  end.
(** const Document&, columbus.cc:53-60. *)
Definition doc_arg (k : nat) : P document :=
  x <~ look k ;; match x with Holds (ODoc d) => pret d | _ => raise PyTypeError end.
(** const Corpus&, columbus.cc:31-35. *)
Definition corpus_arg (k : nat) : P corpus :=
  x <~ look k ;; match x with Holds (OCorpus c) => pret c | _ => raise PyTypeError end.
(** const MatchResults&, columbus.cc:62-67. *)
Definition results_arg (k : nat) : P mresults :=
  x <~ look k ;; match x with Holds (OResults r) => pret r | _ => raise PyTypeError end.
(** Matcher&, columbus.cc:69-75. *)
Definition matcher_arg (k : nat) : P matcher :=
  x <~ look k ;; match x with Holds (OMatcher m) => pret m | _ => raise PyTypeError end.
(** ErrorValues&, columbus.cc:77-88: a value or the member of a Matcher; its number and
    what to store when it has changed. *)
Definition errors_arg (k : nat) : P (nat * errvals * (errvals -> obj)) :=
  x <~ look k ;;
  match x with
  | Holds (OErrors e) => pret (k, e, OErrors)
  | Points (AtErrors n) _ =>
    o <~ held n ;;
    match o with
    | OMatcher m => pret (n, mt_ev m, fun e => OMatcher (fst (on_ev (fun _ => (e, Ok tt)) m)))
    | _ => pub
    end
  | _ => raise PyTypeError
  end.
(** IndexWeights&, columbus.cc:90-93. *)
Definition weights_arg (k : nat) : P (nat * weights * (weights -> obj)) :=
  x <~ look k ;;
  match x with
  | Holds (OWeights w) => pret (k, w, OWeights)
  | Points (AtWeights n) _ =>
    o <~ held n ;;
    match o with
    | OMatcher m => pret (n, mt_w m, fun w => OMatcher (fst (set_w (fun _ => w) m)))
    | _ => pub
    end
  | _ => raise PyTypeError
  end.
(** std::string: the bytes, of which the C++ code reads those before the first NUL
    (Word.cc:84-86, Document.cc:61-63, Matcher.cc:365-385). *)
Definition str_arg (s : py_str) : P (list N) :=
  match s with Utf8 bytes => pret (c_str bytes) | Unencodable => raise PyUnicodeError | PyNone => raise PyTypeError end.
(** const char*: None becomes a null pointer, which ColumbusHelpers.cc reads from. *)
Definition cstr_arg (s : py_str) : P (list N) :=
  match s with Utf8 bytes => pret (c_str bytes) | Unencodable => raise PyUnicodeError | PyNone => pub end.
(** size_t and DocumentID (uintptr_t). *)
Definition u64_arg (z : Z) : P N :=
  if ((0 <=? z) && (z <=? 18446744073709551615))%Z then pret (Z.to_N z) else raise PyOverflowError.
(** int. *)
Definition int_arg (z : Z) : P Z := if in_i32 z then pret z else raise PyOverflowError.
(** A method of object [n]: it keeps its new state, whatever the outcome. *)
Definition py_method {S A} (n : nat) (s : S) (wrap : S -> obj) (f : M S A) : P A :=
  let (s', o) := f s in store n (wrap s') ;;; cpp o.

(** ** Freeing *)
(** Some object keeps [k] alive. *)
Definition has_custodian (k : nat) (objs : list (option py_obj)) : bool :=
  existsb (fun x => match x with Some (Points _ w) => Nat.eqb w k | _ => false end) objs.
(** The last reference to [k] may have gone: if so it is freed, and its ward loses one. *)
Fixpoint release (fuel : nat) (k : nat) (s : py_state) : py_state :=
  match fuel with
  | O => s
  | S f =>
    if nth k (py_bound s) false || has_custodian k (py_objs s) then s else
    let s' := mkPy (upd k None (py_objs s)) (py_bound s) (py_moves s) in
    match py_get s k with
    | Some (Points _ w) => release f w s'
    | _ => s'
    end
  end.

(** ** columbus.cc:30-94.  [moved]: if the call makes a vector grow or assigns to it, the
    vector gets new storage. *)
Definition py_do' (E : env) (W : world) (moved : bool) (c : py_call) : P py_val :=
  match c with
  (* Word, 37-40 *)
  | Word_ s => t <~ str_arg s ;; w <~ cpp (word_of_utf8 E t) ;; create (Holds (OWord w))
  | get_string k => w <~ word_arg k ;; t <~ cpp (asUtf8 w) ;; pret (VStr t)
  | len_word k => w <~ word_arg k ;; pret (VInt (Z.of_nat (length w)))
  (* WordList, 42-49 *)
  | WordList_ => create (Holds (OList []))
  | WordList_copy k => l <~ list_arg k ;; ws <~ list_at l ;; create (Holds (OList ws))
  | len_list k => l <~ list_arg k ;; ws <~ list_at l ;; pret (VInt (Z.of_N (wl_size ws)))
  | getitem k i =>
    l <~ list_arg k ;; j <~ u64_arg i ;; ws <~ list_at l ;;
    _ <~ cpp (wl_at ws j) ;;
    v <- reads (fun s => Ok (moves_of l s)) ;;
    create (Points (AtWord l j v) k)
  | add_word k j =>
    l <~ list_arg k ;; w <~ word_arg j ;; ws <~ list_at l ;;
    put_list l (fst (wl_addWord w ws)) ;;; note_move moved l ;;; pret VNone
  (* split_to_words, 51 *)
  | split_to_words s => t <~ cstr_arg s ;; ws <~ cpp (splitToWords E t) ;; create (Holds (OList ws))
  (* Document, 53-60 *)
  | Document_ id => i <~ u64_arg id ;; create (Holds (ODoc (doc_new i)))
  | Document_copy k => d <~ doc_arg k ;; create (Holds (ODoc d))
  | field_count k => d <~ doc_arg k ;; pret (VInt (Z.of_N (doc_fieldCount d)))
  | get_id k => d <~ doc_arg k ;; pret (VInt (Z.of_N (doc_getID d)))
  | get_text k j =>
    d <~ doc_arg k ;; f <~ word_arg j ;; _ <~ cpp (doc_getText d f) ;; create (Points (AtText k f) k)
  | add_text k j s =>
    d <~ doc_arg k ;; f <~ word_arg j ;; t <~ str_arg s ;;
    _ <~ py_method k d ODoc (doc_addText_utf8 E f t) ;; note_move moved (LText k f) ;;; pret VNone
  (* Corpus, 31-35 *)
  | Corpus_ => create (Holds (OCorpus []))
  | size k => c <~ corpus_arg k ;; pret (VInt (Z.of_N (co_size c)))
  | add_document k j => c <~ corpus_arg k ;; d <~ doc_arg j ;; _ <~ py_method k c OCorpus (co_addDocument d) ;; pret VNone
  (* MatchResults, 62-67 *)
  | MatchResults_ => create (Holds (OResults mr_new))
  | add_results k j =>
    r <~ results_arg k ;; q <~ results_arg j ;;
    if Nat.eqb k j then pub else _ <~ py_method k r OResults (mr_addResults q) ;; pret VNone
  | get_document_id k i => r <~ results_arg k ;; j <~ u64_arg i ;; d <~ py_method k r OResults (mr_getDocumentID j) ;; pret (VInt (Z.of_N d))
  | get_relevancy k i => r <~ results_arg k ;; j <~ u64_arg i ;; x <~ py_method k r OResults (mr_getRelevancy j) ;; pret (VFloat x)
  | len_results k => r <~ results_arg k ;; pret (VInt (Z.of_N (mr_size r)))
  (* Matcher, 69-75 *)
  | Matcher_ => m <~ cpp (mt_new E) ;; create (Holds (OMatcher m))
  | index k j => m <~ matcher_arg k ;; c <~ corpus_arg j ;; _ <~ py_method k m OMatcher (mt_index E c) ;; pret VNone
  | match_ k s =>
    m <~ matcher_arg k ;; t <~ str_arg s ;;
    r <~ py_method k m OMatcher (mt_match_utf8 E t sp_new) ;; create (Holds (OResults r))
  | get_errorvalues k => _ <~ matcher_arg k ;; create (Points (AtErrors k) k)
  | get_indexweights k => _ <~ matcher_arg k ;; create (Points (AtWeights k) k)
  (* ErrorValues, 77-88 *)
  | ErrorValues_ => create (Holds (OErrors ev_new))
  | add_standard_errors k => x <~ errors_arg k ;; _ <~ py_method (fst (fst x)) (snd (fst x)) (snd x) (addStandardErrors_file E W) ;; pret VNone
  | set_substring_mode k => x <~ errors_arg k ;; store (fst (fst x)) (snd x (setSubstringMode (snd (fst x)))) ;;; pret VNone
  | set_end_deletion_error k v =>
    x <~ errors_arg k ;; e <~ int_arg v ;; store (fst (fst x)) (snd x (setEndDeletionError e (snd (fst x)))) ;;; pret VNone
  | set_error k _ _ _ => _ <~ look k ;; raise PyTypeError           (* no converter for Letter *)
  | get_substitute_error k _ _ => _ <~ look k ;; raise PyTypeError  (* no converter for Letter *)
  | get_default_error => pret (VInt ErrorValuesM.DEFAULT_ERROR)
  | get_substring_default_end_deletion_error => pret (VInt DEFAULT_SUBSTRING_END_DELETION_ERROR)
  | clear_errors k => x <~ errors_arg k ;; store (fst (fst x)) (snd x (clearErrors (snd (fst x)))) ;;; pret VNone
  (* IndexWeights, 90-93 *)
  | IndexWeights_ => create (Holds (OWeights []))
  | set_weight k j v => x <~ weights_arg k ;; f <~ word_arg j ;; store (fst (fst x)) (snd x (iw_setWeight f v (snd (fst x)))) ;;; pret VNone
  | get_weight k j => x <~ weights_arg k ;; f <~ word_arg j ;; pret (VFloat (iw_getWeight (snd (fst x)) f))
  (* del k *)
  | del k => fun s =>
    if nth k (py_bound s) false
    then (release (S k) k (mkPy (py_objs s) (upd k false (py_bound s)) (py_moves s)), Ok (inl VNone))
    else (s, Ok (inr PyNameError))
  end.
(** A statement of a Python program. *)
Definition py_do (E : env) (W : world) (moved : bool) (c : py_call) : M py_state py_res :=
  r <- py_do' E W moved c ;; ret (match r with inl v => Returns v | inr x => Raises x end).
(** A program: its statements, each with whether a vector moved.  An exception that is
    raised is caught and the program goes on. *)
Fixpoint py_run (E : env) (W : world) (calls : list (py_call * bool)) : M py_state (list py_res) :=
  match calls with
  | [] => ret []
  | c :: r => v <- py_do E W (snd c) (fst c) ;; vs <- py_run E W r ;; ret (v :: vs)
  end.
(** The start of a program. *)
Definition py_start : py_state := mkPy [] [] [].
