(** Who owns what: the objects of Word, WordList, Document, Corpus and MatchResults with
    their pointers, in a memory where a double free or a use after free is undefined.
    The values come from WordM and ContM; here are the allocations.

    Simplified: addresses are never used again; std::vector and std::map keep their
    elements inside the block of the private struct that holds them and do not move them
    when they grow; new never fails; copying no bytes from a null pointer does nothing. *)
From Verif Require Import Base TrieM WordM MapM DoubleM ContM.
Local Open Scope N_scope.

(** ** Memory *)
Definition ptr := option nat.
(** class Word, Word.hh:37-38. *)
Record hword := mkHW { hw_text : ptr; hw_len : N }.
(** What one allocation holds: a Letter array; scratch bytes; WordListPrivate
    (WordList.cc:28-30) with the Words inside; DocumentPrivate (Document.cc:30-33) with the
    field names and the pointers of the WordLists; CorpusPrivate (Corpus.cc:28-30);
    MatchResultsPrivate (MatchResults.cc:28-31); the private struct of another class. *)
Inductive block :=
| BText (letters : list N)
| BChars
| BWords (words : list hword)
| BDoc (id : N) (texts : list (hword * ptr))
| BDocs (docs : list nat)
| BResults (r : mresults)
| BOther.
Definition mem := list (option block).   (* None: freed *)

(** new, as in Word.cc:62-82, WordList.cc:32-34 and so on: a fresh address. *)
Definition new (b : block) : M mem nat := fun m => (m ++ [Some b], Ok (length m)).
(** Reading through a pointer (every method): undefined if null or freed. *)
Definition get (p : ptr) : M mem block := fun m =>
  match p with
  | None => (m, UB)
  | Some a => match nth_error m a with Some (Some b) => (m, Ok b) | _ => (m, UB) end
  end.
(** Writing through a pointer (every method): undefined if null or freed. *)
Definition put (p : ptr) (b : block) : M mem unit := fun m =>
  match p with
  | None => (m, UB)
  | Some a => match nth_error m a with Some (Some _) => (upd a (Some b) m, Ok tt) | _ => (m, UB) end
  end.
(** delete, of null too. *)
Definition del (p : ptr) : M mem unit := fun m =>
  match p with
  | None => (m, Ok tt)
  | Some a => match nth_error m a with Some (Some _) => (upd a None m, Ok tt) | _ => (m, UB) end
  end.
(** A step that touches no memory, such as the value computed by WordM or ContM. *)
Definition lift {A} (o : outcome A) : M mem A := fun m => (m, o).
(** Undo something when an exception passes. *)
Definition on_throw {A} (f : M mem A) (undo : exn -> M mem unit) : M mem A := fun m =>
  match f m with
  | (m1, Throw e) => (undo e ;;; mthrow e)%m m1
  | r => r
  end.
(** A copying loop over the elements of a std::vector or std::map (copy assignments
    in WordList.cc and Document.cc). *)
Fixpoint h_map {A B} (f : A -> M mem B) (l : list A) : M mem (list B) :=
  match l with
  | [] => ret []
  | x :: r => y <- f x ;; ys <- h_map f r ;; ret (y :: ys)
  end%m.
(** A loop over the elements of a std::vector or std::map (destructors in
    WordList.cc, Document.cc and Corpus.cc). *)
Fixpoint h_all {A} (f : A -> M mem unit) (l : list A) : M mem unit :=
  match l with
  | [] => ret tt
  | x :: r => f x ;;; h_all f r
  end%m.

(** ** Word *)
Definition hw_empty : hword := mkHW None 0.
(** The letters of a Word, as every method reads them. *)
Definition hw_read (o : hword) : M mem word :=
  (if hw_len o =? 0 then ret [] else
   b <- get (hw_text o) ;;
   match b with
   | BText ls => if hw_len o <? N.of_nat (length ls) then ret (firstn (N.to_nat (hw_len o)) ls) else lift UB
   | _ => lift UB
   end)%m.
(** ~Word, Word.cc:88-90. *)
Definition hw_destroy (o : hword) : M mem unit := del (hw_text o).
(** duplicateFrom another object, Word.cc:110-122; the caller has freed the old text. *)
Definition hw_copy (o : hword) : M mem hword :=
  (if hw_len o =? 0 then ret hw_empty else
   a <- new (BText []) ;;
   w <- hw_read o ;;
   put (Some a) (BText (w ++ [0])) ;;;
   ret (mkHW (Some a) (hw_len o)))%m.
(** operator=(const Word& ) from another object, Word.cc:136-139. *)
Definition hw_assign (x o : hword) : M mem hword := (del (hw_text x) ;;; hw_copy o)%m.
(** utf8ToInternal, ColumbusHelpers.cc:46-95: the copy made by strdup is freed; the
    buffer is replaced by a shorter one; a failed conversion leaves by the exception of
    line 75 and keeps the buffer. *)
Definition h_utf8ToInternal (E : env) (s : list N) : M mem (nat * word) :=
  (a <- new (BText []) ;;
   t <- new BChars ;;
   del (Some t) ;;;
   ls <- lift (utf8ToInternal E s) ;;
   if 2 * N.of_nat (length ls) <? N.of_nat (length s)
   then a2 <- new (BText (ls ++ [0])) ;; del (Some a) ;;; ret (a2, ls)
   else put (Some a) (BText (ls ++ [0])) ;;; ret (a, ls))%m.
(** convertString, Word.cc:92-108: the members afterwards, and the exception if any. *)
Definition hw_convert (E : env) (s : list N) : M mem (hword * outcome unit) := fun m =>
  match h_utf8ToInternal E s m with
  | (m1, Ok (a, ls)) =>
    match validate E ls with
    | Ok _ => (m1, Ok (mkHW (Some a) (N.of_nat (length ls)), Ok tt))
    | Throw e => (del (Some a) ;;; ret (mkHW None (N.of_nat (length ls)), Throw e))%m m1
    | Abort => (m1, Abort)
    | UB => (m1, UB)
    | Fuel => (m1, Fuel)
    end
  | (m1, Throw e) => (m1, Ok (hw_empty, Throw e))
  | (m1, Abort) => (m1, Abort)
  | (m1, UB) => (m1, UB)
  | (m1, Fuel) => (m1, Fuel)
  end.
(** Word(const char* ), Word.cc:47-49: after an exception there is no object. *)
Definition hw_of_text (E : env) (s : list N) : M mem hword :=
  (r <- hw_convert E s ;; _ <- lift (snd r) ;; ret (fst r))%m.
(** Word(Letter*, size_t), Word.cc:62-82. *)
Definition hw_of_letters (E : env) (ls : list N) : M mem hword :=
  (a <- new (BText []) ;;
   on_throw
     (w <- lift (word_of_letters E ls) ;;
      put (Some a) (BText (w ++ [0])) ;;;
      ret (mkHW (Some a) (N.of_nat (length w))))
     (fun _ => del (Some a)))%m.
(** join, Word.cc:262-271. *)
Definition hw_join (x y : hword) : M mem hword :=
  (a <- new (BText []) ;;
   v <- hw_read x ;;
   w <- hw_read y ;;
   put (Some a) (BText (w_join v w ++ [0])) ;;;
   ret (mkHW (Some a) (hw_len x + hw_len y)))%m.
(** asUtf8, Word.cc:253-260: nothing frees the buffer after an exception. *)
Definition hw_asUtf8 (o : hword) : M mem (list N) :=
  (a <- new BChars ;;
   w <- hw_read o ;;
   s <- lift (asUtf8 w) ;;
   del (Some a) ;;;
   ret s)%m.

(** ** WordList, WordList.cc *)
Definition words_of (b : block) : outcome (list hword) := match b with BWords ws => Ok ws | _ => UB end.
(** p->words through the pointer of a WordList, WordList.cc:28-62. *)
Definition hl_words (p : ptr) : M mem (list hword) := (b <- get p ;; lift (words_of b))%m.
(** The default constructor, lines 32-34. *)
Definition hl_new : M mem ptr := (a <- new (BWords []) ;; ret (Some a))%m.
(** delete p: the Words in it are destroyed. *)
Definition hl_destroy (p : ptr) : M mem unit :=
  match p with
  | None => ret tt
  | Some _ => ws <- hl_words p ;; h_all hw_destroy ws ;;; del p
  end%m.
(** p->words = l.p->words. *)
Definition hl_set (p from : ptr) : M mem unit :=
  (ws <- hl_words from ;;
   cs <- h_map hw_copy ws ;;
   old <- hl_words p ;;
   h_all hw_destroy old ;;;
   put p (BWords cs))%m.
(** The copy constructor, lines 36-39. *)
Definition hl_copy (from : ptr) : M mem ptr := (p <- hl_new ;; hl_set p from ;;; ret p)%m.
(** addWord, lines 60-62. *)
Definition hl_add (p : ptr) (o : hword) : M mem unit :=
  (c <- hw_copy o ;; ws <- hl_words p ;; put p (BWords (ws ++ [c])))%m.
(** operator[], lines 54-58. *)
Definition hl_at (p : ptr) (i : N) : M mem hword := (ws <- hl_words p ;; lift (at_or_throw ws i))%m.

(** split, ColumbusHelpers.cc:139-179, with its buffer [word]: invalid_argument is
    caught (line 172), runtime_error is not. *)
Fixpoint h_split_loop (E : env) (fuel : nat) (chars s : list N) (end_ bufSize : nat) (buf : ptr) (list : ptr) : M mem unit :=
  match fuel with
  | O => lift Fuel
  | S f =>
    begin_ <- lift (skip_loop (S (length s)) true chars s end_) ;;
    if Nat.leb (length s) begin_ then del buf else
    end2 <- lift (skip_loop (S (length s)) false chars s (S begin_)) ;;
    let wordLen := (end2 - begin_)%nat in
    buf2 <- (if Nat.ltb bufSize (wordLen + 1) then del buf ;;; b <- new BChars ;; ret (Some b) else ret buf) ;;
    let bufSize2 := if Nat.ltb bufSize (wordLen + 1) then (wordLen + 1)%nat else bufSize in
    on_throw
      (w <- hw_of_text E (firstn wordLen (skipn begin_ s)) ;;
       hl_add list w ;;;
       hw_destroy w)
      (fun e => match e with EInvalidArg => del buf2 | _ => ret tt end) ;;;
    if Nat.ltb end2 (length s) then h_split_loop E f chars s end2 bufSize2 buf2 list
    else del buf2
  end%m.
(** splitToWords and split, ColumbusHelpers.cc:128-179: the WordList is destroyed if
    an exception passes. *)
Definition h_split (E : env) (s : list N) : M mem ptr :=
  (l <- hl_new ;;
   on_throw (h_split_loop E (S (length s)) whitespaceLetters s 0 0 None l) (fun _ => hl_destroy l) ;;;
   ret l)%m.

(** ** Document, Document.cc *)
Definition doc_of (b : block) : outcome (N * list (hword * ptr)) := match b with BDoc id ts => Ok (id, ts) | _ => UB end.
(** The members of DocumentPrivate, Document.cc:30-33. *)
Definition hd_get (a : nat) : M mem (N * list (hword * ptr)) := (b <- get (Some a) ;; lift (doc_of b))%m.
(** Destruction of one element of p->texts, Document.cc:30-33 with 49-51. *)
Definition text_destroy (t : hword * ptr) : M mem unit := (hw_destroy (fst t) ;;; hl_destroy (snd t))%m.
(** Copy of one element of p->texts, Document.cc:43-47. *)
Definition text_copy (t : hword * ptr) : M mem (hword * ptr) := (k <- hw_copy (fst t) ;; l <- hl_copy (snd t) ;; ret (k, l))%m.
(** Document::Document, Document.cc:38-41. *)
Definition hd_new (id : N) : M mem nat := new (BDoc id []).
(** delete p. *)
Definition hd_destroy (a : nat) : M mem unit :=
  (d <- hd_get a ;; h_all text_destroy (snd d) ;;; del (Some a))%m.
(** p->id = d.p->id; p->texts = d.p->texts. *)
Definition hd_set (a from : nat) : M mem unit :=
  (d <- hd_get from ;;
   cs <- h_map text_copy (snd d) ;;
   old <- hd_get a ;;
   h_all text_destroy (snd old) ;;;
   put (Some a) (BDoc (fst d) cs))%m.
(** The copy constructor, lines 43-47. *)
Definition hd_copy (from : nat) : M mem nat := (a <- hd_new 0 ;; hd_set a from ;;; ret a)%m.
(** p->texts.find: where the field is, and where it would go. *)
Fixpoint key_at (k : word) (ks : list word) : nat * bool :=
  match ks with
  | [] => (O, false)
  | k' :: r => if wltb k k' then (O, false) else if wltb k' k then let (i, b) := key_at k r in (S i, b) else (O, true)
  end.
(** p->texts.find(field), Document.cc:53-71. *)
Definition hd_find (ts : list (hword * ptr)) (field : hword) : M mem (nat * bool) :=
  (ks <- h_map (fun t => hw_read (fst t)) ts ;; k <- hw_read field ;; ret (key_at k ks))%m.
(** Where a WordList object lies: a variable of the program, or in a Document. *)
Inductive l_loc := InVar (x : nat) | InDoc (a i : nat).
(** The test this == &other of WordList.cc:64-69. *)
Definition loc_eqb (l k : l_loc) : bool :=
  match l, k with
  | InVar x, InVar y => Nat.eqb x y
  | InDoc a i, InDoc b j => Nat.eqb a b && Nat.eqb i j
  | _, _ => false
  end.
(** Insertion into the ordered elements of p->texts, Document.cc:53-55. *)
Fixpoint ins {A} (i : nat) (x : A) (l : list A) : list A :=
  match i, l with
  | O, _ => x :: l
  | S j, y :: r => y :: ins j x r
  | S _, [] => [x]
  end.
(** addText(Word,WordList), lines 53-55: operator[] of the map, then operator= of
    WordList (lines 64-69), which does nothing for the object itself. *)
Definition hd_addText (a : nat) (field : hword) (at_ : l_loc) (words : ptr) : M mem unit :=
  (d <- hd_get a ;;
   f <- hd_find (snd d) field ;;
   if snd f then
     match nth_error (snd d) (fst f) with
     | None => lift UB
     | Some t => if loc_eqb at_ (InDoc a (fst f)) then ret tt else hl_set (snd t) words
     end
   else
     k <- hw_copy field ;;
     l <- hl_new ;;
     put (Some a) (BDoc (fst d) (ins (fst f) (k, l) (snd d))) ;;;
     hl_set l words)%m.
(** addText with UTF-8 text, lines 57-63: the list made by splitToWords is destroyed
    at the end. *)
Definition hd_addUtf8 (E : env) (a : nat) (field : hword) (tmp : nat) (s : list N) : M mem unit :=
  (l <- h_split E s ;; hd_addText a field (InVar tmp) l ;;; hl_destroy l)%m.
(** getText, lines 65-71. *)
Definition hd_text (a : nat) (field : hword) : M mem (l_loc * ptr) :=
  (d <- hd_get a ;;
   f <- hd_find (snd d) field ;;
   if snd f then match nth_error (snd d) (fst f) with None => lift UB | Some t => ret (InDoc a (fst f), snd t) end
   else mthrow EInvalidArg)%m.
(** getFieldNames, lines 81-85. *)
Definition hd_fields (a : nat) (list : ptr) : M mem unit :=
  (d <- hd_get a ;; h_all (fun t => hl_add list (fst t)) (snd d))%m.

(** ** Corpus, Corpus.cc:32-52 *)
Definition docs_of (b : block) : outcome (list nat) := match b with BDocs ds => Ok ds | _ => UB end.
(** The member of CorpusPrivate, Corpus.cc:28-30. *)
Definition hc_docs (a : nat) : M mem (list nat) := (b <- get (Some a) ;; lift (docs_of b))%m.
(** Corpus::~Corpus, Corpus.cc:36-38. *)
Definition hc_destroy (a : nat) : M mem unit := (ds <- hc_docs a ;; h_all hd_destroy ds ;;; del (Some a))%m.
(** Corpus::addDocument, Corpus.cc:40-42. *)
Definition hc_add (a d : nat) : M mem unit := (c <- hd_copy d ;; ds <- hc_docs a ;; put (Some a) (BDocs (ds ++ [c])))%m.

(** ** MatchResults, MatchResults.cc *)
Definition res_of (b : block) : outcome mresults := match b with BResults r => Ok r | _ => UB end.
(** The members of MatchResultsPrivate, MatchResults.cc:28-31. *)
Definition hr_get (p : ptr) : M mem mresults := (b <- get p ;; lift (res_of b))%m.
(** A method of the object [p] points to. *)
Definition hr_do {A} (p : ptr) (f : M mresults A) : M mem unit :=
  (r <- hr_get p ;; let (r', o) := f r in put p (BResults r') ;;; _ <- lift o ;; ret tt)%m.

(** ** Programs *)
(** A variable of the program: an object, with its members. *)
Inductive cobj :=
| CWord (o : hword)
| CList (p : ptr)
| CDoc (p : nat)
| CCorpus (p : nat)
| CRes (p : ptr)
| COther (p : nat).   (* Matcher, ErrorValues, IndexWeights, SearchParameters, MatcherStatistics *)
(** What a reference argument may refer to. *)
Inductive w_ref := WVar (x : nat) | WElem (x : nat) (i : N).          (* a Word; word i of a WordList *)
Inductive l_ref := LVar (x : nat) | LText (x : nat) (field : w_ref).  (* a WordList; a text of a Document *)
Inductive d_ref := DVar (x : nat) | DElem (x : nat) (i : N).          (* a Document; document i of a Corpus *)
(** The statements of a program: the constructors, assignments, methods and destructors
    of the classes above (Word.hh, WordList.hh, Document.hh, Corpus.hh, MatchResults.hh). *)
Inductive op :=
| WordNew | WordText (s : list N) | WordLetters (ls : list N)
| WordCopy (r : w_ref) | WordMove (x : nat)
| WordAssign (x : nat) (r : w_ref) | WordMoveAssign (x y : nat) | WordAssignText (x : nat) (s : list N)
| WordJoin (r q : w_ref) | WordUtf8 (r : w_ref)
| ListNew | ListSplit (s : list N) | ListCopy (l : l_ref) | ListMove (x : nat)
| ListAssign (x : nat) (l : l_ref) | ListMoveAssign (x y : nat) | ListAdd (x : nat) (r : w_ref)
| DocNew (id : N) | DocCopy (d : d_ref) | DocAssign (x : nat) (d : d_ref)
| DocAddText (x : nat) (r : w_ref) (l : l_ref) | DocAddUtf8 (x : nat) (r : w_ref) (s : list N) | DocFields (x y : nat)
| CorpusNew | CorpusAdd (x : nat) (d : d_ref)
| ResNew | ResCopy (x : nat) | ResMove (x : nat) | ResAssign (x y : nat) | ResMoveAssign (x y : nat)
| ResAdd (x : nat) (id : N) (rel : double) | ResAddAll (x y : nat) | ResCopyResult (x y : nat) (i : N) | ResGet (x : nat) (i : N)
| OtherNew | OtherCopy (x : nat)
| Destroy (x : nat).

(** The state: the memory and the variables, in the order of their construction;
    [None]: destroyed. *)
Definition vars := list (option cobj).
(** The variables of the program and the memory. *)
Definition state : Type := mem * vars.
(** A step that leaves the variables alone. *)
Definition on_mem {A} (f : M mem A) : M state A := fun s => let (m, r) := f (fst s) in ((m, snd s), r).
(** A new variable. *)
Definition declare (c : cobj) : M state unit := fun s => ((fst s, snd s ++ [Some c]), Ok tt).
(** The object of a variable has new members. *)
Definition set_var (x : nat) (c : option cobj) : M state unit := fun s => ((fst s, upd x c (snd s)), Ok tt).
(** Look up a variable; one that does not exist is undefined. *)
Definition var (x : nat) : M state cobj := fun s => (s, match nth_error (snd s) x with Some (Some c) => Ok c | _ => UB end).
(** The Word that is a variable. *)
Definition word_var (x : nat) : M state hword := (c <- var x ;; match c with CWord o => ret o | _ => fun s => (s, UB) end)%m.
(** The WordList that is a variable. *)
Definition list_var (x : nat) : M state ptr := (c <- var x ;; match c with CList p => ret p | _ => fun s => (s, UB) end)%m.
(** The Document that is a variable. *)
Definition doc_var (x : nat) : M state nat := (c <- var x ;; match c with CDoc p => ret p | _ => fun s => (s, UB) end)%m.
(** The Corpus that is a variable. *)
Definition corpus_var (x : nat) : M state nat := (c <- var x ;; match c with CCorpus p => ret p | _ => fun s => (s, UB) end)%m.
(** The MatchResults that is a variable. *)
Definition res_var (x : nat) : M state ptr := (c <- var x ;; match c with CRes p => ret p | _ => fun s => (s, UB) end)%m.
(** An object of another class that is a variable. *)
Definition other_var (x : nat) : M state nat := (c <- var x ;; match c with COther p => ret p | _ => fun s => (s, UB) end)%m.
(** The Word an argument refers to: a variable or an element (WordList.cc:54-58). *)
Definition word_arg (r : w_ref) : M state hword :=
  match r with
  | WVar x => word_var x
  | WElem x i => (p <- list_var x ;; on_mem (hl_at p i))%m
  end.
(** The WordList an argument refers to: a variable or a field (Document.cc:65-71). *)
Definition list_arg (l : l_ref) : M state (l_loc * ptr) :=
  match l with
  | LVar x => (p <- list_var x ;; ret (InVar x, p))%m
  | LText x r => (o <- word_arg r ;; a <- doc_var x ;; on_mem (hd_text a o))%m
  end.
(** The Document an argument refers to: a variable or one in a Corpus
    (Corpus.cc:48-52). *)
Definition doc_arg (d : d_ref) : M state nat :=
  match d with
  | DVar x => doc_var x
  | DElem x i => (a <- corpus_var x ;; on_mem (ds <- hc_docs a ;; lift (at_or_throw ds i)))%m
  end.
(** Does the argument name the variable itself (this == &other of Word.cc:110-122)? *)
Definition is_wvar (r : w_ref) (x : nat) : bool := match r with WVar y => Nat.eqb x y | _ => false end.
(** The same for a WordList, WordList.cc:64-69. *)
Definition is_lvar (l : l_ref) (x : nat) : bool := match l with LVar y => Nat.eqb x y | _ => false end.
(** The same for a Document, Document.cc. *)
Definition is_dvar (d : d_ref) (x : nat) : bool := match d with DVar y => Nat.eqb x y | _ => false end.
(** The destructors. *)
Definition destroy (c : cobj) : M mem unit :=
  match c with
  | CWord o => hw_destroy o
  | CList p => hl_destroy p
  | CDoc a => hd_destroy a
  | CCorpus a => hc_destroy a
  | CRes p => del p
  | COther a => del (Some a)
  end.

(** One statement of a program. *)
Definition exec (E : env) (c : op) : M state unit :=
  match c with
  | WordNew => declare (CWord hw_empty)
  | WordText s => o <- on_mem (hw_of_text E s) ;; declare (CWord o)
  | WordLetters ls => o <- on_mem (hw_of_letters E ls) ;; declare (CWord o)
  | WordCopy r => o <- word_arg r ;; c <- on_mem (hw_copy o) ;; declare (CWord c)
  | WordMove x => o <- word_var x ;; set_var x (Some (CWord hw_empty)) ;;; declare (CWord o)       (* Word.cc:55-60 *)
  | WordAssign x r =>
    t <- word_var x ;;
    if is_wvar r x then ret tt else o <- word_arg r ;; c <- on_mem (hw_assign t o) ;; set_var x (Some (CWord c))
  | WordMoveAssign x y =>                                                                          (* Word.cc:141-150 *)
    t <- word_var x ;; o <- word_var y ;;
    on_mem (del (hw_text t)) ;;;
    set_var x (Some (CWord o)) ;;; set_var y (Some (CWord hw_empty))
  | WordAssignText x s =>                                                                          (* Word.cc:273-283 *)
    t <- word_var x ;;
    on_mem (del (hw_text t)) ;;;
    r <- on_mem (hw_convert E s) ;;
    set_var x (Some (CWord (fst r))) ;;;
    on_mem (lift (snd r))
  | WordJoin r q => o <- word_arg r ;; k <- word_arg q ;; c <- on_mem (hw_join o k) ;; declare (CWord c)
  | WordUtf8 r => o <- word_arg r ;; _ <- on_mem (hw_asUtf8 o) ;; ret tt
  | ListNew => p <- on_mem hl_new ;; declare (CList p)
  | ListSplit s => p <- on_mem (h_split E s) ;; declare (CList p)
  | ListCopy l => p <- list_arg l ;; c <- on_mem (hl_copy (snd p)) ;; declare (CList c)
  | ListMove x => p <- list_var x ;; set_var x (Some (CList None)) ;;; declare (CList p)           (* WordList.cc:42-45 *)
  | ListAssign x l =>                                                                              (* WordList.cc:64-69 *)
    t <- list_var x ;;
    if is_lvar l x then ret tt else p <- list_arg l ;; on_mem (hl_set t (snd p))
  | ListMoveAssign x y =>                                                                          (* WordList.cc:71-78 *)
    t <- list_var x ;; p <- list_var y ;;
    if Nat.eqb x y then ret tt else
    on_mem (hl_destroy t) ;;;
    set_var x (Some (CList p)) ;;; set_var y (Some (CList None))
  | ListAdd x r => p <- list_var x ;; o <- word_arg r ;; on_mem (hl_add p o)
  | DocNew id => a <- on_mem (hd_new id) ;; declare (CDoc a)
  | DocCopy d => a <- doc_arg d ;; c <- on_mem (hd_copy a) ;; declare (CDoc c)
  | DocAssign x d =>                                                                               (* Document.cc:87-93 *)
    t <- doc_var x ;;
    if is_dvar d x then ret tt else a <- doc_arg d ;; on_mem (hd_set t a)
  | DocAddText x r l => a <- doc_var x ;; o <- word_arg r ;; p <- list_arg l ;; on_mem (hd_addText a o (fst p) (snd p))
  | DocAddUtf8 x r s => a <- doc_var x ;; o <- word_arg r ;; (fun st => on_mem (hd_addUtf8 E a o (length (snd st)) s) st)
  | DocFields x y => a <- doc_var x ;; p <- list_var y ;; on_mem (hd_fields a p)
  | CorpusNew => a <- on_mem (new (BDocs [])) ;; declare (CCorpus a)
  | CorpusAdd x d => a <- corpus_var x ;; k <- doc_arg d ;; on_mem (hc_add a k)
  | ResNew => a <- on_mem (new (BResults mr_new)) ;; declare (CRes (Some a))                       (* MatchResults.cc:33-36 *)
  | ResCopy x => p <- res_var x ;; r <- on_mem (hr_get p) ;; a <- on_mem (new (BResults r)) ;; declare (CRes (Some a))
  | ResMove x => p <- res_var x ;; set_var x (Some (CRes None)) ;;; declare (CRes p)               (* MatchResults.cc:44-47 *)
  | ResAssign x y =>                                                                               (* MatchResults.cc:62-67 *)
    t <- res_var x ;; p <- res_var y ;;
    if Nat.eqb x y then ret tt else on_mem (r <- hr_get p ;; _ <- hr_get t ;; put t (BResults r))
  | ResMoveAssign x y =>                                                                           (* MatchResults.cc:53-60 *)
    t <- res_var x ;; p <- res_var y ;;
    if Nat.eqb x y then ret tt else
    on_mem (del t) ;;; set_var x (Some (CRes p)) ;;; set_var y (Some (CRes None))
  | ResAdd x id rel => p <- res_var x ;; on_mem (hr_do p (mr_addResult id rel))
  | ResAddAll x y =>
    p <- res_var x ;; q <- res_var y ;;
    if Nat.eqb x y then (fun s => (s, UB)) else on_mem (r <- hr_get q ;; hr_do p (mr_addResults r))
  | ResCopyResult x y i => p <- res_var x ;; q <- res_var y ;; on_mem (r <- hr_get q ;; hr_do p (mr_copyResult r i))
  | ResGet x i => p <- res_var x ;; on_mem (hr_do p (mr_get i))
  | OtherNew => a <- on_mem (new BOther) ;; declare (COther a)
  | OtherCopy x => a <- other_var x ;; declare (COther a)                                          (* the implicit copy constructor *)
  | Destroy x => c <- var x ;; on_mem (destroy c) ;;; set_var x None
  end%m.
(** A program: exceptions are caught after each statement and noted. *)
Fixpoint prog (E : env) (ops : list op) : M state (list (outcome unit)) :=
  match ops with
  | [] => ret []
  | c :: r => fun s =>
    match exec E c s with
    | (s1, Ok u) => (os <- prog E r ;; ret (Ok u :: os))%m s1
    | (s1, Throw e) => (os <- prog E r ;; ret (Throw e :: os))%m s1
    | (s1, Abort) => (s1, Abort)
    | (s1, UB) => (s1, UB)
    | (s1, Fuel) => (s1, Fuel)
    end
  end.
