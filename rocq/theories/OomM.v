(** Running out of memory: the objects of Word, WordList, Document and Corpus when any
    allocation may fail.  The values come from WordM; here is what each allocation that
    fails leaves behind.

    Simplified: a pointer is shown as what it points to, which is enough as no two objects
    share one (OwnM, C64), and deleting it leaves it dangling; how much is allocated is a
    count; std::vector and std::map are those of libstdc++, where a vector that grows
    copies its elements, as neither Word nor Document has a move constructor that is
    noexcept; std::string makes one allocation; iconv_open, exception objects and
    operator= of Document are left out, and so is moving a WordList. *)
From Verif Require Import Base TrieM WordM MapM DoubleM ContM OwnM.
Local Open Scope N_scope.

(** ** Memory *)
(** [plan]: for each allocation to come, whether it succeeds (all do after the end);
    [live]: how many allocations are held. *)
Record memory := mkMem { plan : list bool; live : Z }.
(** The exceptions: std::bad_alloc, and those of Base. *)
Inductive stop := OutOfMemory | Thrown (e : exn).
(** How a function ends. *)
Inductive res (A : Type) := Val (a : A) | Fail (p : stop) | Aborted | Undefined | NoFuel.
Arguments Val {A} a.
Arguments Fail {A} p.
Arguments Aborted {A}.
Arguments Undefined {A}.
Arguments NoFuel {A}.
(** Code that allocates (C++ semantics). *)
Definition T (A : Type) := memory -> memory * res A.
(** A normal return (C++ semantics). *)
Definition val {A} (a : A) : T A := fun m => (m, Val a).
(** An exception (C++ semantics). *)
Definition fail {A} (p : stop) : T A := fun m => (m, Fail p).
(** Statement after statement (C++ semantics). *)
Definition tbind {A B} (f : T A) (k : A -> T B) : T B := fun m =>
  match f m with
  | (m1, Val a) => k a m1
  | (m1, Fail p) => (m1, Fail p)
  | (m1, Aborted) => (m1, Aborted)
  | (m1, Undefined) => (m1, Undefined)
  | (m1, NoFuel) => (m1, NoFuel)
  end.
Declare Scope t_scope.
Delimit Scope t_scope with t.
Notation "x <- m ;; k" := (tbind m (fun x => k)) (at level 100, m at next level, right associativity, k at level 200) : t_scope.
Notation "m ;;; k" := (tbind m (fun _ => k)) (at level 100, right associativity) : t_scope.
(** try, with everything caught (C++ semantics). *)
Definition try {A} (f : T A) : T (A + stop) := fun m =>
  match f m with
  | (m1, Val a) => (m1, Val (inl a))
  | (m1, Fail p) => (m1, Val (inr p))
  | (m1, Aborted) => (m1, Aborted)
  | (m1, Undefined) => (m1, Undefined)
  | (m1, NoFuel) => (m1, NoFuel)
  end.
(** Undo something when an exception passes (C++ semantics). *)
Definition cleanup {A} (f : T A) (undo : T unit) : T A :=
  (r <- try f ;; match r with inl a => val a | inr p => undo ;;; fail p end)%t.
(** A step that allocates nothing, computed by WordM. *)
Definition pure {A} (o : outcome A) : T A := fun m =>
  (m, match o with Ok a => Val a | Throw e => Fail (Thrown e) | Abort => Aborted | UB => Undefined | Fuel => NoFuel end).
(** new: std::bad_alloc if there is no memory (C++ semantics). *)
Definition alloc : T unit := fun m =>
  match plan m with
  | [] => (mkMem [] (live m + 1), Val tt)
  | true :: r => (mkMem r (live m + 1), Val tt)
  | false :: r => (mkMem r (live m), Fail OutOfMemory)
  end.
(** delete of something allocated (C++ semantics). *)
Definition free : T unit := fun m => (mkMem (plan m) (live m - 1), Val tt).
(** The std::string with the message of an exception, e.g. Word.cc:97-99. *)
Definition message (e : exn) : T stop :=
  (r <- try alloc ;; match r with inl _ => free ;;; val (Thrown e) | inr p => val p end)%t.
(** A loop over the elements of a container (destructors). *)
Fixpoint t_all {A} (f : A -> T unit) (l : list A) : T unit :=
  match l with
  | [] => val tt
  | x :: r => f x ;;; t_all f r
  end%t.
(** A loop that reads the elements of a container (std::map::find). *)
Fixpoint t_map {A B} (f : A -> T B) (l : list A) : T (list B) :=
  match l with
  | [] => val []
  | x :: r => y <- f x ;; ys <- t_map f r ;; val (y :: ys)
  end%t.
(** Copies of elements (std::uninitialized_copy): those made are destroyed if the copy
    of another fails. *)
Fixpoint copy_all {A} (copy : A -> T A) (destroy : A -> T unit) (l : list A) : T (list A) :=
  match l with
  | [] => val []
  | x :: r => c <- copy x ;; cs <- cleanup (copy_all copy destroy r) (destroy c) ;; val (c :: cs)
  end%t.

(** ** Word *)
(** Letter *text, Word.hh:37. *)
Inductive tptr := TNull | TOwn (ls : list N) | TDangling.
(** class Word, Word.hh:37-38. *)
Record oword := mkOW { o_text : tptr; o_len : N }.
(** The default constructor, Word.cc:44-45. *)
Definition o_empty : oword := mkOW TNull 0.
(** delete []text: undefined if it was deleted before. *)
Definition t_delete (p : tptr) : T unit :=
  match p with
  | TNull => val tt
  | TOwn _ => free
  | TDangling => fun m => (m, Undefined)
  end.
(** The pointer after delete []text. *)
Definition deleted (p : tptr) : tptr := match p with TOwn _ => TDangling | _ => p end.
(** The letters of a Word, as every method reads them. *)
Definition o_read (o : oword) : T word :=
  if o_len o =? 0 then val [] else
  match o_text o with
  | TOwn ls => if o_len o <? N.of_nat (length ls) then val (firstn (N.to_nat (o_len o)) ls) else (fun m => (m, Undefined))
  | _ => fun m => (m, Undefined)
  end.
(** ~Word, Word.cc:88-90. *)
Definition o_destroy (o : oword) : T unit := t_delete (o_text o).
(** duplicateFrom another object, Word.cc:110-122: the members afterwards, and the
    exception if any.  The old text is deleted and the length set before the allocation
    that may fail. *)
Definition o_duplicate (x o : oword) : T (oword * option stop) :=
  (t_delete (o_text x) ;;;
   if o_len o =? 0 then val (mkOW TNull 0, None) else
   r <- try alloc ;;
   match r with
   | inr p => val (mkOW (deleted (o_text x)) (o_len o), Some p)
   | inl _ => w <- o_read o ;; val (mkOW (TOwn (w ++ [0])) (o_len o), None)
   end)%t.
(** A constructor: after an exception there is no object and no destructor runs (C++
    semantics). *)
Definition construct {A} (f : T (A * option stop)) : T A :=
  (r <- f ;; match snd r with None => val (fst r) | Some p => fail p end)%t.
(** The copy constructor, Word.cc:51-53. *)
Definition o_copy (o : oword) : T oword := construct (o_duplicate o_empty o).
(** The end of utf8ToInternal, ColumbusHelpers.cc:76-95, and of convertString,
    Word.cc:94-107, on a Word whose text was null: [len] is set (line 77) before the
    shorter buffer is allocated, and nothing frees the first one if that fails. *)
Definition o_finish (E : env) (s ls : list N) : T (oword * option stop) :=
  let n := N.of_nat (length ls) in
  (b <- (if 2 * n <? N.of_nat (length s) then try (alloc ;;; free) else val (inl tt)) ;;
   match b with
   | inr p => val (mkOW TNull n, Some p)
   | inl _ =>
     match validate E ls with
     | Throw e => free ;;; p <- message e ;; val (mkOW TNull n, Some p)
     | o => _ <- pure o ;; val (mkOW (TOwn (ls ++ [0])) n, None)
     end
   end)%t.
(** convertString, Word.cc:92-108, on a Word whose text is null and length 0, with
    utf8ToInternal, ColumbusHelpers.cc:46-95.  If strdup fails the assertion of line 62
    does; without assertions iconv, given no input, reports success and writes
    nothing. *)
Definition o_convert (E : env) (s : list N) : T (oword * option stop) :=
  (a <- try alloc ;;
   match a with
   | inr p => val (o_empty, Some p)
   | inl _ =>
     d <- try alloc ;;
     match d with
     | inr _ => if e_ndebug E then o_finish E s [] else fun m => (m, Aborted)
     | inl _ =>
       free ;;;
       match utf8ToInternal E s with
       | Throw e => p <- message e ;; val (o_empty, Some p)
       | o => ls <- pure o ;; o_finish E s ls
       end
     end
   end)%t.
(** Word(const char* ), Word.cc:47-49. *)
Definition o_of_text (E : env) (s : list N) : T oword := construct (o_convert E s).
(** operator=(const char* ), Word.cc:273-283. *)
Definition o_assign_text (E : env) (x : oword) (s : list N) : T (oword * option stop) :=
  (t_delete (o_text x) ;;; o_convert E s)%t.
(** Word(Letter*, size_t), Word.cc:62-82. *)
Definition o_of_letters (E : env) (ls : list N) : T oword :=
  (alloc ;;;
   match word_of_letters E ls with
   | Throw e => free ;;; p <- message e ;; fail p
   | o => w <- pure o ;; val (mkOW (TOwn (w ++ [0])) (N.of_nat (length w)))
   end)%t.
(** join, Word.cc:262-271: the result is empty when the allocation fails. *)
Definition o_join (x y : oword) : T oword :=
  (alloc ;;;
   v <- o_read x ;;
   w <- o_read y ;;
   val (mkOW (TOwn (w_join v w ++ [0])) (o_len x + o_len y)))%t.
(** asUtf8, Word.cc:253-260: nothing deletes the buffer after an exception, of toUtf8 or
    of the std::string; the string is destroyed at the end of the statement. *)
Definition o_asUtf8 (o : oword) : T (list N) :=
  (alloc ;;;
   w <- o_read o ;;
   match asUtf8 w with
   | Throw e => p <- message e ;; fail p
   | r => s <- pure r ;; alloc ;;; free ;;; free ;;; val s
   end)%t.

(** ** std::vector *)
(** The elements, and how many there is room for: the storage is one allocation. *)
Record vec (A : Type) := mkVec { v_elems : list A; v_cap : nat }.
Arguments mkVec {A}.
Arguments v_elems {A}.
Arguments v_cap {A}.
(** The default constructor of std::vector (C++ semantics). *)
Definition v_new {A} : vec A := mkVec [] 0.
(** Freeing the storage. *)
Definition v_free {A} (v : vec A) : T unit := if Nat.eqb (v_cap v) 0 then val tt else free.
(** ~vector. *)
Definition v_destroy {A} (destroy : A -> T unit) (v : vec A) : T unit := (t_all destroy (v_elems v) ;;; v_free v)%t.
(** push_back: when there is no room, storage for twice as many elements is allocated,
    the new element is made in it, and the others are copied. *)
Definition v_push {A} (copy : A -> T A) (destroy : A -> T unit) (v : vec A) (x : A) : T (vec A) :=
  (if Nat.ltb (length (v_elems v)) (v_cap v)
   then c <- copy x ;; val (mkVec (v_elems v ++ [c]) (v_cap v))
   else
     alloc ;;;
     c <- cleanup (copy x) free ;;
     cs <- cleanup (copy_all copy destroy (v_elems v)) (destroy c ;;; free) ;;
     t_all destroy (v_elems v) ;;;
     v_free v ;;;
     val (mkVec (cs ++ [c]) (Nat.max 1 (2 * length (v_elems v)))))%t.
(** Copy assignment of one Word after the other (std::copy), up to the first that fails. *)
Fixpoint assign_each (xs from : list oword) : T (list oword * option stop) :=
  match xs, from with
  | x :: xs', f :: from' =>
    r <- o_duplicate x f ;;
    match snd r with
    | Some p => val (fst r :: xs', Some p)
    | None => q <- assign_each xs' from' ;; val (fst r :: fst q, snd q)
    end
  | _, _ => val (xs, None)
  end%t.
(** operator= of a vector of Words: new storage if there is no room; otherwise the
    elements there are assigned to, then the rest is copied or destroyed. *)
Definition v_assign (v : vec oword) (from : list oword) : T (vec oword * option stop) :=
  let n := length from in
  let size := length (v_elems v) in
  (if Nat.ltb (v_cap v) n then
     r <- try (alloc ;;; cleanup (copy_all o_copy o_destroy from) free) ;;
     match r with
     | inr p => val (v, Some p)
     | inl cs => t_all o_destroy (v_elems v) ;;; v_free v ;;; val (mkVec cs n, None)
     end
   else if Nat.leb n size then
     r <- assign_each (firstn n (v_elems v)) from ;;
     match snd r with
     | Some p => val (mkVec (fst r ++ skipn n (v_elems v)) (v_cap v), Some p)
     | None => t_all o_destroy (skipn n (v_elems v)) ;;; val (mkVec (fst r) (v_cap v), None)
     end
   else
     r <- assign_each (v_elems v) from ;;
     match snd r with
     | Some p => val (mkVec (fst r) (v_cap v), Some p)
     | None =>
       c <- try (copy_all o_copy o_destroy (skipn size from)) ;;
       match c with
       | inr p => val (mkVec (fst r) (v_cap v), Some p)
       | inl cs => val (mkVec (fst r ++ cs) (v_cap v), None)
       end
     end)%t.

(** ** WordList, WordList.cc *)
Definition olist := vec oword.
(** The default constructor, lines 32-34. *)
Definition l_new : T olist := (alloc ;;; val v_new)%t.
(** The copy constructor, lines 36-39: nothing frees p if the assignment fails. *)
Definition l_copy (from : olist) : T olist :=
  (alloc ;;; construct (v_assign v_new (v_elems from)))%t.
(** The destructor, lines 46-48. *)
Definition l_destroy (l : olist) : T unit := (v_destroy o_destroy l ;;; free)%t.
(** addWord, lines 60-62. *)
Definition l_add (l : olist) (o : oword) : T olist := v_push o_copy o_destroy l o.
(** operator[], lines 54-58, and a copy of the Word. *)
Definition l_at (l : olist) (i : N) : T oword := (o <- pure (at_or_throw (v_elems l) i) ;; o_copy o)%t.
(** split, ColumbusHelpers.cc:139-179: the list so far and the exception if any.  The
    buffer [word] is there when [bufSize] is not 0; only invalid_argument is caught. *)
Fixpoint o_split_loop (E : env) (fuel : nat) (chars s : list N) (end_ bufSize : nat) (l : olist) : T (olist * option stop) :=
  match fuel with
  | O => fun m => (m, NoFuel)
  | S f =>
    begin_ <- pure (skip_loop (S (length s)) true chars s end_) ;;
    let del_buf := if Nat.eqb bufSize 0 then val tt else free in
    if Nat.leb (length s) begin_ then del_buf ;;; val (l, None) else
    end2 <- pure (skip_loop (S (length s)) false chars s (S begin_)) ;;
    let wordLen := (end2 - begin_)%nat in
    let bufSize2 := if Nat.ltb bufSize (wordLen + 1) then (wordLen + 1)%nat else bufSize in
    b <- (if Nat.ltb bufSize (wordLen + 1) then del_buf ;;; try alloc else val (inl tt)) ;;
    match b with
    | inr p => val (l, Some p)
    | inl _ =>
      r <- try (w <- o_of_text E (firstn wordLen (skipn begin_ s)) ;;
                l2 <- cleanup (l_add l w) (o_destroy w) ;;
                o_destroy w ;;;
                val l2) ;;
      match r with
      | inr p => match p with Thrown EInvalidArg => free | _ => val tt end ;;; val (l, Some p)
      | inl l2 => if Nat.ltb end2 (length s) then o_split_loop E f chars s end2 bufSize2 l2
                  else free ;;; val (l2, None)
      end
    end
  end%t.
(** splitToWords, ColumbusHelpers.cc:128-130: the WordList is destroyed if an exception
    passes. *)
Definition o_split (E : env) (s : list N) : T olist :=
  (l <- l_new ;;
   r <- o_split_loop E (S (length s)) whitespaceLetters s 0 0 l ;;
   match snd r with
   | None => val (fst r)
   | Some p => l_destroy (fst r) ;;; fail p
   end)%t.

(** ** Document, Document.cc *)
(** DocumentPrivate, lines 30-33: each element of the map is one allocation. *)
Record odoc := mkOD { od_id : N; od_texts : list (oword * olist) }.
(** The constructor, lines 38-41. *)
Definition d_new (id : N) : T odoc := (alloc ;;; val (mkOD id []))%t.
(** Destruction of one element of the map. *)
Definition node_destroy (t : oword * olist) : T unit := (o_destroy (fst t) ;;; l_destroy (snd t) ;;; free)%t.
(** Copy of one element of the map. *)
Definition node_copy (t : oword * olist) : T (oword * olist) :=
  (alloc ;;;
   k <- cleanup (o_copy (fst t)) free ;;
   l <- cleanup (l_copy (snd t)) (o_destroy k ;;; free) ;;
   val (k, l))%t.
(** The copy constructor, lines 43-47: nothing frees p if the assignment fails. *)
Definition d_copy (d : odoc) : T odoc :=
  (alloc ;;; ts <- copy_all node_copy node_destroy (od_texts d) ;; val (mkOD (od_id d) ts))%t.
(** The destructor, lines 49-51. *)
Definition d_destroy (d : odoc) : T unit := (t_all node_destroy (od_texts d) ;;; free)%t.
(** addText(Word,WordList), lines 53-55: operator[] of the map, then operator= of
    WordList. *)
Definition d_addText (d : odoc) (field : oword) (words : olist) : T (odoc * option stop) :=
  (ks <- t_map (fun t => o_read (fst t)) (od_texts d) ;;
   k <- o_read field ;;
   let (i, found) := key_at k ks in
   if found then
     match nth_error (od_texts d) i with
     | None => fun m => (m, Undefined)
     | Some t =>
       r <- v_assign (snd t) (v_elems words) ;;
       val (mkOD (od_id d) (upd i (fst t, fst r) (od_texts d)), snd r)
     end
   else
     n <- try (alloc ;;;
               k2 <- cleanup (o_copy field) free ;;
               l <- cleanup l_new (o_destroy k2 ;;; free) ;;
               val (k2, l)) ;;
     match n with
     | inr p => val (d, Some p)
     | inl t =>
       r <- v_assign (snd t) (v_elems words) ;;
       val (mkOD (od_id d) (ins i (fst t, fst r) (od_texts d)), snd r)
     end)%t.
(** addText with UTF-8 text, lines 57-63. *)
Definition d_addUtf8 (E : env) (d : odoc) (field : oword) (s : list N) : T (odoc * option stop) :=
  (n <- try (o_split E s) ;;
   match n with
   | inr p => val (d, Some p)
   | inl l => r <- d_addText d field l ;; l_destroy l ;;; val r
   end)%t.

(** ** Corpus, Corpus.cc *)
Definition ocorpus := vec odoc.
(** The constructor, lines 32-34. *)
Definition c_new : T ocorpus := (alloc ;;; val v_new)%t.
(** The destructor, lines 36-38. *)
Definition c_destroy (c : ocorpus) : T unit := (v_destroy d_destroy c ;;; free)%t.
(** addDocument, lines 40-42. *)
Definition c_add (c : ocorpus) (d : odoc) : T ocorpus := v_push d_copy d_destroy c d.

(** ** Programs *)
(** The variables. *)
Inductive oobj := OWord (o : oword) | OList (l : olist) | ODoc (d : odoc) | OCorpus (c : ocorpus).
Definition ovars := list (option oobj).   (* None: destroyed *)
(** The statements of a program; a number is a variable, in the order of construction. *)
Inductive stmt :=
| SWord | SWordText (s : list N) | SWordLetters (ls : list N) | SWordCopy (x : nat) | SWordMove (x : nat)
| SWordAssign (x y : nat) | SWordMoveAssign (x y : nat) | SWordAssignText (x : nat) (s : list N)
| SWordJoin (x y : nat) | SWordUtf8 (x : nat)
| SList | SListSplit (s : list N) | SListCopy (x : nat) | SListAssign (x y : nat) | SListAdd (x y : nat) | SListAt (x : nat) (i : N)
| SDoc (id : N) | SDocCopy (x : nat) | SDocAddText (x y z : nat) | SDocAddUtf8 (x y : nat) (s : list N)
| SCorpus | SCorpusAdd (x y : nat)
| SDestroy (x : nat).
(** The destructors. *)
Definition o_kill (c : oobj) : T unit :=
  match c with
  | OWord o => o_destroy o
  | OList l => l_destroy l
  | ODoc d => d_destroy d
  | OCorpus c => c_destroy c
  end.
(** The Word a variable holds. *)
Definition a_word (vs : ovars) (x : nat) : option oword := match nth_error vs x with Some (Some (OWord o)) => Some o | _ => None end.
(** The WordList a variable holds. *)
Definition a_list (vs : ovars) (x : nat) : option olist := match nth_error vs x with Some (Some (OList l)) => Some l | _ => None end.
(** The Document a variable holds. *)
Definition a_doc (vs : ovars) (x : nat) : option odoc := match nth_error vs x with Some (Some (ODoc d)) => Some d | _ => None end.
(** The Corpus a variable holds. *)
Definition a_corpus (vs : ovars) (x : nat) : option ocorpus := match nth_error vs x with Some (Some (OCorpus c)) => Some c | _ => None end.
(** A new variable, if its constructor returns. *)
Definition make {A} (f : T A) (obj : A -> oobj) (vs : ovars) : T (ovars * option stop) :=
  (r <- try f ;; val match r with inl a => (vs ++ [Some (obj a)], None) | inr p => (vs, Some p) end)%t.
(** A method that changes variable [x], whether it returns or throws. *)
Definition change {A} (x : nat) (f : T (A * option stop)) (obj : A -> oobj) (vs : ovars) : T (ovars * option stop) :=
  (r <- f ;; val (upd x (Some (obj (fst r))) vs, snd r))%t.
(** A method that changes variable [x] if it returns. *)
Definition update {A} (x : nat) (f : T A) (obj : A -> oobj) (vs : ovars) : T (ovars * option stop) :=
  (r <- try f ;; val match r with inl a => (upd x (Some (obj a)) vs, None) | inr p => (vs, Some p) end)%t.

(** One statement; [None]: it names variables that do not exist or are of another class. *)
Definition step (E : env) (c : stmt) (vs : ovars) : option (T (ovars * option stop)) :=
  match c with
  | SWord => Some (make (val o_empty) OWord vs)
  | SWordText s => Some (make (o_of_text E s) OWord vs)
  | SWordLetters ls => Some (make (o_of_letters E ls) OWord vs)
  | SWordCopy x => match a_word vs x with Some o => Some (make (o_copy o) OWord vs) | _ => None end
  | SWordMove x => match a_word vs x with Some o => Some (make (val o) OWord (upd x (Some (OWord o_empty)) vs)) | _ => None end
  | SWordAssign x y =>
    match a_word vs x, a_word vs y with
    | Some o, Some o2 => Some (if Nat.eqb x y then val (vs, None) else change x (o_duplicate o o2) OWord vs)
    | _, _ => None
    end
  | SWordMoveAssign x y =>
    match a_word vs x, a_word vs y with
    | Some o, Some o2 =>
      Some (t_delete (o_text o) ;;; val (upd y (Some (OWord o_empty)) (upd x (Some (OWord o2)) vs), None))%t
    | _, _ => None
    end
  | SWordAssignText x s => match a_word vs x with Some o => Some (change x (o_assign_text E o s) OWord vs) | _ => None end
  | SWordJoin x y => match a_word vs x, a_word vs y with Some o, Some o2 => Some (make (o_join o o2) OWord vs) | _, _ => None end
  | SWordUtf8 x => match a_word vs x with Some o => Some (r <- try (o_asUtf8 o) ;; val (vs, match r with inl _ => None | inr p => Some p end))%t | _ => None end
  | SList => Some (make l_new OList vs)
  | SListSplit s => Some (make (o_split E s) OList vs)
  | SListCopy x => match a_list vs x with Some l => Some (make (l_copy l) OList vs) | _ => None end
  | SListAssign x y =>
    match a_list vs x, a_list vs y with
    | Some l, Some l2 => Some (if Nat.eqb x y then val (vs, None) else change x (v_assign l (v_elems l2)) OList vs)
    | _, _ => None
    end
  | SListAdd x y => match a_list vs x, a_word vs y with Some l, Some o => Some (update x (l_add l o) OList vs) | _, _ => None end
  | SListAt x i => match a_list vs x with Some l => Some (make (l_at l i) OWord vs) | _ => None end
  | SDoc id => Some (make (d_new id) ODoc vs)
  | SDocCopy x => match a_doc vs x with Some d => Some (make (d_copy d) ODoc vs) | _ => None end
  | SDocAddText x y z =>
    match a_doc vs x, a_word vs y, a_list vs z with
    | Some d, Some o, Some l => Some (change x (d_addText d o l) ODoc vs)
    | _, _, _ => None
    end
  | SDocAddUtf8 x y s =>
    match a_doc vs x, a_word vs y with Some d, Some o => Some (change x (d_addUtf8 E d o s) ODoc vs) | _, _ => None end
  | SCorpus => Some (make c_new OCorpus vs)
  | SCorpusAdd x y => match a_corpus vs x, a_doc vs y with Some c, Some d => Some (update x (c_add c d) OCorpus vs) | _, _ => None end
  | SDestroy x => match nth_error vs x with Some (Some c) => Some (o_kill c ;;; val (upd x None vs, None))%t | _ => None end
  end.
(** How a statement ended. *)
Inductive fate := Done | Threw (p : stop) | Skipped | Died_abort | Died_undefined | Died_fuel.
(** A program: exceptions are caught after each statement; a statement that is no
    statement of C++ is skipped; nothing comes after a crash. *)
Fixpoint runs (E : env) (ops : list stmt) (m : memory) (vs : ovars) : memory * ovars * list fate :=
  match ops with
  | [] => (m, vs, [])
  | c :: r =>
    match step E c vs with
    | None => let '(m1, vs1, fs) := runs E r m vs in (m1, vs1, Skipped :: fs)
    | Some f =>
      match f m with
      | (m1, Val (vs1, e)) =>
        let '(m2, vs2, fs) := runs E r m1 vs1 in (m2, vs2, match e with None => Done | Some p => Threw p end :: fs)
      | (m1, Fail p) => (m1, vs, [Threw p])
      | (m1, Aborted) => (m1, vs, [Died_abort])
      | (m1, Undefined) => (m1, vs, [Died_undefined])
      | (m1, NoFuel) => (m1, vs, [Died_fuel])
      end
    end
  end.
