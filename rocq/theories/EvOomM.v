(** Running out of memory in src/ErrorValues.cc: the object when any allocation may fail.

    Simplified: what the object itself holds is not counted, so [live] counts only what
    is lost; a push_back always allocates; the allocations of getline, of the stream, of
    the names of the data files and of the Word made of a line are one per line and one
    per file, and what the constructor of that Word may lose (C121) is left out; so are
    exception objects. *)
From Verif Require Import Base TrieM WordM MapM DoubleM ContM OwnM OomM ErrorValuesM Spec_EV.
Local Open Scope N_scope.

(** Code that works on an ErrorValues object and allocates (C++ semantics): the object
    stays as it is when an exception passes. *)
Definition V (A : Type) := errvals -> memory -> errvals * memory * res A.
(** Statement after statement (C++ semantics). *)
Definition vbind {A B} (f : V A) (k : A -> V B) : V B := fun e m =>
  match f e m with
  | (e1, m1, Val a) => k a e1 m1
  | (e1, m1, Fail p) => (e1, m1, Fail p)
  | (e1, m1, Aborted) => (e1, m1, Aborted)
  | (e1, m1, Undefined) => (e1, m1, Undefined)
  | (e1, m1, NoFuel) => (e1, m1, NoFuel)
  end.
Declare Scope v_scope.
Delimit Scope v_scope with v.
Notation "x <- m ;; k" := (vbind m (fun x => k)) (at level 100, m at next level, right associativity, k at level 200) : v_scope.
Notation "m ;;; k" := (vbind m (fun _ => k)) (at level 100, right associativity) : v_scope.
Local Open Scope v_scope.
(** A normal return (C++ semantics). *)
Definition vret {A} (a : A) : V A := fun e m => (e, m, Val a).
(** Code that does not touch the object. *)
Definition apart {A} (f : T A) : V A := fun e m => let (m1, r) := f m in (e, m1, r).
(** Code that allocates nothing, from ErrorValuesM. *)
Definition plainly (f : errvals -> errvals) : V unit := fun e m => (f e, m, Val tt).
(** Reading the object. *)
Definition vread {A} (f : errvals -> A) : V A := fun e m => (e, m, Val (f e)).
(** An exception (C++ semantics). *)
Definition vthrow {A} (x : exn) : V A := fun e m => (e, m, Fail (Thrown x)).
(** An allocation that the object keeps, or that is freed soon: not counted. *)
Definition need : V unit := apart (alloc ;;; free)%t.

(** setError, ErrorValues.cc:82-91: operator[] of the map makes a node unless there is
    one for the pair. *)
Definition v_setError (l1 l2 : N) (error : Z) : V unit :=
  let a := if l2 <? l1 then l2 else l1 in
  let b := if l2 <? l1 then l1 else l2 in
  old <- vread (fun e => find_single (ev_single e) a b) ;;
  (match old with Some _ => vret tt | None => need end) ;;;
  plainly (setError l1 l2 error).

(** The loop of setGroupError, ErrorValues.cc:137-145. *)
Fixpoint v_group_loop (id : nat) (ls : list N) : V unit :=
  match ls with
  | [] => vret tt
  | l :: r =>
    g <- vread (fun e => find_group (ev_gmap e) l) ;;
    match g with
    | Some g => if Nat.eqb g id then v_group_loop id r else vthrow ERuntime
    | None => need ;;; plainly (fun e => with_gmap ((l, id) :: ev_gmap e) e) ;;; v_group_loop id r
    end
  end.
(** setGroupError, ErrorValues.cc:134-149.  The arguments of debugMessage are evaluated
    whether it prints or not. *)
Definition v_setGroupError (g : word) (error : Z) : V unit :=
  id <- vread (fun e => length (ev_gerr e)) ;;
  need ;;;
  plainly (fun e => with_gerr (ev_gerr e ++ [error]) e) ;;;
  v_group_loop id g ;;;
  plainly (addGroupErrorToLUT g error) ;;;
  _ <- apart (o_asUtf8 (mkOW (TOwn (g ++ [0])) (N.of_nat (length g)))) ;;
  vret tt.

(** The loop of addAccents, ErrorValues.cc:183-188, on the lines as Words. *)
Fixpoint v_lines (lines : list word) : V unit :=
  match lines with
  | [] => vret tt
  | g :: r =>
    need ;;;
    (match g with [] => vret tt | _ => v_setGroupError g DEFAULT_GROUP_ERROR end) ;;;
    v_lines r
  end.
(** addAccents, ErrorValues.cc:167-189, with the file there. *)
Definition v_addAccents (lines : list word) : V unit := need ;;; v_lines lines.

(** A loop of calls that may throw (C++ semantics). *)
Fixpoint v_each {A} (f : A -> V unit) (l : list A) : V unit :=
  match l with
  | [] => vret tt
  | x :: r => f x ;;; v_each f r
  end.
(** A call under a condition (C++ semantics). *)
Definition v_when (b : bool) (f : V unit) : V unit := if b then f else vret tt.
(** The body of the loops of addKeyboardErrors, ErrorValues.cc:205-211. *)
Definition v_key (i j1 : nat) : V unit :=
  let l1 := kb_key i j1 in
  let err := DEFAULT_TYPO_ERROR in
  v_when (Nat.ltb (S j1) (kb_len i)) (v_setError l1 (kb_key i (S j1)) err) ;;;
  v_when (Nat.ltb 0 j1 && Nat.ltb (j1 - 1) (kb_len (S i))) (v_setError l1 (kb_key (S i) (j1 - 1)) err) ;;;
  v_when (Nat.ltb j1 (kb_len (S i))) (v_setError l1 (kb_key (S i) j1) err).
(** addKeyboardErrors, ErrorValues.cc:191-216. *)
Definition v_keyboard : V unit := v_each (fun i => v_each (v_key i) (seq 0 (kb_len i))) (seq 0 3).
(** setPadError, ErrorValues.cc:218-224. *)
Definition v_pad (number : N) (letters : list N) (error : Z) : V unit :=
  v_each (fun l => v_setError number l error) letters.
(** The body of the loops of addNumberpadErrors, ErrorValues.cc:250-258. *)
Definition v_button (j i : nat) : V unit :=
  let n := pad_num j i in
  v_pad n (pad_at j i) 0%Z ;;;
  v_when (Z.of_nat i - 1 >? 0)%Z (v_pad n (pad_at j (i - 1)) 50%Z) ;;;
  v_when (Z.of_nat i + 1 <? 3)%Z (v_pad n (pad_at j (i + 1)) 50%Z) ;;;
  v_when (Z.of_nat j - 1 >? 0)%Z (v_pad n (pad_at (j - 1) i) 50%Z) ;;;
  v_when (Z.of_nat j + 1 <? 3)%Z (v_pad n (pad_at (j + 1) i) 50%Z).
(** addNumberpadErrors, ErrorValues.cc:226-261. *)
Definition v_numberpad : V unit := v_each (fun j => v_each (v_button j) (seq 0 3)) (seq 0 3).

(** The public calls, Spec_EV.ev_call.  clearErrors (lines 127-132) and the setters
    (ErrorValues.hh:73-78, ErrorValues.cc:276-280) allocate nothing. *)
Definition v_do (c : ev_call) : V unit :=
  match c with
  | SetError a b v => v_setError a b v
  | SetGroupError g v => v_setGroupError g v
  | AddAccents ls => v_addAccents ls
  | AddKeyboardErrors => v_keyboard
  | AddNumberpadErrors => v_numberpad
  | AddStandardErrors l g => v_addAccents l ;;; v_addAccents g ;;; v_keyboard
  | c => plainly (fun e => fst (ev_do c e))
  end.
(** The constructor, lines 58-68 with 54: the table is allocated in the constructor of
    ErrorValuesPrivate, whose memory C++ frees if that throws. *)
Definition v_new : T errvals := (alloc ;;; cleanup alloc free ;;; val ev_new)%t.
(** A history of calls of which the client catches the exceptions: the object, the memory
    and how each call ended. *)
Fixpoint v_run (calls : list ev_call) (e : errvals) (m : memory) : errvals * memory * list (res unit) :=
  match calls with
  | [] => (e, m, [])
  | c :: r =>
    match v_do c e m with
    | (e1, m1, x) => match v_run r e1 m1 with (e2, m2, xs) => (e2, m2, x :: xs) end
    end
  end.
