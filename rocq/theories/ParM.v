(** Running out of memory: MatchResults, ResultFilter and SearchParameters when any
    allocation may fail.  The values come from ContM.

    Simplified as in OomM.  A Word argument is a Word of the client, whose own memory is
    not counted.  std::stable_sort asks for a buffer without throwing and sorts in place
    if there is none, so reading results allocates nothing; it is left out, and so are
    moves. *)
From Verif Require Import Base TrieM WordM MapM DoubleM ContM OwnM OomM.
Local Open Scope N_scope.

(** A Word argument. *)
Definition arg (w : word) : oword := match w with [] => o_empty | _ => mkOW (TOwn (w ++ [0])) (N.of_nat (length w)) end.

(** ** MatchResults, MatchResults.cc *)
(** MatchResultsPrivate, lines 29-32: the object is one allocation and the vector one. *)
Record ores := mkOR { or_vec : vec (double * N); or_sorted : bool }.
(** The default constructor, lines 34-37. *)
Definition r_new : T ores := (alloc ;;; val (mkOR v_new true))%t.
(** operator= of a vector of results: new storage if there is no room. *)
Definition r_store (v : vec (double * N)) (from : list (double * N)) : T (vec (double * N)) :=
  (if Nat.ltb (v_cap v) (length from) then alloc ;;; v_free v ;;; val (mkVec from (length from))
   else val (mkVec from (v_cap v)))%t.
(** The copy constructor, lines 39-42: nothing frees p if the assignment fails. *)
Definition r_copy (o : ores) : T ores :=
  (alloc ;;; v <- r_store v_new (v_elems (or_vec o)) ;; val (mkOR v (or_sorted o)))%t.
(** The destructor, lines 49-51. *)
Definition r_destroy (o : ores) : T unit := (v_free (or_vec o) ;;; free)%t.
(** operator= of another object, lines 62-67: the vector first, then [sorted]. *)
Definition r_assign (x o : ores) : T ores :=
  (v <- r_store (or_vec x) (v_elems (or_vec o)) ;; val (mkOR v (or_sorted o)))%t.
(** push_back of something that is copied without allocating. *)
Definition v_append {A} (v : vec A) (x : A) : T (vec A) := v_push val (fun _ => val tt) v x.
(** addResult, lines 69-75. *)
Definition r_add (x : ores) (id : N) (relevancy : double) : T ores :=
  (v <- v_append (or_vec x) (relevancy, id) ;; val (mkOR v false))%t.
(** addResults of another object, lines 77-80: insert of a range at the end. *)
Definition r_addAll (x o : ores) : T ores :=
  let v := or_vec x in
  let from := v_elems (or_vec o) in
  let n := (length (v_elems v) + length from)%nat in
  (if Nat.leb n (v_cap v) then val (mkOR (mkVec (v_elems v ++ from) (v_cap v)) false)
   else alloc ;;; v_free v ;;; val (mkOR (mkVec (v_elems v ++ from) (Nat.max n (2 * length (v_elems v)))) false))%t.
(** copyResult, lines 87-93. *)
Definition r_take (x o : ores) (i : N) : T ores :=
  (e <- pure (at_or_throw (v_elems (or_vec o)) i) ;; v <- v_append (or_vec x) e ;; val (mkOR v false))%t.

(** ** ResultFilter, ResultFilter.cc *)
(** ResultFilterPrivate, lines 29-31. *)
Definition oterm := vec (oword * oword).
(** termList, line 30. *)
Definition ofilter := vec oterm.
(** A copy of a pair of Words, e.g. by make_pair in line 48. *)
Definition pair_copy (p : oword * oword) : T (oword * oword) :=
  (a <- o_copy (fst p) ;; b <- cleanup (o_copy (snd p)) (o_destroy a) ;; val (a, b))%t.
(** Destruction of a pair of Words. *)
Definition pair_destroy (p : oword * oword) : T unit := (o_destroy (snd p) ;;; o_destroy (fst p))%t.
(** addNewTerm, lines 42-45: an empty vector has no storage, and the others are moved. *)
Definition f_addTerm (f : ofilter) : T ofilter := v_append f v_new.
(** The constructor, lines 33-36: nothing frees p if addNewTerm fails. *)
Definition f_new : T ofilter := (alloc ;;; f_addTerm v_new)%t.
(** push_back of a temporary pair: it is moved, but when the vector grows the others are
    copied. *)
Definition v_push_temp (v : oterm) (x : oword * oword) : T oterm :=
  (if Nat.ltb (length (v_elems v)) (v_cap v) then val (mkVec (v_elems v ++ [x]) (v_cap v))
   else
     alloc ;;;
     cs <- cleanup (copy_all pair_copy pair_destroy (v_elems v)) free ;;
     t_all pair_destroy (v_elems v) ;;;
     v_free v ;;;
     val (mkVec (cs ++ [x]) (Nat.max 1 (2 * length (v_elems v)))))%t.
(** addNewSubTerm, lines 47-49; back() of an empty vector is undefined. *)
Definition f_addSub (f : ofilter) (field w : oword) : T ofilter :=
  (p <- pair_copy (field, w) ;;
   match rev (v_elems f) with
   | [] => fun m => (m, Undefined)
   | last :: front => t <- cleanup (v_push_temp last p) (pair_destroy p) ;; val (mkVec (rev front ++ [t]) (v_cap f))
   end)%t.
(** The destructor, lines 38-40. *)
Definition f_destroy (f : ofilter) : T unit := (v_destroy (v_destroy pair_destroy) f ;;; free)%t.

(** ** SearchParameters, SearchParameters.cc *)
(** SearchParametersPrivate, lines 29-33: each element of the set is one allocation. *)
Record oparams := mkOP { op_dynamic : bool; op_filter : ofilter; op_fields : list oword }.
(** The constructor, lines 35-38: if that of the filter throws C++ frees the memory for
    the SearchParametersPrivate. *)
Definition p_new : T oparams := (alloc ;;; f <- cleanup f_new free ;; val (mkOP true f []))%t.
(** addNonsearchingField, lines 73-75: std::set::insert. *)
Definition p_addField (p : oparams) (w : oword) : T oparams :=
  (ks <- t_map o_read (op_fields p) ;;
   k <- o_read w ;;
   let (i, found) := key_at k ks in
   if found then val p
   else alloc ;;; c <- cleanup (o_copy w) free ;; val (mkOP (op_dynamic p) (op_filter p) (ins i c (op_fields p))))%t.
(** A method of the filter, through getResultFilter, lines 65-67. *)
Definition p_onFilter (p : oparams) (g : ofilter -> T ofilter) : T oparams :=
  (f <- g (op_filter p) ;; val (mkOP (op_dynamic p) f (op_fields p)))%t.
(** The destructor, lines 40-42. *)
Definition p_destroy (p : oparams) : T unit :=
  (t_all (fun o => o_destroy o ;;; free) (op_fields p) ;;; f_destroy (op_filter p) ;;; free)%t.

(** ** Programs *)
(** The variables. *)
Inductive pobj := PRes (r : ores) | PFilter (f : ofilter) | PParams (p : oparams).
Definition pvars := list (option pobj).   (* None: destroyed *)
(** The statements of a program; a number is a variable, in the order of construction. *)
Inductive pstmt :=
| QRes | QResCopy (x : nat) | QResAssign (x y : nat) | QResAdd (x : nat) (id : N) (d : double) | QResAddAll (x y : nat) | QResTake (x y : nat) (i : N)
| QFilter | QTerm (x : nat) | QSubTerm (x : nat) (field w : word)
| QParams | QDynamic (x : nat) (b : bool) | QField (x : nat) (w : word) | QParamsTerm (x : nat) | QParamsSubTerm (x : nat) (field w : word)
| QDestroy (x : nat).
(** The destructors. *)
Definition p_kill (c : pobj) : T unit :=
  match c with PRes r => r_destroy r | PFilter f => f_destroy f | PParams p => p_destroy p end.
(** The MatchResults a variable holds. *)
Definition a_res (vs : pvars) (x : nat) : option ores := match nth_error vs x with Some (Some (PRes r)) => Some r | _ => None end.
(** The ResultFilter a variable holds. *)
Definition a_filter (vs : pvars) (x : nat) : option ofilter := match nth_error vs x with Some (Some (PFilter f)) => Some f | _ => None end.
(** The SearchParameters a variable holds. *)
Definition a_params (vs : pvars) (x : nat) : option oparams := match nth_error vs x with Some (Some (PParams p)) => Some p | _ => None end.
(** A new variable. *)
Definition p_make {A} (f : T A) (obj : A -> pobj) (vs : pvars) : option (T pvars) := Some (a <- f ;; val (vs ++ [Some (obj a)]))%t.
(** A method that changes variable [x] if it returns. *)
Definition p_update {A} (x : nat) (f : T A) (obj : A -> pobj) (vs : pvars) : option (T pvars) := Some (a <- f ;; val (upd x (Some (obj a)) vs))%t.
(** One statement; [None]: it names variables that do not exist or are of another class.
    r.addResults(r) is undefined. *)
Definition p_step (c : pstmt) (vs : pvars) : option (T pvars) :=
  match c with
  | QRes => p_make r_new PRes vs
  | QResCopy x => match a_res vs x with Some r => p_make (r_copy r) PRes vs | _ => None end
  | QResAssign x y =>
    match a_res vs x, a_res vs y with
    | Some r, Some r2 => if Nat.eqb x y then Some (val vs) else p_update x (r_assign r r2) PRes vs
    | _, _ => None
    end
  | QResAdd x id d => match a_res vs x with Some r => p_update x (r_add r id d) PRes vs | _ => None end
  | QResAddAll x y =>
    match a_res vs x, a_res vs y with
    | Some r, Some r2 => if Nat.eqb x y then Some (fun m => (m, Undefined)) else p_update x (r_addAll r r2) PRes vs
    | _, _ => None
    end
  | QResTake x y i => match a_res vs x, a_res vs y with Some r, Some r2 => p_update x (r_take r r2 i) PRes vs | _, _ => None end
  | QFilter => p_make f_new PFilter vs
  | QTerm x => match a_filter vs x with Some f => p_update x (f_addTerm f) PFilter vs | _ => None end
  | QSubTerm x k w => match a_filter vs x with Some f => p_update x (f_addSub f (arg k) (arg w)) PFilter vs | _ => None end
  | QParams => p_make p_new PParams vs
  | QDynamic x b => match a_params vs x with Some p => p_update x (val (mkOP b (op_filter p) (op_fields p))) PParams vs | _ => None end
  | QField x w => match a_params vs x with Some p => p_update x (p_addField p (arg w)) PParams vs | _ => None end
  | QParamsTerm x => match a_params vs x with Some p => p_update x (p_onFilter p f_addTerm) PParams vs | _ => None end
  | QParamsSubTerm x k w => match a_params vs x with Some p => p_update x (p_onFilter p (fun f => f_addSub f (arg k) (arg w))) PParams vs | _ => None end
  | QDestroy x => match nth_error vs x with Some (Some c) => Some (p_kill c ;;; val (upd x None vs))%t | _ => None end
  end.
(** A program: exceptions are caught after each statement; a statement that is no
    statement of C++ is skipped; nothing comes after a crash. *)
Fixpoint p_runs (ops : list pstmt) (m : memory) (vs : pvars) : memory * pvars * list fate :=
  match ops with
  | [] => (m, vs, [])
  | c :: r =>
    match p_step c vs with
    | None => let '(m1, vs1, fs) := p_runs r m vs in (m1, vs1, Skipped :: fs)
    | Some f =>
      match f m with
      | (m1, Val vs1) => let '(m2, vs2, fs) := p_runs r m1 vs1 in (m2, vs2, Done :: fs)
      | (m1, Fail p) => let '(m2, vs2, fs) := p_runs r m1 vs in (m2, vs2, Threw p :: fs)
      | (m1, Aborted) => (m1, vs, [Died_abort])
      | (m1, Undefined) => (m1, vs, [Died_undefined])
      | (m1, NoFuel) => (m1, vs, [Died_fuel])
      end
    end
  end.
