(** Model of src/ErrorValues.cc and include/ErrorValues.hh. *)
From Verif Require Import Base.
Local Open Scope N_scope.
Local Open Scope m_scope.

(** Class constants, ErrorValues.hh:37-42. *)
Definition DEFAULT_ERROR : Z := 100%Z.
(** ErrorValues.hh:38. *)
Definition DEFAULT_GROUP_ERROR : Z := 30%Z.
(** ErrorValues.hh:39. *)
Definition DEFAULT_TYPO_ERROR : Z := 30%Z.
(** ErrorValues.hh:40. *)
Definition DEFAULT_SUBSTRING_END_DELETION_ERROR : Z := 15%Z.
(** ErrorValues.hh:41. *)
Definition DEFAULT_SUBSTRING_START_INSERTION_ERROR : Z := 15%Z.
(** ErrorValues.hh:42. *)
Definition DEFAULT_SUBSTRING_START_LENGTH : N := 3.

(** LUT_LETTERS, LUT_SIZE and LUT_OFFSET, ErrorValues.cc:41-44. *)
Definition LUT_LETTERS : N := 512.
(** LUT_LETTERS*LUT_LETTERS, ErrorValues.cc:41-46. *)
Definition LUT_SIZE : N := 262144.
(** The macro of that name, ErrorValues.cc:41-46. *)
Definition LUT_OFFSET (l1 l2 : N) : N := N.lor (N.shiftl l1 9) l2.

(** The members of ErrorValues (ErrorValues.hh:44-50) and of ErrorValuesPrivate
    (ErrorValues.cc:48-56).  The std::maps are association lists in which the
    first entry for a key counts; [groupErrors] is a vector of unsigned holding
    ints, converted back on return (identity on two's complement); [lut] is the
    table of LUT_SIZE ints. *)
Record errvals := mkEV {
  ev_ins : Z; ev_del : Z; ev_edel : Z; ev_sins : Z; ev_sub : Z; ev_trans : Z;
  ev_limit : N;
  ev_single : list ((N * N) * Z);
  ev_gmap : list (N * nat);
  ev_gerr : list Z;
  ev_lut : N -> Z
}.

(** ErrorValues::clearLUT, ErrorValues.cc:74-80: the double loop writes every
    cell [LUT_OFFSET(i,j)] once. *)
Definition clear_lut (sub : Z) (lut : N -> Z) : N -> Z :=
  fun o => if o <? LUT_SIZE
           then (if o / LUT_LETTERS =? o mod LUT_LETTERS then 0%Z else sub)
           else lut o.

(** ErrorValues::ErrorValues, ErrorValues.cc:58-68 ([lut] is allocated
    uninitialised and filled by clearLUT). *)
Definition ev_new : errvals :=
  mkEV DEFAULT_ERROR DEFAULT_ERROR DEFAULT_ERROR DEFAULT_ERROR DEFAULT_ERROR DEFAULT_ERROR
       0 [] [] [] (clear_lut DEFAULT_ERROR (fun _ => 0%Z)).

(** Getters and setters, ErrorValues.hh:67-82. *)
Definition getInsertionError (e : errvals) : Z := ev_ins e.
(** ErrorValues.hh:66-71. *)
Definition getDeletionError (e : errvals) : Z := ev_del e.
(** ErrorValues.hh:66-71. *)
Definition getEndDeletionError (e : errvals) : Z := ev_edel e.
(** ErrorValues.hh:66-71. *)
Definition getStartInsertionError (e : errvals) (queryTermLength : N) : Z :=
  if ev_limit e <=? queryTermLength then ev_sins e else ev_ins e.
(** ErrorValues.hh:66-71. *)
Definition getTransposeError (e : errvals) : Z := ev_trans e.

(** ErrorValues.hh:73-78. *)
Definition setInsertionError (v : Z) (e : errvals) : errvals :=
  mkEV v (ev_del e) (ev_edel e) (ev_sins e) (ev_sub e) (ev_trans e) (ev_limit e)
       (ev_single e) (ev_gmap e) (ev_gerr e) (ev_lut e).
(** ErrorValues.hh:73-78. *)
Definition setDeletionError (v : Z) (e : errvals) : errvals :=
  mkEV (ev_ins e) v (ev_edel e) (ev_sins e) (ev_sub e) (ev_trans e) (ev_limit e)
       (ev_single e) (ev_gmap e) (ev_gerr e) (ev_lut e).
(** ErrorValues.hh:73-78. *)
Definition setEndDeletionError (v : Z) (e : errvals) : errvals :=
  mkEV (ev_ins e) (ev_del e) v (ev_sins e) (ev_sub e) (ev_trans e) (ev_limit e)
       (ev_single e) (ev_gmap e) (ev_gerr e) (ev_lut e).
(** ErrorValues.hh:73-78. *)
Definition setStartInsertionError (v : Z) (e : errvals) : errvals :=
  mkEV (ev_ins e) (ev_del e) (ev_edel e) v (ev_sub e) (ev_trans e) (ev_limit e)
       (ev_single e) (ev_gmap e) (ev_gerr e) (ev_lut e).
(** ErrorValues.hh:73-78. *)
Definition setTransposeError (v : Z) (e : errvals) : errvals :=
  mkEV (ev_ins e) (ev_del e) (ev_edel e) (ev_sins e) (ev_sub e) v (ev_limit e)
       (ev_single e) (ev_gmap e) (ev_gerr e) (ev_lut e).
(** ErrorValues.hh:73-78. *)
Definition setSubstringStartLimit (v : N) (e : errvals) : errvals :=
  mkEV (ev_ins e) (ev_del e) (ev_edel e) (ev_sins e) (ev_sub e) (ev_trans e) v
       (ev_single e) (ev_gmap e) (ev_gerr e) (ev_lut e).

(** ErrorValues::setSubstringMode, ErrorValues.cc:276-280. *)
Definition setSubstringMode (e : errvals) : errvals :=
  mkEV (ev_ins e) (ev_del e) DEFAULT_SUBSTRING_END_DELETION_ERROR
       DEFAULT_SUBSTRING_START_INSERTION_ERROR (ev_sub e) (ev_trans e)
       DEFAULT_SUBSTRING_START_LENGTH
       (ev_single e) (ev_gmap e) (ev_gerr e) (ev_lut e).

(** The parts of the private state, updated separately below. *)
Definition with_single (s : list ((N * N) * Z)) (e : errvals) : errvals :=
  mkEV (ev_ins e) (ev_del e) (ev_edel e) (ev_sins e) (ev_sub e) (ev_trans e) (ev_limit e)
       s (ev_gmap e) (ev_gerr e) (ev_lut e).
(** Store to p->groupMap, ErrorValues.cc:134-149. *)
Definition with_gmap (g : list (N * nat)) (e : errvals) : errvals :=
  mkEV (ev_ins e) (ev_del e) (ev_edel e) (ev_sins e) (ev_sub e) (ev_trans e) (ev_limit e)
       (ev_single e) g (ev_gerr e) (ev_lut e).
(** Store to p->groupErrors, ErrorValues.cc:134-149. *)
Definition with_gerr (g : list Z) (e : errvals) : errvals :=
  mkEV (ev_ins e) (ev_del e) (ev_edel e) (ev_sins e) (ev_sub e) (ev_trans e) (ev_limit e)
       (ev_single e) (ev_gmap e) g (ev_lut e).
(** Store to p->lut, ErrorValues.cc:269-274. *)
Definition with_lut (l : N -> Z) (e : errvals) : errvals :=
  mkEV (ev_ins e) (ev_del e) (ev_edel e) (ev_sins e) (ev_sub e) (ev_trans e) (ev_limit e)
       (ev_single e) (ev_gmap e) (ev_gerr e) l.

(** p->lut[o] = v, ErrorValues.cc:269-274. *)
Definition lut_set (o : N) (v : Z) (lut : N -> Z) : N -> Z :=
  fun x => if x =? o then v else lut x.

(** ErrorValues::addToLUT, ErrorValues.cc:269-274. *)
Definition addToLUT (l1 l2 : N) (v : Z) (e : errvals) : errvals :=
  if (l1 <? LUT_LETTERS) && (l2 <? LUT_LETTERS)
  then with_lut (lut_set (LUT_OFFSET l2 l1) v (lut_set (LUT_OFFSET l1 l2) v (ev_lut e))) e
  else e.

(** Lookups in the two maps. *)
Definition find_single (s : list ((N * N) * Z)) (a b : N) : option Z :=
  match find (fun p => (fst (fst p) =? a) && (snd (fst p) =? b)) s with
  | Some p => Some (snd p) | None => None
  end.
(** p->groupMap.find, ErrorValues.cc:100-125 and 163-165. *)
Definition find_group (g : list (N * nat)) (l : N) : option nat :=
  match find (fun p => fst p =? l) g with Some p => Some (snd p) | None => None end.

(** ErrorValues::setError, ErrorValues.cc:82-91. *)
Definition setError (l1 l2 : N) (error : Z) (e : errvals) : errvals :=
  let a := if l2 <? l1 then l2 else l1 in
  let b := if l2 <? l1 then l1 else l2 in
  addToLUT a b error (with_single (((a, b), error) :: ev_single e) e).

(** ErrorValues::substituteErrorSlow, ErrorValues.cc:100-125.  The vector access
    [groupErrors[id]] is checked. *)
Definition substituteErrorSlow (e : errvals) (l1 l2 : N) : outcome Z :=
  if l1 =? l2 then Ok 0%Z else
  let a := if l2 <? l1 then l2 else l1 in
  let b := if l2 <? l1 then l1 else l2 in
  match find_single (ev_single e) a b with
  | Some v => Ok v
  | None =>
    match find_group (ev_gmap e) b, find_group (ev_gmap e) a with
    | Some g1, Some g2 =>
      if Nat.eqb g1 g2
      then match nth_error (ev_gerr e) g1 with Some v => Ok v | None => UB end
      else Ok (ev_sub e)
    | _, _ => Ok (ev_sub e)
    end
  end.

(** ErrorValues::getSubstituteError, ErrorValues.cc:93-98.  The table access is
    checked against its size. *)
Definition getSubstituteError (e : errvals) (l1 l2 : N) : outcome Z :=
  if (l1 <? LUT_LETTERS) && (l2 <? LUT_LETTERS) then
    (if LUT_OFFSET l1 l2 <? LUT_SIZE then Ok (ev_lut e (LUT_OFFSET l1 l2)) else UB)
  else substituteErrorSlow e l1 l2.

(** ErrorValues::clearErrors, ErrorValues.cc:127-132. *)
Definition clearErrors (e : errvals) : errvals :=
  with_lut (clear_lut (ev_sub e) (ev_lut e)) (with_gmap [] (with_gerr [] (with_single [] e))).

(** ErrorValues::isInGroup, ErrorValues.cc:163-165. *)
Definition isInGroup (e : errvals) (l : N) : bool :=
  match find_group (ev_gmap e) l with Some _ => true | None => false end.

(** The loop of ErrorValues::setGroupError, ErrorValues.cc:137-145. *)
Fixpoint group_loop (id : nat) (ls : list N) : M errvals unit :=
  match ls with
  | [] => ret tt
  | l :: r => fun e =>
    match find_group (ev_gmap e) l with
    | Some g => if Nat.eqb g id then group_loop id r e else (e, Throw ERuntime)
    | None => group_loop id r (with_gmap ((l, id) :: ev_gmap e) e)
    end
  end.

(** ErrorValues::addGroupErrorToLUT, ErrorValues.cc:151-161: inner loop from
    j = i, then the outer one. *)
Fixpoint lut_pairs (l1 : N) (ls : list N) (error : Z) (e : errvals) : errvals :=
  match ls with
  | [] => e
  | l2 :: r => lut_pairs l1 r error (if l1 =? l2 then e else addToLUT l1 l2 error e)
  end.
(** ErrorValues::addGroupErrorToLUT, ErrorValues.cc:151-161. *)
Fixpoint addGroupErrorToLUT (ls : list N) (error : Z) (e : errvals) : errvals :=
  match ls with
  | [] => e
  | l :: r => addGroupErrorToLUT r error (lut_pairs l (l :: r) error e)
  end.

(** ErrorValues::setGroupError, ErrorValues.cc:134-149 (debugMessage omitted).
    The indexing [groupLetters[i]] stays in range. *)
Definition setGroupError (groupLetters : word) (error : Z) : M errvals unit :=
  newGroupID <- reads (fun e => Ok (length (ev_gerr e))) ;;
  (fun e => (with_gerr (ev_gerr e ++ [error]) e, Ok tt)) ;;;
  group_loop newGroupID groupLetters ;;;
  (fun e => (addGroupErrorToLUT groupLetters error e, Ok tt)).

(** The while loop of ErrorValues::addAccents, ErrorValues.cc:183-188.  The file
    is given as the list of its lines already converted to Words (file access and
    the search for the file are modelled in DataFileM.v). *)
Fixpoint addAccents (lines : list word) : M errvals unit :=
  match lines with
  | [] => ret tt
  | g :: r =>
    (match g with
     | [] => ret tt
     | _ => setGroupError g DEFAULT_GROUP_ERROR
     end) ;;;
    addAccents r
  end.

(** ErrorValues::addKeyboardErrors, ErrorValues.cc:191-216. *)
Definition kb_line1 : list N := [49; 50; 51; 52; 53; 54; 55; 56; 57; 48; 43].
(** Second line of the layout, ErrorValues.cc:191-216. *)
Definition kb_line2 : list N := [113; 119; 101; 114; 116; 121; 117; 105; 111; 112; 229].
(** Third line of the layout, ErrorValues.cc:191-216. *)
Definition kb_line3 : list N := [97; 115; 100; 102; 103; 104; 106; 107; 108; 246; 228; 39].
(** Fourth line of the layout, ErrorValues.cc:191-216. *)
Definition kb_line4 : list N := [122; 120; 99; 118; 98; 110; 109; 44; 46; 45].
(** The array of the four lines, ErrorValues.cc:191-216. *)
Definition kb_layout : list (list N) := [kb_line1; kb_line2; kb_line3; kb_line4].

(** One key of the layout, ErrorValues.cc:191-216; a missing one is letter 0. *)
Definition kb_key (i j : nat) : N := nth j (nth i kb_layout []) 0.
(** The length of a line, ErrorValues.cc:191-216. *)
Definition kb_len (i : nat) : nat := length (nth i kb_layout []).

(** The body of the inner loop for row [i], key [j1]. *)
Definition kb_step (i : nat) (e : errvals) (j1 : nat) : errvals :=
  let l1 := kb_key i j1 in
  let err := DEFAULT_TYPO_ERROR in
  let e := if Nat.ltb (S j1) (kb_len i) then setError l1 (kb_key i (S j1)) err e else e in
  let e := if Nat.ltb 0 j1 && Nat.ltb (j1 - 1) (kb_len (S i))
           then setError l1 (kb_key (S i) (j1 - 1)) err e else e in
  if Nat.ltb j1 (kb_len (S i)) then setError l1 (kb_key (S i) j1) err e else e.
(** ErrorValues::addKeyboardErrors, ErrorValues.cc:191-216. *)
Definition addKeyboardErrors (e : errvals) : errvals :=
  fold_left (fun e i => fold_left (kb_step i) (seq 0 (kb_len i)) e) (seq 0 3) e.

(** Tables of ErrorValues::addNumberpadErrors, ErrorValues.cc:232-246; the
    counts of [letterCount] are the lengths of the lists. *)
Definition pad_letters : list (list (list N)) :=
  [ [ []; [97; 98; 99]; [100; 101; 102] ];
    [ [103; 104; 105]; [106; 107; 108]; [109; 110; 111] ];
    [ [112; 113; 114; 115]; [116; 117; 118]; [119; 120; 121; 122] ] ].
(** The digits in the order of the array, ErrorValues.cc:226-261. *)
Definition pad_numbers : list (list N) := [ [49; 50; 51]; [52; 53; 54]; [55; 56; 57] ].
(** The letters on a digit key, ErrorValues.cc:226-261. *)
Definition pad_at (j i : nat) : list N := nth i (nth j pad_letters []) [].
(** The digit itself, ErrorValues.cc:226-261. *)
Definition pad_num (j i : nat) : N := nth i (nth j pad_numbers []) 0.

(** ErrorValues::setPadError, ErrorValues.cc:218-224 (its asserts hold for the
    tables above). *)
Definition setPadError (number : N) (letters : list N) (error : Z) (e : errvals) : errvals :=
  fold_left (fun e l => setError number l error e) letters e.

(** Loop body, ErrorValues.cc:250-259; [i-1 > 0] and [j-1 > 0] are on ints. *)
Definition pad_step (j : nat) (e : errvals) (i : nat) : errvals :=
  let n := pad_num j i in
  let e := setPadError n (pad_at j i) 0%Z e in
  let e := if (Z.of_nat i - 1 >? 0)%Z then setPadError n (pad_at j (i - 1)) 50%Z e else e in
  let e := if (Z.of_nat i + 1 <? 3)%Z then setPadError n (pad_at j (i + 1)) 50%Z e else e in
  let e := if (Z.of_nat j - 1 >? 0)%Z then setPadError n (pad_at (j - 1) i) 50%Z e else e in
  if (Z.of_nat j + 1 <? 3)%Z then setPadError n (pad_at (j + 1) i) 50%Z e else e.
(** ErrorValues::addNumberpadErrors, ErrorValues.cc:226-261. *)
Definition addNumberpadErrors (e : errvals) : errvals :=
  fold_left (fun e j => fold_left (pad_step j) (seq 0 3) e) (seq 0 3) e.

(** ErrorValues::addStandardErrors, ErrorValues.cc:263-267, on the contents of
    the two data files. *)
Definition addStandardErrors (latin greek : list word) : M errvals unit :=
  addAccents latin ;;; addAccents greek ;;;
  (fun e => (addKeyboardErrors e, Ok tt)).
