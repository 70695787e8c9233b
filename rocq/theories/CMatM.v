(** Running out of memory in a C program that has matchers: src/ColumbusCAPI.cc over
    FailM.v.

    Simplified: what matchers allocate is as in FailM; changing prices and deleting do not
    run out of memory.  The other objects are as in CApiM: making one, and adding a document to a
    corpus, is one allocation, and without it nothing happens; adding text to a document
    is two, the first for the words and the second for their copy in the document, as
    CMemM.v models it in detail (C129).  Memory that is lost is not counted. *)
From Verif Require Import Base TrieM WordStoreM ErrorValuesM LevIndexM WordM MapM DoubleM ContM MatcherM DataFileM CApiM FailM.
Local Open Scope N_scope.

(** [x_heap]: the objects of the program, as in CApiM; [x_plan]: for each allocation to
    come, whether it succeeds (all do after the end); [x_failed]: in which matcher, and
    where, allocations failed so far, which only theorems look at. *)
Record xstate := mkX { x_heap : heap; x_plan : list bool; x_failed : list (nat * place) }.
(** How a call ended: with a value; with a value after std::bad_alloc was caught; or not. *)
Inductive x_end := Gave (v : c_val) | Short (v : c_val) | X_aborted | X_undefined | X_fuel.
(** An allocation outside of a matcher. *)
Definition x_take (st : xstate) : bool * xstate :=
  match x_plan st with [] => (true, st) | b :: r => (b, mkX (x_heap st) r (x_failed st)) end.
(** A function that does not run out of memory, as in CApiM. *)
Definition x_pure (E : env) (W : world) (c : c_call) (st : xstate) : xstate * x_end :=
  let (h, o) := c_do E W c (x_heap st) in
  (mkX h (x_plan st) (x_failed st), match o with Ok v => Gave v | Throw _ | UB => X_undefined | Abort => X_aborted | Fuel => X_fuel end).
(** The function caught std::bad_alloc before it did anything; the handles it was given
    are used nevertheless. *)
Definition x_short (E : env) (W : world) (c : c_call) (fallback : c_val) (st : xstate) : xstate * x_end :=
  match snd (c_do E W c (x_heap st)) with UB => (st, X_undefined) | _ => (st, Short fallback) end.
(** A function that needs one allocation. *)
Definition x_one (E : env) (W : world) (c : c_call) (fallback : c_val) (st : xstate) : xstate * x_end :=
  let (b, st1) := x_take st in if b : bool then x_pure E W c st1 else x_short E W c fallback st1.
(** The document has words for the field already. *)
Definition x_has (h : heap) (doc field_name : ptr) : bool :=
  match doc, field_name with
  | PAt d, PAt f =>
    match get_obj h d, get_obj h f with
    | Some (ODoc x), Some (OWord w) => match mp_find wltb w (d_texts x) with Some _ => true | None => false end
    | _, _ => false
    end
  | _, _ => false
  end.
(** A matcher that is given as a handle, ColumbusCAPI.cc. *)
Definition x_matcher (h : heap) (n : nat) : option matcher := match get_obj h n with Some (OMatcher m) => Some m | _ => None end.
(** A method of matcher number [n] in a try block of ColumbusCAPI.cc. *)
Definition x_on {A} (n : nat) (m : matcher) (f : F A) (fallback : c_val) (k : A -> xstate -> xstate * x_end) (st : xstate) : xstate * x_end :=
  let (s, o) := f (mkF m (x_plan st) []) in
  let st' := mkX (upd n (Some (OMatcher (f_m s))) (x_heap st)) (f_plan s) (x_failed st ++ map (pair n) (f_failed s)) in
  match o with
  | Val a => k a st'
  | Out => (st', Short fallback)
  | Thrown _ => (st', Gave fallback)
  | Aborted => (st', X_aborted)
  | Undefined => (st', X_undefined)
  | NoFuel => (st', X_fuel)
  end.
(** The object made of the results of a search, ColumbusCAPI.cc:139-140. *)
Definition x_results (r : mresults) (st : xstate) : xstate * x_end :=
  let (b, st1) := x_take st in
  if b : bool then (mkX (x_heap st1 ++ [Some (OResults r)]) (x_plan st1) (x_failed st1), Gave (VPtr (PAt (length (x_heap st1)))))
  else (st1, Short (VPtr PNull)).

(** ColumbusCAPI.cc:38-277, function by function. *)
Definition x_do (E : env) (W : world) (c : c_call) (st : xstate) : xstate * x_end :=
  match c with
  | col_word_new _ => x_one E W c (VPtr PNull) st               (* 38-46 *)
  | col_document_new _ => x_one E W c (VPtr PNull) st           (* 73-80 *)
  | col_document_add_text d f _ =>                              (* 99-107 *)
    let (b, st1) := x_take st in
    if b : bool then
      (let (b2, st2) := x_take st1 in
       if b2 : bool then x_pure E W c st2
       else if x_has (x_heap st2) d f then (st2, X_undefined)   (* C129_add_text_refuted: at the latest when the document is deleted *)
       else match x_pure E W (col_document_add_text d f []) st2 with (st3, Gave v) => (st3, Short v) | r => r end)
    else x_short E W c VVoid st1
  | col_matcher_new => x_one E W c (VPtr PNull) st              (* 109-116 *)
  | col_matcher_index (PAt n) (PAt j) =>                        (* 126-134 *)
    match x_matcher (x_heap st) n, get_obj (x_heap st) j with
    | Some m, Some (OCorpus cp) => x_on n m (f_index E cp) VVoid (fun _ st' => (st', Gave VVoid)) st
    | _, _ => (st, X_undefined)
    end
  | col_matcher_match (PAt n) query =>                          (* 136-146 *)
    match x_matcher (x_heap st) n with
    | Some m =>
      match splitToWords E query with
      | Ok q => x_on n m (f_match E q sp_new) (VPtr PNull) x_results st
      | Throw _ => (st, Gave (VPtr PNull))
      | Abort => (st, X_aborted)
      | UB => (st, X_undefined)
      | Fuel => (st, X_fuel)
      end
    | None => (st, X_undefined)
    end
  | col_match_results_new => x_one E W c (VPtr PNull) st        (* 168-175 *)
  | col_corpus_new => x_one E W c (VPtr PNull) st               (* 213-220 *)
  | col_corpus_add_document _ _ => x_one E W c VVoid st         (* 231-239 *)
  | col_error_values_add_standard_errors (PErr n) =>            (* 241-248 *)
    match x_matcher (x_heap st) n with
    | Some m => x_on n m (on_m (on_ev (addStandardErrors_file E W))) VVoid (fun _ st' => (st', Gave VVoid)) st
    | None => (st, X_undefined)
    end
  | col_error_values_set_substring_mode (PErr n) =>             (* 250-257 *)
    match x_matcher (x_heap st) n with
    | Some m => x_on n m (on_m (on_ev (fun e => (setSubstringMode e, Ok tt)))) VVoid (fun _ st' => (st', Gave VVoid)) st
    | None => (st, X_undefined)
    end
  | col_index_weights_set_weight (PWeights n) (PAt j) x =>      (* 259-267 *)
    match x_matcher (x_heap st) n, get_obj (x_heap st) j with
    | Some m, Some (OWord w) => x_on n m (f_setWeight w x) VVoid (fun _ st' => (st', Gave VVoid)) st
    | _, _ => (st, X_undefined)
    end
  | _ => x_pure E W c st                                        (* the others *)
  end.
(** A C program as the sequence of its calls; nothing comes after a crash. *)
Fixpoint x_run (E : env) (W : world) (calls : list c_call) (st : xstate) : xstate * list x_end :=
  match calls with
  | [] => (st, [])
  | c :: r =>
    match x_do E W c st with
    | (st1, Gave v) => let (st2, es) := x_run E W r st1 in (st2, Gave v :: es)
    | (st1, Short v) => let (st2, es) := x_run E W r st1 in (st2, Short v :: es)
    | (st1, e) => (st1, [e])
    end
  end.
