(** Running out of memory in a C program: the functions of src/ColumbusCAPI.cc for words,
    documents, corpora and results when any allocation may fail.

    Simplified as in OomM and ParM.  col_matcher_new is left out, so a program has no
    matcher (CMatM has matchers that run out of memory), and the functions that take a
    matcher, its prices or its weights have nothing they can be given.  The message that a
    function prints when it catches an exception allocates nothing. *)
From Verif Require Import Base TrieM WordStoreM ErrorValuesM LevIndexM WordM MapM DoubleM ContM MatcherM DataFileM OwnM OomM ParM.
From Verif Require CApiM.
Import CApiM(ptr, PNull, PAt, PErr, PWeights, c_val, VVoid, VPtr, VSize, VDocID, VDouble, VText, c_call,
  col_word_new, col_word_delete, col_word_length, col_word_as_utf8, col_document_new, col_document_delete, col_document_get_id,
  col_document_add_text, col_matcher_new, col_match_results_new, col_match_results_delete, col_match_results_size,
  col_match_results_get_id, col_match_results_get_relevancy, col_corpus_new, col_corpus_delete, col_corpus_add_document).
Local Open Scope N_scope.
Local Open Scope t_scope.

(** The objects a C program holds, in the order of their creation; a deleted object leaves
    its number unused. *)
Inductive kobj := KWord (o : oword) | KDoc (d : odoc) | KRes (r : ores) | KCorpus (c : ocorpus).
(** The memory of the C program, as far as ColumbusCAPI.cc sees it. *)
Definition kheap := list (option kobj).
(** Undefined behaviour. *)
Definition broken {A} : T A := fun m => (m, Undefined).
(** A handle used as an object, ColumbusCAPI.cc: undefined if there is none. *)
Definition k_at (h : kheap) (p : ptr) : option (nat * kobj) :=
  match p with PAt n => match nth_error h n with Some (Some o) => Some (n, o) | _ => None end | _ => None end.
(** new T(...): the storage of the object is given back if the constructor throws (C++
    semantics). *)
Definition k_new {A} (f : T A) : T A := alloc ;;; cleanup f free.
(** try { ... } catch(exception &e) { ... }: the value, or the exception that was caught. *)
Definition k_try {A} (fallback : c_val) (h : kheap) (f : T A) (k : A -> kheap * c_val) : T (kheap * c_val * option stop) :=
  r <- try f ;; val match r with inl a => (k a, None) | inr p => ((h, fallback), Some p) end.
(** A new object and the pointer to it. *)
Definition k_add (h : kheap) (o : kobj) : kheap * c_val := (h ++ [Some o], VPtr (PAt (length h))).
(** delete p: nothing for a null pointer; the destructor, then the storage. *)
Definition k_delete (h : kheap) (p : ptr) (mine : kobj -> option (T unit)) : T (kheap * c_val * option stop) :=
  match p with
  | PNull => val ((h, VVoid), None)
  | _ =>
    match k_at h p with
    | Some (n, o) => match mine o with Some f => f ;;; free ;;; val ((upd n None h, VVoid), None) | None => broken end
    | None => broken
    end
  end.
(** What MatchResults::getDocumentID (MatchResults.cc:105-111) does to an object; it
    allocates nothing. *)
Definition r_getID (i : N) (r : ores) : ores * outcome N :=
  let (r', o) := mr_getDocumentID i (mkMR (v_elems (or_vec r)) (or_sorted r)) in
  (mkOR (mkVec (mr_results r') (v_cap (or_vec r))) (mr_sorted r'), o).

(** ColumbusCAPI.cc:38-239, function by function; [None]: not modelled. *)
Definition k_do (E : env) (c : c_call) (h : kheap) : option (T (kheap * c_val * option stop)) :=
  match c with
  | col_word_new s => Some (k_try (VPtr PNull) h (k_new (o_of_text E s)) (fun w => k_add h (KWord w)))     (* 38-46 *)
  | col_word_delete w => Some (k_delete h w (fun o => match o with KWord x => Some (o_destroy x) | _ => None end))     (* 48-54 *)
  | col_word_length w =>                                        (* 56-63 *)
    Some match k_at h w with Some (_, KWord x) => val ((h, VSize (o_len x)), None) | _ => broken end
  | col_word_as_utf8 w bufSize =>                               (* 65-71 *)
    Some match k_at h w with
         | Some (_, KWord x) => ls <- o_read x ;; k_try VVoid h (pure (w_toUtf8 ls bufSize)) (fun t => (h, VText t))
         | _ => broken
         end
  | col_document_new id => Some (k_try (VPtr PNull) h (k_new (d_new id)) (fun d => k_add h (KDoc d)))     (* 73-80 *)
  | col_document_delete d => Some (k_delete h d (fun o => match o with KDoc x => Some (d_destroy x) | _ => None end))     (* 82-88 *)
  | col_document_get_id d =>                                    (* 90-97 *)
    Some match k_at h d with Some (_, KDoc x) => val ((h, VDocID (od_id x)), None) | _ => broken end
  | col_document_add_text d field text =>                       (* 99-107 *)
    Some match k_at h d, k_at h field with
         | Some (n, KDoc x), Some (_, KWord w) =>
           r <- d_addUtf8 E x w text ;; val ((upd n (Some (KDoc (fst r))) h, VVoid), snd r)
         | _, _ => broken
         end
  | col_matcher_new => None
  | CApiM.col_matcher_delete m => Some (k_delete h m (fun _ => None))     (* 118-124 *)
  | col_match_results_new => Some (k_try (VPtr PNull) h (k_new r_new) (fun r => k_add h (KRes r)))     (* 168-175 *)
  | col_match_results_delete r => Some (k_delete h r (fun o => match o with KRes x => Some (r_destroy x) | _ => None end))     (* 176-182 *)
  | col_match_results_size r =>                                 (* 184-191 *)
    Some match k_at h r with Some (_, KRes x) => val ((h, VSize (N.of_nat (length (v_elems (or_vec x))))), None) | _ => broken end
  | col_match_results_get_id r i =>                             (* 193-201 *)
    Some match k_at h r with
         | Some (n, KRes x) =>
           let (x', o) := r_getID i x in let h' := upd n (Some (KRes x')) h in
           k_try (VDocID CApiM.INVALID_DOCID) h' (pure o) (fun d => (h', VDocID d))
         | _ => broken
         end
  | col_match_results_get_relevancy r i =>                      (* 203-211: getDocumentID, converted to double *)
    Some match k_at h r with
         | Some (n, KRes x) =>
           let (x', o) := r_getID i x in let h' := upd n (Some (KRes x')) h in
           k_try (VDouble (d_of_Z (-1))) h' (pure o) (fun d => (h', VDouble (d_of_Z (Z.of_N d))))
         | _ => broken
         end
  | col_corpus_new => Some (k_try (VPtr PNull) h (k_new c_new) (fun c => k_add h (KCorpus c)))     (* 213-220 *)
  | col_corpus_delete c => Some (k_delete h c (fun o => match o with KCorpus x => Some (c_destroy x) | _ => None end))     (* 223-229 *)
  | col_corpus_add_document c d =>                              (* 231-239 *)
    Some match k_at h c, k_at h d with
         | Some (n, KCorpus x), Some (_, KDoc y) =>
           k_try VVoid h (c_add x y) (fun x' => (upd n (Some (KCorpus x')) h, VVoid))
         | _, _ => broken
         end
  | _ => Some broken                                            (* no handle of that class *)
  end.
(** How a call ended: with a value, with a value after it caught an exception, or not. *)
Inductive c_end := Returned (v : c_val) | Caught (p : stop) (v : c_val) | Call_aborted | Call_undefined | Call_fuel | Call_unmodelled.
(** A C program as the sequence of its calls; nothing comes after a crash. *)
Fixpoint k_runs (E : env) (calls : list c_call) (m : memory) (h : kheap) : memory * kheap * list c_end :=
  match calls with
  | [] => (m, h, [])
  | c :: r =>
    match k_do E c h with
    | None => (m, h, [Call_unmodelled])
    | Some f =>
      match f m with
      | (m1, Val (h1, v, e)) =>
        let '(m2, h2, es) := k_runs E r m1 h1 in (m2, h2, match e with None => Returned v | Some p => Caught p v end :: es)
      | (m1, Fail p) => (m1, h, [Call_undefined])   (* an exception leaves a C function; it never does *)
      | (m1, Aborted) => (m1, h, [Call_aborted])
      | (m1, Undefined) => (m1, h, [Call_undefined])
      | (m1, NoFuel) => (m1, h, [Call_fuel])
      end
    end
  end.
