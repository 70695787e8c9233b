(** What running out of memory should do to a C program: a call that caught an exception
    has had no effect, and the others have the effect they have with memory enough. *)
From Verif Require Import Base TrieM WordStoreM ErrorValuesM LevIndexM WordM MapM DoubleM ContM MatcherM DataFileM OwnM OomM ParM Spec_Oom CMemM.
From Verif Require CApiM Spec_CApi.
Import CApiM(c_val, VVoid, c_call, PAt, col_word_new, col_document_add_text, col_corpus_add_document).
Local Open Scope N_scope.

(** What the handles of a program stand for, as in CApiM. *)
Definition the_handle (o : kobj) : CApiM.obj :=
  match o with
  | KWord w => CApiM.OWord (the_word w)
  | KDoc d => CApiM.ODoc (the_doc d)
  | KRes r => CApiM.OResults (mkMR (v_elems (or_vec r)) (or_sorted r))
  | KCorpus c => CApiM.OCorpus (map the_doc (v_elems c))
  end.
Definition the_heap (h : kheap) : CApiM.heap := map (option_map the_handle) h.

(** The call gives new words to a field that the document has. *)
Definition replaces (h : CApiM.heap) (c : c_call) : Prop :=
  exists x y s d f, c = col_document_add_text (PAt x) (PAt y) s /\ Spec_CApi.live h x (CApiM.ODoc d) /\ Spec_CApi.live h y (CApiM.OWord f) /\ In f (map fst (d_texts d)).
(** No such call ran out of memory. *)
Definition unharmed (E : env) (calls : list c_call) (m : memory) (h : kheap) : Prop :=
  forall k c m1 h1 es1 v, nth_error calls k = Some c -> k_runs E (firstn k calls) m h = (m1, h1, es1) -> replaces (the_heap h1) c ->
    nth_error (snd (k_runs E calls m h)) k <> Some (Caught OutOfMemory v).

(** What happened: the calls that returned, with their values.  Those that caught an
    exception did nothing, or, after running out of memory in col_document_add_text, what
    they do with no text. *)
Inductive happened : list c_call -> list c_end -> list c_call -> list c_val -> Prop :=
| hap_nil : happened [] [] [] []
| hap_returned c v cs es cs' vs : happened cs es cs' vs -> happened (c :: cs) (Returned v :: es) (c :: cs') (v :: vs)
| hap_caught c p v cs es cs' vs : happened cs es cs' vs -> happened (c :: cs) (Caught p v :: es) cs' vs
| hap_no_text x y s v cs es cs' vs : happened cs es cs' vs ->
    happened (col_document_add_text x y s :: cs) (Caught OutOfMemory v :: es) (col_document_add_text x y [] :: cs') (VVoid :: vs).

(** No call crashed, and none was of a function that is not modelled. *)
Definition all_values (es : list c_end) : Prop := Forall (fun e => match e with Returned _ | Caught _ _ => True | _ => False end) es.
(** The value a call gave. *)
Definition value (e : c_end) : c_val := match e with Returned v | Caught _ v => v | _ => VVoid end.
(** The calls ended without running out of memory. *)
Definition no_shortage (es : list c_end) : Prop := forall v, ~ In (Caught OutOfMemory v) es.

(** How many allocations a call may lose when it catches an exception. *)
Definition call_loses (c : c_call) : Z :=
  match c with
  | col_word_new _ => 1
  | col_document_add_text _ _ _ | col_corpus_add_document _ _ => 2
  | _ => 0
  end%Z.
(** What those that caught one may have lost. *)
Fixpoint calls_lose (cs : list c_call) (es : list c_end) : Z :=
  match cs, es with
  | c :: cs', e :: es' => (match e with Caught _ _ => call_loses c | _ => 0 end + calls_lose cs' es')%Z
  | _, _ => 0%Z
  end.
