(** C129, C130: a C program that runs out of memory.  The functions: [k_do] in CMemM.v,
    programs: [k_runs], where a list of booleans says which allocations succeed; the same
    calls with memory enough: [c_run] of CApiM.v; vocabulary: Spec_CMem.v. *)
From Verif Require Import Base TrieM WordStoreM ErrorValuesM LevIndexM WordM MapM DoubleM ContM MatcherM DataFileM OwnM OomM ParM Demo OomX Spec_Oom CMemM Spec_CMem CMemP CMemQ CMemR CMemX.
From Verif Require CApiM Spec_CApi.
Import CApiM(PNull, PAt, VVoid, VPtr, VSize, VDocID, c_do, c_run, col_word_new, col_document_delete, col_document_add_text, col_document_new, col_corpus_new, col_corpus_add_document, col_word_length, col_match_results_new, col_match_results_delete, col_matcher_new).
Import Spec_CApi(fallback).
Local Open Scope N_scope.

(** C129: a function that catches an exception, bad_alloc or another, gives what its
    caller is to take for a failure: a null pointer, 0, the greatest number or -1. *)
Theorem C129_fallback E p calls m h es k c q v : k_runs E calls (mkMem p 0) [] = (m, h, es) -> nth_error calls k = Some c -> nth_error es k = Some (Caught q v) ->
  v = fallback c.
Proof. exact (@caught_fallback E calls (mkMem p 0) [] m h es k c q v). Qed.
Print Assumptions C129_fallback.
Example C129_fallback_ex : k_runs demo c_prog (mkMem c_plan 0) [] = (c_mem, c_heap, c_fates) /\ nth_error c_fates 4 = Some (Caught OutOfMemory VVoid) /\
  nth_error c_fates 8 = Some (Caught (Thrown EOutOfRange) (VDocID 18446744073709551615)) /\
  snd (k_runs demo [col_word_new x_ab] (mkMem (fails_at 1) 0) []) = [Caught OutOfMemory (VPtr PNull)].
Proof. split; [exact c_prog_run|]. split; [reflexivity|]. split; [reflexivity|]. vm_compute. reflexivity. Qed.

(** C129: whichever allocations fail, a program in which no col_document_add_text to a
    field already there ran out of memory does nothing undefined, but for calls that are
    undefined with any amount of memory, and only builds with assertions abort.  Missing:
    col_document_add_text to a field already there; programs with a matcher. *)
Theorem C129_safe_partial E W p calls m h es : k_runs E calls (mkMem p 0) [] = (m, h, es) -> unharmed E calls (mkMem p 0) [] ->
  ~ In Call_fuel es /\
  (forall k, nth_error es k = Some Call_undefined -> exists c, nth_error calls k = Some c /\ snd (c_do E W c (the_heap h)) = UB) /\
  (In Call_aborted es -> e_ndebug E = false) /\
  (In Call_unmodelled es -> In col_matcher_new calls).
Proof. exact (fun H => @safe_calls E p calls m h es H W). Qed.
Print Assumptions C129_safe_partial.
Example C129_safe_ex : k_runs demo c_prog (mkMem c_plan 0) [] = (c_mem, c_heap, c_fates) /\ unharmed demo c_prog (mkMem c_plan 0) [] /\ all_values c_fates /\ length c_fates = 10%nat.
Proof. split; [exact c_prog_run|]. split; [exact c_prog_unharmed|]. split; [exact c_prog_fine|reflexivity]. Qed.
(** C129: false for that function: the words of the field can then no more be deleted. *)
Theorem C129_add_text_refuted : exists n m h, k_runs demo c_twice (mkMem (fails_at n) 0) [] =
  (m, h, [Returned (VPtr (PAt 0)); Returned (VPtr (PAt 1)); Returned VVoid; Caught OutOfMemory VVoid; Call_undefined]) /\ nth_error c_twice 4 = Some (col_document_delete (PAt 1)).
Proof. exists 23%nat. eexists _, _. split; [vm_compute; reflexivity|reflexivity]. Qed.
Print Assumptions C129_add_text_refuted.

(** C129: in a build with assertions, what the calls that returned gave, and what the
    handles then stand for, is what those calls alone give with memory enough; of the
    others only col_document_add_text may have left something, a field with no words.
    Missing as above, and builds without assertions. *)
Theorem C129_effects_partial E W p calls m h es : e_ndebug E = false -> k_runs E calls (mkMem p 0) [] = (m, h, es) -> unharmed E calls (mkMem p 0) [] -> all_values es ->
  exists calls' vs, happened calls es calls' vs /\ c_run E W calls' [] = (the_heap h, Ok vs).
Proof. exact (fun Hd H Hu Ha => @effect_of_calls E p calls m h es H W Hu Ha Hd). Qed.
Print Assumptions C129_effects_partial.
Example C129_effects_ex : happened c_prog c_fates
    [col_word_new x_ab; col_document_new 5; col_document_add_text (PAt 1) (PAt 0) []; col_corpus_new; col_word_length (PAt 0); col_corpus_add_document (PAt 2) (PAt 1);
     col_match_results_new; col_match_results_delete (PAt 3)]
    [VPtr (PAt 0); VPtr (PAt 1); VVoid; VPtr (PAt 2); VSize 2; VVoid; VPtr (PAt 3); VVoid] /\
  the_heap c_heap = [Some (CApiM.OWord x_ab); Some (CApiM.ODoc (mkDoc 5 [(x_ab, [])])); Some (CApiM.OCorpus [mkDoc 5 [(x_ab, [])]]); None].
Proof.
  split; [|reflexivity]. apply hap_returned, hap_returned, hap_no_text, hap_returned, hap_caught, hap_returned, hap_returned, hap_returned, hap_caught, hap_returned, hap_nil.
Qed.
(** C129: with memory enough a program without a matcher does in every build what it does
    in the model of the C interface that knows nothing of memory (C48, C49, C68). *)
Theorem C129_enough E W n calls g vs : c_run E W calls [] = (g, Ok vs) -> ~ In col_matcher_new calls ->
  exists m h es, k_runs E calls (mkMem [] n) [] = (m, h, es) /\ the_heap h = g /\ map value es = vs /\ all_values es /\ no_shortage es.
Proof. exact (fun H Hn => @enough_calls E W n calls g vs H Hn). Qed.
Print Assumptions C129_enough.
Example C129_enough_ex W : exists g vs, c_run demo W c_prog [] = (g, Ok vs) /\ length g = 4%nat /\ length vs = 10%nat.
Proof. eexists _, _. split; [vm_compute; reflexivity|split; reflexivity]. Qed.

(** C129: false that a function tells its caller when memory has run out.  If the third
    allocation of col_word_new fails the program ends, whatever the text; without
    assertions it is given the handle of a Word with no letters. *)
Theorem C129_copy_refuted E p calls m h es s r : k_runs E calls (mkMem p 0) [] = (m, h, es) -> all_values es -> plan m = true :: true :: false :: true :: r ->
  if e_ndebug E then exists m' w, k_runs E (calls ++ [col_word_new s]) (mkMem p 0) [] = (m', h ++ [Some (KWord w)], es ++ [Returned (VPtr (PAt (length h)))]) /\ the_word w = []
  else exists m', k_runs E (calls ++ [col_word_new s]) (mkMem p 0) [] = (m', h, es ++ [Call_aborted]).
Proof. exact (fun H => @no_copy E p calls m h es H s r). Qed.
Print Assumptions C129_copy_refuted.
Example C129_copy_ex : exists m h es, k_runs demo_release [col_document_new 1] (mkMem [true; true; true; true; false; true] 0) [] = (m, h, es) /\ all_values es /\ plan m = [true; true; false; true] /\
  e_ndebug demo_release = true /\ e_ndebug demo = false.
Proof. eexists _, _, _. split; [vm_compute; reflexivity|]. split; [repeat constructor|]. repeat split. Qed.

(** C130: when all handles were deleted, no more memory is held than the calls that caught
    an exception may lose: one allocation each for col_word_new, two for
    col_document_add_text and col_corpus_add_document, none for the others.  Missing as
    for C129. *)
Theorem C130_freed_partial E p calls m h es : k_runs E calls (mkMem p 0) [] = (m, h, es) -> unharmed E calls (mkMem p 0) [] -> all_values es ->
  (forall o, In o h -> o = None) -> (0 <= live m <= calls_lose calls es)%Z.
Proof. exact (fun H => @freed_calls E p calls m h es H). Qed.
Print Assumptions C130_freed_partial.
Example C130_freed_ex : exists m h es, k_runs demo c_ends (mkMem c_plan 0) [] = (m, h, es) /\ unharmed demo c_ends (mkMem c_plan 0) [] /\ all_values es /\ (forall o, In o h -> o = None) /\
  live m = 1%Z /\ calls_lose c_ends es = 4%Z.
Proof. eexists _, _, _. split; [vm_compute; reflexivity|]. split; [exact c_ends_unharmed|]. split; [repeat constructor|]. split; [cbn; intuition|]. split; reflexivity. Qed.
(** C130: what they may lose they do lose, in some runs. *)
Theorem C130_leak_refuted : exists c_plan1 c_plan2 c_plan3 m1 h1 m2 h2 m3 h3,
  k_runs demo [col_word_new x_euros] (mkMem c_plan1 0) [] = (m1, h1, [Caught OutOfMemory (VPtr PNull)]) /\ h1 = [] /\ live m1 = 1%Z /\
  k_runs demo c_ends (mkMem c_plan2 0) [] = (m2, h2, snd (k_runs demo c_ends (mkMem c_plan2 0) [])) /\ (forall o, In o h2 -> o = None) /\ live m2 = 2%Z /\
  nth_error (snd (k_runs demo c_ends (mkMem c_plan2 0) [])) 2 = Some (Caught OutOfMemory VVoid) /\ nth_error (snd (k_runs demo c_ends (mkMem c_plan2 0) [])) 4 = Some (Returned VVoid) /\
  k_runs demo c_ends (mkMem c_plan3 0) [] = (m3, h3, snd (k_runs demo c_ends (mkMem c_plan3 0) [])) /\ (forall o, In o h3 -> o = None) /\ live m3 = 2%Z /\
  nth_error (snd (k_runs demo c_ends (mkMem c_plan3 0) [])) 2 = Some (Returned VVoid) /\ nth_error (snd (k_runs demo c_ends (mkMem c_plan3 0) [])) 4 = Some (Caught OutOfMemory VVoid).
Proof.
  exists (fails_at 3), (fails_at 9), (fails_at 24). eexists _, _, _, _, _, _. split; [vm_compute; reflexivity|]. split; [reflexivity|]. split; [reflexivity|].
  split; [vm_compute; reflexivity|]. split; [cbn; intuition|]. split; [reflexivity|]. split; [vm_compute; reflexivity|]. split; [vm_compute; reflexivity|].
  split; [vm_compute; reflexivity|]. split; [cbn; intuition|]. split; [reflexivity|]. split; vm_compute; reflexivity.
Qed.
Print Assumptions C130_leak_refuted.
