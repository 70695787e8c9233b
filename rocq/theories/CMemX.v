(** Concrete C programs that run out of memory. *)
From Verif Require Import Base TrieM WordStoreM ErrorValuesM LevIndexM WordM MapM DoubleM ContM MatcherM DataFileM OwnM OomM ParM Demo OomX Spec_Oom CMemM Spec_CMem.
From Verif Require CApiM Spec_CApi.
Import CApiM(PNull, PAt, c_val, VVoid, VPtr, VSize, VDocID, c_call,
  col_word_new, col_word_delete, col_word_length, col_document_new, col_document_delete, col_document_add_text,
  col_match_results_new, col_match_results_delete, col_match_results_get_id, col_corpus_new, col_corpus_delete, col_corpus_add_document).
Local Open Scope N_scope.

(** Objects of every class; then all are deleted. *)
Definition c_prog : list c_call :=
  [col_word_new x_ab; col_document_new 5; col_document_add_text (PAt 1) (PAt 0) x_euros; col_corpus_new;
   col_corpus_add_document (PAt 2) (PAt 1); col_word_length (PAt 0); col_corpus_add_document (PAt 2) (PAt 1);
   col_match_results_new; col_match_results_get_id (PAt 3) 0; col_match_results_delete (PAt 3)].
Definition c_ends : list c_call := c_prog ++ [col_word_delete (PAt 0); col_document_delete (PAt 1); col_corpus_delete (PAt 2)].
(** The text is not added, and the document not put into the corpus the first time. *)
Definition c_plan : list bool := fails_at 16 ++ [true; true; true; true; false].
Definition c_mem : memory := Eval vm_compute in fst (fst (k_runs demo c_prog (mkMem c_plan 0) [])).
Definition c_heap : kheap := Eval vm_compute in snd (fst (k_runs demo c_prog (mkMem c_plan 0) [])).
Definition c_fates : list c_end := Eval vm_compute in snd (k_runs demo c_prog (mkMem c_plan 0) []).
Lemma c_prog_run : k_runs demo c_prog (mkMem c_plan 0) [] = (c_mem, c_heap, c_fates).
Proof. vm_compute. reflexivity. Qed.
Ltac steps k Hc Hr := repeat (destruct k as [|k]; [cbn in Hc; injection Hc as <-; intros (x & y & s & d & f & Hp & Hx & Hy & Hi); try discriminate Hp;
  injection Hp as <- <- <-; vm_compute in Hr; injection Hr as <- <- <-; vm_compute in Hx; injection Hx as <-; destruct Hi|]); destruct k; discriminate Hc.
Lemma c_prog_unharmed : unharmed demo c_prog (mkMem c_plan 0) [].
Proof. intros k c m1 h1 es1 v Hc Hr. steps k Hc Hr. Qed.
Lemma c_ends_unharmed : unharmed demo c_ends (mkMem c_plan 0) [].
Proof. intros k c m1 h1 es1 v Hc Hr. steps k Hc Hr. Qed.
Lemma c_prog_fine : all_values c_fates.
Proof. repeat constructor. Qed.
(** A text is added twice to the same field. *)
Definition c_twice : list c_call :=
  [col_word_new x_ab; col_document_new 5; col_document_add_text (PAt 1) (PAt 0) x_ab; col_document_add_text (PAt 1) (PAt 0) x_euros; col_document_delete (PAt 1)].
