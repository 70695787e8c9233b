(** The C interface: every function, and searching from C. *)
From Verif Require Import Base TrieM WordStoreM ErrorValuesM LevIndexM WordM MapM DoubleM ContM MatcherM DataFileM CApiM
  Spec_Hist Spec_EV Spec_Word Spec_Cont Spec_Lev Spec_Match Spec_File Spec_CApi WordP SplitP MapP ContP DataP EVR ScalarP TypoP MatchY MatchZ CApiP CApiQ.
From Coq Require Import ZifyBool ZifyN ZifyNat.
Local Open Scope N_scope.
Local Open Scope m_scope.

Lemma only_upd h n o x : live h n o -> only n x h (upd n x h).
Proof. intros Hl. split; [apply upd_same; exact (live_lt Hl)|]. intros k Hk. apply upd_other. congruence. Qed.
Lemma only_new h o : only (fresh h) (Some o) h (h ++ [Some o]).
Proof.
  split; [unfold fresh; now rewrite nth_error_app2, Nat.sub_diag by lia|]. intros k Hk. unfold fresh in Hk.
  destruct (Nat.lt_ge_cases k (length h)); [now rewrite nth_error_app1|]. rewrite nth_error_app2 by lia. rewrite (proj2 (nth_error_None h k)) by lia.
  destruct (k - length h)%nat as [|j] eqn:Hj; [lia|]. now destruct j.
Qed.
Section Functions.
Variables (E : env) (W : world) (h : heap).
Notation run c := (c_do E W c h).
Notation creates := (creates E W h). Notation only_says := (only_says E W h).
Lemma word_new s : match word_of_utf8 E s with
  | Ok w => creates (col_word_new s) (OWord w)
  | Throw _ => only_says (col_word_new s) (VPtr PNull)
  | _ => True end.
Proof.
  destruct (word_of_utf8 E s) as [w|x| | |] eqn:Hw; try exact I; unfold Spec_CApi.creates, Spec_CApi.only_says; cbn [c_do]; unfold caught, reads, mbind, alloc, ret; rewrite Hw; cbn [fst snd]; [|reflexivity].
  split; [apply only_new|reflexivity].
Qed.
Lemma word_length n w : live h n (OWord w) -> only_says (col_word_length (PAt n)) (VSize (N.of_nat (length w))).
Proof. intros Hl. unfold Spec_CApi.only_says. cbn [c_do]. unfold caught, mbind. now rewrite (the_word_live Hl). Qed.
Lemma word_utf8 n w k : live h n (OWord w) -> match w_toUtf8 w k with
  | Ok t => only_says (col_word_as_utf8 (PAt n) k) (VText t)
  | Throw _ => only_says (col_word_as_utf8 (PAt n) k) VVoid
  | _ => True end.
Proof.
  intros Hl. destruct (w_toUtf8 w k) as [t|x| | |] eqn:Hw; try exact I; unfold Spec_CApi.only_says; cbn [c_do]; unfold caught, mbind; rewrite (the_word_live Hl); unfold reads; cbn [fst snd]; now rewrite Hw.
Qed.
Lemma deletes_done n o c : live h n o -> match o with OWord _ => col_word_delete (PAt n) | ODoc _ => col_document_delete (PAt n) | OMatcher _ => col_matcher_delete (PAt n)
  | OResults _ => col_match_results_delete (PAt n) | OCorpus _ => col_corpus_delete (PAt n) end = c -> run c = (upd n None h, Ok VVoid).
Proof.
  intros Hl <-. pose proof Hl as Hg. apply live_get in Hg. destruct o; cbn [c_do]; unfold caught, mbind, del; rewrite Hg; reflexivity.
Qed.
Lemma deletes_only n o c : live h n o -> c = match o with OWord _ => col_word_delete (PAt n) | ODoc _ => col_document_delete (PAt n) | OMatcher _ => col_matcher_delete (PAt n)
  | OResults _ => col_match_results_delete (PAt n) | OCorpus _ => col_corpus_delete (PAt n) end -> only n None h (fst (run c)) /\ snd (run c) = Ok VVoid.
Proof. intros Hl Hc. rewrite (deletes_done Hl (eq_sym Hc)). split; [exact (only_upd _ Hl)|reflexivity]. Qed.
Lemma null_deletes c : c = col_word_delete PNull \/ c = col_document_delete PNull \/ c = col_matcher_delete PNull \/ c = col_match_results_delete PNull \/ c = col_corpus_delete PNull ->
  only_says c VVoid.
Proof. intros [->|[->|[->|[->| ->]]]]; reflexivity. Qed.
Lemma document_new id : creates (col_document_new id) (ODoc (doc_new id)).
Proof. split; [apply only_new|reflexivity]. Qed.
Lemma document_id n d : live h n (ODoc d) -> only_says (col_document_get_id (PAt n)) (VDocID (doc_getID d)).
Proof. intros Hl. unfold Spec_CApi.only_says. cbn [c_do]. unfold caught, mbind. now rewrite (the_doc_live Hl). Qed.
Lemma results_new : creates col_match_results_new (OResults mr_new).
Proof. split; [apply only_new|reflexivity]. Qed.
Lemma corpus_new : creates col_corpus_new (OCorpus []).
Proof. split; [apply only_new|reflexivity]. Qed.
Lemma matcher_new : match mt_new E with Ok m => creates col_matcher_new (OMatcher m) | Throw _ => only_says col_matcher_new (VPtr PNull) | _ => True end.
Proof.
  destruct (mt_new E) as [m|x| | |] eqn:Hw; try exact I; unfold Spec_CApi.creates, Spec_CApi.only_says; cbn [c_do]; unfold caught, reads, mbind, alloc, ret; rewrite Hw; cbn [fst snd]; [|reflexivity].
  split; [apply only_new|reflexivity].
Qed.
Lemma relay S A c n (s : S) wrap (f : M S A) (g : A -> c_val) o : live h n o ->
  run c = caught (fallback c) (a <- method n s wrap f ;; ret (g a)) h -> relays c n wrap (fst (f s)) (snd (f s)) g h (run c).
Proof.
  intros Hl ->. unfold relays, caught, mbind, method, ret. destruct (f s) as [s' [a|x| | |]]; cbn [fst snd]; (split; [exact (only_upd _ Hl)|reflexivity]).
Qed.
Lemma add_text n d j f t : live h n (ODoc d) -> live h j (OWord f) ->
  relays (col_document_add_text (PAt n) (PAt j) t) n ODoc (fst (doc_addText_utf8 E f t d)) (snd (doc_addText_utf8 E f t d)) (fun _ => VVoid) h (run (col_document_add_text (PAt n) (PAt j) t)).
Proof. intros Hn Hj. apply (relay Hn). cbn [c_do fallback]. unfold caught, mbind at 1 2. now rewrite (the_doc_live Hn), (the_word_live Hj). Qed.
Lemma add_document n c j d : live h n (OCorpus c) -> live h j (ODoc d) ->
  relays (col_corpus_add_document (PAt n) (PAt j)) n OCorpus (fst (co_addDocument d c)) (snd (co_addDocument d c)) (fun _ => VVoid) h (run (col_corpus_add_document (PAt n) (PAt j))).
Proof. intros Hn Hj. apply (relay Hn). cbn [c_do fallback]. unfold caught, mbind at 1 2. now rewrite (the_corpus_live Hn), (the_doc_live Hj). Qed.
Lemma index_call n m j c : live h n (OMatcher m) -> live h j (OCorpus c) ->
  relays (col_matcher_index (PAt n) (PAt j)) n OMatcher (fst (mt_index E c m)) (snd (mt_index E c m)) (fun _ => VVoid) h (run (col_matcher_index (PAt n) (PAt j))).
Proof. intros Hn Hj. apply (relay Hn). cbn [c_do fallback]. unfold caught, mbind at 1 2. now rewrite (the_matcher_live Hn), (the_corpus_live Hj). Qed.
Lemma members n m : live h n (OMatcher m) ->
  only_says (col_matcher_get_error_values (PAt n)) (VPtr (PErr n)) /\ only_says (col_matcher_get_index_weights (PAt n)) (VPtr (PWeights n)).
Proof. intros Hl. unfold Spec_CApi.only_says. cbn [c_do]. unfold caught, mbind. now rewrite (the_matcher_live Hl). Qed.
Lemma standard n m : live h n (OMatcher m) ->
  relays (col_error_values_add_standard_errors (PErr n)) n OMatcher (fst (on_ev (addStandardErrors_file E W) m)) (snd (on_ev (addStandardErrors_file E W) m)) (fun _ => VVoid) h
    (run (col_error_values_add_standard_errors (PErr n))).
Proof. intros Hn. apply (relay Hn). cbn [c_do fallback]. unfold caught, mbind at 1. now rewrite (the_errors_live Hn). Qed.
Lemma substring n m : live h n (OMatcher m) -> forall f, f = on_ev (fun e => (setSubstringMode e, Ok tt)) ->
  relays (col_error_values_set_substring_mode (PErr n)) n OMatcher (fst (f m)) (snd (f m)) (fun _ => VVoid) h (run (col_error_values_set_substring_mode (PErr n))).
Proof. intros Hn f ->. apply (relay Hn). cbn [c_do fallback]. unfold caught, mbind at 1. now rewrite (the_errors_live Hn). Qed.
Lemma set_weight n m j f x : live h n (OMatcher m) -> live h j (OWord f) ->
  relays (col_index_weights_set_weight (PWeights n) (PAt j) x) n OMatcher (fst (set_w (iw_setWeight f x) m)) (snd (set_w (iw_setWeight f x) m)) (fun _ => VVoid) h
    (run (col_index_weights_set_weight (PWeights n) (PAt j) x)).
Proof. intros Hn Hj. apply (relay Hn). cbn [c_do fallback]. unfold caught, mbind at 1 2. now rewrite (the_weights_live Hn), (the_word_live Hj). Qed.
Lemma get_weight n m j f : live h n (OMatcher m) -> live h j (OWord f) ->
  only_says (col_index_weights_get_weight (PWeights n) (PAt j)) (VDouble (iw_getWeight (mt_w m) f)).
Proof. intros Hn Hj. unfold Spec_CApi.only_says. cbn [c_do]. unfold caught, mbind. now rewrite (the_weights_live Hn), (the_word_live Hj). Qed.
Lemma results_size n r : live h n (OResults r) -> only_says (col_match_results_size (PAt n)) (VSize (mr_size r)).
Proof. intros Hl. unfold Spec_CApi.only_says. cbn [c_do]. unfold caught, mbind. now rewrite (the_results_live Hl). Qed.
Lemma results_id n r i : live h n (OResults r) ->
  relays (col_match_results_get_id (PAt n) i) n OResults (fst (mr_getDocumentID i r)) (snd (mr_getDocumentID i r)) VDocID h (run (col_match_results_get_id (PAt n) i)).
Proof. intros Hn. apply (relay Hn). cbn [c_do fallback]. unfold caught, mbind at 1. now rewrite (the_results_live Hn). Qed.
Lemma results_relevancy n r i : live h n (OResults r) ->
  relays (col_match_results_get_relevancy (PAt n) i) n OResults (fst (mr_getDocumentID i r)) (snd (mr_getDocumentID i r)) (fun d => VDouble (d_of_Z (Z.of_N d))) h
    (run (col_match_results_get_relevancy (PAt n) i)).
Proof. intros Hn. apply (relay Hn). cbn [c_do fallback]. unfold caught, mbind at 1. now rewrite (the_results_live Hn). Qed.
Lemma match_call n m s : live h n (OMatcher m) ->
  let c := col_matcher_match (PAt n) s in
  match mt_match_utf8 E s sp_new m with
  | (m', Ok r) => nth_error (fst (run c)) n = Some (Some (OMatcher m')) /\ nth_error (fst (run c)) (fresh h) = Some (Some (OResults r)) /\
                  (forall k, k <> n -> k <> fresh h -> nth_error (fst (run c)) k = nth_error h k) /\ snd (run c) = Ok (VPtr (PAt (fresh h)))
  | (m', Throw _) => only n (Some (OMatcher m')) h (fst (run c)) /\ snd (run c) = Ok (VPtr PNull)
  | (m', UB) => snd (run c) = UB | (m', Abort) => snd (run c) = Abort | (m', Fuel) => snd (run c) = Fuel
  end.
Proof.
  intros Hn c. unfold c. cbn [c_do]. unfold caught, mbind. rewrite (the_matcher_live Hn). unfold method. cbn [fst snd].
  destruct (mt_match_utf8 E s sp_new m) as [m' [r|x| | |]]; cbn [fst snd alloc ret]; try reflexivity; [|split; [exact (only_upd _ Hn)|reflexivity]].
  pose proof (live_lt Hn) as Hlt. assert (Hlen : length (upd n (Some (OMatcher m')) h) = length h) by apply upd_len.
  split; [rewrite nth_error_app1 by (rewrite Hlen; exact Hlt); now apply upd_same|].
  split; [unfold fresh; rewrite nth_error_app2, Hlen, Nat.sub_diag by lia; reflexivity|].
  split; [|unfold fresh; now rewrite Hlen]. intros k Hk Hk2. destruct (@only_new (upd n (Some (OMatcher m')) h) (OResults r)) as [_ Ho].
  rewrite Ho by (unfold fresh in *; congruence). apply upd_other. congruence.
Qed.
End Functions.

(** ** What a C program does to its matchers *)
Lemma run_inv E W : folds_shipped E -> shipped W -> forall calls lg h h' vs, inv E lg h -> Forall c_strings calls -> c_run E W calls h = (h', Ok vs) ->
  inv E (fun n => lg n ++ cpp_history E W calls h n) h'.
Proof.
  intros HF HW. induction calls as [|c calls IH]; intros lg h h' vs HI Hs Hr.
  - injection Hr as <- <-. refine (inv_ext _ HI). intros n. cbn. apply app_nil_r.
  - apply Forall_cons_iff in Hs as [Hc Hs]. cbn [c_run] in Hr. apply bind_ok in Hr as (h1 & v & Hv & Hr). apply bind_ok in Hr as (h2 & vs2 & Hvs & Hr). injection Hr as <- _.
    pose proof (call_inv HF HW HI Hc Hv) as HI1. pose proof (IH _ _ _ _ HI1 Hs Hvs) as HI2. refine (inv_ext _ HI2). intros n. cbn [cpp_history]. unfold grow. rewrite Hv. cbn [fst]. now rewrite app_assoc.
Qed.
Lemma inv_empty E : inv E (fun _ => []) [].
Proof. split; [|reflexivity]. intros n o H. unfold live in H. destruct n; discriminate H. Qed.
Lemma reached_inv E W calls h : folds_shipped E -> shipped W -> Forall c_strings calls -> c_reached E W calls h -> inv E (cpp_history E W calls []) h.
Proof. intros HF HW Hs (vs & Hr). exact (run_inv HF HW (inv_empty E) Hs Hr). Qed.
Lemma as_cpp E W calls h n m : folds_shipped E -> shipped W -> Forall c_strings calls -> c_reached E W calls h -> live h n (OMatcher m) ->
  exists m0, mt_new E = Ok m0 /\ m = m_all E (cpp_history E W calls [] n) m0.
Proof. intros HF HW Hs Hr Hl. apply (obj_live (reached_inv HF HW Hs Hr) Hl). Qed.
