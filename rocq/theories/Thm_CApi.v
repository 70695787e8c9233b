(** Properties C61, C62 and C84 - C87: the C interface.  Objects are numbered by creation;
    [live h n o]: object [n] exists and is [o]. *)
From Verif Require Import Base TrieM WordStoreM ErrorValuesM LevIndexM WordM MapM DoubleM ContM MatcherM DataFileM CApiM
  Spec_Hist Spec_EV Spec_Word Spec_Cont Spec_Edit Spec_Lev Spec_Match Spec_File Spec_CApi StoreX DataX CApiP CApiQ CApiR CApiS CApiX.
Local Open Scope N_scope.

(** C61: no exception leaves a function ... *)
Theorem C61_no_exception : forall E W c h x, snd (c_do E W c h) <> Throw x.
Proof. exact no_escape. Qed.
Print Assumptions C61_no_exception.
(** ... and every function does what the method does, with its fallback value instead of
    an exception.  Words: *)
Theorem C61_words : forall E W h,
  (forall s, match word_of_utf8 E s with
     | Ok w => creates E W h (col_word_new s) (OWord w)
     | Throw _ => only_says E W h (col_word_new s) (VPtr PNull)
     | _ => True end) /\
  (forall n w, live h n (OWord w) -> only_says E W h (col_word_length (PAt n)) (VSize (N.of_nat (length w)))) /\
  (forall n w k, live h n (OWord w) -> match w_toUtf8 w k with
     | Ok t => only_says E W h (col_word_as_utf8 (PAt n) k) (VText t)
     | Throw _ => only_says E W h (col_word_as_utf8 (PAt n) k) VVoid
     | _ => True end).
Proof. exact (fun E W h => conj (word_new E W h) (conj (@word_length E W h) (@word_utf8 E W h))). Qed.
Print Assumptions C61_words.
Theorem C61_word_null : forall E W h s, lower_ok E ->
  (snd (c_do E W (col_word_new s) h) = Ok (VPtr PNull) <-> ~ valid_utf8 s \/ exists cs c, Forall scalar cs /\ s = bytes_of cs /\ In c cs /\ blank c).
Proof. exact word_null. Qed.
Print Assumptions C61_word_null.
(** Documents and corpora: *)
Theorem C61_documents : forall E W h,
  (forall id, creates E W h (col_document_new id) (ODoc (doc_new id))) /\
  (forall n d, live h n (ODoc d) -> only_says E W h (col_document_get_id (PAt n)) (VDocID (doc_getID d))) /\
  (forall n d j f t, live h n (ODoc d) -> live h j (OWord f) -> let c := col_document_add_text (PAt n) (PAt j) t in let x := doc_addText_utf8 E f t d in
     relays c n ODoc (fst x) (snd x) (fun _ => VVoid) h (c_do E W c h)) /\
  creates E W h col_corpus_new (OCorpus []) /\
  (forall n c j d, live h n (OCorpus c) -> live h j (ODoc d) -> let k := col_corpus_add_document (PAt n) (PAt j) in let x := co_addDocument d c in
     relays k n OCorpus (fst x) (snd x) (fun _ => VVoid) h (c_do E W k h)).
Proof. exact (fun E W h => conj (document_new E W h) (conj (@document_id E W h) (conj (@add_text E W h) (conj (corpus_new E W h) (@add_document E W h))))). Qed.
Print Assumptions C61_documents.
(** Matchers, their prices and weights: *)
Theorem C61_matchers : forall E W h,
  (match mt_new E with Ok m => creates E W h col_matcher_new (OMatcher m) | Throw _ => only_says E W h col_matcher_new (VPtr PNull) | _ => True end) /\
  (forall n m j c, live h n (OMatcher m) -> live h j (OCorpus c) -> let k := col_matcher_index (PAt n) (PAt j) in let x := mt_index E c m in
     relays k n OMatcher (fst x) (snd x) (fun _ => VVoid) h (c_do E W k h)) /\
  (forall n m, live h n (OMatcher m) ->
     only_says E W h (col_matcher_get_error_values (PAt n)) (VPtr (PErr n)) /\ only_says E W h (col_matcher_get_index_weights (PAt n)) (VPtr (PWeights n))) /\
  (forall n m, live h n (OMatcher m) -> let k := col_error_values_add_standard_errors (PErr n) in let x := on_ev (addStandardErrors_file E W) m in
     relays k n OMatcher (fst x) (snd x) (fun _ => VVoid) h (c_do E W k h)) /\
  (forall n m, live h n (OMatcher m) -> forall f, f = on_ev (fun e => (setSubstringMode e, Ok tt)) -> let k := col_error_values_set_substring_mode (PErr n) in
     relays k n OMatcher (fst (f m)) (snd (f m)) (fun _ => VVoid) h (c_do E W k h)) /\
  (forall n m j f x, live h n (OMatcher m) -> live h j (OWord f) -> let k := col_index_weights_set_weight (PWeights n) (PAt j) x in let y := set_w (iw_setWeight f x) m in
     relays k n OMatcher (fst y) (snd y) (fun _ => VVoid) h (c_do E W k h)) /\
  (forall n m j f, live h n (OMatcher m) -> live h j (OWord f) ->
     only_says E W h (col_index_weights_get_weight (PWeights n) (PAt j)) (VDouble (iw_getWeight (mt_w m) f))).
Proof.
  exact (fun E W h => conj (matcher_new E W h) (conj (@index_call E W h) (conj (@members E W h) (conj (@standard E W h) (conj (@substring E W h) (conj (@set_weight E W h) (@get_weight E W h))))))).
Qed.
Print Assumptions C61_matchers.
Theorem C61_match : forall E W h n m s, live h n (OMatcher m) -> let c := col_matcher_match (PAt n) s in let r := c_do E W c h in
  match mt_match_utf8 E s sp_new m with
  | (m', Ok a) => nth_error (fst r) n = Some (Some (OMatcher m')) /\ nth_error (fst r) (fresh h) = Some (Some (OResults a)) /\
                  (forall k, k <> n -> k <> fresh h -> nth_error (fst r) k = nth_error h k) /\ snd r = Ok (VPtr (PAt (fresh h)))
  | (m', Throw _) => only n (Some (OMatcher m')) h (fst r) /\ snd r = Ok (VPtr PNull)
  | (m', UB) => snd r = UB | (m', Abort) => snd r = Abort | (m', Fuel) => snd r = Fuel
  end.
Proof. exact match_call. Qed.
Print Assumptions C61_match.
(** Results; [shows r view] is what the methods of MatchResults say (C44). *)
Theorem C61_results : forall E W h,
  creates E W h col_match_results_new (OResults mr_new) /\
  (forall n r view, live h n (OResults r) -> shows r view ->
     only_says E W h (col_match_results_size (PAt n)) (VSize (N.of_nat (length view))) /\
     forall i, exists r', shows r' view /\ only n (Some (OResults r')) h (fst (c_do E W (col_match_results_get_id (PAt n) i) h)) /\
       snd (c_do E W (col_match_results_get_id (PAt n) i) h) =
         Ok (VDocID (match nth_error view (N.to_nat i) with Some x => snd x | None => 18446744073709551615 end))).
Proof. exact (fun E W h => conj (results_new E W h) (@read_results E W h)). Qed.
Print Assumptions C61_results.
(** Deleting. *)
Theorem C61_deletes : forall E W h n o c, live h n o ->
  c = match o with OWord _ => col_word_delete (PAt n) | ODoc _ => col_document_delete (PAt n) | OMatcher _ => col_matcher_delete (PAt n)
      | OResults _ => col_match_results_delete (PAt n) | OCorpus _ => col_corpus_delete (PAt n) end ->
  only n None h (fst (c_do E W c h)) /\ snd (c_do E W c h) = Ok VVoid.
Proof. exact deletes_only. Qed.
Print Assumptions C61_deletes.
Example C61_ex : Forall c_strings c_prog /\ c_run demo_file the_disk c_prog [] = (c_heap, Ok c_vals) /\ live c_heap 0 (OMatcher c_mat) /\ live c_heap2 4 (OResults c_res) /\
  snd (c_run demo_file the_disk c_results c_heap2) = Ok [VSize 1; VDocID 7; VDocID INVALID_DOCID; VDouble (d_of_Z 7)].
Proof. split; [exact c_prog_strings|]. split; [exact c_prog_run|]. split; [exact c_mat_live|]. split; [exact c_res_live|]. exact (proj2 c_found). Qed.

(** C62 is false ... *)
Theorem C62_relevancy_refuted : exists E W calls h n r i x, c_reached E W calls h /\ live h n (OResults r) /\ snd (mr_getRelevancy i r) = Ok x /\
  snd (c_do E W (col_match_results_get_relevancy (PAt n) i) h) <> Ok (VDouble x).
Proof. exact relevancy_refuted. Qed.
Print Assumptions C62_relevancy_refuted.
(** ... for all results: the function gives the document id as a double. *)
Theorem C62_relevancy_is_id : forall E W h n r view i, live h n (OResults r) -> shows r view ->
  snd (c_do E W (col_match_results_get_relevancy (PAt n) i) h) =
    Ok (VDouble (match nth_error view (N.to_nat i) with Some x => d_of_Z (Z.of_N (snd x)) | None => d_of_Z (-1) end)).
Proof. exact relevancy_wrong. Qed.
Print Assumptions C62_relevancy_is_id.
Example C62_ex : live c_heap2 4 (OResults c_res) /\ exists view, shows c_res view /\ map snd view = [7].
Proof. exact (conj c_res_live c_view_ok). Qed.

(** C84: a call leaves every object but its own alone, whatever comes of it. *)
Theorem C84_others_kept : forall E W c h n, (n < length h)%nat -> changes c <> Some n -> nth_error (fst (c_do E W c h)) n = nth_error h n.
Proof. exact others_kept. Qed.
Print Assumptions C84_others_kept.
Example C84_ex : (1 < length c_heap)%nat /\ changes (col_matcher_match (PAt 0) s_helo) <> Some 1%nat.
Proof. split; [apply PeanoNat.Nat.ltb_lt; vm_compute; reflexivity|discriminate]. Qed.

(** C85: a matcher of a C program is in the state a C++ program would have brought it
    to with the same calls ... *)
Theorem C85_as_cpp : forall E W calls h n m, folds_shipped E -> shipped W -> Forall c_strings calls -> c_reached E W calls h -> live h n (OMatcher m) ->
  exists m0, mt_new E = Ok m0 /\ m = m_all E (cpp_history E W calls [] n) m0.
Proof. exact as_cpp. Qed.
Print Assumptions C85_as_cpp.
(** ... and a search from C finds exactly the documents indexed that have a word close
    enough to a word of the query, best first. *)
Theorem C85_search : forall E W calls h n m s q, env_ok E -> lower_ok E -> folds_shipped E -> shipped W -> Forall c_strings calls -> c_reached E W calls h ->
  live h n (OMatcher m) -> calm E W calls n m -> c_text s -> splitToWords E s = Ok q -> let cs := cpp_history E W calls [] n in moderate cs q ->
  exists r view, creates E W h (col_matcher_match (PAt n) s) (OResults r) /\ shows r view /\ ranked view /\
    forall d, (exists x, In (x, d) view) <-> exists f w qw err, In (d, f, w) (occ cs) /\ In qw q /\ near (prices_after cs) sp_new qw w err.
Proof. exact c_search. Qed.
Print Assumptions C85_search.
Example C85_ex : env_ok demo_file /\ lower_ok demo_file /\ folds_shipped demo_file /\ shipped the_disk /\ Forall c_strings c_prog /\ c_reached demo_file the_disk c_prog c_heap /\
  live c_heap 0 (OMatcher c_mat) /\ calm demo_file the_disk c_prog 0 c_mat /\ c_text s_helo /\ splitToWords demo_file s_helo = Ok q_helo /\
  moderate (cpp_history demo_file the_disk c_prog [] 0) q_helo.
Proof.
  split; [exact file_env_ok|]. split; [exact file_lower_ok|]. split; [exact fold_ok|]. split; [exact the_disk_ok|]. split; [exact c_prog_strings|]. split; [exact c_prog_reached|].
  split; [exact c_mat_live|]. split; [exact c_hist_calm|]. split; [exact s_helo_text|]. split; [exact q_helo_split|exact q_helo_moderate].
Qed.

(** C86: calls with handles of the right kind are never undefined. *)
Theorem C86_safe : forall E W calls h c, env_ok E -> lower_ok E -> folds_shipped E -> shipped W -> Forall c_strings calls -> c_reached E W calls h ->
  handles_ok c h -> c_strings c -> prepared E W calls h c -> exists v, snd (c_do E W c h) = Ok v.
Proof. exact c_safe. Qed.
Print Assumptions C86_safe.
Example C86_ex : handles_ok (col_matcher_match (PAt 0) s_helo) c_heap /\ c_strings (col_matcher_match (PAt 0) s_helo) /\
  prepared demo_file the_disk c_prog c_heap (col_matcher_match (PAt 0) s_helo) /\ handles_ok (col_match_results_get_id (PAt 4) 0) c_heap2.
Proof.
  split; [exists 0%nat, c_mat; split; [reflexivity|exact c_mat_live]|]. split; [exact s_helo_text|]. split; [exact c_match_prepared|].
  exists 4%nat, c_res. split; [reflexivity|exact c_res_live].
Qed.

(** C87: a null handle may be deleted ... *)
Theorem C87_null_delete_partial : forall E W h c,
  c = col_word_delete PNull \/ c = col_document_delete PNull \/ c = col_matcher_delete PNull \/ c = col_match_results_delete PNull \/ c = col_corpus_delete PNull ->
  only_says E W h c VVoid.
Proof. exact null_deletes. Qed.
Print Assumptions C87_null_delete_partial.
(** ... but that is all: other functions do not check the handle that a failed creation gave. *)
Theorem C87_null_refuted : exists E W calls h s, c_reached E W calls h /\ Forall c_strings calls /\ c_strings (col_word_new s) /\ snd (c_do E W (col_word_new s) h) = Ok (VPtr PNull) /\
  snd (c_do E W (col_word_length PNull) h) = UB /\ snd (c_do E W (col_document_add_text (PAt 0) PNull s) h) = UB.
Proof. exact null_refuted. Qed.
Print Assumptions C87_null_refuted.
Theorem C87_null_undefined : forall E W h c,
  (exists s, c = col_document_add_text PNull PNull s \/ c = col_matcher_match PNull s) \/ (exists p, c = col_matcher_index PNull p \/ c = col_corpus_add_document PNull p) \/
  (exists i, c = col_match_results_get_id PNull i \/ c = col_match_results_get_relevancy PNull i \/ c = col_word_as_utf8 PNull i) \/
  In c [col_word_length PNull; col_document_get_id PNull; col_match_results_size PNull; col_matcher_get_error_values PNull; col_matcher_get_index_weights PNull;
        col_error_values_add_standard_errors PNull; col_error_values_set_substring_mode PNull] ->
  snd (c_do E W c h) = UB.
Proof. exact null_undefined. Qed.
Print Assumptions C87_null_undefined.
