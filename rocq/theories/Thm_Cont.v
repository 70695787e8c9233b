(** C41-C45, C67, C76-C79: containers and result lists. *)
From Verif Require Import Base TrieM WordM MapM DoubleM ContM MapP Spec_Cont ContP ContQ ContX Demo.
Local Open Scope N_scope.
Local Open Scope m_scope.

(** C41: a Document is a map from field names to texts. *)
Theorem C41_document_is_a_map : forall id calls,
  let d := add_texts id calls in
  doc_getID d = id /\
  (forall f, doc_getText d f = match last_for calls f with Some t => Ok t | None => Throw EInvalidArg end) /\
  (forall names, NoDup names -> (forall f, In f names <-> In f (map fst calls)) -> doc_fieldCount d = N.of_nat (length names)) /\
  (exists names, doc_getFieldNames d [] = (names, Ok tt) /\ StronglySorted (fun a b => wltb a b = true) names /\
     (forall f, In f names <-> In f (map fst calls)) /\ forall l, doc_getFieldNames d l = (l ++ names, Ok tt)) /\
  (forall w f, doc_wordCount d w f = match last_for calls f with Some t => occurrences w t | None => 0 end) /\
  (forall w names, NoDup names -> (forall f, In f names <-> In f (map fst calls)) ->
     doc_totalWordCount d w = fold_right (fun f n => doc_wordCount d w f + n) 0 names).
Proof. exact document_map. Qed.
Print Assumptions C41_document_is_a_map.
(** Text given as bytes is split first; if that throws, the document stays as it was. *)
Theorem C41_text_is_split : forall E d f s,
  (forall ws, splitToWords E s = Ok ws -> doc_addText_utf8 E f s d = doc_addText f ws d) /\
  (forall e, splitToWords E s = Throw e -> doc_addText_utf8 E f s d = (d, Throw e)).
Proof. exact addText_utf8_spec. Qed.
Print Assumptions C41_text_is_split.
Example C41_ex :
  let d := add_texts 5 [([98], [[1]; [2]; [1]]); ([97], [[3]]); ([98], [[4]; [4]])] in
  doc_getText d [98] = Ok [[4]; [4]] /\ doc_fieldCount d = 2 /\ doc_getFieldNames d [] = ([[97]; [98]], Ok tt) /\
  doc_wordCount d [4] [98] = 2 /\ doc_totalWordCount d [1] = 0 /\ doc_getText d [99] = Throw EInvalidArg.
Proof. repeat split; reflexivity. Qed.
Example C41_ex_utf8 : snd (doc_addText_utf8 demo [97] [104; 105; 32; 255] (doc_new 1)) = Throw ERuntime.
Proof. reflexivity. Qed.

(** C42: WordList and Corpus keep what they are given, in order. *)
Theorem C42_wordlist : forall ws : list word,
  let l := fold_left (fun l w => fst (wl_addWord w l)) ws [] in
  wl_size l = N.of_nat (length ws) /\
  (forall i, wl_at l i = match nth_error ws (N.to_nat i) with Some w => Ok w | None => Throw EOutOfRange end).
Proof. exact wordlist_spec. Qed.
Print Assumptions C42_wordlist.
Theorem C42_corpus : forall ds : list document,
  let c := fold_left (fun c d => fst (co_addDocument d c)) ds [] in
  co_size c = N.of_nat (length ds) /\
  (forall i, co_getDocument c i = match nth_error ds (N.to_nat i) with Some d => Ok d | None => Throw EOutOfRange end).
Proof. exact corpus_spec. Qed.
Print Assumptions C42_corpus.
Theorem C42_wordlist_equality : forall a b, wl_eqb a b = true <-> a = b.
Proof. exact wl_eqb_spec. Qed.
Print Assumptions C42_wordlist_equality.
Example C42_ex : let l := fold_left (fun l w => fst (wl_addWord w l)) [[1]; [2; 3]] [] in
  wl_at l 1 = Ok [2; 3] /\ wl_at l 2 = Throw EOutOfRange /\ wl_eqb l [[1]; [2]] = false.
Proof. repeat split; reflexivity. Qed.

(** C43: the last weight counts, 1.0 before. *)
Theorem C43_last_weight : forall calls w,
  iw_getWeight (set_weights calls) w = match last_for calls w with Some x => x | None => d_of_Z 1 end.
Proof. exact weights_spec. Qed.
Print Assumptions C43_last_weight.
Example C43_ex : let m := set_weights [([1], d 2); ([2], d 3); ([1], d 5)] in
  iw_getWeight m [1] = d 5 /\ iw_getWeight m [2] = d 3 /\ iw_getWeight m [3] = d 1.
Proof. repeat split; reflexivity. Qed.

(** C44: a filter is the list of terms that its history spells out. *)
Theorem C44_filter_terms : forall calls, exists f, f_run calls rf_new = (f, Ok tt) /\
  rf_numTerms f = N.of_nat (length (terms_of [] calls)) /\
  (forall i, rf_numSubTerms f i = match nth_error (terms_of [] calls) (N.to_nat i) with Some t => Ok (N.of_nat (length t)) | None => Throw EOutOfRange end) /\
  (forall i j, rf_getField f i j = match nth_error (terms_of [] calls) (N.to_nat i) with
     | Some t => match nth_error t (N.to_nat j) with Some p => Ok (fst p) | None => Throw EOutOfRange end | None => Throw EOutOfRange end) /\
  (forall i j, rf_getWord f i j = match nth_error (terms_of [] calls) (N.to_nat i) with
     | Some t => match nth_error t (N.to_nat j) with Some p => Ok (snd p) | None => Throw EOutOfRange end | None => Throw EOutOfRange end).
Proof. exact filter_spec. Qed.
Print Assumptions C44_filter_terms.
Example C44_ex : terms_of [] [FSub [1] [2]; FTerm; FSub [3] [4]; FSub [5] [6]] = [[([1], [2])]; [([3], [4]); ([5], [6])]].
Proof. reflexivity. Qed.

(** C45: whatever was done, the results read are everything added, best first. *)
Theorem C45_best_first : forall calls, proper 0 calls -> exists L w, w_run calls [] = (w, Ok tt) /\ logged_all calls [] L /\ length L = length w /\
  forall i r l, nth_error w i = Some r -> nth_error L i = Some l ->
  mr_size r = N.of_nat (length l) /\
  exists view, best_first l view /\
    (forall view', best_first l view' -> view' = view) /\
    forall k, exists r',
      mr_getDocumentID k r = (r', match nth_error view (N.to_nat k) with Some x => Ok (snd x) | None => Throw EOutOfRange end) /\
      mr_getRelevancy k r = (r', match nth_error view (N.to_nat k) with Some x => Ok (fst x) | None => Throw EOutOfRange end).
Proof. exact results_view. Qed.
Print Assumptions C45_best_first.
Example C45_ex : proper 0 two /\ snd (w_run two []) = Ok tt /\
  snd (mr_getDocumentID 0 (nth 0 (fst (w_run two [])) mr_new)) = Ok 8 /\ snd (mr_getDocumentID 1 (nth 0 (fst (w_run two [])) mr_new)) = Ok 7.
Proof. repeat split; auto. Qed.

(** C67 fails for an object that was not read since it was added to ... *)
Theorem C67_copy_shown_result_refuted : exists calls w r other k o1 o2 id rel, proper 0 calls /\ w_run calls [] = (w, Ok tt) /\
  nth_error w 1 = Some r /\ nth_error w 0 = Some other /\ k < mr_size other /\
  mr_getDocumentID k other = (o1, Ok id) /\ mr_getRelevancy k other = (o2, Ok rel) /\
  exists id' rel', mr_copyResult other k r = mr_addResult id' rel' r /\ id' <> id.
Proof. exact copy_refuted. Qed.
Print Assumptions C67_copy_shown_result_refuted.
(** ... and holds after a read, until the other object is changed again. *)
Theorem C67_copy_after_read : forall c1 j k0 c2, proper 0 (c1 ++ RGetID j k0 :: c2) -> Forall (fun c => ~ modifies j c) c2 ->
  exists w, w_run (c1 ++ RGetID j k0 :: c2) [] = (w, Ok tt) /\
  forall i r other, nth_error w i = Some r -> nth_error w j = Some other -> k0 < mr_size other ->
  (forall k, k < mr_size other -> exists other' id rel, mr_getDocumentID k other = (other', Ok id) /\ mr_getRelevancy k other = (other', Ok rel) /\
    mr_copyResult other k r = mr_addResult id rel r) /\
  (forall k, mr_size other <= k -> mr_copyResult other k r = (r, Throw EOutOfRange)).
Proof. exact copy_after_read. Qed.
Print Assumptions C67_copy_after_read.
Example C67_ex : let w := fst (w_run (two ++ [RGetID 0 1; RAdd 1 9 (d 3)]) []) in proper 0 (two ++ [RGetID 0 1; RAdd 1 9 (d 3)]) /\
  mr_copyResult (nth 0 w mr_new) 0 (nth 1 w mr_new) = mr_addResult 8 (d 2) (nth 1 w mr_new).
Proof. repeat split; auto. Qed.

(** C76 fails: an object added to itself. *)
Theorem C76_add_to_itself_refuted : exists calls w, proper 0 calls /\ w_run calls [] = (w, Ok tt) /\ snd (w_step (RAddAll 0 0) w) = UB.
Proof. exact selfadd_refuted. Qed.
Print Assumptions C76_add_to_itself_refuted.

(** C77 fails: a NaN relevancy makes reading undefined. *)
Theorem C77_any_relevancy_refuted : exists x w, w_run [RNew; RAdd 0 1 x; RAdd 0 2 (d 1)] [] = (w, Ok tt) /\ snd (w_step (RGetID 0 0) w) = UB.
Proof. exact nan_refuted. Qed.
Print Assumptions C77_any_relevancy_refuted.

(** Exactly: a read is undefined when it shows one of several results with a NaN among
    them, and nothing else a program does with its objects is. *)
Theorem C77_exact : forall calls w, named 0 calls -> w_run calls [] = (w, Ok tt) ->
  exists L, logged_all calls [] L /\ length L = length w /\
  forall i r l k, nth_error w i = Some r -> nth_error L i = Some l ->
    (snd (mr_getDocumentID k r) = UB <-> k < N.of_nat (length l) /\ poisoned l) /\
    (snd (mr_getRelevancy k r) = UB <-> k < N.of_nat (length l) /\ poisoned l).
Proof. exact nan_exact. Qed.
Print Assumptions C77_exact.
Theorem C77_only_reads : forall calls, named 0 calls -> (exists w, w_run calls [] = (w, Ok tt)) \/
  (snd (w_run calls []) = UB /\ exists before c after w, calls = before ++ c :: after /\ is_read c /\
     w_run before [] = (w, Ok tt) /\ snd (w_step c w) = UB).
Proof. exact only_reads. Qed.
Print Assumptions C77_only_reads.
Example C77_ex : named 0 [RNew; RAdd 0 1 (d_div (d 0) (d 0)); RGetID 0 0; RNew; RAddAll 1 0; RAdd 1 2 (d 1)] /\
  snd (w_run [RNew; RAdd 0 1 (d_div (d 0) (d 0)); RGetID 0 0; RNew; RAddAll 1 0; RAdd 1 2 (d 1)] []) = Ok tt /\
  poisoned [(d_div (d 0) (d 0), 1); (d 1, 2)].
Proof. split; [repeat constructor; discriminate|]. split; [reflexivity|]. split; [repeat constructor|]. exists (d_div (d 0) (d 0), 1). split; [now left|reflexivity]. Qed.

(** C78: the non-searching fields are the ones named. *)
Theorem C78_nonsearching : forall ws w, sp_isNonsearchingField (fold_left (fun p w => sp_addNonsearchingField w p) ws sp_new) w = true <-> In w ws.
Proof. exact nosearch_spec. Qed.
Print Assumptions C78_nonsearching.
Example C78_ex : sp_isNonsearchingField (fold_left (fun p w => sp_addNonsearchingField w p) [[3]; [1]] sp_new) [1] = true.
Proof. reflexivity. Qed.

(** C79: word statistics count every call. *)
Theorem C79_statistics : forall ids id,
  st_getTotalWordCount (fold_left (fun s i => st_wordProcessed i s) ids []) id = N.of_nat (count_occ N.eq_dec ids id).
Proof. exact stats_spec. Qed.
Print Assumptions C79_statistics.
Example C79_ex : st_getTotalWordCount (fold_left (fun s i => st_wordProcessed i s) [3; 1; 3] []) 3 = 2.
Proof. reflexivity. Qed.
