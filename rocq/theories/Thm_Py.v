(** Properties C94 - C101: the Python module.  A program is a list of statements, each
    with a flag that says whether the vector moves if the statement appends to one;
    objects are numbered by creation, and variable [k] is bound to object [k] until
    [del k]. *)
From Verif Require Import Base TrieM WordStoreM ErrorValuesM LevIndexM WordM MapM DoubleM ContM MatcherM DataFileM PyM
  Spec_Hist Spec_EV Spec_Word Spec_Cont Spec_Match Spec_File Spec_CApi Spec_Py StoreX DataX CApiX PyQ PyS PyT PyU PyV PyW PyY PyX.
Local Open Scope N_scope.

(** C94: every statement does what the C++ method does with the values of the variables,
    exceptions become Python's, and a str ends at its first NUL.  Words: *)
Theorem C94_words : forall E W b s,
  (forall t r, before_nul t r -> match word_of_utf8 E r with
     | Ok w => makes E W b s (Word_ (Utf8 t)) (Holds (OWord w))
     | Throw x => fails E W b s (Word_ (Utf8 t)) (as_python x)
     | _ => True end) /\
  (forall k w, word_var s k w -> gives E W b s (len_word k) (VInt (Z.of_nat (length w)))) /\
  (forall k w, word_var s k w -> match asUtf8 w with
     | Ok t => gives E W b s (get_string k) (VStr t)
     | Throw x => fails E W b s (get_string k) (as_python x)
     | _ => True end).
Proof. exact (fun E W b s => conj (word_new E W b s) (conj (@word_len E W b s) (@word_string E W b s))). Qed.
Print Assumptions C94_words.
(** Lists of words: *)
Theorem C94_lists : forall E W b s,
  makes E W b s WordList_ (Holds (OList [])) /\
  (forall t r, before_nul t r -> match splitToWords E r with
     | Ok ws => makes E W b s (split_to_words (Utf8 t)) (Holds (OList ws))
     | Throw x => fails E W b s (split_to_words (Utf8 t)) (as_python x)
     | _ => True end) /\
  (forall k l ws, list_var s k l ws ->
     makes E W b s (WordList_copy k) (Holds (OList ws)) /\ gives E W b s (len_list k) (VInt (Z.of_nat (length ws))) /\
     (forall i w, size_ok i -> nth_error ws (Z.to_nat i) = Some w -> makes E W b s (getitem k i) (Points (AtWord l (Z.to_N i) (moves_of l s)) k)) /\
     (forall i, size_ok i -> (Z.of_nat (length ws) <= i)%Z -> fails E W b s (getitem k i) PyIndexError) /\
     (forall i, ~ size_ok i -> fails E W b s (getitem k i) PyOverflowError)) /\
  (forall k ws j w, list_var s k (LVal k) ws -> word_var s j w ->
     py_do E W b (add_word k j) s = (moved_if b (LVal k) (now_holds k (OList (ws ++ [w])) s), Ok (Returns VNone))).
Proof.
  exact (fun E W b s => conj (list_new E W b s) (conj (@split_new E W b s) (conj
    (fun k l ws H => conj (list_copy E W b H) (conj (list_len E W b H) (conj (fun i w => @list_item E W b s k l ws i w H)
       (conj (fun i => @list_item_none E W b s k l ws i H) (fun i => @list_item_huge E W b s k l ws i H))))) (@add_own E W b s)))).
Qed.
Print Assumptions C94_lists.
(** Documents and corpora: *)
Theorem C94_documents : forall E W b s,
  (forall id, if (0 <=? id)%Z && (id <? 2 ^ 64)%Z then makes E W b s (Document_ id) (Holds (ODoc (doc_new (Z.to_N id))))
     else fails E W b s (Document_ id) PyOverflowError) /\
  (forall k d, doc_var s k d ->
     makes E W b s (Document_copy k) (Holds (ODoc d)) /\ gives E W b s (field_count k) (VInt (Z.of_N (doc_fieldCount d))) /\
     gives E W b s (get_id k) (VInt (Z.of_N (doc_getID d)))) /\
  (forall k d j f, doc_var s k d -> word_var s j f -> match doc_getText d f with
     | Ok _ => makes E W b s (get_text k j) (Points (AtText k f) k)
     | Throw x => fails E W b s (get_text k j) (as_python x)
     | _ => True end) /\
  (forall k d j f t r, doc_var s k d -> word_var s j f -> before_nul t r -> let x := doc_addText_utf8 E f r d in let c := add_text k j (Utf8 t) in
     py_do E W b c s = match snd x with
       | Ok _ => (moved_if b (LText k f) (now_holds k (ODoc (fst x)) s), Ok (Returns VNone))
       | o => (now_holds k (ODoc (fst x)) s, relayed o (fun _ => VNone)) end) /\
  makes E W b s Corpus_ (Holds (OCorpus [])) /\
  (forall k c, corpus_var s k c -> gives E W b s (size k) (VInt (Z.of_nat (length c))) /\
     forall j d, doc_var s j d -> py_do E W b (add_document k j) s = (now_holds k (OCorpus (c ++ [d])) s, Ok (Returns VNone))).
Proof. exact documents_do. Qed.
Print Assumptions C94_documents.
(** Results: *)
Theorem C94_results : forall E W b s,
  makes E W b s MatchResults_ (Holds (OResults mr_new)) /\
  (forall k r, results_var s k r -> gives E W b s (len_results k) (VInt (Z.of_N (mr_size r))) /\
     (forall j q, results_var s j q -> k <> j -> let x := mr_addResults q r in
        py_do E W b (add_results k j) s = (now_holds k (OResults (fst x)) s, relayed (snd x) (fun _ => VNone))) /\
     (forall i, size_ok i -> let x := mr_getDocumentID (Z.to_N i) r in
        py_do E W b (get_document_id k i) s = (now_holds k (OResults (fst x)) s, relayed (snd x) (fun d => VInt (Z.of_N d)))) /\
     (forall i, size_ok i -> let x := mr_getRelevancy (Z.to_N i) r in
        py_do E W b (get_relevancy k i) s = (now_holds k (OResults (fst x)) s, relayed (snd x) VFloat)) /\
     (forall i, ~ size_ok i -> fails E W b s (get_document_id k i) PyOverflowError /\ fails E W b s (get_relevancy k i) PyOverflowError)).
Proof.
  exact (fun E W b s => conj (results_new E W b s) (fun k r H => conj (results_len E W b H) (conj (fun j q => @results_add E W b s k r j q H)
    (conj (fun i => @results_id E W b s k r i H) (conj (fun i => @results_rel E W b s k r i H) (fun i => @results_huge E W b s k r i H)))))).
Qed.
Print Assumptions C94_results.
(** Matchers: *)
Theorem C94_matchers : forall E W b s,
  (match mt_new E with Ok m => makes E W b s Matcher_ (Holds (OMatcher m)) | Throw x => fails E W b s Matcher_ (as_python x) | _ => True end) /\
  (forall k m, matcher_var s k m ->
     (forall j c, corpus_var s j c -> let x := mt_index E c m in
        py_do E W b (index k j) s = (now_holds k (OMatcher (fst x)) s, relayed (snd x) (fun _ => VNone))) /\
     (forall t r, before_nul t r -> let x := mt_match_utf8 E r sp_new m in let s' := now_holds k (OMatcher (fst x)) s in
        py_do E W b (match_ k (Utf8 t)) s = match snd x with
          | Ok res => (plus s' (Holds (OResults res)), Ok (Returns (VObj (fresh s))))
          | o => (s', relayed o (fun _ => VNone)) end) /\
     makes E W b s (get_errorvalues k) (Points (AtErrors k) k) /\ makes E W b s (get_indexweights k) (Points (AtWeights k) k)).
Proof. exact matchers_do. Qed.
Print Assumptions C94_matchers.
(** Prices and weights, of a matcher or not: *)
Theorem C94_settings : forall E W b s,
  makes E W b s ErrorValues_ (Holds (OErrors ev_new)) /\ makes E W b s IndexWeights_ (Holds (OWeights [])) /\
  gives E W b s get_default_error (VInt 100) /\ gives E W b s get_substring_default_end_deletion_error (VInt 15) /\
  (forall k n e put, errors_var s k n e put ->
     (let x := addStandardErrors_file E W e in py_do E W b (add_standard_errors k) s = (now_holds n (put (fst x)) s, relayed (snd x) (fun _ => VNone))) /\
     py_do E W b (set_substring_mode k) s = (now_holds n (put (setSubstringMode e)) s, Ok (Returns VNone)) /\
     py_do E W b (clear_errors k) s = (now_holds n (put (clearErrors e)) s, Ok (Returns VNone)) /\
     forall v, if (- 2 ^ 31 <=? v)%Z && (v <? 2 ^ 31)%Z
       then py_do E W b (set_end_deletion_error k v) s = (now_holds n (put (setEndDeletionError v e)) s, Ok (Returns VNone))
       else fails E W b s (set_end_deletion_error k v) PyOverflowError) /\
  (forall k n x put j f, weights_var s k n x put -> word_var s j f ->
     gives E W b s (get_weight k j) (VFloat (iw_getWeight x f)) /\
     forall v, py_do E W b (set_weight k j v) s = (now_holds n (put (iw_setWeight f v x)) s, Ok (Returns VNone))).
Proof. exact settings_do. Qed.
Print Assumptions C94_settings.
(** Bad arguments raise, and change nothing. *)
Theorem C94_classes : forall E W b prog s c k cl, folds_shipped E -> shipped W -> py_reached E W prog s -> (forall k0, In (k0, CWord) (wants c) -> ~ stale s k0) ->
  In (k, cl) (wants c) -> ~ has_class s k cl -> exists x, fails E W b s c x /\ (x = PyTypeError \/ x = PyNameError).
Proof. exact (fun E W b prog s c k cl HF HW => @wrong_classes E W HF HW b prog s c k cl). Qed.
Print Assumptions C94_classes.
Theorem C94_no_text : forall E W b s k f,
  fails E W b s (Word_ Unencodable) PyUnicodeError /\ fails E W b s (split_to_words Unencodable) PyUnicodeError /\ fails E W b s (Word_ PyNone) PyTypeError /\
  (forall d w, doc_var s k d -> word_var s f w -> fails E W b s (add_text k f Unencodable) PyUnicodeError /\ fails E W b s (add_text k f PyNone) PyTypeError) /\
  (forall m, matcher_var s k m -> fails E W b s (match_ k Unencodable) PyUnicodeError /\ fails E W b s (match_ k PyNone) PyTypeError).
Proof. exact no_texts. Qed.
Print Assumptions C94_no_text.
Example C94_ex : folds_shipped demo_file /\ shipped the_disk /\ py_reached demo_file the_disk py_prog py_at /\ py_run demo_file the_disk py_prog py_start = (py_at, Ok py_vals) /\
  matcher_var py_at 0 py_mat /\ doc_var doc_at1 1 the_doc /\ word_var doc_at1 0 s_title /\ before_nul s_helo s_helo /\
  py_reached demo_file the_disk list_prog list_at_ /\ list_var list_at_ 0 (LVal 0) [[97]; [98]] /\ word_var list_at_ 3 [98] /\
  (forall k0, In (k0, CWord) (wants (get_text 0 1)) -> ~ stale list_at_ k0) /\ In (0%nat, CDoc) (wants (get_text 0 1)) /\ ~ has_class list_at_ 0 CDoc.
Proof.
  split; [exact fold_ok|]. split; [exact the_disk_ok|]. split; [exact py_prog_reached|]. split; [exact py_prog_run|]. split; [exact py_mat_var|]. split; [exact (proj1 doc_held1)|].
  split; [exact (proj1 (proj2 doc_held1))|]. split; [exact s_helo_nul|]. split; [exact list_reached|]. split; [exact list_is|]. split; [exact list_b|].
  split; [intros k0 _; apply (proj2 (proj2 list_no_doc))|]. split; [now left|exact (proj1 list_no_doc)].
Qed.

(** C95: an object exists exactly as long as a variable is bound to it or a reference
    into it is in use; when no variable is left, nothing is. *)
Theorem C95_alive : forall E W prog s k, folds_shipped E -> shipped W -> py_reached E W prog s -> (exists_ s k <-> in_use s k).
Proof. exact (fun E W prog s k HF HW => @alive E W HF HW prog s k). Qed.
Print Assumptions C95_alive.
Theorem C95_all_freed : forall E W prog s, folds_shipped E -> shipped W -> py_reached E W prog s -> (forall k, ~ bound s k) -> forall k, ~ exists_ s k.
Proof. exact (fun E W prog s HF HW => @all_freed E W HF HW prog s). Qed.
Print Assumptions C95_all_freed.
(** Deleting a variable leaves every other variable what it was ... *)
Theorem C95_del : forall E W b prog s k, folds_shipped E -> shipped W -> py_reached E W prog s -> bound s k -> exists s', py_do E W b (del k) s = (s', Ok (Returns VNone)) /\
  (forall j, bound s' j <-> j <> k /\ bound s j) /\
  forall j, j <> k -> (forall w, word_var s j w -> word_var s' j w) /\ (forall l ws, list_var s j l ws -> list_var s' j l ws) /\
    (forall d, doc_var s j d -> doc_var s' j d) /\ (forall c, corpus_var s j c -> corpus_var s' j c) /\ (forall r, results_var s j r -> results_var s' j r) /\
    (forall m, matcher_var s j m -> matcher_var s' j m) /\ (forall n e put, errors_var s j n e put -> errors_var s' j n e put) /\
    (forall n x put, weights_var s j n x put -> weights_var s' j n x put).
Proof. exact (fun E W b prog s k HF HW => @del_others E W HF HW b prog s k). Qed.
Print Assumptions C95_del.
Theorem C95_del_unbound : forall E W b s k, ~ bound s k -> fails E W b s (del k) PyNameError.
Proof. exact del_unbound. Qed.
Print Assumptions C95_del_unbound.
(** ... and every other statement changes no object but its own. *)
Theorem C95_others_kept : forall E W b prog s c s' r k o, folds_shipped E -> shipped W -> py_reached E W prog s -> py_do E W b c s = (s', Ok r) ->
  bound s k -> holds s k o -> c <> del k -> ~ target s c k -> bound s' k /\ holds s' k o.
Proof. exact (fun E W b prog s c s' r k o HF HW => @others_kept E W HF HW b prog s c s' r k o). Qed.
Print Assumptions C95_others_kept.
(** A deleted document whose text is still in use, and a program that deleted all. *)
Example C95_ex : py_reached demo_file the_disk doc_prog doc_at /\ ~ bound doc_at 1 /\ exists_ doc_at 1 /\ in_use doc_at 1 /\ bound doc_at 2 /\ ~ target doc_at (len_list 2) 0 /\
  py_reached demo_file the_disk gone_prog gone_at /\ (forall k, ~ bound gone_at k) /\ fresh gone_at = 5%nat.
Proof.
  split; [exact doc_reached|]. split; [exact (proj1 (proj2 doc_held))|]. split; [eexists; exact (proj1 doc_held)|].
  split; [eapply (@use_ref doc_at 1 2); [vm_compute; reflexivity|apply use_var; vm_compute; reflexivity]|].
  split; [exact (proj2 (proj2 (proj2 (proj2 (proj2 doc_held)))))|]. split; [exact (fun H => H)|]. split; [exact (proj1 gone_reached)|]. split; [exact (proj2 gone_reached)|vm_compute; reflexivity].
Qed.

(** C96: the text of a document is the document's: appending to it, or giving the field
    new text, is seen by the document and by all references to the text ... *)
Theorem C96_append : forall E W b prog s k n f d ws j w, folds_shipped E -> shipped W -> py_reached E W prog s -> list_var s k (LText n f) ws -> holds s n (ODoc d) -> word_var s j w ->
  exists s' d', py_do E W b (add_word k j) s = (s', Ok (Returns VNone)) /\ holds s' n (ODoc d') /\ doc_getID d' = doc_getID d /\ doc_getText d' f = Ok (ws ++ [w]) /\
    (forall g, g <> f -> doc_getText d' g = doc_getText d g) /\ (forall i ws0, list_var s i (LText n f) ws0 -> ws0 = ws /\ list_var s' i (LText n f) (ws ++ [w])).
Proof. exact (fun E W b prog s k n f d ws j w HF HW => @view_append E W HF HW b prog s k n f d ws j w). Qed.
Print Assumptions C96_append.
Theorem C96_new_text : forall E W b prog s n d j f t r q, folds_shipped E -> shipped W -> py_reached E W prog s -> doc_var s n d -> word_var s j f -> before_nul t r -> splitToWords E r = Ok q ->
  exists s' d', py_do E W b (add_text n j (Utf8 t)) s = (s', Ok (Returns VNone)) /\ doc_var s' n d' /\ doc_getID d' = doc_getID d /\ doc_getText d' f = Ok q /\
    (forall g, g <> f -> doc_getText d' g = doc_getText d g) /\ (forall i ws0, list_var s i (LText n f) ws0 -> list_var s' i (LText n f) q).
Proof. exact (fun E W b prog s n d j f t r q HF HW => @view_text E W HF HW b prog s n d j f t r q). Qed.
Print Assumptions C96_new_text.
(** ... and nothing else changes it. *)
Theorem C96_list_stays : forall E W b prog s c s' r k l ws, folds_shipped E -> shipped W -> py_reached E W prog s -> py_do E W b c s = (s', Ok r) ->
  list_var s k l ws -> ~ changes_list s c l -> c <> del k -> list_var s' k l ws.
Proof. exact (fun E W b prog s c s' r k l ws HF HW => @list_stays E W HF HW b prog s c s' r k l ws). Qed.
Print Assumptions C96_list_stays.
Example C96_ex : py_reached demo_file the_disk doc_prog doc_at /\ holds doc_at 1 (ODoc the_doc) /\ list_var doc_at 2 (LText 1 s_title) the_words /\
  list_var doc_at 3 (LText 1 s_title) the_words /\ word_var doc_at 0 s_title /\ py_reached demo_file the_disk doc_prog1 doc_at1 /\ doc_var doc_at1 1 the_doc /\
  word_var doc_at1 0 s_title /\ list_var doc_at1 2 (LText 1 s_title) the_words /\ before_nul s_helo s_helo /\ splitToWords demo_file s_helo = Ok q_helo /\
  ~ changes_list doc_at (len_list 2) (LText 1 s_title).
Proof.
  destruct doc_held as (H1 & _ & H2 & H3 & H4 & _). destruct doc_held1 as (H5 & H6 & H7 & H8). split; [exact doc_reached|]. split; [exact H1|]. split; [exact H2|]. split; [exact H3|]. split; [exact H4|].
  split; [exact doc_reached1|]. split; [exact H5|]. split; [exact H6|]. split; [exact H7|]. split; [exact s_helo_nul|]. split; [exact H8|exact (fun H => H)].
Qed.

(** C97: a word taken out of a list stays the word it was is false: ... *)
Theorem C97_word_stays_refuted : exists E W prog s k l j s' w, set_up E W /\ Forall (fun x => py_text (fst x)) prog /\ py_reached E W prog s /\
  word_var s k w /\ list_var s l (LVal l) [[97]; [98]] /\ py_do E W true (add_word l j) s = (s', Ok (Returns VNone)) /\ has_class s' k CWord /\
  snd (py_do E W true (get_string k) s') = UB.
Proof. exact stale_refuted. Qed.
Print Assumptions C97_word_stays_refuted.
(** ... it does until a statement changes its list. *)
Theorem C97_word_stays_partial : forall E W b prog s c s' r k w, folds_shipped E -> shipped W -> py_reached E W prog s -> py_do E W b c s = (s', Ok r) -> word_var s k w ->
  (forall l i v n, refers s k (AtWord l i v) n -> ~ changes_list s c l) -> c <> del k -> word_var s' k w.
Proof. exact (fun E W b prog s c s' r k w HF HW => @word_stays E W HF HW b prog s c s' r k w). Qed.
Print Assumptions C97_word_stays_partial.
(** Going through a list with [for] gives its words in order, then stops. *)
Theorem C97_iterate : forall E W b prog s k l ws, folds_shipped E -> shipped W -> py_reached E W prog s -> list_var s k l ws -> N.of_nat (length ws) < 2 ^ 64 ->
  exists s', py_run E W (map (fun i => (getitem k (Z.of_nat i), b)) (seq 0 (length ws))) s =
    (s', Ok (map (fun i => Returns (VObj i)) (seq (fresh s) (length ws)))) /\
  (forall i w, nth_error ws i = Some w -> word_var s' (fresh s + i) w) /\
  (forall b', fails E W b' s' (getitem k (Z.of_nat (length ws))) PyIndexError) /\ list_var s' k l ws.
Proof. exact (fun E W b prog s k l ws HF HW => @iterate E W HF HW b prog s k l ws). Qed.
Print Assumptions C97_iterate.
Example C97_ex : py_reached demo_file the_disk list_prog list_at_ /\ word_var list_at_ 3 [98] /\ list_var list_at_ 0 (LVal 0) [[97]; [98]] /\
  (forall l i v n, refers list_at_ 3 (AtWord l i v) n -> ~ changes_list list_at_ (get_string 3) l).
Proof. split; [exact list_reached|]. split; [exact list_b|]. split; [exact list_is|]. exact (fun _ _ _ _ _ H => H). Qed.

(** C98: no Python program makes the library undefined is false (see also C97): ... *)
Theorem C98_none_refuted : forall E W b s, snd (py_do E W b (split_to_words PyNone) s) = UB.
Proof. exact none_undefined. Qed.
Print Assumptions C98_none_refuted.
Theorem C98_self_refuted : exists E W prog s k r, set_up E W /\ py_reached E W prog s /\ results_var s k r /\ snd (py_do E W true (add_results k k) s) = UB.
Proof. exact self_refuted. Qed.
Print Assumptions C98_self_refuted.
(** ... every statement that is prepared for gives a value or raises, whatever its
    arguments, of whatever classes, bound or not. *)
Theorem C98_safe_partial : forall E W b prog s c, folds_shipped E -> shipped W -> env_ok E -> lower_ok E -> Forall (fun x => py_text (fst x)) prog -> py_reached E W prog s ->
  py_text c -> py_prepared E W prog s c -> exists s' r, py_do E W b c s = (s', Ok r).
Proof. exact (fun E W b prog s c HF HW => @py_safe E W HF HW b prog s c). Qed.
Print Assumptions C98_safe_partial.
Example C98_ex : folds_shipped demo_file /\ shipped the_disk /\ env_ok demo_file /\ lower_ok demo_file /\ Forall (fun x => py_text (fst x)) py_prog /\
  py_reached demo_file the_disk py_prog py_at /\ py_text (match_ 0 (Utf8 s_helo)) /\ py_prepared demo_file the_disk py_prog py_at (match_ 0 (Utf8 s_helo)).
Proof.
  split; [exact fold_ok|]. split; [exact the_disk_ok|]. split; [exact file_env_ok|]. split; [exact file_lower_ok|]. split; [exact py_prog_text|]. split; [exact py_prog_reached|].
  split; [exact s_helo_valid|exact py_prepared_match].
Qed.

(** C99: a Python program can set and read the price of a pair of letters is false: no
    Python value is a Letter. *)
Theorem C99_letters_refuted : forall E W b s k n e put x y v, errors_var s k n e put ->
  fails E W b s (set_error k x y v) PyTypeError /\ fails E W b s (get_substitute_error k x y) PyTypeError.
Proof. exact (fun E W b s k n e put x y v => @errors_letters E W b s k n e put x y v). Qed.
Print Assumptions C99_letters_refuted.
(** So the price of a pair is the standard one or the default, for every program. *)
Theorem C99_prices_partial : forall E W prog s n cs x y, folds_shipped E -> shipped W -> Forall (fun z => py_text (fst z)) prog -> py_reached E W prog s -> py_history E W n prog py_start cs ->
  getSubstituteError (prices_after cs) x y = Ok (python_price cs x y) /\ getInsertionError (prices_after cs) = 100%Z /\
  getDeletionError (prices_after cs) = 100%Z /\ getTransposeError (prices_after cs) = 100%Z.
Proof. exact (fun E W prog s n cs x y HF HW => @python_prices E W HF HW prog s n cs x y). Qed.
Print Assumptions C99_prices_partial.
Example C99_ex : Forall (fun z => py_text (fst z)) py_prog /\ py_reached demo_file the_disk py_prog py_at /\ py_history demo_file the_disk 0 py_prog py_start py_hist /\ py_hist <> [] /\
  exists n e put, errors_var py_at 6 n e put.
Proof.
  split; [exact py_prog_text|]. split; [exact py_prog_reached|]. split; [exact py_hist_ok|]. split; [exact py_hist_some|exact py_errors].
Qed.

(** C100: a str without blanks and NULs becomes a Word that gives the string back, folded
    to lower case ... *)
Theorem C100_round_trip : forall E W b prog s cs, folds_shipped E -> shipped W -> lower_ok E -> py_reached E W prog s -> Forall scalar cs -> (forall c, In c cs -> ~ blank c /\ c <> 0) ->
  let w := letters_of (map (fold E) cs) in let s' := plus s (Holds (OWord w)) in
  makes E W b s (Word_ (Utf8 (bytes_of cs))) (Holds (OWord w)) /\ word_var s' (fresh s) w /\ gives E W b s' (len_word (fresh s)) (VInt (Z.of_nat (length w))) /\
  (short w -> gives E W b s' (get_string (fresh s)) (VStr (bytes_of (map (fold E) cs)))).
Proof. exact round_trip. Qed.
Print Assumptions C100_round_trip.
(** ... and every word of a program, wherever it comes from, gives back such a string. *)
Theorem C100_strings : forall E W prog s k w, folds_shipped E -> shipped W -> lower_ok E -> Forall (fun x => py_text (fst x)) prog -> py_reached E W prog s -> word_var s k w ->
  exists cs, Forall scalar cs /\ (forall c, In c cs -> ~ blank c /\ c <> 0) /\ w = letters_of (map (fold E) cs) /\
    (short w -> forall b, gives E W b s (get_string k) (VStr (bytes_of (map (fold E) cs)))).
Proof. exact (fun E W prog s k w HF HW => @strings E W HF HW prog s k w). Qed.
Print Assumptions C100_strings.
(** Its length as the number of characters is false above U+FFFF ... *)
Theorem C100_length_refuted : exists E W b prog s c s' n, set_up E W /\ py_reached E W prog s /\ scalar c /\ ~ blank c /\
  makes E W b s (Word_ (Utf8 (bytes_of [c]))) (Holds (OWord n)) /\ s' = plus s (Holds (OWord n)) /\ gives E W b s' (len_word (fresh s)) (VInt 2).
Proof. exact len_refuted. Qed.
Print Assumptions C100_length_refuted.
(** ... and true below. *)
Theorem C100_length_partial : forall E W b s k cs, Forall (fun c => c < 65536) cs -> word_var s k (letters_of cs) -> gives E W b s (len_word k) (VInt (Z.of_nat (length cs))).
Proof. exact characters. Qed.
Print Assumptions C100_length_partial.
Example C100_ex : Forall (fun x => py_text (fst x)) doc_prog1 /\ py_reached demo_file the_disk doc_prog1 doc_at1 /\ word_var doc_at1 0 (letters_of s_title) /\ short s_title /\
  Forall (fun c => c < 65536) s_title /\ (forall c, In c s_title -> ~ blank c /\ c <> 0).
Proof. exact strings_ex. Qed.

(** C101: the Matcher of a Python program is in the state a C++ program would have brought
    it to with the same calls ... *)
Theorem C101_as_cpp : forall E W prog s n m, folds_shipped E -> shipped W -> py_reached E W prog s -> holds s n (OMatcher m) ->
  (exists cs, py_history E W n prog py_start cs) /\ forall cs, py_history E W n prog py_start cs -> exists m0, mt_new E = Ok m0 /\ m = m_all E cs m0.
Proof. exact (fun E W prog s n m HF HW => @py_as_cpp E W HF HW prog s n m). Qed.
Print Assumptions C101_as_cpp.
(** ... a search finds exactly the documents indexed that have a word close enough to a
    word of the query, best first ... *)
Theorem C101_search : forall E W b prog s n m cs t r q, folds_shipped E -> shipped W -> env_ok E -> lower_ok E -> Forall (fun x => py_text (fst x)) prog -> py_reached E W prog s ->
  matcher_var s n m -> py_history E W n prog py_start cs -> py_calm E cs m -> valid_utf8 t -> before_nul t r -> splitToWords E r = Ok q -> moderate cs q ->
  exists res view, makes E W b s (match_ n (Utf8 t)) (Holds (OResults res)) /\ shows res view /\ ranked view /\
    forall d, (exists x, In (x, d) view) <-> exists f w qw err, In (d, f, w) (occ cs) /\ In qw q /\ near (prices_after cs) sp_new qw w err.
Proof. exact (fun E W b prog s n m cs t r q HF HW => @py_search E W HF HW b prog s n m cs t r q). Qed.
Print Assumptions C101_search.
(** ... and the results are read in that order. *)
Theorem C101_results : forall E W b s k res view, results_var s k res -> shows res view -> gives E W b s (len_results k) (VInt (Z.of_nat (length view))) /\
  forall i, size_ok i -> exists res', shows res' view /\ let s' := now_holds k (OResults res') s in
    py_do E W b (get_document_id k i) s = (s', Ok match nth_error view (Z.to_nat i) with Some x => Returns (VInt (Z.of_N (snd x))) | None => Raises PyIndexError end) /\
    py_do E W b (get_relevancy k i) s = (s', Ok match nth_error view (Z.to_nat i) with Some x => Returns (VFloat (fst x)) | None => Raises PyIndexError end).
Proof. exact py_results. Qed.
Print Assumptions C101_results.
Example C101_ex : folds_shipped demo_file /\ shipped the_disk /\ env_ok demo_file /\ lower_ok demo_file /\ Forall (fun x => py_text (fst x)) py_prog /\
  py_reached demo_file the_disk py_prog py_at /\ matcher_var py_at 0 py_mat /\ py_history demo_file the_disk 0 py_prog py_start py_hist /\ py_calm demo_file py_hist py_mat /\
  valid_utf8 s_helo /\ before_nul s_helo s_helo /\ splitToWords demo_file s_helo = Ok q_helo /\ moderate py_hist q_helo.
Proof.
  split; [exact fold_ok|]. split; [exact the_disk_ok|]. split; [exact file_env_ok|]. split; [exact file_lower_ok|]. split; [exact py_prog_text|]. split; [exact py_prog_reached|].
  split; [exact py_mat_var|]. split; [exact py_hist_ok|]. split; [exact py_hist_calm|]. split; [exact s_helo_valid|]. split; [exact s_helo_nul|]. split; [exact q_helo_split|exact py_helo_moderate].
Qed.
