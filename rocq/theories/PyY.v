(** The Python properties as they are stated: the methods class by class. *)
From Verif Require Import Base TrieM WordStoreM ErrorValuesM LevIndexM WordM MapM DoubleM ContM MatcherM DataFileM PyM
  Spec_Hist Spec_EV Spec_Word Spec_Cont Spec_Match Spec_File Spec_CApi Spec_Py PyP PyQ PyS PyU.
Local Open Scope N_scope.
Lemma documents_do E W b s :
  (forall id, if (0 <=? id)%Z && (id <? 2 ^ 64)%Z then makes E W b s (Document_ id) (Holds (ODoc (doc_new (Z.to_N id))))
     else fails E W b s (Document_ id) PyOverflowError) /\
  (forall k d, doc_var s k d ->
     makes E W b s (Document_copy k) (Holds (ODoc d)) /\ gives E W b s (field_count k) (VInt (Z.of_N (doc_fieldCount d))) /\
     gives E W b s (get_id k) (VInt (Z.of_N (doc_getID d)))) /\
  (forall k d j f, doc_var s k d -> word_var s j f -> match doc_getText d f with
     | Ok _ => makes E W b s (get_text k j) (Points (AtText k f) k)
     | Throw x => fails E W b s (get_text k j) (as_python x)
     | _ => True end) /\
  (forall k d j f t r, doc_var s k d -> word_var s j f -> before_nul t r -> let x := doc_addText_utf8 E f r d in let c := add_text k j (Utf8 t) in
     py_do E W b c s = match snd x with
       | Ok _ => (moved_if b (LText k f) (now_holds k (ODoc (fst x)) s), Ok (Returns VNone))
       | o => (now_holds k (ODoc (fst x)) s, relayed o (fun _ => VNone)) end) /\
  makes E W b s Corpus_ (Holds (OCorpus [])) /\
  (forall k c, corpus_var s k c -> gives E W b s (size k) (VInt (Z.of_nat (length c))) /\
     forall j d, doc_var s j d -> py_do E W b (add_document k j) s = (now_holds k (OCorpus (c ++ [d])) s, Ok (Returns VNone))).
Proof.
  split; [exact (doc_new_ E W b s)|]. split; [intros k d H; exact (conj (doc_copy E W b H) (conj (doc_fields E W b H) (doc_id E W b H)))|]. split; [exact (@doc_text E W b s)|].
  split; [|split; [exact (corpus_new E W b s)|intros k c H; exact (conj (corpus_size E W b H) (fun j d => @corpus_add E W b s k c j d H))]].
  intros k d j f t r Hd Hf Hr x c. pose proof (@doc_add E W b s k d j f t r Hd Hf Hr) as H. cbv zeta in H. fold x in H. unfold c. destruct (snd x); exact H.
Qed.
Lemma matchers_do E W b s :
  (match mt_new E with Ok m => makes E W b s Matcher_ (Holds (OMatcher m)) | Throw x => fails E W b s Matcher_ (as_python x) | _ => True end) /\
  (forall k m, matcher_var s k m ->
     (forall j c, corpus_var s j c -> let x := mt_index E c m in
        py_do E W b (index k j) s = (now_holds k (OMatcher (fst x)) s, relayed (snd x) (fun _ => VNone))) /\
     (forall t r, before_nul t r -> let x := mt_match_utf8 E r sp_new m in let s' := now_holds k (OMatcher (fst x)) s in
        py_do E W b (match_ k (Utf8 t)) s = match snd x with
          | Ok res => (plus s' (Holds (OResults res)), Ok (Returns (VObj (fresh s))))
          | o => (s', relayed o (fun _ => VNone)) end) /\
     makes E W b s (get_errorvalues k) (Points (AtErrors k) k) /\ makes E W b s (get_indexweights k) (Points (AtWeights k) k)).
Proof.
  split; [exact (matcher_new E W b s)|]. intros k m Hm. split; [exact (fun j c => @matcher_index E W b s k m j c Hm)|]. split; [|exact (matcher_members E W b Hm)].
  intros t r Hr x s'. pose proof (@matcher_match E W b s k m t r Hm Hr) as H. cbv zeta in H. fold x in H. unfold s'. destruct (snd x); exact H.
Qed.
Lemma settings_do E W b s :
  makes E W b s ErrorValues_ (Holds (OErrors ev_new)) /\ makes E W b s IndexWeights_ (Holds (OWeights [])) /\
  gives E W b s get_default_error (VInt 100) /\ gives E W b s get_substring_default_end_deletion_error (VInt 15) /\
  (forall k n e put, errors_var s k n e put ->
     (let x := addStandardErrors_file E W e in py_do E W b (add_standard_errors k) s = (now_holds n (put (fst x)) s, relayed (snd x) (fun _ => VNone))) /\
     py_do E W b (set_substring_mode k) s = (now_holds n (put (setSubstringMode e)) s, Ok (Returns VNone)) /\
     py_do E W b (clear_errors k) s = (now_holds n (put (clearErrors e)) s, Ok (Returns VNone)) /\
     forall v, if (- 2 ^ 31 <=? v)%Z && (v <? 2 ^ 31)%Z
       then py_do E W b (set_end_deletion_error k v) s = (now_holds n (put (setEndDeletionError v e)) s, Ok (Returns VNone))
       else fails E W b s (set_end_deletion_error k v) PyOverflowError) /\
  (forall k n x put j f, weights_var s k n x put -> word_var s j f ->
     gives E W b s (get_weight k j) (VFloat (iw_getWeight x f)) /\
     forall v, py_do E W b (set_weight k j v) s = (now_holds n (put (iw_setWeight f v x)) s, Ok (Returns VNone))).
Proof.
  split; [exact (errors_new E W b s)|]. split; [exact (weights_new E W b s)|]. destruct (errors_constants E W b s) as [H1 H2]. split; [exact H1|]. split; [exact H2|]. split.
  - intros k n e put H. exact (conj (errors_standard E W b H) (conj (errors_substring E W b H) (conj (errors_clear E W b H) (fun v => @errors_end E W b s k n e put v H)))).
  - intros k n x put j f H Hf. exact (conj (weights_get E W b H Hf) (fun v => @weights_set E W b s k n x put j f v H Hf)).
Qed.
Lemma no_texts E W b s k f :
  fails E W b s (Word_ Unencodable) PyUnicodeError /\ fails E W b s (split_to_words Unencodable) PyUnicodeError /\ fails E W b s (Word_ PyNone) PyTypeError /\
  (forall d w, doc_var s k d -> word_var s f w -> fails E W b s (add_text k f Unencodable) PyUnicodeError /\ fails E W b s (add_text k f PyNone) PyTypeError) /\
  (forall m, matcher_var s k m -> fails E W b s (match_ k Unencodable) PyUnicodeError /\ fails E W b s (match_ k PyNone) PyTypeError).
Proof.
  destruct (unencodable E W b s k f) as (H1 & H2 & H3 & H4). destruct (no_str E W b s k f) as (H5 & H6 & H7 & _). split; [exact H1|]. split; [exact H2|]. split; [exact H5|]. split.
  - intros d w Hd Hw. exact (conj (H3 d w Hd Hw) (H6 d w Hd Hw)).
  - intros m Hm. exact (conj (H4 m Hm) (H7 m Hm)).
Qed.
Lemma round_trip E W b prog s cs : folds_shipped E -> shipped W -> lower_ok E -> py_reached E W prog s -> Forall scalar cs -> (forall c, In c cs -> ~ blank c /\ c <> 0) ->
  let w := letters_of (map (fold E) cs) in let s' := plus s (Holds (OWord w)) in
  makes E W b s (Word_ (Utf8 (bytes_of cs))) (Holds (OWord w)) /\ word_var s' (fresh s) w /\ gives E W b s' (len_word (fresh s)) (VInt (Z.of_nat (length w))) /\
  (short w -> gives E W b s' (get_string (fresh s)) (VStr (bytes_of (map (fold E) cs)))).
Proof. intros HF HW HL Hr Hs Hc. exact (@new_string E W b s cs HL (reached_good HF HW Hr) Hs Hc). Qed.
Lemma utf16_small cs : Forall (fun c => c < 65536) cs -> length (letters_of cs) = length cs.
Proof.
  induction 1 as [|c cs Hc _ IH]; [reflexivity|]. unfold letters_of in *. cbn [flat_map length]. rewrite app_length, IH. unfold utf16. destruct (N.ltb_spec c 65536); [reflexivity|lia].
Qed.
Lemma characters E W b s k cs : Forall (fun c => c < 65536) cs -> word_var s k (letters_of cs) -> gives E W b s (len_word k) (VInt (Z.of_nat (length cs))).
Proof. intros H Hw. rewrite <- (utf16_small H). exact (word_len E W b Hw). Qed.
