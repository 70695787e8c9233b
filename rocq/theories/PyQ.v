(** What each Python statement does when its arguments are right. *)
From Verif Require Import Base TrieM WordStoreM ErrorValuesM LevIndexM WordM MapM DoubleM ContM MatcherM DataFileM PyM
  Spec_Hist Spec_EV Spec_Word Spec_Cont Spec_Match Spec_File Spec_Py PyP.
From Coq Require Import ZifyBool ZifyN ZifyNat.
Local Open Scope N_scope.
Local Open Scope m_scope.

Lemma c_str_nul t : before_nul t (c_str t).
Proof.
  induction t as [|b t [IH1 IH2]]; cbn; [split; [intros []|now left]|]. destruct (N.eqb_spec b 0) as [->|Hb].
  - split; [intros []|]. right. now exists t.
  - split; [intros [H|H]; [congruence|contradiction]|]. destruct IH2 as [IH|(r & IH)]; [left|right; exists r]; cbn; congruence.
Qed.
Lemma nul_unique t r : before_nul t r -> r = c_str t.
Proof.
  revert r. induction t as [|b t IH]; intros r [H1 H2].
  - destruct H2 as [<-|(x & H2)]; [reflexivity|]. destruct r; discriminate H2.
  - destruct r as [|a r].
    + destruct H2 as [H2|(x & H2)]; [discriminate H2|]. injection H2 as -> ->. reflexivity.
    + assert (Ha : a <> 0 /\ a = b) by (split; [intros ->; apply H1; now left|destruct H2 as [H2|(x & H2)]; now injection H2]).
      destruct Ha as [Ha <-]. cbn. destruct (N.eqb_spec a 0); [contradiction|]. f_equal. apply IH. split; [intros H; apply H1; now right|].
      destruct H2 as [H2|(x & H2)]; injection H2 as ->; [now left|right; now exists x].
Qed.

Section Calls.
Variables (E : env) (W : world) (b : bool) (s : py_state).
Local Notation run c := (py_do E W b c s).
Lemma do_gives c s' v : py_do' E W b c s = (s', Ok (inl v)) -> run c = (s', Ok (Returns v)).
Proof. unfold py_do, mbind, ret. now intros ->. Qed.
Lemma do_raises c s' x : py_do' E W b c s = (s', Ok (inr x)) -> run c = (s', Ok (Raises x)).
Proof. unfold py_do, mbind, ret. now intros ->. Qed.
Lemma do_bad c s' : py_do' E W b c s = (s', UB) -> run c = (s', UB).
Proof. unfold py_do, mbind, ret. now intros ->. Qed.

Lemma str_nul t r : before_nul t r -> str_arg (Utf8 t) s = (s, Ok (inl r)).
Proof. intros H. cbn. now rewrite (nul_unique H). Qed.
Lemma cstr_nul t r : before_nul t r -> cstr_arg (Utf8 t) s = (s, Ok (inl r)).
Proof. intros H. cbn. now rewrite (nul_unique H). Qed.
Lemma u64_ok i : size_ok i -> u64_arg i s = (s, Ok (inl (Z.to_N i))).
Proof. unfold size_ok, u64_arg. intros H. replace ((0 <=? i) && (i <=? 18446744073709551615))%Z with true by lia. reflexivity. Qed.
Lemma u64_bad i : ~ size_ok i -> u64_arg i s = (s, Ok (inr PyOverflowError)).
Proof. unfold size_ok, u64_arg. intros H. replace ((0 <=? i) && (i <=? 18446744073709551615))%Z with false by lia. reflexivity. Qed.

Ltac go := repeat lazymatch goal with
  | |- pbind ?m ?k ?s = _ => first
      [ erewrite pbind_inl by (first [eassumption | eapply word_ok; eassumption | eapply list_ok; eassumption | eapply doc_ok_; eassumption | eapply corpus_ok; eassumption
          | eapply results_ok; eassumption | eapply matcher_ok; eassumption | eapply errors_ok; eassumption | eapply weights_ok; eassumption | eapply str_nul; eassumption | eapply cstr_nul; eassumption
          | eapply u64_ok; eassumption ]) ]
  end.

(** Words. *)
Lemma word_new t r : before_nul t r -> match word_of_utf8 E r with
  | Ok w => makes E W b s (Word_ (Utf8 t)) (Holds (OWord w))
  | Throw x => fails E W b s (Word_ (Utf8 t)) (as_python x)
  | _ => True end.
Proof.
  intros Ht. destruct (word_of_utf8 E r) as [w|x| | |] eqn:Hw; try exact I.
  - apply do_gives. cbn [py_do']. go. rewrite Hw. reflexivity.
  - apply do_raises. cbn [py_do']. go. rewrite Hw. reflexivity.
Qed.
Lemma word_string k w : word_var s k w -> match asUtf8 w with
  | Ok t => gives E W b s (get_string k) (VStr t)
  | Throw x => fails E W b s (get_string k) (as_python x)
  | _ => True end.
Proof.
  intros Ht. destruct (asUtf8 w) as [t|x| | |] eqn:Hw; try exact I.
  - apply do_gives. cbn [py_do']. go. rewrite Hw. reflexivity.
  - apply do_raises. cbn [py_do']. go. rewrite Hw. reflexivity.
Qed.
Lemma word_len k w : word_var s k w -> gives E W b s (len_word k) (VInt (Z.of_nat (length w))).
Proof. intros Hw. apply do_gives. cbn [py_do']. go. reflexivity. Qed.

(** Lists. *)
Lemma list_new : makes E W b s WordList_ (Holds (OList [])).
Proof. now apply do_gives. Qed.
Lemma list_copy k l ws : list_var s k l ws -> makes E W b s (WordList_copy k) (Holds (OList ws)).
Proof. intros H. apply list_arg_ok in H as [H Hc]. apply do_gives. cbn [py_do']. go. reflexivity. Qed.
Lemma list_len k l ws : list_var s k l ws -> gives E W b s (len_list k) (VInt (Z.of_nat (length ws))).
Proof. intros H. apply list_arg_ok in H as [H Hc]. apply do_gives. cbn [py_do']. go. unfold wl_size. now rewrite nat_N_Z. Qed.
Lemma list_item k l ws i w : list_var s k l ws -> (0 <= i < 2 ^ 64)%Z -> nth_error ws (Z.to_nat i) = Some w ->
  makes E W b s (getitem k i) (Points (AtWord l (Z.to_N i) (moves_of l s)) k).
Proof.
  intros H Hi Hn. apply list_arg_ok in H as [H Hc]. apply do_gives. cbn [py_do']. go. unfold wl_at, at_or_throw.
  assert (Hl : (Z.to_nat i < length ws)%nat) by (apply nth_error_Some; congruence). replace (N.of_nat (length ws) <=? Z.to_N i) with false by lia.
  rewrite Z_N_nat, Hn. reflexivity.
Qed.
Lemma list_item_none k l ws i : list_var s k l ws -> (0 <= i < 2 ^ 64)%Z -> (Z.of_nat (length ws) <= i)%Z -> fails E W b s (getitem k i) PyIndexError.
Proof.
  intros H Hi Hn. apply list_arg_ok in H as [H Hc]. apply do_raises. cbn [py_do']. go. unfold wl_at, at_or_throw. replace (N.of_nat (length ws) <=? Z.to_N i) with true by lia. reflexivity.
Qed.
Lemma list_item_huge k l ws i : list_var s k l ws -> ~ (0 <= i < 2 ^ 64)%Z -> fails E W b s (getitem k i) PyOverflowError.
Proof. intros H Hi. apply list_arg_ok in H as [H Hc]. apply do_raises. cbn [py_do']. erewrite pbind_inl by exact H. now erewrite pbind_inr by (apply u64_bad; exact Hi). Qed.
Lemma add_own k ws j w : list_var s k (LVal k) ws -> word_var s j w ->
  run (add_word k j) = (moved_if b (LVal k) (now_holds k (OList (ws ++ [w])) s), Ok (Returns VNone)).
Proof. intros H Hw. apply list_arg_ok in H as [H Hc]. apply do_gives. cbn [py_do']. go. reflexivity. Qed.
Lemma add_text_view k n f d ws j w : list_var s k (LText n f) ws -> holds s n (ODoc d) -> word_var s j w ->
  run (add_word k j) = (moved_if b (LText n f) (now_holds n (ODoc (fst (doc_addText f (ws ++ [w]) d))) s), Ok (Returns VNone)).
Proof.
  intros H Hd Hw. apply list_arg_ok in H as [H Hc]. apply do_gives. cbn [py_do']. go. cbn [put_list wl_addWord fst].
  unfold mbind at 1. rewrite (pbind_inl _ (held_ok Hd)). reflexivity.
Qed.
Lemma split_new t r : before_nul t r -> match splitToWords E r with
  | Ok ws => makes E W b s (split_to_words (Utf8 t)) (Holds (OList ws))
  | Throw x => fails E W b s (split_to_words (Utf8 t)) (as_python x)
  | _ => True end.
Proof.
  intros Ht. destruct (splitToWords E r) as [w|x| | |] eqn:Hw; try exact I.
  - apply do_gives. cbn [py_do']. go. rewrite Hw. reflexivity.
  - apply do_raises. cbn [py_do']. go. rewrite Hw. reflexivity.
Qed.
(** str *)
Lemma unencodable k f : fails E W b s (Word_ Unencodable) PyUnicodeError /\ fails E W b s (split_to_words Unencodable) PyUnicodeError /\
  (forall d w, doc_var s k d -> word_var s f w -> fails E W b s (add_text k f Unencodable) PyUnicodeError) /\
  (forall m, matcher_var s k m -> fails E W b s (match_ k Unencodable) PyUnicodeError).
Proof.
  split; [now apply do_raises|]. split; [now apply do_raises|]. split; intros; apply do_raises; cbn [py_do']; go; reflexivity.
Qed.
Lemma no_str k f : fails E W b s (Word_ PyNone) PyTypeError /\
  (forall d w, doc_var s k d -> word_var s f w -> fails E W b s (add_text k f PyNone) PyTypeError) /\
  (forall m, matcher_var s k m -> fails E W b s (match_ k PyNone) PyTypeError) /\ snd (run (split_to_words PyNone)) = UB.
Proof.
  split; [now apply do_raises|]. split; [intros; apply do_raises; cbn [py_do']; go; reflexivity|]. split; [intros; apply do_raises; cbn [py_do']; go; reflexivity|]. reflexivity.
Qed.

(** Documents and corpora. *)
Lemma doc_new_ id : if (0 <=? id)%Z && (id <? 2 ^ 64)%Z then makes E W b s (Document_ id) (Holds (ODoc (doc_new (Z.to_N id)))) else fails E W b s (Document_ id) PyOverflowError.
Proof.
  destruct ((0 <=? id)%Z && (id <? 2 ^ 64)%Z) eqn:H.
  - apply do_gives. cbn [py_do']. erewrite pbind_inl by (apply u64_ok; unfold size_ok; lia). reflexivity.
  - apply do_raises. cbn [py_do']. erewrite pbind_inr by (apply u64_bad; unfold size_ok; lia). reflexivity.
Qed.
Lemma doc_copy k d : doc_var s k d -> makes E W b s (Document_copy k) (Holds (ODoc d)).
Proof. intros H. apply do_gives. cbn [py_do']. go. reflexivity. Qed.
Lemma doc_fields k d : doc_var s k d -> gives E W b s (field_count k) (VInt (Z.of_N (doc_fieldCount d))).
Proof. intros H. apply do_gives. cbn [py_do']. go. reflexivity. Qed.
Lemma doc_id k d : doc_var s k d -> gives E W b s (get_id k) (VInt (Z.of_N (doc_getID d))).
Proof. intros H. apply do_gives. cbn [py_do']. go. reflexivity. Qed.
Lemma doc_text k d j f : doc_var s k d -> word_var s j f -> match doc_getText d f with
  | Ok _ => makes E W b s (get_text k j) (Points (AtText k f) k)
  | Throw x => fails E W b s (get_text k j) (as_python x)
  | _ => True end.
Proof.
  intros Hd Hf. destruct (doc_getText d f) as [t|x| | |] eqn:Ht; try exact I.
  - apply do_gives. cbn [py_do']. go. rewrite Ht. reflexivity.
  - apply do_raises. cbn [py_do']. go. rewrite Ht. reflexivity.
Qed.
Lemma doc_add k d j f t r : doc_var s k d -> word_var s j f -> before_nul t r -> let x := doc_addText_utf8 E f r d in
  match snd x with
  | Ok _ => run (add_text k j (Utf8 t)) = (moved_if b (LText k f) (now_holds k (ODoc (fst x)) s), Ok (Returns VNone))
  | o => run (add_text k j (Utf8 t)) = (now_holds k (ODoc (fst x)) s, relayed o (fun _ => VNone))
  end.
Proof.
  intros Hd Hf Ht x. subst x.
  assert (H : py_do' E W b (add_text k j (Utf8 t)) s = (_ <~ py_method k d ODoc (doc_addText_utf8 E f r) ;; note_move b (LText k f) ;;; pret VNone) s) by (cbn [py_do']; go; reflexivity).
  assert (Hr : forall r, run (add_text k j (Utf8 t)) = r <-> (r <- py_do' E W b (add_text k j (Utf8 t)) ;; ret (match r with inl v => Returns v | inr x => Raises x end)) s = r) by reflexivity.
  destruct (doc_addText_utf8 E f r d) as [d' [[]|x| | |]] eqn:Hd'; cbn [fst snd]; apply Hr; unfold mbind; rewrite H; unfold pbind, py_method, store, cpp, mbind; rewrite Hd'; reflexivity.
Qed.
Lemma corpus_new : makes E W b s Corpus_ (Holds (OCorpus [])).
Proof. now apply do_gives. Qed.
Lemma corpus_size k c : corpus_var s k c -> gives E W b s (size k) (VInt (Z.of_nat (length c))).
Proof. intros H. apply do_gives. cbn [py_do']. go. unfold co_size. now rewrite nat_N_Z. Qed.
Lemma corpus_add k c j d : corpus_var s k c -> doc_var s j d -> run (add_document k j) = (now_holds k (OCorpus (c ++ [d])) s, Ok (Returns VNone)).
Proof. intros H Hd. apply do_gives. cbn [py_do']. go. reflexivity. Qed.

(** Results. *)
Lemma results_new : makes E W b s MatchResults_ (Holds (OResults mr_new)).
Proof. now apply do_gives. Qed.
Lemma results_len k r : results_var s k r -> gives E W b s (len_results k) (VInt (Z.of_N (mr_size r))).
Proof. intros H. apply do_gives. cbn [py_do']. go. reflexivity. Qed.
Lemma relay_method S A c n (x : S) put (f : M S A) (g : A -> py_val) : py_do' E W b c s = (a <~ py_method n x put f ;; pret (g a)) s ->
  run c = (now_holds n (put (fst (f x))) s, relayed (snd (f x)) g).
Proof.
  intros H. unfold py_do, mbind. rewrite H. unfold pbind, mbind, py_method, store, cpp. destruct (f x) as [x' [a|y| | |]]; reflexivity.
Qed.
Lemma results_add k r j q : results_var s k r -> results_var s j q -> k <> j -> let x := mr_addResults q r in
  run (add_results k j) = (now_holds k (OResults (fst x)) s, relayed (snd x) (fun _ => VNone)).
Proof. intros Hr Hq Hk. apply relay_method. cbn [py_do']. go. rewrite (proj2 (Nat.eqb_neq k j) Hk). reflexivity. Qed.
Lemma results_add_self k r : results_var s k r -> snd (run (add_results k k)) = UB.
Proof. intros Hr. erewrite do_bad; [reflexivity|]. cbn [py_do']. go. now rewrite Nat.eqb_refl. Qed.
Lemma results_id k r i : results_var s k r -> size_ok i -> let x := mr_getDocumentID (Z.to_N i) r in
  run (get_document_id k i) = (now_holds k (OResults (fst x)) s, relayed (snd x) (fun d => VInt (Z.of_N d))).
Proof. intros Hr Hi. apply relay_method. cbn [py_do']. go. reflexivity. Qed.
Lemma results_rel k r i : results_var s k r -> size_ok i -> let x := mr_getRelevancy (Z.to_N i) r in
  run (get_relevancy k i) = (now_holds k (OResults (fst x)) s, relayed (snd x) VFloat).
Proof. intros Hr Hi. apply relay_method. cbn [py_do']. go. reflexivity. Qed.
Lemma results_huge k r i : results_var s k r -> ~ size_ok i -> fails E W b s (get_document_id k i) PyOverflowError /\ fails E W b s (get_relevancy k i) PyOverflowError.
Proof.
  intros Hr Hi. split; apply do_raises; cbn [py_do']; (erewrite pbind_inl by (eapply results_ok; eassumption)); now erewrite pbind_inr by (apply u64_bad; exact Hi).
Qed.

(** Matchers. *)
Lemma matcher_new : match mt_new E with
  | Ok m => makes E W b s Matcher_ (Holds (OMatcher m)) | Throw x => fails E W b s Matcher_ (as_python x) | _ => True end.
Proof.
  destruct (mt_new E) as [m|x| | |] eqn:Hm; try exact I.
  - apply do_gives. cbn [py_do']. rewrite Hm. reflexivity.
  - apply do_raises. cbn [py_do']. rewrite Hm. reflexivity.
Qed.
Lemma matcher_index k m j c : matcher_var s k m -> corpus_var s j c -> let x := mt_index E c m in
  run (index k j) = (now_holds k (OMatcher (fst x)) s, relayed (snd x) (fun _ => VNone)).
Proof. intros Hm Hc. apply relay_method. cbn [py_do']. go. reflexivity. Qed.
Lemma matcher_match k m t r : matcher_var s k m -> before_nul t r -> let x := mt_match_utf8 E r sp_new m in let s' := now_holds k (OMatcher (fst x)) s in
  match snd x with
  | Ok res => run (match_ k (Utf8 t)) = (plus s' (Holds (OResults res)), Ok (Returns (VObj (fresh s))))
  | o => run (match_ k (Utf8 t)) = (s', relayed o (fun _ => VNone))
  end.
Proof.
  intros Hm Ht x s'. subst x s'.
  assert (H : py_do' E W b (match_ k (Utf8 t)) s = (r <~ py_method k m OMatcher (mt_match_utf8 E r sp_new) ;; create (Holds (OResults r))) s) by (cbn [py_do']; go; reflexivity).
  assert (Hr : forall r, run (match_ k (Utf8 t)) = r <-> (r <- py_do' E W b (match_ k (Utf8 t)) ;; ret (match r with inl v => Returns v | inr x => Raises x end)) s = r) by reflexivity.
  destruct (mt_match_utf8 E r sp_new m) as [m' [a|y| | |]] eqn:Hd'; cbn [fst snd]; apply Hr; unfold mbind; rewrite H; unfold pbind, py_method, store, cpp, mbind; rewrite Hd'; try reflexivity.
  cbn. unfold plus, now_holds. cbn. unfold fresh. assert (Hl : forall A n (v : A) l, length (upd n v l) = length l) by (intros A n v l; revert n; induction l as [|a' l IH]; intros [|n]; cbn; auto).
  now rewrite Hl.
Qed.
Lemma matcher_members k m : matcher_var s k m ->
  makes E W b s (get_errorvalues k) (Points (AtErrors k) k) /\ makes E W b s (get_indexweights k) (Points (AtWeights k) k).
Proof. intros Hm. split; apply do_gives; cbn [py_do']; go; reflexivity. Qed.

(** Prices and weights. *)
Lemma errors_new : makes E W b s ErrorValues_ (Holds (OErrors ev_new)).
Proof. now apply do_gives. Qed.
Lemma errors_standard k n e put : errors_var s k n e put -> let x := addStandardErrors_file E W e in
  run (add_standard_errors k) = (now_holds n (put (fst x)) s, relayed (snd x) (fun _ => VNone)).
Proof. intros H. apply relay_method. cbn [py_do']. go. reflexivity. Qed.
Lemma errors_substring k n e put : errors_var s k n e put -> run (set_substring_mode k) = (now_holds n (put (setSubstringMode e)) s, Ok (Returns VNone)).
Proof. intros H. apply do_gives. cbn [py_do']. go. reflexivity. Qed.
Lemma errors_clear k n e put : errors_var s k n e put -> run (clear_errors k) = (now_holds n (put (clearErrors e)) s, Ok (Returns VNone)).
Proof. intros H. apply do_gives. cbn [py_do']. go. reflexivity. Qed.
Lemma errors_end k n e put v : errors_var s k n e put ->
  if (- 2 ^ 31 <=? v)%Z && (v <? 2 ^ 31)%Z then run (set_end_deletion_error k v) = (now_holds n (put (setEndDeletionError v e)) s, Ok (Returns VNone))
  else fails E W b s (set_end_deletion_error k v) PyOverflowError.
Proof.
  intros H. assert (Hi : in_i32 v = ((- 2 ^ 31 <=? v)%Z && (v <? 2 ^ 31)%Z)%bool) by (unfold in_i32; lia).
  destruct ((- 2 ^ 31 <=? v)%Z && (v <? 2 ^ 31)%Z)%bool eqn:Hv; [apply do_gives|apply do_raises]; cbn [py_do']; go.
  - unfold int_arg. rewrite Hi. reflexivity.
  - unfold int_arg. rewrite Hi. reflexivity.
Qed.
Lemma errors_constants : gives E W b s get_default_error (VInt 100) /\ gives E W b s get_substring_default_end_deletion_error (VInt 15).
Proof. split; now apply do_gives. Qed.
Lemma errors_letters k n e put a c v : errors_var s k n e put -> fails E W b s (set_error k a c v) PyTypeError /\ fails E W b s (get_substitute_error k a c) PyTypeError.
Proof.
  intros H. assert (Hx : exists x, look k s = (s, Ok (inl x))) by (destruct H as [e Hb H|n m w Hb H _]; eexists; apply look_ok; eassumption).
  destruct Hx as [x Hx]. split; apply do_raises; cbn [py_do']; now rewrite (pbind_inl _ Hx).
Qed.
Lemma weights_new : makes E W b s IndexWeights_ (Holds (OWeights [])).
Proof. now apply do_gives. Qed.
Lemma weights_set k n x put j f v : weights_var s k n x put -> word_var s j f ->
  run (set_weight k j v) = (now_holds n (put (iw_setWeight f v x)) s, Ok (Returns VNone)).
Proof. intros H Hf. apply do_gives. cbn [py_do']. go. reflexivity. Qed.
Lemma weights_get k n x put j f : weights_var s k n x put -> word_var s j f -> gives E W b s (get_weight k j) (VFloat (iw_getWeight x f)).
Proof. intros H Hf. apply do_gives. cbn [py_do']. go. reflexivity. Qed.
End Calls.
