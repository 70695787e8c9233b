(** The C interface. *)
From Verif Require Import Base TrieM WordStoreM ErrorValuesM LevIndexM WordM MapM DoubleM ContM MatcherM DataFileM CApiM
  Spec_Hist Spec_EV Spec_Word Spec_Cont Spec_Lev Spec_Match Spec_File Spec_CApi WordP SplitP MapP ContP DataP EVR ScalarP TypoP MatchZ.
From Coq Require Import ZifyBool ZifyN ZifyNat.
Local Open Scope N_scope.
Local Open Scope m_scope.

(** ** No exception gets out *)
Lemma caught_ok fb m h x : snd (caught fb m h) <> Throw x.
Proof. unfold caught. destruct (m h) as [h' [a|y| | |]]; discriminate. Qed.
Lemma no_escape E W c h x : snd (c_do E W c h) <> Throw x.
Proof. destruct c; apply caught_ok. Qed.

(** ** Pieces *)
Lemma live_get h n o : live h n o <-> get_obj h n = Some o.
Proof. unfold live, get_obj. destruct (nth_error h n) as [[x|]|]; split; intros H; congruence. Qed.
Lemma deref_live h n o : live h n o -> deref (PAt n) h = (h, Ok (n, o)).
Proof. intros H. apply live_get in H. unfold deref. now rewrite H. Qed.
Lemma the_word_live h n w : live h n (OWord w) -> the_word (PAt n) h = (h, Ok w).
Proof. intros H. unfold the_word, mbind. now rewrite (deref_live H). Qed.
Lemma the_doc_live h n d : live h n (ODoc d) -> the_doc (PAt n) h = (h, Ok (n, d)).
Proof. intros H. unfold the_doc, mbind. now rewrite (deref_live H). Qed.
Lemma the_corpus_live h n d : live h n (OCorpus d) -> the_corpus (PAt n) h = (h, Ok (n, d)).
Proof. intros H. unfold the_corpus, mbind. now rewrite (deref_live H). Qed.
Lemma the_results_live h n d : live h n (OResults d) -> the_results (PAt n) h = (h, Ok (n, d)).
Proof. intros H. unfold the_results, mbind. now rewrite (deref_live H). Qed.
Lemma the_matcher_live h n d : live h n (OMatcher d) -> the_matcher (PAt n) h = (h, Ok (n, d)).
Proof. intros H. unfold the_matcher, mbind. now rewrite (deref_live H). Qed.
Lemma the_errors_live h n d : live h n (OMatcher d) -> the_errors (PErr n) h = (h, Ok (n, d)).
Proof. apply the_matcher_live. Qed.
Lemma the_weights_live h n d : live h n (OMatcher d) -> the_weights (PWeights n) h = (h, Ok (n, d)).
Proof. apply the_matcher_live. Qed.

(** Inversion. *)
Lemma bind_ok S A B (m : M S A) (k : A -> M S B) s s' b : mbind m k s = (s', Ok b) -> exists s1 a, m s = (s1, Ok a) /\ k a s1 = (s', Ok b).
Proof. unfold mbind. destruct (m s) as [s1 [a|x| | |]]; intros H; try discriminate. now exists s1, a. Qed.
Lemma bind_throw S A B (m : M S A) (k : A -> M S B) s s' x : mbind m k s = (s', Throw x) -> m s = (s', Throw x) \/ exists s1 a, m s = (s1, Ok a) /\ k a s1 = (s', Throw x).
Proof. unfold mbind. destruct (m s) as [s1 [a|y| | |]]; intros H; try discriminate; [right; now exists s1, a|left; congruence]. Qed.
Lemma caught_inv fb m h h' v : caught fb m h = (h', Ok v) -> m h = (h', Ok v) \/ exists x, m h = (h', Throw x) /\ v = fb.
Proof. unfold caught. destruct (m h) as [h1 [a|x| | |]]; intros H; try discriminate; [now left|right]. exists x. split; congruence. Qed.
Lemma deref_inv p h h1 o : deref p h = (h1, o) -> h1 = h /\ (o = UB \/ exists n x, p = PAt n /\ live h n x /\ o = Ok (n, x)).
Proof.
  unfold deref. destruct p as [|n|n|n]; try (intros [= <- <-]; split; [reflexivity|now left]).
  destruct (get_obj h n) as [x|] eqn:Hg; intros [= <- <-]; (split; [reflexivity|]); [right|now left].
  exists n, x. split; [reflexivity|]. split; [now apply live_get|reflexivity].
Qed.
Lemma cast_inv A (k : nat * obj -> M heap A) p h h1 o : mbind (deref p) k h = (h1, o) ->
  (forall x h', k x h' = (h', UB) \/ exists v, k x h' = (h', Ok v)) ->
  h1 = h /\ (o = UB \/ exists n x, p = PAt n /\ live h n x /\ k (n, x) h = (h, o)).
Proof.
  intros H Hk. unfold mbind in H. destruct (deref p h) as [h2 o2] eqn:Hd. apply deref_inv in Hd as [-> [->|(n & x & -> & Hl & ->)]].
  - injection H as <- <-. auto.
  - assert (h1 = h) by (destruct (Hk (n, x) h) as [Hx|(v & Hx)]; congruence). subst h1. split; [reflexivity|]. right. now exists n, x.
Qed.
Ltac the_inv H := apply cast_inv in H; [|intros [? []] ?; cbn; solve [left; reflexivity|right; eexists; reflexivity]];
  let n := fresh "n" in let x := fresh "x" in let Hl := fresh "Hl" in let H' := fresh "H'" in
  destruct H as [-> [->|(n & x & -> & Hl & H')]]; (split; [reflexivity|]); [now left|]; destruct x; cbn in H'; try (injection H' as <-; now left); injection H' as <-; right; eauto.
Lemma the_word_inv p h h1 o : the_word p h = (h1, o) -> h1 = h /\ (o = UB \/ exists n w, p = PAt n /\ live h n (OWord w) /\ o = Ok w).
Proof. intros H. unfold the_word in H. the_inv H. Qed.
Lemma the_doc_inv p h h1 o : the_doc p h = (h1, o) -> h1 = h /\ (o = UB \/ exists n d, p = PAt n /\ live h n (ODoc d) /\ o = Ok (n, d)).
Proof. intros H. unfold the_doc in H. the_inv H. Qed.
Lemma the_corpus_inv p h h1 o : the_corpus p h = (h1, o) -> h1 = h /\ (o = UB \/ exists n d, p = PAt n /\ live h n (OCorpus d) /\ o = Ok (n, d)).
Proof. intros H. unfold the_corpus in H. the_inv H. Qed.
Lemma the_results_inv p h h1 o : the_results p h = (h1, o) -> h1 = h /\ (o = UB \/ exists n d, p = PAt n /\ live h n (OResults d) /\ o = Ok (n, d)).
Proof. intros H. unfold the_results in H. the_inv H. Qed.
Lemma the_matcher_inv p h h1 o : the_matcher p h = (h1, o) -> h1 = h /\ (o = UB \/ exists n d, p = PAt n /\ live h n (OMatcher d) /\ o = Ok (n, d)).
Proof. intros H. unfold the_matcher in H. the_inv H. Qed.
Lemma the_errors_inv p h h1 o : the_errors p h = (h1, o) -> h1 = h /\ (o = UB \/ exists n d, p = PErr n /\ live h n (OMatcher d) /\ o = Ok (n, d)).
Proof.
  unfold the_errors. destruct p as [|n|n|n]; intros H; try (injection H as <- <-; split; [reflexivity|now left]).
  apply the_matcher_inv in H as [-> [->|(k & d & [= <-] & Hl & ->)]]; (split; [reflexivity|]); [now left|right]. now exists n, d.
Qed.
Lemma the_weights_inv p h h1 o : the_weights p h = (h1, o) -> h1 = h /\ (o = UB \/ exists n d, p = PWeights n /\ live h n (OMatcher d) /\ o = Ok (n, d)).
Proof.
  unfold the_weights. destruct p as [|n|n|n]; intros H; try (injection H as <- <-; split; [reflexivity|now left]).
  apply the_matcher_inv in H as [-> [->|(k & d & [= <-] & Hl & ->)]]; (split; [reflexivity|]); [now left|right]. now exists n, d.
Qed.
Lemma del_inv p mine h h1 o : del p mine h = (h1, o) -> (o = UB /\ h1 = h) \/ (p = PNull /\ h1 = h /\ o = Ok tt) \/
  exists n x, p = PAt n /\ live h n x /\ mine x = true /\ h1 = upd n None h /\ o = Ok tt.
Proof.
  unfold del. destruct p as [|n|n|n]; intros H; try (injection H as <- <-; auto; fail).
  destruct (get_obj h n) as [x|] eqn:Hg; [|injection H as <- <-; auto]. destruct (mine x) eqn:Hm; injection H as <- <-; auto.
  right. right. exists n, x. apply live_get in Hg. auto.
Qed.
Lemma method_inv S A n (s : S) wrap (f : M S A) h h1 o : method n s wrap f h = (h1, o) -> exists s', f s = (s', o) /\ h1 = upd n (Some (wrap s')) h.
Proof. unfold method. destruct (f s) as [s' o']. intros [= <- <-]. now exists s'. Qed.

(** ** Other objects are left alone *)
Definition frame {A} (P : A -> Prop) (n : nat) (m : M heap A) : Prop := forall h, (n < length h)%nat ->
  nth_error (fst (m h)) n = nth_error h n /\ (length h <= length (fst (m h)))%nat /\ match snd (m h) with Ok v => P v | _ => True end.
Lemma frame_bind A B (P : A -> Prop) (Q : B -> Prop) n (m : M heap A) (k : A -> M heap B) : frame P n m -> (forall a, P a -> frame Q n (k a)) -> frame Q n (mbind m k).
Proof.
  intros Hm Hk h Hn. unfold mbind. destruct (Hm h Hn) as (H1 & H2 & H3). destruct (m h) as [h1 [a|x| | |]]; cbn [fst snd] in *; auto.
  destruct (Hk a H3 h1 ltac:(lia)) as (H4 & H5 & H6). split; [congruence|]. split; [lia|exact H6].
Qed.
Lemma frame_ret A (P : A -> Prop) n a : P a -> frame P n (ret a).
Proof. intros H h _. now cbn. Qed.
Lemma frame_reads A n (f : heap -> outcome A) : frame (fun _ => True) n (reads f).
Proof. intros h _. cbn. split; [reflexivity|]. split; [lia|]. now destruct (f h). Qed.
Lemma frame_caught n fb m : frame (fun _ => True) n m -> frame (fun _ => True) n (caught fb m).
Proof. intros Hm h Hn. destruct (Hm h Hn) as (H1 & H2 & _). unfold caught. destruct (m h) as [h1 [a|x| | |]]; cbn [fst snd] in *; auto. Qed.
Lemma frame_alloc n o : frame (fun _ => True) n (alloc o).
Proof. intros h Hn. cbn. split; [now apply nth_error_app1|]. split; [rewrite app_length; lia|exact I]. Qed.
Lemma upd_len A k (a : A) l : length (upd k a l) = length l.
Proof. revert k. induction l as [|x l IH]; intros [|k]; cbn; auto. Qed.
Lemma upd_other A k n (a : A) l : k <> n -> nth_error (upd k a l) n = nth_error l n.
Proof. revert k n. induction l as [|x l IH]; intros [|k] [|n] H; cbn; auto; congruence. Qed.
Lemma upd_same A k (a : A) l : (k < length l)%nat -> nth_error (upd k a l) k = Some a.
Proof. revert k. induction l as [|x l IH]; intros [|k] H; cbn in *; try lia; [reflexivity|apply IH; lia]. Qed.
Lemma frame_method S A n k (s : S) wrap (f : M S A) : k <> n -> frame (fun _ => True) n (method k s wrap f).
Proof.
  intros Hk h Hn. unfold method. destruct (f s) as [s' o]. cbn [fst snd]. split; [now apply upd_other|]. split; [now rewrite upd_len|]. now destruct o.
Qed.
Lemma frame_del n p mine : p <> PAt n -> frame (fun _ => True) n (del p mine).
Proof.
  intros Hp h Hn. unfold del. destruct p as [|k|k|k]; try (cbn; split; [reflexivity|split; [lia|exact I]]; fail).
  destruct (get_obj h k) as [x|]; [|cbn; auto]. destruct (mine x); cbn; auto. split; [apply upd_other; congruence|]. split; [now rewrite upd_len|exact I].
Qed.
Lemma frame_the A n (m : M heap A) (P : A -> Prop) : (forall h h1 o, m h = (h1, o) -> h1 = h /\ (o = UB \/ exists v, o = Ok v /\ P v)) -> frame P n m.
Proof. intros H h Hn. destruct (m h) as [h1 o] eqn:Hm. apply H in Hm as [-> Ho]. cbn. split; [reflexivity|]. split; [lia|]. destruct Ho as [->|(v & -> & Hv)]; [exact I|exact Hv]. Qed.
Lemma frame_word n p : frame (fun _ => True) n (the_word p).
Proof. apply frame_the. intros h h1 o H. apply the_word_inv in H as [-> [->|(k & w & _ & _ & ->)]]; (split; [reflexivity|]); [now left|right; eauto]. Qed.
Lemma frame_doc n p : frame (fun x => p = PAt (fst x)) n (the_doc p).
Proof. apply frame_the. intros h h1 o H. apply the_doc_inv in H as [-> [->|(k & w & -> & _ & ->)]]; (split; [reflexivity|]); [now left|right; eauto]. Qed.
Lemma frame_corpus n p : frame (fun x => p = PAt (fst x)) n (the_corpus p).
Proof. apply frame_the. intros h h1 o H. apply the_corpus_inv in H as [-> [->|(k & w & -> & _ & ->)]]; (split; [reflexivity|]); [now left|right; eauto]. Qed.
Lemma frame_results n p : frame (fun x => p = PAt (fst x)) n (the_results p).
Proof. apply frame_the. intros h h1 o H. apply the_results_inv in H as [-> [->|(k & w & -> & _ & ->)]]; (split; [reflexivity|]); [now left|right; eauto]. Qed.
Lemma frame_matcher n p : frame (fun x => p = PAt (fst x)) n (the_matcher p).
Proof. apply frame_the. intros h h1 o H. apply the_matcher_inv in H as [-> [->|(k & w & -> & _ & ->)]]; (split; [reflexivity|]); [now left|right; eauto]. Qed.
Lemma frame_errors n p : frame (fun x => p = PErr (fst x)) n (the_errors p).
Proof. apply frame_the. intros h h1 o H. apply the_errors_inv in H as [-> [->|(k & w & -> & _ & ->)]]; (split; [reflexivity|]); [now left|right; eauto]. Qed.
Lemma frame_weights n p : frame (fun x => p = PWeights (fst x)) n (the_weights p).
Proof. apply frame_the. intros h h1 o H. apply the_weights_inv in H as [-> [->|(k & w & -> & _ & ->)]]; (split; [reflexivity|]); [now left|right; eauto]. Qed.
Ltac frames := repeat first
  [ apply frame_caught
  | eapply frame_bind; [first [apply frame_word | apply frame_doc | apply frame_corpus | apply frame_results | apply frame_matcher | apply frame_errors | apply frame_weights
      | apply frame_reads | apply frame_alloc | (apply frame_method; cbn [fst]; congruence) | (apply frame_del; let Hx := fresh in intros Hx; subst; cbn [changes] in *; congruence)] | cbn beta; intros ? ?; subst; cbn [changes] in *]
  | apply frame_ret; exact I ].
Lemma frame_all E W c n : changes c <> Some n -> frame (fun _ => True) n (c_do E W c).
Proof. destruct c; intros Hc; cbn [c_do]; frames. Qed.
Lemma others_kept E W c h n : (n < length h)%nat -> changes c <> Some n -> nth_error (fst (c_do E W c h)) n = nth_error h n.
Proof. intros Hn Hc. exact (proj1 (@frame_all E W c n Hc h Hn)). Qed.

(** ** Words and texts given as C strings *)
Lemma utf16_head c r : scalar c -> c <> 0 -> is_low (hd 0 (utf16 c ++ r)) = false.
Proof. unfold utf16, is_low, scalar. intros H Hn. destruct (N.ltb_spec c 65536); cbn [app hd]; [lia|]. assert ((c - 65536) / 1024 < 1024) by (apply N.div_lt_upper_bound; lia). lia. Qed.
Lemma utf16_nonnul c : scalar c -> c <> 0 -> Forall nonnul (utf16 c).
Proof.
  unfold utf16, scalar, nonnul. intros H Hn. destruct (N.ltb_spec c 65536); repeat constructor; try lia.
Qed.
Lemma field_usable E w : lower_ok E -> field_word E w -> usable w.
Proof.
  intros HE (s & Hs & Hw). destruct (word_inv HE Hw) as (cs & Hc & -> & _ & ->).
  pose proof (ctext_nonnul Hs) as Hn. pose proof (fold_nonnul HE Hn) as Hn'. pose proof (fold_scalars HE Hc) as Hc'.
  destruct (map (fold E) cs) as [|c r] eqn:Hm; [now left|]. right. split; [|split].
  - cbn. intros H. destruct (sizes1 c) as [Hsz _]. apply (f_equal (@length N)) in H. rewrite app_length in H. cbn in H. lia.
  - clear Hm. revert Hn' Hc'. generalize (c :: r). clear. intros l Hn Hc. induction l as [|c l IH]; [constructor|]. apply Forall_cons_iff in Hn as [H1 Hn]. apply Forall_cons_iff in Hc as [H2 Hc].
    rewrite letters_cons. apply Forall_app. split; [now apply utf16_nonnul|now apply IH].
  - apply Forall_cons_iff in Hn' as [H1 _]. apply Forall_cons_iff in Hc' as [H2 _]. now apply utf16_head.
Qed.
Lemma text_insertable E w : lower_ok E -> text_word E w -> insertable w.
Proof.
  intros HE (s & Hs & Hne & Hw). destruct (field_usable HE (ex_intro _ s (conj Hs Hw))) as [->|H]; [|exact H].
  destruct (word_inv HE Hw) as (cs & Hc & -> & _ & He). destruct cs as [|c cs]; [now destruct Hne|]. exfalso. cbn in He.
  destruct (sizes1 (fold E c)) as [Hsz _]. apply (f_equal (@length N)) in He. rewrite app_length in He. cbn in He. lia.
Qed.
Lemma text_field E w : text_word E w -> field_word E w.
Proof. intros (s & Hs & _ & Hw). now exists s. Qed.
Lemma field_constructible E w : lower_ok E -> field_word E w -> w <> [] -> constructible E w.
Proof.
  intros HE Hf Hne. pose proof (field_usable HE Hf) as Hu. destruct Hf as (s & Hs & Hw). exists w. unfold word_of_letters.
  unfold word_of_utf8 in Hw. destruct (utf8ToInternal E s) as [ls| | | |]; try discriminate. cbn [obind] in Hw.
  assert (Hv : validate E w = Ok w).
  { unfold validate in *. destruct (has_ws ls) eqn:H1; [discriminate|]. destruct (has_broken E ls) as [[|]| | | |] eqn:H2; try discriminate. cbn [obind] in Hw. injection Hw as ->. now rewrite H1, H2. }
  destruct (rev w) as [|last front] eqn:Hr; [destruct Hne; now rewrite <- (rev_involutive w), Hr|]. assert (Hl : w = rev front ++ [last]) by (now rewrite <- (rev_involutive w), Hr).
  assert (Hn : Forall nonnul w) by (destruct Hu as [H|(_ & H & _)]; [contradiction|exact H]).
  assert (last <> 0). { rewrite Hl in Hn. apply Forall_app in Hn as [_ Hn]. apply Forall_inv in Hn. unfold nonnul in Hn. lia. }
  replace (last =? 0) with false by lia. exact Hv.
Qed.
