(** Proofs about CMemM: one call. *)
From Verif Require Import Base TrieM WordStoreM ErrorValuesM LevIndexM WordM WordP WordQ MapM DoubleM ContM MatcherM DataFileM OwnM OwnP OwnQ Spec_Own OomM Spec_Oom OomP OomQ OomR ParM Spec_Par ParP CMemM Spec_CMem.
From Verif Require CApiM Spec_CApi.
Import CApiM(ptr, PNull, PAt, PErr, PWeights, c_val, VVoid, VPtr, VSize, VDocID, VDouble, VText, c_call, c_do,
  col_word_new, col_word_delete, col_word_length, col_word_as_utf8, col_document_new, col_document_delete, col_document_get_id,
  col_document_add_text, col_matcher_new, col_match_results_new, col_match_results_delete, col_match_results_size,
  col_match_results_get_id, col_match_results_get_relevancy, col_corpus_new, col_corpus_delete, col_corpus_add_document).
Import Spec_CApi(fallback).
Local Open Scope Z_scope.

Definition whole_k (o : kobj) : Prop :=
  match o with KWord w => whole_w w | KDoc d => whole_d d | KRes r => r = mkOR v_new true | KCorpus c => whole_c c end.
Definition fp_k (o : kobj) : Z :=
  match o with KWord w => fp_w w | KDoc d => fp_doc d | KRes r => fp_res r | KCorpus c => fp_corpus c end + 1.
Definition whole_o (o : option kobj) : Prop := match o with Some x => whole_k x | None => True end.
Definition fp_o (o : option kobj) : Z := match o with Some x => fp_k x | None => 0 end.
Definition whole_h (h : kheap) : Prop := Forall whole_o h.
Definition fp_h (h : kheap) : Z := sum fp_o h.

Lemma sp_and A (f : T A) m (Q Q' : memory -> A -> Prop) (P P' : memory -> stop -> Prop) (B B' : crash -> Prop) :
  sp f m Q P B -> sp f m Q' P' B' -> sp f m (fun m1 a => Q m1 a /\ Q' m1 a) (fun m1 p => P m1 p /\ P' m1 p) (fun c => B c /\ B' c).
Proof. unfold sp. destruct (f m) as [m1 []]; auto. Qed.
Definition yes {A B : Type} (_ : A) (_ : B) : Prop := True.
Lemma addText_more d o l m : whole_d d -> whole_w o -> whole_l l -> sp (d_addText d o l) m
  (fun _ r => match snd r with None => True | Some p => p = OutOfMemory /\
    (~ In (the_word o) (map fst (d_texts (the_doc d))) -> fst r = d \/ the_doc (fst r) = fst (doc_addText (the_word o) [] (the_doc d))) end) (fun _ _ => False) (fun _ => False).
Proof.
  intros Hd Ho Hl. unfold d_addText. apply sp_bind. unfold sp at 1. rewrite (keys_val Hd). rewrite (read_val Ho). apply sp_bind, sp_val.
  set (ks := map (fun t : oword * olist => the_word (fst t)) (od_texts d)).
  assert (Hset : forall ls, mp_set wltb (the_word o) ls (d_texts (the_doc d)) = let (i, b) := key_at (the_word o) ks in
    if b then match nth_error (map the_node (od_texts d)) i with Some t => upd i (fst t, ls) (map the_node (od_texts d)) | None => map the_node (od_texts d) end else ins i (the_word o, ls) (map the_node (od_texts d))).
  { intros ls. rewrite set_at. unfold the_doc. cbn [d_texts]. rewrite map_map. reflexivity. }
  pose proof (@key_bound (the_word o) ks) as Hkb. pose proof (@key_found (the_word o) ks) as Hkf. replace (map fst (d_texts (the_doc d))) with ks by (unfold the_doc, ks; cbn [d_texts]; now rewrite map_map).
  destruct (key_at (the_word o) ks) as [i [|]] eqn:Hk; cbn [fst snd] in Hkb.
  - specialize (Hkb eq_refl). unfold ks in Hkb. rewrite map_length in Hkb. destruct (nth_error (od_texts d) i) as [t|] eqn:Hn; [|apply nth_error_None in Hn; lia].
    assert (Ht : whole_n t) by (unfold whole_d in Hd; rewrite Forall_forall in Hd; exact (Hd _ (nth_error_In _ _ Hn))). destruct Ht as [Ht1 Ht2].
    apply sp_bind. eapply sp_mono; [apply (@v_assign_ok (snd t) (v_elems l) m (fun _ _ => False) (fun _ => False) Ht2 Hl)| |easy|easy]. cbn beta. intros m1 [r [p|]] [Q1 H1]; cbn [fst snd] in *; apply sp_val; cbn [fst snd]; [|exact I].
    split; [tauto|]. intros Hin. destruct (Hin (Hkf eq_refl)).
  - apply sp_bind, sp_try, sp_bind, sp_alloc; intros m1 L1 P1.
    2: { apply sp_val. cbn [fst snd]. auto. }
    apply sp_bind, sp_cleanup, copy_made; [exact Ho| |].
    + intros m2 k Wk Vk L2 Q2. apply sp_bind, sp_cleanup, list_made; intros m3 L3 P3.
      * apply sp_val. cbv iota beta. apply sp_bind. cbn [snd fst]. eapply sp_mono; [apply (@v_assign_ok v_new (v_elems l) m3 (fun _ _ => False) (fun _ => False)); [constructor|exact Hl]| |easy|easy]. cbn beta.
        intros m4 [r [p|]] [Q4 H4]; cbn [fst snd] in *; apply sp_val; cbn [fst snd]; [|exact I].
        destruct H4 as (-> & H4 & H5). split; [reflexivity|]. intros _. right. destruct (H5 eq_refl) as [-> L4].
        unfold doc_addText. cbn [fst]. rewrite Hset. unfold the_doc. cbn [od_id od_texts d_id].
        change (fun t : oword * olist => (the_word (fst t), the_list (snd t))) with the_node. rewrite ins_map. unfold the_node at 1. cbn [fst snd]. rewrite Vk. reflexivity.
      * eapply sp_frees; [apply frees_bind; [apply word_frees, Wk|apply frees_free]|]. intros m4 L4 P4. apply sp_val. cbn [fst snd]. auto.
    + intros m2 L2 P2. apply sp_free. intros m3 L3 P3. apply sp_val. cbn [fst snd]. auto.
Qed.
(** Adding to a document: what is left after an exception. *)
Lemma addUtf8_all E d o s m : whole_d d -> whole_w o -> sp (d_addUtf8 E d o s) m
  (fun m' r => quiet m m' /\ match snd r with
    | None => whole_d (fst r) /\ (e_ndebug E = false \/ plan m = [] -> exists ws, splitToWords E s = Ok ws /\ the_doc (fst r) = fst (doc_addText (the_word o) ws (the_doc d))) /\
      live m' = live m - fp_doc d + fp_doc (fst r)
    | Some p => (plan m = [] -> exists e, p = Thrown e /\ splitToWords E s = Throw e) /\
      (~ In (the_word o) (map fst (d_texts (the_doc d))) \/ p <> OutOfMemory -> whole_d (fst r) /\ live m - fp_doc d <= live m' - fp_doc (fst r) <= live m - fp_doc d + 2 /\
       (fst r = d \/ p = OutOfMemory /\ the_doc (fst r) = fst (doc_addText (the_word o) [] (the_doc d)))) end)
  (fun _ _ => False) (fun c => match c with CAbort => e_ndebug E = false /\ (plan m = [] -> splitToWords E s = Abort) | CUndef => splitToWords E s = UB | CFuel => False end).
Proof.
  intros Hd Ho. unfold d_addUtf8. apply sp_bind, sp_try. eapply sp_ref; [apply (split_ref E s)| | | |].
  - intros m1 l Wl Vl L1 Q1. apply sp_bind. eapply sp_mono; [apply sp_and; [apply (@addText_ok d o l m1 (fun _ _ => False) (fun _ => False) Hd Ho Wl)|apply (@addText_more d o l m1 Hd Ho Wl)]| |intros ? ? [[] _]|intros ? [[] _]]. cbn beta.
    intros m2 [r e] [[Q2 H2] H3]. apply sp_bind. eapply sp_frees; [apply list_frees, Wl|]. intros m3 L3 P3. apply sp_val. cbn [fst snd] in *. unfold quiet in *. rewrite P3. split; [auto|].
    destruct e as [p|].
    + destruct H2 as [H2 H4]. destruct H3 as [-> H3]. split; [intros H; destruct H2; auto|]. intros [Hin|Hin]; [|congruence]. destruct (H4 Hin) as [W2 L2]. split; [exact W2|]. split; [lia|]. destruct (H3 Hin); auto.
    + destruct H2 as (W2 & V2 & L2). split; [exact W2|]. split; [|lia]. intros H. exists (the_list l). auto.
  - intros m1 p L1 P1. apply sp_val. cbn [fst snd]. unfold quiet. split; [intros H; apply P1, H|]. split; [intros H; apply P1, H|]. intros _. split; [exact Hd|]. unfold lost in L1. split; [lia|auto].
  - auto.
  - auto.
Qed.

Section One.
Variables (E : env) (W : world).
Lemma at_heap h n : nth_error (the_heap h) n = option_map (option_map the_handle) (nth_error h n).
Proof. apply nth_error_map. Qed.
Lemma whole_at h n o : whole_h h -> nth_error h n = Some (Some o) -> whole_k o.
Proof. intros H Hn. unfold whole_h in H. rewrite Forall_forall in H. exact (H _ (nth_error_In _ _ Hn)). Qed.
Lemma heap_upd h n o : the_heap (upd n o h) = upd n (option_map the_handle o) (the_heap h).
Proof. apply upd_map. Qed.
Lemma heap_app h o : the_heap (h ++ [Some o]) = the_heap h ++ [Some (the_handle o)].
Proof. unfold the_heap. rewrite map_app. reflexivity. Qed.
Lemma fp_upd h n o x : nth_error h n = Some o -> fp_h (upd n x h) = fp_h h - fp_o o + fp_o x.
Proof. apply upd_sum. Qed.
Lemma fp_app h o : fp_h (h ++ [o]) = fp_h h + fp_o o.
Proof. unfold fp_h. rewrite sum_app, sum_cons, sum_nil. lia. Qed.

(** What a call must do. *)
Definition good_end (c : c_call) (m : memory) (h : kheap) (m' : memory) (r : kheap * c_val * option stop) : Prop :=
  let '(h', v, e) := r in quiet m m' /\
  match e with
  | None => whole_h h' /\ (e_ndebug E = false \/ plan m = [] -> c_do E W c (the_heap h) = (the_heap h', Ok v)) /\ live m' - fp_h h' = live m - fp_h h
  | Some p => v = fallback c /\ (plan m = [] -> exists x, p = Thrown x) /\
    (~ replaces (the_heap h) c \/ p <> OutOfMemory -> whole_h h' /\ live m - fp_h h <= live m' - fp_h h' <= live m - fp_h h + call_loses c /\
       (plan m = [] -> c_do E W c (the_heap h) = (the_heap h', Ok v)) /\
       (the_heap h' = the_heap h \/ p = OutOfMemory /\ exists x y s, c = col_document_add_text x y s /\ c_do E W (col_document_add_text x y []) (the_heap h) = (the_heap h', Ok VVoid)))
  end.
Definition good_crash (c : c_call) (m : memory) (h : kheap) (k : crash) : Prop :=
  match k with CAbort => e_ndebug E = false /\ (plan m = [] -> snd (c_do E W c (the_heap h)) = Abort) | CUndef => snd (c_do E W c (the_heap h)) = UB | CFuel => False end.

Lemma new_ok A V c m h (f : T A) (o : outcome V) whole the fp leak (k : A -> kobj) (ck : V -> CApiM.obj) :
  whole_h h -> ref E f o whole the fp leak -> 0 <= leak <= call_loses c -> fallback c = VPtr PNull ->
  (forall a, whole a -> whole_k (k a) /\ fp_k (k a) = fp a + 1 /\ the_handle (k a) = ck (the a)) ->
  c_do E W c = CApiM.caught (VPtr PNull) (w <- reads (fun _ => o) ;; p <- CApiM.alloc (ck w) ;; ret (VPtr p))%m ->
  sp (k_try (VPtr PNull) h (k_new f) (fun a => k_add h (k a))) m (good_end c m h) (fun _ _ => False) (good_crash c m h).
Proof.
  intros Hh Hf Hl Hfb Hk Hc. unfold k_try, k_new, good_crash. rewrite Hc.
  apply sp_bind, sp_try, sp_bind, sp_alloc; intros m1 L1 P1.
  2: { apply sp_val. unfold good_end. split; [red; easy|]. split; [now rewrite Hfb|]. split; [easy|]. intros _. split; [exact Hh|]. split; [lia|]. split; [easy|auto]. }
  apply sp_cleanup. eapply sp_ref; [exact Hf| | | |].
  - intros m2 a Wa Va L2 Q2. apply sp_val. unfold k_add, good_end. destruct (Hk a Wa) as (K1 & K2 & K3). split; [unfold quiet in *; auto|]. split; [apply Forall_app; split; [exact Hh|repeat constructor; exact K1]|].
    split; [|rewrite fp_app; cbn [fp_o]; lia]. intros H. 
    assert (H' : e_ndebug E = false \/ plan m1 = []) by (destruct H; auto). rewrite Hc, (Va H'). unfold CApiM.caught, mbind, reads, CApiM.alloc, ret. rewrite heap_app, K3. unfold the_heap. rewrite map_length. reflexivity.
  - intros m2 p L2 P2. apply sp_free. intros m3 L3 P3. apply sp_val. unfold good_end, lost in *. split; [unfold quiet; rewrite P3; intros H; apply P2; auto|]. split; [now rewrite Hfb|].
    split; [intros H; destruct (P2 (P1 H)) as (_ & x & X & _); eauto|]. intros _. split; [exact Hh|]. split; [lia|]. split; [|auto]. intros H. rewrite Hc. destruct (P2 (P1 H)) as (_ & x & _ & ->). reflexivity.
  - intros X Y. split; [exact X|]. intros H. rewrite (Y (P1 H)). reflexivity.
  - intros ->. reflexivity.
Qed.

Lemma new_sure A V c m h (f : T A) (v : V) whole the fp (k : A -> kobj) (ck : V -> CApiM.obj) :
  whole_h h -> ref E f (Ok v) whole the fp 0 -> 0 <= call_loses c -> fallback c = VPtr PNull ->
  (forall a, whole a -> whole_k (k a) /\ fp_k (k a) = fp a + 1 /\ the_handle (k a) = ck (the a)) ->
  c_do E W c = CApiM.caught (VPtr PNull) (p <- CApiM.alloc (ck v) ;; ret (VPtr p))%m ->
  sp (k_try (VPtr PNull) h (k_new f) (fun a => k_add h (k a))) m (good_end c m h) (fun _ _ => False) (good_crash c m h).
Proof. intros Hh Hf Hl Hfb Hk Hc. eapply new_ok; eauto. lia. Qed.

Lemma delete_ok c m h p (mine : kobj -> option (T unit)) (cmine : CApiM.obj -> bool) :
  whole_h h -> (forall o, whole_k o -> match mine o with Some f => cmine (the_handle o) = true /\ frees f (fp_k o - 1) | None => cmine (the_handle o) = false end) ->
  c_do E W c = CApiM.caught VVoid (CApiM.del p cmine ;;; ret VVoid)%m ->
  sp (k_delete h p mine) m (good_end c m h) (fun _ _ => False) (good_crash c m h).
Proof.
  intros Hh Hm Hc. unfold good_crash. unfold k_delete.
  assert (Hb : match p with PErr _ | PWeights _ => True | PAt n => CApiM.get_obj (the_heap h) n = None \/ exists o, CApiM.get_obj (the_heap h) n = Some o /\ cmine o = false | PNull => False end -> snd (c_do E W c (the_heap h)) = UB).
  { rewrite Hc. unfold CApiM.caught, mbind, CApiM.del. destruct p; try easy. intros [->|(o & -> & ->)]; reflexivity. }
  destruct p as [|n|n|n].
  - apply sp_val. unfold good_end. split; [red; auto|]. split; [exact Hh|]. split; [|lia]. intros _. rewrite Hc. reflexivity.
  - unfold k_at. unfold CApiM.get_obj in Hb. rewrite at_heap in Hb. destruct (nth_error h n) as [[o|]|] eqn:Hn; cbn [option_map] in Hb; [|now apply Hb; left|now apply Hb; left].
    pose proof (Hm o (whole_at Hh Hn)) as Ho. destruct (mine o) as [f|]; [|apply Hb; right; eauto]. destruct Ho as [Ho Hf].
    apply sp_bind. eapply sp_frees; [exact Hf|]. intros m1 L1 P1. apply sp_bind, sp_free. intros m2 L2 P2. apply sp_val. unfold good_end, quiet. rewrite P2, P1. split; [auto|].
    split; [apply upd_Forall; [exact I|exact Hh]|]. rewrite (fp_upd _ Hn). cbn [fp_o]. split; [|lia]. intros _. rewrite Hc. unfold CApiM.caught, mbind, CApiM.del, CApiM.get_obj. rewrite at_heap, Hn. cbn [option_map]. rewrite Ho, heap_upd. reflexivity.
  - now apply Hb.
  - now apply Hb.
Qed.
Lemma deref_heap h p : CApiM.deref p (the_heap h) = (the_heap h, match k_at h p with Some (n, o) => Ok (n, the_handle o) | None => UB end).
Proof.
  unfold CApiM.deref, k_at. destruct p as [|n|n|n]; try reflexivity. unfold CApiM.get_obj. rewrite at_heap. destruct (nth_error h n) as [[o|]|]; reflexivity.
Qed.
Lemma k_at_nth h p n o : k_at h p = Some (n, o) -> p = PAt n /\ nth_error h n = Some (Some o).
Proof. unfold k_at. destruct p as [|i|i|i]; try discriminate. destruct (nth_error h i) as [[x|]|] eqn:Hn; try discriminate. intros [= -> ->]. auto. Qed.
Lemma res_ref : ref E r_new (Ok mr_new) (fun r => r = mkOR v_new true) (fun r => mkMR (v_elems (or_vec r)) (or_sorted r)) fp_res 0.
Proof. intros m. unfold r_new. apply sp_bind, sp_alloc; intros m1 L1 P1; [|split; [unfold lost; lia|easy]]. apply sp_val. split; [reflexivity|]. split; [reflexivity|]. split; [exact L1|exact P1]. Qed.
Lemma same_end c m h v : whole_h h -> c_do E W c (the_heap h) = (the_heap h, Ok v) -> good_end c m h m (h, v, None).
Proof. intros Hh H. unfold good_end. split; [red; auto|]. split; [exact Hh|]. split; [auto|lia]. Qed.
Lemma caught_end c m h x : whole_h h -> 0 <= call_loses c -> c_do E W c (the_heap h) = (the_heap h, Ok (fallback c)) -> good_end c m h m (h, fallback c, Some (Thrown x)).
Proof. intros Hh Hc H. unfold good_end. split; [red; auto|]. split; [reflexivity|]. split; [eauto|]. intros _. split; [exact Hh|]. split; [lia|]. auto. Qed.
Lemma broken_ok c m h : snd (c_do E W c (the_heap h)) = UB -> sp broken m (good_end c m h) (fun _ _ => False) (good_crash c m h).
Proof. intros H. exact H. Qed.
Ltac look := cbn [c_do]; unfold CApiM.caught, CApiM.the_word, CApiM.the_doc, CApiM.the_results, CApiM.the_corpus, CApiM.the_errors, CApiM.the_weights, CApiM.the_matcher, mbind, ret; rewrite ?deref_heap.
Lemma utf8_cases w n : match w_toUtf8 w n with Ok _ | Throw _ | UB => True | _ => False end.
Proof. unfold w_toUtf8, internalToUtf8. destruct (iconv_16_8 _ _) as [l|]; cbn [obind]; [|exact I]. destruct (_ <? _)%N; exact I. Qed.
Lemma get_id_empty i : mr_getDocumentID i (mkMR [] true) = (mkMR [] true, Throw EOutOfRange).
Proof. unfold mr_getDocumentID. destruct i; reflexivity. Qed.
Lemma r_empty i : r_getID i (mkOR v_new true) = (mkOR v_new true, Throw EOutOfRange).
Proof. unfold r_getID. cbn [or_vec v_elems or_sorted v_new]. now rewrite get_id_empty. Qed.
Lemma k_ok c f m h : whole_h h -> k_do E c h = Some f -> sp f m (good_end c m h) (fun _ _ => False) (good_crash c m h).
Proof.
  intros Hh. destruct c as [s|w|w|w bufSize|id|d|d|x y s| |q|q q2|q s|q|q| |r|r|r i|r i| |c|c d|q|q|q q2 t|q q2]; cbn [k_do]; try discriminate; intros [= <-].
  - eapply (@new_ok _ _ (col_word_new s) m h _ _ whole_w the_word fp_w 1 KWord CApiM.OWord); [exact Hh|apply of_text_ref|cbn; lia|reflexivity| |reflexivity]. intros a Ha. repeat split. exact Ha.
  - eapply delete_ok; [exact Hh| |reflexivity]. intros [o|o|o|o] Ho; try reflexivity. split; [reflexivity|]. eapply frees_eq; [apply word_frees, Ho|unfold fp_k; lia].
  - destruct (k_at h w) as [[n []]|] eqn:Hk; try (apply broken_ok; look; rewrite Hk; reflexivity).
    apply sp_val, same_end; [exact Hh|]. look. rewrite Hk. cbn. rewrite the_word_length; [reflexivity|]. apply k_at_nth in Hk as [_ Hk]. exact (whole_at Hh Hk).
  - destruct (k_at h w) as [[n []]|] eqn:Hk; try (apply broken_ok; look; rewrite Hk; reflexivity).
    assert (Ho : whole_w o) by (destruct (k_at_nth Hk) as [_ Hn]; exact (whole_at Hh Hn)). rewrite (read_val Ho). apply sp_bind, sp_val. unfold k_try, tbind, try, pure, sp, val.
    pose proof (utf8_cases (the_word o) bufSize) as Hu. 
    assert (Hd : c_do E W (col_word_as_utf8 w bufSize) (the_heap h) = (the_heap h, match w_toUtf8 (the_word o) bufSize with Ok t => Ok (VText t) | Throw _ => Ok VVoid | Abort => Abort | UB => UB | Fuel => Fuel end)).
    { look. rewrite Hk. cbn [the_handle snd]. unfold reads. destruct (w_toUtf8 _ _); reflexivity. }
    destruct (w_toUtf8 (the_word o) bufSize) as [t|x| | |] eqn:Ht; try (destruct Hu; fail).
    + apply same_end; auto.
    + apply (@caught_end (col_word_as_utf8 w bufSize)); [exact Hh|reflexivity|exact Hd].
    + unfold good_crash. rewrite Hd. reflexivity.
  - eapply (@new_sure _ _ (col_document_new id) m h _ _ whole_d the_doc fp_doc KDoc CApiM.ODoc); [exact Hh|apply d_new_ref|cbn; lia|reflexivity| |reflexivity]. intros a Ha. repeat split. exact Ha.
  - eapply delete_ok; [exact Hh| |reflexivity]. intros [o|o|o|o] Ho; try reflexivity. split; [reflexivity|]. eapply frees_eq; [apply doc_frees, Ho|unfold fp_k; lia].
  - destruct (k_at h d) as [[n []]|] eqn:Hk; try (apply broken_ok; look; rewrite Hk; reflexivity).
    apply sp_val, same_end; [exact Hh|]. look. rewrite Hk. reflexivity.
  - destruct (k_at h x) as [[n [o|o|o|o]]|] eqn:Hx; try (apply broken_ok; look; rewrite Hx; reflexivity).
    destruct (k_at h y) as [[n2 [w|w|w|w]]|] eqn:Hy; try (apply broken_ok; look; rewrite Hx; cbn [the_handle fst snd]; rewrite deref_heap, Hy; reflexivity).
    assert (Hd : forall t, c_do E W (col_document_add_text x y t) (the_heap h) =
      match splitToWords E t with Ok ws => (upd n (Some (CApiM.ODoc (fst (doc_addText (the_word w) ws (the_doc o))))) (the_heap h), Ok VVoid) | Throw _ => (the_heap h, Ok VVoid) | UB => (the_heap h, UB) | Abort => (the_heap h, Abort) | Fuel => (the_heap h, Fuel) end).
    { intros t. look. rewrite Hx. cbn [the_handle fst snd]. rewrite deref_heap, Hy. cbn [the_handle fst snd]. unfold CApiM.method, doc_addText_utf8.
      assert (Hid : upd n (Some (CApiM.ODoc (the_doc o))) (the_heap h) = the_heap h) by (apply upd_id; rewrite at_heap; destruct (k_at_nth Hx) as [_ ->]; reflexivity).
      unfold mbind, reads. destruct (splitToWords E t); cbn [fst snd]; rewrite ?Hid; reflexivity. }
    destruct (k_at_nth Hx) as [-> Hn]. destruct (k_at_nth Hy) as [-> Hn2]. pose proof (whole_at Hh Hn) as Ho. pose proof (whole_at Hh Hn2) as Hw. cbn [whole_k] in Ho, Hw.
    apply sp_bind. eapply sp_mono; [apply (@addUtf8_all E o w s m Ho Hw)| |easy|].
    + cbn beta. intros m1 [d' [p|]] [Q1 H1]; cbn [fst snd] in *; apply sp_val; unfold good_end; (split; [exact Q1|]).
      * destruct H1 as [H1 H2]. split; [reflexivity|]. split; [intros H; destruct (H1 H) as (e & -> & _); eauto|]. intros H3.
        destruct H2 as (W1 & L1 & V1).
        { destruct H3 as [H3|H3]; [|auto]. left. intros Hin. apply H3. exists n, n2, s, (the_doc o), (the_word w). split; [reflexivity|]. unfold Spec_CApi.live. rewrite !at_heap, Hn, Hn2. auto. }
        split; [apply upd_Forall; [exact W1|exact Hh]|]. rewrite (fp_upd _ Hn). cbn [fp_o call_loses]. unfold fp_k. split; [clear - L1; lia|].
        assert (Hsame : d' = o -> the_heap (upd n (Some (KDoc d')) h) = the_heap h) by (intros ->; now rewrite (upd_id Hn)).
        split.
        -- intros H. destruct (H1 H) as (e & -> & He). rewrite Hd, He. destruct V1 as [V1|[V1 _]]; [|discriminate]. now rewrite (Hsame V1).
        -- destruct V1 as [V1|[-> V1]]; [left; auto|]. right. split; [reflexivity|]. exists (PAt n), (PAt n2), s. split; [reflexivity|]. rewrite Hd. change (splitToWords E []) with (@Ok wordlist []). cbv iota. rewrite heap_upd. cbn [option_map the_handle]. now rewrite V1.
      * destruct H1 as (W1 & V1 & L1). split; [apply upd_Forall; [exact W1|exact Hh]|]. rewrite (fp_upd _ Hn). cbn [fp_o]. unfold fp_k. split; [|lia]. intros H. destruct (V1 H) as (ws & Hs & V2). rewrite Hd, Hs, heap_upd. cbn [option_map the_handle]. now rewrite V2.
    + intros k Hk. unfold good_crash. rewrite Hd. destruct k; [|rewrite Hk; reflexivity|exact Hk]. destruct Hk as [K1 K2]. split; [exact K1|]. intros H. now rewrite (K2 H).
  - eapply delete_ok; [exact Hh| |reflexivity]. intros [o|o|o|o] Ho; reflexivity.
  - apply broken_ok. look. destruct (k_at h q) as [[n []]|]; reflexivity.
  - apply broken_ok. look. destruct (k_at h q) as [[n []]|]; reflexivity.
  - apply broken_ok. look. destruct (k_at h q) as [[n []]|]; reflexivity.
  - apply broken_ok. look. destruct (k_at h q) as [[n []]|]; reflexivity.
  - eapply (@new_sure _ _ col_match_results_new m h _ _ _ _ fp_res KRes CApiM.OResults); [exact Hh|apply res_ref|cbn; lia|reflexivity| |reflexivity]. intros a Ha. repeat split. exact Ha.
  - eapply delete_ok; [exact Hh| |reflexivity]. intros [o|o|o|o] Ho; try reflexivity. split; [reflexivity|]. eapply frees_eq; [apply res_frees|unfold fp_k; lia].
  - destruct (k_at h r) as [[n []]|] eqn:Hk; try (apply broken_ok; look; rewrite Hk; reflexivity).
    apply sp_val, same_end; [exact Hh|]. look. rewrite Hk. reflexivity.
  - destruct (k_at h r) as [[n [o|o|o|o]]|] eqn:Hk; try (apply broken_ok; look; rewrite Hk; reflexivity).
    destruct (k_at_nth Hk) as [_ Hn]. pose proof (whole_at Hh Hn) as Ho. cbn [whole_k] in Ho. subst o. rewrite r_empty. cbv beta iota zeta. rewrite (upd_id Hn).
    apply (@caught_end (col_match_results_get_id r i)); [exact Hh|reflexivity|]. look. rewrite Hk. cbn [the_handle fst snd or_vec v_elems or_sorted v_new]. unfold CApiM.method. rewrite get_id_empty. rewrite upd_id; [reflexivity|]. rewrite at_heap, Hn. reflexivity.
  - destruct (k_at h r) as [[n [o|o|o|o]]|] eqn:Hk; try (apply broken_ok; look; rewrite Hk; reflexivity).
    destruct (k_at_nth Hk) as [_ Hn]. pose proof (whole_at Hh Hn) as Ho. cbn [whole_k] in Ho. subst o. rewrite r_empty. cbv beta iota zeta. rewrite (upd_id Hn).
    apply (@caught_end (col_match_results_get_relevancy r i)); [exact Hh|reflexivity|]. look. rewrite Hk. cbn [the_handle fst snd or_vec v_elems or_sorted v_new]. unfold CApiM.method. rewrite get_id_empty. rewrite upd_id; [reflexivity|]. rewrite at_heap, Hn. reflexivity.
  - eapply (@new_sure _ _ col_corpus_new m h _ _ whole_c (fun c => map the_doc (v_elems c)) fp_corpus KCorpus CApiM.OCorpus); [exact Hh|apply c_new_ref|cbn; lia|reflexivity| |reflexivity]. intros a Ha. repeat split. exact Ha.
  - eapply delete_ok; [exact Hh| |reflexivity]. intros [o|o|o|o] Ho; try reflexivity. split; [reflexivity|]. eapply frees_eq; [apply corpus_frees, Ho|unfold fp_k; lia].
  - destruct (k_at h c) as [[n [o|o|o|o]]|] eqn:Hx; try (apply broken_ok; look; rewrite Hx; reflexivity).
    destruct (k_at h d) as [[n2 [w|w|w|w]]|] eqn:Hy; try (apply broken_ok; look; rewrite Hx; cbn [the_handle fst snd]; rewrite deref_heap, Hy; reflexivity).
    destruct (k_at_nth Hx) as [_ Hn]. destruct (k_at_nth Hy) as [_ Hn2]. pose proof (whole_at Hh Hn) as Ho. pose proof (whole_at Hh Hn2) as Hw. cbn [whole_k] in Ho, Hw.
    unfold k_try. apply sp_bind, sp_try. eapply (sp_ok (E := E)); [apply (@c_add_ref E o w Ho Hw)| | |].
    + intros m1 o' W1 V1 L1 Q1. cbn beta in L1. apply sp_val. unfold good_end. split; [exact Q1|]. split; [apply upd_Forall; [exact W1|exact Hh]|]. rewrite (fp_upd _ Hn). cbn [fp_o]. unfold fp_k, fp_corpus. split; [|lia].
      intros H. look. rewrite Hx. cbn [the_handle fst snd]. rewrite deref_heap, Hy. cbn [the_handle fst snd]. unfold CApiM.method, co_addDocument. cbn [fst snd]. rewrite heap_upd. cbn [option_map the_handle]. now rewrite <- (V1 H).
    + intros m1 p L1 P1. unfold lost in L1. apply sp_val. unfold good_end. split; [red; easy|]. split; [reflexivity|]. split; [easy|]. intros _. split; [exact Hh|]. split; [cbn [call_loses]; lia|]. split; [easy|auto].
    + intros X Y. split; [exact X|]. easy.
  - apply broken_ok. look. destruct q; try reflexivity. rewrite deref_heap. destruct (k_at h _) as [[n1 []]|]; reflexivity.
  - apply broken_ok. look. destruct q; try reflexivity. rewrite deref_heap. destruct (k_at h _) as [[n1 []]|]; reflexivity.
  - apply broken_ok. look. destruct q; try reflexivity. rewrite deref_heap. destruct (k_at h _) as [[n1 []]|]; reflexivity.
  - apply broken_ok. look. destruct q; try reflexivity. rewrite deref_heap. destruct (k_at h _) as [[n1 []]|]; reflexivity.
Qed.
End One.
