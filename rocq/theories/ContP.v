(** Proofs about the containers. *)
From Verif Require Import Base TrieM WordM WordP WordQ MapM DoubleM MapP ContM Spec_Cont.
From Coq Require Import ZifyBool ZifyN ZifyNat.
Local Open Scope N_scope.

Lemma at_spec A (l : list A) i : at_or_throw l i = match nth_error l (N.to_nat i) with Some a => Ok a | None => Throw EOutOfRange end.
Proof.
  unfold at_or_throw. destruct (N.leb_spec (N.of_nat (length l)) i) as [H|H].
  - now rewrite (proj2 (nth_error_None l (N.to_nat i))) by lia.
  - destruct (nth_error l (N.to_nat i)) eqn:He; [reflexivity|]. apply nth_error_None in He. lia.
Qed.

(** ** Word-keyed maps built by a history of settings *)
Section Hist.
Context {B : Type}.
Definition build (calls : list (word * B)) : list (word * B) := fold_left (fun m c => mp_set wltb (fst c) (snd c) m) calls [].
Lemma fold_sorted calls : forall m, msorted wltb m -> msorted wltb (fold_left (fun m (c : word * B) => mp_set wltb (fst c) (snd c) m) calls m).
Proof. induction calls as [|[k v] r IH]; intros m Hm; [exact Hm|]. cbn. apply IH. now apply (set_sorted wltb_order). Qed.
Lemma assoc_app (l1 l2 : list (word * B)) f : assoc (l1 ++ l2) f = match assoc l1 f with Some v => Some v | None => assoc l2 f end.
Proof. unfold assoc. induction l1 as [|[k v] r IH]; [reflexivity|]. cbn. destruct (weqb f k); [reflexivity|exact IH]. Qed.
Lemma fold_find calls : forall m f, msorted wltb m ->
  mp_find wltb f (fold_left (fun m (c : word * B) => mp_set wltb (fst c) (snd c) m) calls m) =
  match last_for calls f with Some v => Some v | None => mp_find wltb f m end.
Proof.
  induction calls as [|[k v] r IH]; intros m f Hm; [reflexivity|]. cbn [fold_left fst snd].
  rewrite IH by now apply (set_sorted wltb_order). unfold last_for. cbn [rev]. rewrite assoc_app.
  destruct (assoc (rev r) f) as [x|]; [reflexivity|]. unfold assoc. cbn. destruct (weqb_spec f k) as [->|Hne].
  - now apply (find_set_same wltb_order).
  - now apply (find_set_other wltb_order).
Qed.
Lemma build_find calls f : mp_find wltb f (build calls) = last_for calls f.
Proof. unfold build. rewrite fold_find by constructor. now destruct (last_for calls f). Qed.
Lemma build_sorted calls : msorted wltb (build calls).
Proof. apply fold_sorted. constructor. Qed.
Lemma last_in (calls : list (word * B)) f : (exists v, last_for calls f = Some v) <-> In f (map fst calls).
Proof.
  unfold last_for. rewrite (in_rev (map fst calls)), <- map_rev.
  induction (rev calls) as [|[k v] r IH]; [split; [intros [v H]; discriminate|intros []]|].
  unfold assoc in *. cbn. destruct (weqb_spec f k) as [->|Hne].
  - split; [now left|]. intros _. now exists v.
  - rewrite IH. split; [now right|]. intros [H|H]; [congruence|exact H].
Qed.
Lemma build_keys calls f : In f (map fst (build calls)) <-> In f (map fst calls).
Proof.
  rewrite <- (last_in calls f). rewrite <- build_find. destruct (mp_find wltb f (build calls)) as [v|] eqn:H.
  - split; [intros _; now exists v|]. intros _. apply (find_in wltb_order _ _ (build_sorted calls)) in H. now apply (in_map fst) in H.
  - split; [|intros [v Hv]; discriminate]. intros Hin. apply (find_none wltb_order _ (build_sorted calls)) in H. contradiction.
Qed.
End Hist.

(** ** Document *)
Lemma texts_build id calls : d_id (add_texts id calls) = id /\ d_texts (add_texts id calls) = build calls.
Proof.
  unfold add_texts, build. change (@nil (word * wordlist)) with (d_texts (doc_new id)) at 1.
  assert (H : forall d, d_id d = id -> d_id (fold_left (fun d c => fst (doc_addText (fst c) (snd c) d)) calls d) = id /\
    d_texts (fold_left (fun d c => fst (doc_addText (fst c) (snd c) d)) calls d) = fold_left (fun m c => mp_set wltb (fst c) (snd c) m) calls (d_texts d)).
  { induction calls as [|c r IH]; intros d Hd; [now split|]. cbn [fold_left]. now apply (IH (fst (doc_addText (fst c) (snd c) d))). }
  now apply H.
Qed.
Lemma count_word_occ w t : count_word w t = occurrences w t.
Proof.
  unfold count_word, occurrences. f_equal. induction t as [|x t IH]; [reflexivity|]. cbn.
  destruct (weqb_spec x w) as [Hq|Hne]; destruct (list_eq_dec N.eq_dec x w) as [He|He]; try congruence; cbn; now rewrite IH.
Qed.
Lemma document_map id calls :
  let d := add_texts id calls in
  doc_getID d = id /\
  (forall f, doc_getText d f = match last_for calls f with Some t => Ok t | None => Throw EInvalidArg end) /\
  (forall names, NoDup names -> (forall f, In f names <-> In f (map fst calls)) -> doc_fieldCount d = N.of_nat (length names)) /\
  (exists names, doc_getFieldNames d [] = (names, Ok tt) /\ StronglySorted (fun a b => wltb a b = true) names /\
     (forall f, In f names <-> In f (map fst calls)) /\ forall l, doc_getFieldNames d l = (l ++ names, Ok tt)) /\
  (forall w f, doc_wordCount d w f = match last_for calls f with Some t => occurrences w t | None => 0 end) /\
  (forall w names, NoDup names -> (forall f, In f names <-> In f (map fst calls)) ->
     doc_totalWordCount d w = fold_right (fun f n => doc_wordCount d w f + n) 0 names).
Proof.
  cbv zeta. destruct (texts_build id calls) as [H1 H2]. set (d := add_texts id calls) in *. pose proof (build_sorted calls) as Hs.
  assert (Hn : NoDup (map fst (d_texts d))) by (rewrite H2; now apply (sorted_nodup wltb_order)).
  assert (Hk : forall f, In f (map fst (d_texts d)) <-> In f (map fst calls)) by (intros f; rewrite H2; apply build_keys).
  assert (Hp : forall names, NoDup names -> (forall f, In f names <-> In f (map fst calls)) -> Permutation (map fst (d_texts d)) names).
  { intros names Hnd He. apply NoDup_Permutation; [exact Hn|exact Hnd|]. intros f. now rewrite Hk, He. }
  split; [exact H1|]. split; [intros f; unfold doc_getText; now rewrite H2, build_find|]. split; [|split; [|split]].
  - intros names Hnd He. unfold doc_fieldCount. f_equal. rewrite <- (map_length fst). apply Permutation_length. now apply Hp.
  - exists (map fst (d_texts d)). split; [reflexivity|]. split; [rewrite H2; now apply (sorted_keys)|]. split; [exact Hk|]. reflexivity.
  - intros w f. unfold doc_wordCount. rewrite H2, build_find. destruct (last_for calls f); [apply count_word_occ|reflexivity].
  - intros w names Hnd He. specialize (Hp names Hnd He). unfold doc_totalWordCount. clear - Hp.
    assert (H : forall l a, fold_left (fun n p => n + doc_wordCount d w (fst p)) l a = a + fold_right (fun f n => doc_wordCount d w f + n) 0 (map (@fst word wordlist) l)).
    { induction l as [|p l IH]; intros a; cbn; [lia|]. rewrite IH. lia. }
    rewrite H, N.add_0_l. clear H. induction Hp; cbn; try lia; congruence.
Qed.
Lemma addText_utf8_spec E d f s :
  (forall ws, splitToWords E s = Ok ws -> doc_addText_utf8 E f s d = doc_addText f ws d) /\
  (forall e, splitToWords E s = Throw e -> doc_addText_utf8 E f s d = (d, Throw e)).
Proof. unfold doc_addText_utf8, mbind, reads. split; intros x ->; reflexivity. Qed.

(** ** Vectors *)
Lemma list_history A (l : list A) x :
  (forall i, at_or_throw (l ++ [x]) i = if i <? N.of_nat (length l) then at_or_throw l i else if i =? N.of_nat (length l) then Ok x else Throw EOutOfRange).
Proof.
  intros i. rewrite !at_spec. destruct (N.ltb_spec i (N.of_nat (length l))); [now rewrite nth_error_app1 by lia|].
  rewrite nth_error_app2 by lia. destruct (N.eqb_spec i (N.of_nat (length l))) as [->|Hne].
  - now replace (N.to_nat (N.of_nat (length l)) - length l)%nat with O by lia.
  - destruct (N.to_nat i - length l)%nat eqn:Hd; [lia|]. cbn. now destruct n.
Qed.

(** ** ResultFilter *)
Lemma filter_run calls : forall front cur, f_run calls (front ++ [cur]) = (front ++ terms_of cur calls, Ok tt).
Proof.
  induction calls as [|c r IH]; intros front cur; [reflexivity|]. cbn [f_run terms_of]. unfold mbind.
  destruct c as [|f w]; cbn [f_step].
  - unfold rf_addNewTerm. rewrite IH, <- app_assoc. reflexivity.
  - unfold rf_addNewSubTerm. rewrite rev_app_distr. cbn [rev app]. rewrite rev_involutive. apply IH.
Qed.
Lemma filter_spec calls : exists f, f_run calls rf_new = (f, Ok tt) /\
  rf_numTerms f = N.of_nat (length (terms_of [] calls)) /\
  (forall i, rf_numSubTerms f i = match nth_error (terms_of [] calls) (N.to_nat i) with Some t => Ok (N.of_nat (length t)) | None => Throw EOutOfRange end) /\
  (forall i j, rf_getField f i j = match nth_error (terms_of [] calls) (N.to_nat i) with
     | Some t => match nth_error t (N.to_nat j) with Some p => Ok (fst p) | None => Throw EOutOfRange end | None => Throw EOutOfRange end) /\
  (forall i j, rf_getWord f i j = match nth_error (terms_of [] calls) (N.to_nat i) with
     | Some t => match nth_error t (N.to_nat j) with Some p => Ok (snd p) | None => Throw EOutOfRange end | None => Throw EOutOfRange end).
Proof.
  exists (terms_of [] calls). split; [apply (filter_run calls [])|]. split; [reflexivity|].
  unfold rf_numSubTerms, rf_getField, rf_getWord.
  split; [|split].
  - intros i. rewrite at_spec. now destruct (nth_error _ _).
  - intros i j. rewrite at_spec. destruct (nth_error _ _) as [t|]; [|reflexivity]. cbn [obind]. rewrite at_spec. now destruct (nth_error _ _).
  - intros i j. rewrite at_spec. destruct (nth_error _ _) as [t|]; [|reflexivity]. cbn [obind]. rewrite at_spec. now destruct (nth_error _ _).
Qed.

(** ** Stable sorting *)
Notation asc := (fun a b : double * N => d_lt (fst b) (fst a) = false).
Notation desc := (fun a b : double * N => d_lt (fst a) (fst b) = false).
Definition fine (x : double * N) : Prop := is_nan (fst x) = false.
Lemma fine_ntr x y z : fine x -> fine y -> fine z -> d_lt (fst x) (fst y) = false -> d_lt (fst y) (fst z) = false -> d_lt (fst x) (fst z) = false.
Proof. unfold fine. intros Hx Hy Hz. rewrite !d_lt_key by assumption. apply klt_ntr. Qed.
Lemma fine_asym x y : fine x -> fine y -> d_lt (fst x) (fst y) = true -> d_lt (fst y) (fst x) = false.
Proof. unfold fine. intros Hx Hy. rewrite !d_lt_key by assumption. apply klt_asym. Qed.
Lemma insert_perm x l : Permutation (ss_insert x l) (x :: l).
Proof.
  induction l as [|y l IH]; [reflexivity|]. cbn. destruct (d_lt _ _); [|reflexivity]. rewrite IH. apply perm_swap.
Qed.
Lemma insert_sorted x l : fine x -> Forall fine l -> StronglySorted asc l -> StronglySorted asc (ss_insert x l).
Proof.
  intros Hx. induction l as [|y l IH]; intros Hl Hs; cbn; [repeat constructor|].
  apply Forall_cons_iff in Hl as [Hy Hl]. apply StronglySorted_inv in Hs as [Hs Hf].
  destruct (d_lt (fst y) (fst x)) eqn:H.
  - constructor; [now apply IH|]. rewrite insert_perm. constructor; [|exact Hf]. now apply fine_asym.
  - constructor; [now constructor|]. constructor; [exact H|].
    rewrite Forall_forall in *. intros z Hz. apply (@fine_ntr z y x); auto.
Qed.
Lemma insert_ties t x l : fine t -> fine x -> Forall fine l -> filter (same_rel t) (ss_insert x l) = filter (same_rel t) (x :: l).
Proof.
  intros Ht Hx. induction l as [|y l IH]; intros Hl; [reflexivity|]. apply Forall_cons_iff in Hl as [Hy Hl]. cbn [ss_insert].
  destruct (d_lt (fst y) (fst x)) eqn:H; [|reflexivity]. cbn [filter]. rewrite (IH Hl). cbn [filter].
  destruct (same_rel t x) eqn:H1; destruct (same_rel t y) eqn:H2; try reflexivity.
  exfalso. unfold same_rel in *. apply andb_prop in H1 as [H1 H1'], H2 as [H2 H2']. apply negb_true_iff in H1, H1', H2, H2'.
  assert (d_lt (fst y) (fst x) = false) by (apply (@fine_ntr y t x); assumption). congruence.
Qed.
Lemma sort_perm l : Permutation (stable_sort l) l.
Proof. induction l as [|x l IH]; [reflexivity|]. cbn. now rewrite insert_perm, IH. Qed.
Lemma sort_fine l : Forall fine l -> Forall fine (stable_sort l).
Proof. intros H. now rewrite sort_perm. Qed.
Lemma sort_sorted l : Forall fine l -> StronglySorted asc (stable_sort l).
Proof.
  induction 1 as [|x l Hx Hl IH]; cbn; [constructor|]. apply insert_sorted; [exact Hx|now apply sort_fine|exact IH].
Qed.
Lemma sort_ties t l : fine t -> Forall fine l -> filter (same_rel t) (stable_sort l) = filter (same_rel t) l.
Proof.
  intros Ht. induction 1 as [|x l Hx Hl IH]; [reflexivity|]. cbn [stable_sort fold_right]. rewrite insert_ties by (try assumption; now apply sort_fine).
  cbn [filter]. fold (stable_sort l). now rewrite IH.
Qed.
Lemma filter_rev A (p : A -> bool) l : filter p (rev l) = rev (filter p l).
Proof. induction l as [|x l IH]; [reflexivity|]. cbn. rewrite filter_app, IH. cbn. destruct (p x); [reflexivity|apply app_nil_r]. Qed.
Lemma ssorted_app A (R : A -> A -> Prop) l1 l2 : StronglySorted R l1 -> StronglySorted R l2 -> (forall a b, In a l1 -> In b l2 -> R a b) -> StronglySorted R (l1 ++ l2).
Proof.
  induction 1 as [|a l1 Hs IH Hf]; intros H2 Hc; [exact H2|]. cbn. constructor; [apply IH; [exact H2|]; intros x y Hx Hy; apply Hc; [now right|exact Hy]|].
  apply Forall_app. split; [exact Hf|]. apply Forall_forall. intros y Hy. apply Hc; [now left|exact Hy].
Qed.
Lemma ssorted_rev A (R : A -> A -> Prop) l : StronglySorted R l -> StronglySorted (fun a b => R b a) (rev l).
Proof.
  induction 1 as [|a l Hs IH Hf]; [constructor|]. cbn. apply ssorted_app; [exact IH|repeat constructor|].
  intros x y Hx [<-|[]]. rewrite Forall_forall in Hf. apply Hf. now apply in_rev.
Qed.
Definition sd (l : list (double * N)) : list (double * N) := rev (stable_sort (rev l)).
Lemma sd_bf l : Forall fine l -> best_first l (sd l).
Proof.
  intros H. assert (Hr : Forall fine (rev l)) by (apply Forall_rev; exact H). unfold sd. constructor.
  - rewrite <- Permutation_rev, sort_perm. symmetry. apply Permutation_rev.
  - apply (ssorted_rev (sort_sorted Hr)).
  - intros x Hx. rewrite filter_rev, sort_ties, filter_rev, rev_involutive by assumption. reflexivity.
Qed.
Lemma bf_unique : forall v1 v2, Forall fine v1 -> StronglySorted desc v1 -> StronglySorted desc v2 -> Permutation v1 v2 ->
  (forall x, fine x -> filter (same_rel x) v1 = filter (same_rel x) v2) -> v1 = v2.
Proof.
  assert (Hirr : forall a : double * N, d_lt (fst a) (fst a) = false).
  { intros [[[]|[]| |[] m e] i]; cbn; try reflexivity; unfold d_lt, SFltb; cbn; rewrite Z.compare_refl;
    change (Pos.compare_cont Eq m m) with (Pos.compare m m); now rewrite Pos.compare_refl. }
  induction v1 as [|a v1 IH]; intros [|b v2] Hf H1 H2 Hp Ht; [reflexivity| | |].
  - apply Permutation_nil in Hp. discriminate.
  - symmetry in Hp. apply Permutation_nil in Hp. discriminate.
  - apply StronglySorted_inv in H1 as [H1 F1], H2 as [H2 F2]. rewrite Forall_forall in F1, F2. apply Forall_cons_iff in Hf as [Ha Hf].
    assert (Hab : d_lt (fst a) (fst b) = false).
    { assert (Hin : In b (a :: v1)) by (rewrite Hp; now left). destruct Hin as [->|Hin]; [apply Hirr|now apply F1]. }
    assert (Hba : d_lt (fst b) (fst a) = false).
    { assert (Hin : In a (b :: v2)) by (rewrite <- Hp; now left). destruct Hin as [->|Hin]; [apply Hirr|now apply F2]. }
    assert (Saa : same_rel a a = true) by (unfold same_rel; now rewrite Hirr). assert (Sab : same_rel a b = true) by (unfold same_rel; now rewrite Hab, Hba).
    pose proof (Ht a Ha) as He. cbn [filter] in He. rewrite Saa, Sab in He.
    injection He as He _. subst b. f_equal. apply IH; [exact Hf|exact H1|exact H2|now apply Permutation_cons_inv in Hp|].
    intros x Hx. specialize (Ht x Hx). cbn [filter] in Ht. destruct (same_rel x a); [injection Ht as Ht|]; exact Ht.
Qed.

(** ** MatchResults *)
Record obj_ok (log : list (double * N)) (r : mresults) : Prop := {
  ok_fine : Forall fine log;
  ok_perm : Permutation (mr_results r) log;
  ok_ties : forall x, fine x -> filter (same_rel x) (mr_results r) = filter (same_rel x) log;
  ok_sorted : mr_sorted r = true -> StronglySorted desc (mr_results r)
}.
Lemma ok_fine' log r : obj_ok log r -> Forall fine (mr_results r).
Proof. intros [H1 H2 _ _]. now rewrite H2. Qed.
Lemma ok_new : obj_ok [] mr_new.
Proof. constructor; cbn; constructor. Qed.
Lemma ok_push log r more more' : obj_ok log r -> Forall fine more' -> Permutation more more' ->
  (forall x, fine x -> filter (same_rel x) more = filter (same_rel x) more') -> obj_ok (log ++ more') (mkMR (mr_results r ++ more) false).
Proof.
  intros [H1 H2 H3 H4] Hf Hp Ht. constructor; cbn; [now apply Forall_app|now apply Permutation_app| |discriminate].
  intros x Hx. rewrite !filter_app. now rewrite H3, Ht.
Qed.
Lemma sort_ok log r : obj_ok log r -> exists r', mr_sortIfRequired r = (r', Ok tt) /\ obj_ok log r' /\ mr_sorted r' = true /\ mr_results r' = sd log.
Proof.
  intros H. pose proof (ok_fine' H) as Hf'. destruct H as [H1 H2 H3 H4]. unfold mr_sortIfRequired.
  assert (Hu : forall v, StronglySorted desc v -> Permutation v log -> (forall x, fine x -> filter (same_rel x) v = filter (same_rel x) log) -> v = sd log).
  { intros v Hs Hp Ht. pose proof (sd_bf H1) as [B1 B2 B3]. apply bf_unique; [now rewrite Hp|exact Hs|exact B2|now rewrite Hp, B1|].
    intros x Hx. now rewrite Ht, B3. }
  destruct (mr_sorted r) eqn:Hs.
  - exists r. split; [reflexivity|]. split; [constructor; auto|]. split; [exact Hs|]. apply Hu; auto.
  - replace (existsb (fun x => is_nan (fst x)) (mr_results r)) with false.
    + cbn [andb]. eexists. split; [reflexivity|]. cbn [mr_results mr_sorted]. fold (sd (mr_results r)).
      destruct (sd_bf Hf') as [B1 B2 B3].
      assert (Hp : Permutation (sd (mr_results r)) log) by now rewrite B1.
      assert (Ht : forall x, fine x -> filter (same_rel x) (sd (mr_results r)) = filter (same_rel x) log) by (intros x Hx; now rewrite B3, H3).
      split; [constructor; auto|]. split; [reflexivity|]. now apply Hu.
    + symmetry. clear - Hf'. induction Hf' as [|x l Hx _ IH]; [reflexivity|]. cbn. unfold fine in Hx. now rewrite Hx.
Qed.
Lemma get_ok log r k : obj_ok log r -> exists r', 
  mr_get k r = (r', match nth_error (sd log) (N.to_nat k) with Some x => Ok x | None => Throw EOutOfRange end) /\ obj_ok log r' /\
  (mr_sorted r = true -> r' = r).
Proof.
  intros H. unfold mr_get. assert (Hl : length (sd log) = length (mr_results r)).
  { apply Permutation_length. rewrite (ok_perm H). apply (sd_bf (ok_fine H)). }
  destruct (N.leb_spec (N.of_nat (length (mr_results r))) k) as [Hk|Hk].
  - exists r. rewrite (proj2 (nth_error_None (sd log) (N.to_nat k))) by lia. split; [reflexivity|]. split; [exact H|reflexivity].
  - destruct (sort_ok H) as (r' & Hr & Hok & Hs & Hres). unfold mbind. exists r'. rewrite Hr. unfold reads. rewrite Hres.
    split; [|split; [exact Hok|]].
    + destruct (nth_error (sd log) (N.to_nat k)) eqn:He; [reflexivity|]. apply nth_error_None in He. lia.
    + intros Hsr. unfold mr_sortIfRequired in Hr. rewrite Hsr in Hr. congruence.
Qed.
Lemma upd_nth A i (v : A) : forall l j, nth_error (upd i v l) j = if Nat.eqb i j then match nth_error l j with Some _ => Some v | None => None end else nth_error l j.
Proof. revert i. intros i l. revert i. induction l as [|a l IH]; intros [|i] [|j]; cbn; try reflexivity; try now destruct (Nat.eqb i j). apply IH. Qed.
Lemma F2_upd L w : Forall2 obj_ok L w -> forall i l r, obj_ok l r -> Forall2 obj_ok (upd i l L) (upd i r w).
Proof. induction 1; intros [|i] a b Hab; cbn; constructor; auto. Qed.
Lemma F2_upd_r L w : Forall2 obj_ok L w -> forall i l r, nth_error L i = Some l -> obj_ok l r -> Forall2 obj_ok L (upd i r w).
Proof. induction 1; intros [|i] a b Hn Hab; cbn in *; try discriminate; constructor; auto; [congruence|eauto]. Qed.
Lemma F2_nth L w i : Forall2 obj_ok L w -> (i < length w)%nat -> exists l r, nth_error L i = Some l /\ nth_error w i = Some r /\ obj_ok l r.
Proof.
  intros H. revert i. induction H as [|l r L w Hlr H IH]; intros [|i] Hi; cbn in *; [lia|lia|eauto|]. apply IH. lia.
Qed.
Lemma upd_length A i (v : A) : forall l, length (upd i v l) = length l.
Proof. revert i. intros i l. revert i. induction l as [|a l IH]; intros [|i]; cbn; auto. Qed.
Lemma step_ok c calls L w : proper (length w) (c :: calls) -> Forall2 obj_ok L w ->
  exists L' w' o, w_step c w = (w', o) /\ (o = Ok tt \/ exists e, o = Throw e) /\ logged c L L' /\ Forall2 obj_ok L' w' /\ proper (length w') calls.
Proof.
  intros Hp H. destruct c as [|j|i j|i id x|i j|i j k|i k|i k]; cbn [proper w_step] in *.
  - exists (L ++ [[]]), (w ++ [mr_new]), (Ok tt). split; [reflexivity|]. split; [now left|]. split; [constructor|]. split.
    + apply Forall2_app; [exact H|]. constructor; [apply ok_new|constructor].
    + rewrite app_length. cbn. now rewrite Nat.add_1_r.
  - destruct Hp as [Hj Hp]. destruct (F2_nth H Hj) as (l & r & Hl & Hr & Hok).
    exists (L ++ [l]), (w ++ [r]), (Ok tt). unfold with_obj. rewrite Hr. split; [reflexivity|]. split; [now left|]. split; [now constructor|]. split.
    + apply Forall2_app; [exact H|]. constructor; [exact Hok|constructor].
    + rewrite app_length. cbn. now rewrite Nat.add_1_r.
  - destruct Hp as (Hi & Hj & Hp). destruct (F2_nth H Hj) as (l & r & Hl & Hr & Hok). destruct (F2_nth H Hi) as (l2 & r2 & Hl2 & Hr2 & _).
    exists (upd i l L), (upd i r w), (Ok tt). unfold with_obj, on_obj. rewrite Hr, Hr2. split; [reflexivity|]. split; [now left|]. split; [now constructor|].
    rewrite upd_length. split; [now apply F2_upd|exact Hp].
  - destruct Hp as (Hi & Hx & Hp). destruct (F2_nth H Hi) as (l & r & Hl & Hr & Hok).
    exists (upd i (l ++ [(x, id)]) L), (upd i (mkMR (mr_results r ++ [(x, id)]) false) w), (Ok tt). unfold on_obj. rewrite Hr.
    split; [reflexivity|]. split; [now left|]. split; [now constructor|]. rewrite upd_length. split; [|exact Hp].
    apply F2_upd; [exact H|]. apply ok_push; [exact Hok|now repeat constructor|reflexivity|reflexivity].
  - destruct Hp as (Hi & Hj & Hij & Hp). destruct (F2_nth H Hi) as (l & r & Hl & Hr & Hok). destruct (F2_nth H Hj) as (l2 & r2 & Hl2 & Hr2 & Hok2).
    exists (upd i (l ++ l2) L), (upd i (mkMR (mr_results r ++ mr_results r2) false) w), (Ok tt). unfold with_obj, on_obj. rewrite Hr2.
    replace (Nat.eqb i j) with false by lia. rewrite Hr.
    split; [reflexivity|]. split; [now left|]. split; [now constructor|]. rewrite upd_length. split; [|exact Hp].
    apply F2_upd; [exact H|]. apply ok_push; [exact Hok|apply Hok2|apply Hok2|apply Hok2].
  - destruct Hp as (Hi & Hj & Hp). destruct (F2_nth H Hi) as (l & r & Hl & Hr & Hok). destruct (F2_nth H Hj) as (l2 & r2 & Hl2 & Hr2 & Hok2).
    unfold with_obj, on_obj. rewrite Hr2, Hr. unfold mr_copyResult. rewrite at_spec.
    pose proof (Permutation_length (ok_perm Hok2)) as Hlen.
    destruct (nth_error (mr_results r2) (N.to_nat k)) as [p|] eqn:Hn.
    + assert (Hin : In p l2) by (rewrite <- (ok_perm Hok2); now apply nth_error_In in Hn).
      assert (Hk : (N.to_nat k < length (mr_results r2))%nat) by (apply nth_error_Some; congruence).
      exists (upd i (l ++ [p]) L), (upd i (mkMR (mr_results r ++ [p]) false) w), (Ok tt).
      split; [reflexivity|]. split; [now left|]. split; [apply (@lg_copy L i j k l l2 p); try assumption; lia|]. rewrite upd_length. split; [|exact Hp].
      apply F2_upd; [exact H|]. apply ok_push; [exact Hok| |reflexivity|reflexivity]. constructor; [|constructor].
      pose proof (ok_fine Hok2) as Hf. rewrite Forall_forall in Hf. now apply Hf.
    + apply nth_error_None in Hn. exists L, (upd i r w), (Throw EOutOfRange). split; [reflexivity|]. split; [right; now eexists|].
      split; [apply (@lg_nocopy L i j k l2); [exact Hl2|lia]|]. rewrite upd_length. split; [|exact Hp]. now apply (@F2_upd_r L w H i l).
  - destruct Hp as (Hi & Hp). destruct (F2_nth H Hi) as (l & r & Hl & Hr & Hok). unfold on_obj. rewrite Hr.
    destruct (get_ok k Hok) as (r' & Hg & Hok' & _). unfold mr_getDocumentID, mbind. rewrite Hg.
    destruct (nth_error (sd l) (N.to_nat k)) as [x|].
    + exists L, (upd i r' w), (Ok tt). split; [reflexivity|]. split; [now left|]. split; [constructor|]. rewrite upd_length. split; [|exact Hp]. now apply (@F2_upd_r L w H i l).
    + exists L, (upd i r' w), (Throw EOutOfRange). split; [reflexivity|]. split; [right; now eexists|]. split; [constructor|]. rewrite upd_length. split; [|exact Hp]. now apply (@F2_upd_r L w H i l).
  - destruct Hp as (Hi & Hp). destruct (F2_nth H Hi) as (l & r & Hl & Hr & Hok). unfold on_obj. rewrite Hr.
    destruct (get_ok k Hok) as (r' & Hg & Hok' & _). unfold mr_getRelevancy, mbind. rewrite Hg.
    destruct (nth_error (sd l) (N.to_nat k)) as [x|].
    + exists L, (upd i r' w), (Ok tt). split; [reflexivity|]. split; [now left|]. split; [constructor|]. rewrite upd_length. split; [|exact Hp]. now apply (@F2_upd_r L w H i l).
    + exists L, (upd i r' w), (Throw EOutOfRange). split; [reflexivity|]. split; [right; now eexists|]. split; [constructor|]. rewrite upd_length. split; [|exact Hp]. now apply (@F2_upd_r L w H i l).
Qed.
Lemma run_ok calls : forall L w, proper (length w) calls -> Forall2 obj_ok L w ->
  exists L' w', w_run calls w = (w', Ok tt) /\ logged_all calls L L' /\ Forall2 obj_ok L' w'.
Proof.
  induction calls as [|c r IH]; intros L w Hp H.
  - exists L, w. split; [reflexivity|]. split; [constructor|exact H].
  - destruct (step_ok Hp H) as (L1 & w1 & o & Hs & Ho & Hl & H1 & Hp1). destruct (IH L1 w1 Hp1 H1) as (L2 & w2 & Hr & Hl2 & H2).
    exists L2, w2. cbn [w_run]. rewrite Hs. split; [|split; [now apply (@la_cons c r L L1 L2)|exact H2]].
    destruct Ho as [->|[e ->]]; exact Hr.
Qed.
Lemma results_view calls : proper 0 calls -> exists L w, w_run calls [] = (w, Ok tt) /\ logged_all calls [] L /\ length L = length w /\
  forall i r l, nth_error w i = Some r -> nth_error L i = Some l ->
  mr_size r = N.of_nat (length l) /\
  exists view, best_first l view /\
    (forall view', best_first l view' -> view' = view) /\
    forall k, exists r', 
      mr_getDocumentID k r = (r', match nth_error view (N.to_nat k) with Some x => Ok (snd x) | None => Throw EOutOfRange end) /\
      mr_getRelevancy k r = (r', match nth_error view (N.to_nat k) with Some x => Ok (fst x) | None => Throw EOutOfRange end).
Proof.
  intros Hp. destruct (@run_ok calls [] [] Hp (Forall2_nil _)) as (L & w & Hr & Hl & H). exists L, w. split; [exact Hr|]. split; [exact Hl|].
  split; [clear - H; induction H; cbn; congruence|]. intros i r l Hw HL.
  destruct (F2_nth (i := i) H) as (l2 & r2 & H1 & H2 & Hok); [apply nth_error_Some; congruence|].
  replace l2 with l in * by congruence. replace r2 with r in * by congruence.
  split; [unfold mr_size; f_equal; apply Permutation_length, Hok|].
  pose proof (sd_bf (ok_fine Hok)) as B. exists (sd l). split; [exact B|]. split.
  - intros v [V1 V2 V3]. destruct B as [B1 B2 B3]. apply bf_unique; [rewrite V1; apply Hok|exact V2|exact B2|now rewrite V1, B1|].
    intros x Hx. now rewrite V3, B3.
  - intros k. destruct (get_ok k Hok) as (r' & Hg & _ & _). exists r'. unfold mr_getDocumentID, mr_getRelevancy, mbind. rewrite Hg.
    split; destruct (nth_error (sd l) (N.to_nat k)); reflexivity.
Qed.

(** copyResult: exact when the other object is in order. *)
Lemma copy_exact log other r k : obj_ok log other -> mr_sorted other = true ->
  mr_copyResult other k r = match nth_error (sd log) (N.to_nat k) with
    | Some x => (mkMR (mr_results r ++ [x]) false, Ok tt) | None => (r, Throw EOutOfRange) end.
Proof.
  intros H Hs. destruct (sort_ok H) as (r' & Hr & _ & _ & Hres). unfold mr_sortIfRequired in Hr. rewrite Hs in Hr. injection Hr as <-.
  unfold mr_copyResult. rewrite at_spec, Hres. now destruct (nth_error _ _).
Qed.
Lemma run_app c1 : forall c2 w w1, w_run c1 w = (w1, Ok tt) -> w_run (c1 ++ c2) w = w_run c2 w1.
Proof.
  induction c1 as [|c r IH]; intros c2 w w1 H; cbn in *; [now injection H as <-|].
  destruct (w_step c w) as [w2 [u|e| | |]]; try discriminate; now apply IH.
Qed.
Lemma upd_other (w : world) i j r : i <> j -> nth_error (upd i r w) j = nth_error w j.
Proof. intros H. rewrite upd_nth. now replace (Nat.eqb i j) with false by lia. Qed.
Lemma step_keeps c w w' o j r l : w_step c w = (w', o) -> ~ modifies j c -> nth_error w j = Some r -> mr_sorted r = true -> obj_ok l r ->
  nth_error w' j = Some r.
Proof.
  intros Hs Hm Hr Hso Hok. 
  assert (Hread : forall i k (f : mresults -> mresults * outcome unit), (forall x, fst (f x) = fst (mr_get k x)) -> forall w1 o1, on_obj i f w = (w1, o1) -> nth_error w1 j = Some r).
  { intros i k f Hf w1 o1 Hon. unfold on_obj in Hon. destruct (nth_error w i) as [x|] eqn:Hx; [|injection Hon as <- <-; exact Hr].
    specialize (Hf x). destruct (f x) as [x' o2]. injection Hon as <- <-. rewrite upd_nth. destruct (Nat.eqb_spec i j) as [->|Hne]; [|exact Hr].
    replace x with r in * by congruence. destruct (get_ok k Hok) as (r' & Hg & _ & Hk). rewrite Hg in Hf. cbn in Hf. rewrite Hr, Hf. now rewrite Hk. }
  destruct c as [|j2|i j2|i id x|i j2|i j2 k|i k|i k]; cbn [w_step modifies] in *.
  - injection Hs as <- _. rewrite nth_error_app1; [exact Hr|apply nth_error_Some; congruence].
  - unfold with_obj in Hs. destruct (nth_error w j2); injection Hs as <- _; [|exact Hr]. rewrite nth_error_app1; [exact Hr|apply nth_error_Some; congruence].
  - unfold with_obj, on_obj in Hs. destruct (nth_error w j2); [|injection Hs as <- _; exact Hr]. destruct (nth_error w i); injection Hs as <- _; [|exact Hr]. now rewrite upd_other.
  - unfold on_obj in Hs. destruct (nth_error w i) as [y|]; [|injection Hs as <- _; exact Hr]. cbn in Hs. injection Hs as <- _. now rewrite upd_other.
  - unfold with_obj, on_obj in Hs. destruct (nth_error w j2); [|injection Hs as <- _; exact Hr]. destruct (Nat.eqb i j2); [injection Hs as <- _; exact Hr|].
    destruct (nth_error w i); injection Hs as <- _; [|exact Hr]. now rewrite upd_other.
  - unfold with_obj, on_obj in Hs. destruct (nth_error w j2); [|injection Hs as <- _; exact Hr].
    destruct (nth_error w i) as [y|]; [|injection Hs as <- _; exact Hr]. destruct (mr_copyResult m k y). injection Hs as <- _. now rewrite upd_other.
  - apply (Hread i k (fun x => (fst (mr_getDocumentID k x), let! _ := snd (mr_getDocumentID k x) in Ok tt)) ) with (o1 := o).
    + intros x. unfold mr_getDocumentID, mbind. destruct (mr_get k x) as [x' [p| | | |]]; reflexivity.
    + unfold on_obj in *. destruct (nth_error w i) as [y|]; [|exact Hs]. destruct (mr_getDocumentID k y) as [y' [p| | | |]]; exact Hs.
  - apply (Hread i k (fun x => (fst (mr_getRelevancy k x), let! _ := snd (mr_getRelevancy k x) in Ok tt)) ) with (o1 := o).
    + intros x. unfold mr_getRelevancy, mbind. destruct (mr_get k x) as [x' [p| | | |]]; reflexivity.
    + unfold on_obj in *. destruct (nth_error w i) as [y|]; [|exact Hs]. destruct (mr_getRelevancy k y) as [y' [p| | | |]]; exact Hs.
Qed.
Lemma run_keeps calls : forall w w' j r l, w_run calls w = (w', Ok tt) -> Forall (fun c => ~ modifies j c) calls -> nth_error w j = Some r -> mr_sorted r = true -> obj_ok l r ->
  nth_error w' j = Some r.
Proof.
  induction calls as [|c rest IH]; intros w w' j r l Hrun Hm Hr Hs Hok; cbn in Hrun; [injection Hrun as <-; exact Hr|].
  apply Forall_cons_iff in Hm as [Hc Hm]. destruct (w_step c w) as [w1 o] eqn:Hst. pose proof (step_keeps Hst Hc Hr Hs Hok) as Hr1.
  destruct o; try discriminate; now apply (IH w1 w' j r l).
Qed.
Lemma proper_app n c1 : forall c2 w w1, length w = n -> proper n (c1 ++ c2) -> w_run c1 w = (w1, Ok tt) -> proper n c1 /\ proper (length w1) c2.
Proof.
  revert n. induction c1 as [|c r IH]; intros n c2 w w1 Hl Hp Hr; [cbn in *; injection Hr as <-; now rewrite Hl|].
  cbn [app] in Hp. cbn [w_run] in Hr.
  assert (HL : forall w2 o, w_step c w = (w2, o) -> match c with RNew | RClone _ => o = UB \/ length w2 = S n | _ => length w2 = n end).
  { intros w2 o Hs. destruct c; cbn [w_step] in Hs; unfold with_obj, on_obj in Hs;
      repeat match type of Hs with context [match nth_error w ?i with _ => _ end] => destruct (nth_error w i) end;
      repeat match type of Hs with context [if ?b then _ else _] => destruct b end;
      cbv beta in Hs;
      repeat match type of Hs with context [match nth_error w ?i with _ => _ end] => destruct (nth_error w i) end;
      repeat match type of Hs with context [let (_, _) := ?x in _] => destruct x end;
      inversion Hs; subst; rewrite ?app_length, ?upd_length; cbn; try (right; lia); try lia; now left. }
  destruct (w_step c w) as [w2 o] eqn:Hs. specialize (HL w2 o eq_refl).
  destruct c; cbn [proper] in *; (destruct o as [u|e| | |]; try discriminate);
    repeat match goal with H : _ /\ _ |- _ => destruct H end;
    try (destruct HL as [HL|HL]; [discriminate|]);
    match goal with Hq : proper ?m (r ++ c2) |- _ => destruct (IH m c2 w2 w1 HL Hq Hr) as [G1 G2] end;
    repeat split; assumption.
Qed.
Lemma copy_after_read c1 j k0 c2 : proper 0 (c1 ++ RGetID j k0 :: c2) -> Forall (fun c => ~ modifies j c) c2 ->
  exists w, w_run (c1 ++ RGetID j k0 :: c2) [] = (w, Ok tt) /\
  forall i r other, nth_error w i = Some r -> nth_error w j = Some other -> k0 < mr_size other ->
  (forall k, k < mr_size other -> exists other' id rel, mr_getDocumentID k other = (other', Ok id) /\ mr_getRelevancy k other = (other', Ok rel) /\
    mr_copyResult other k r = mr_addResult id rel r) /\
  (forall k, mr_size other <= k -> mr_copyResult other k r = (r, Throw EOutOfRange)).
Proof.
  intros Hp Hm. destruct (@run_ok (c1 ++ RGetID j k0 :: c2) [] [] Hp (Forall2_nil _)) as (L & w & Hr & Hl & H). exists w. split; [exact Hr|].
  intros i r other Hi Hj Hk0.
  assert (Hw1 : exists w1, w_run c1 [] = (w1, Ok tt)).
  { clear - Hr. revert Hr. generalize (@nil mresults). induction c1 as [|c rest IH]; intros w0 Hr; [now exists w0|]. cbn in *. destruct (w_step c w0) as [w2 [| | | |]]; try discriminate; now apply IH. }
  destruct Hw1 as [w1 Hw1]. destruct (@proper_app 0 c1 _ [] w1 eq_refl Hp Hw1) as [Hp1 Hp2].
  destruct (@run_ok c1 [] [] Hp1 (Forall2_nil _)) as (L1 & w1' & Hr1 & Hl1 & H1). replace w1' with w1 in * by congruence.
  rewrite (@run_app c1 (RGetID j k0 :: c2) [] w1 Hw1) in Hr. cbn [w_run w_step] in Hr.
  cbn [proper] in Hp2. destruct Hp2 as [Hj1 Hp2]. destruct (F2_nth H1 Hj1) as (l & r1 & Hl' & Hr1' & Hok).
  destruct (sort_ok Hok) as (r2 & Hs2 & Hok2 & Hso2 & Hres2).
  destruct (N.leb_spec (N.of_nat (length (mr_results r1))) k0) as [Hout|Hin].
  - (* the read was out of range: then the object is still that short *)
    exfalso. unfold on_obj in Hr. rewrite Hr1' in Hr. unfold mr_getDocumentID, mbind, mr_get in Hr.
    rewrite (proj2 (N.leb_le _ _) Hout) in Hr. cbn in Hr.
    assert (Hlen : forall cs w0 w2 rr, w_run cs w0 = (w2, Ok tt) -> Forall (fun c => ~ modifies j c) cs -> nth_error w0 j = Some rr ->
              exists rr', nth_error w2 j = Some rr' /\ length (mr_results rr') = length (mr_results rr)).
    { clear. induction cs as [|c rest IH]; intros w0 w2 rr Hrun Hm Hn; cbn in Hrun; [injection Hrun as <-; eauto|].
      apply Forall_cons_iff in Hm as [Hc Hm]. destruct (w_step c w0) as [w1 o] eqn:Hst.
      assert (Hx : exists rr', nth_error w1 j = Some rr' /\ length (mr_results rr') = length (mr_results rr)).
      { assert (Hget : forall k x, length (mr_results (fst (mr_get k x))) = length (mr_results x)).
        { intros k x. unfold mr_get, mbind. destruct (_ <=? _); [reflexivity|]. unfold mr_sortIfRequired. destruct (mr_sorted x); [reflexivity|].
          destruct (_ && _); [reflexivity|]. cbn. rewrite rev_length, (Permutation_length (sort_perm _)). apply rev_length. }
        assert (Hgid : forall k x, length (mr_results (fst (mr_getDocumentID k x))) = length (mr_results x)).
        { intros k x. rewrite <- (Hget k x). unfold mr_getDocumentID, mbind. destruct (mr_get k x) as [x' [| | | |]]; reflexivity. }
        assert (Hgrel : forall k x, length (mr_results (fst (mr_getRelevancy k x))) = length (mr_results x)).
        { intros k x. rewrite <- (Hget k x). unfold mr_getRelevancy, mbind. destruct (mr_get k x) as [x' [| | | |]]; reflexivity. }
        destruct c as [|j2|i j2|i id x|i j2|i j2 k|i k|i k]; cbn [w_step modifies] in *; unfold with_obj, on_obj in Hst.
        - injection Hst as <- _. exists rr. rewrite nth_error_app1; [now split|apply nth_error_Some; congruence].
        - destruct (nth_error w0 j2); injection Hst as <- _; exists rr; [|now split]. rewrite nth_error_app1; [now split|apply nth_error_Some; congruence].
        - destruct (nth_error w0 j2); [|injection Hst as <- _; eauto]. destruct (nth_error w0 i); injection Hst as <- _; [|eauto]. rewrite upd_other by congruence. eauto.
        - destruct (nth_error w0 i); injection Hst as <- _; [|eauto]. rewrite upd_other by congruence. eauto.
        - destruct (nth_error w0 j2); [|injection Hst as <- _; eauto]. destruct (Nat.eqb i j2); [injection Hst as <- _; eauto|].
          destruct (nth_error w0 i); injection Hst as <- _; [|eauto]. rewrite upd_other by congruence. eauto.
        - destruct (nth_error w0 j2); [|injection Hst as <- _; eauto].
          destruct (nth_error w0 i) as [y|]; [|injection Hst as <- _; eauto]. destruct (mr_copyResult m k y). injection Hst as <- _. rewrite upd_other by congruence. eauto.
        - destruct (nth_error w0 i) as [y|] eqn:Hy; [|injection Hst as <- _; eauto]. specialize (Hgid k y). destruct (mr_getDocumentID k y) as [y' p]. injection Hst as <- _.
          rewrite upd_nth. destruct (Nat.eqb_spec i j) as [->|Hne]; [|eauto]. rewrite Hn. exists y'. split; [reflexivity|]. cbn in Hgid. congruence.
        - destruct (nth_error w0 i) as [y|] eqn:Hy; [|injection Hst as <- _; eauto]. specialize (Hgrel k y). destruct (mr_getRelevancy k y) as [y' p]. injection Hst as <- _.
          rewrite upd_nth. destruct (Nat.eqb_spec i j) as [->|Hne]; [|eauto]. rewrite Hn. exists y'. split; [reflexivity|]. cbn in Hgrel. congruence. }
      destruct Hx as (rr' & Hn' & Hl). rewrite <- Hl. destruct o; try discriminate; now apply (IH w1 w2 rr'). }
    destruct (Hlen c2 (upd j r1 w1) w r1) as (rr' & Hn' & Hl2).
    + exact Hr.
    + exact Hm.
    + rewrite upd_nth, Nat.eqb_refl, Hr1'. reflexivity.
    + replace rr' with other in * by congruence. unfold mr_size in Hk0. lia.
  - assert (Hstep : exists o, on_obj j (mr_getDocumentID k0) w1 = (upd j r2 w1, o) /\ (o = Ok tt \/ exists e, o = Throw e)).
    { unfold on_obj. rewrite Hr1'. unfold mr_getDocumentID, mbind, mr_get. rewrite (proj2 (N.leb_gt _ _) Hin). unfold mbind. rewrite Hs2. unfold reads.
      destruct (nth_error (mr_results r2) (N.to_nat k0)) eqn:He; [eexists; split; [reflexivity|now left]|].
      apply nth_error_None in He. rewrite Hres2, (Permutation_length (bf_perm (sd_bf (ok_fine Hok)))), <- (Permutation_length (ok_perm Hok)) in He. lia. }
    destruct Hstep as (o & Hst & Ho). rewrite Hst in Hr.
    assert (Hr' : w_run c2 (upd j r2 w1) = (w, Ok tt)) by (destruct Ho as [->|[e ->]]; exact Hr).
    assert (Hj2 : nth_error (upd j r2 w1) j = Some r2) by (rewrite upd_nth, Nat.eqb_refl, Hr1'; reflexivity).
    pose proof (run_keeps Hr' Hm Hj2 Hso2 Hok2) as Hfin. replace other with r2 in * by congruence. clear Hfin.
    split.
    + intros k Hk. destruct (get_ok k Hok2) as (r' & Hg & _ & _). exists r'. unfold mr_size in Hk. rewrite Hres2 in Hk.
      destruct (nth_error (sd l) (N.to_nat k)) as [[rel id]|] eqn:He; [|apply nth_error_None in He; lia].
      exists id, rel. unfold mr_getDocumentID, mr_getRelevancy, mbind. rewrite Hg. split; [reflexivity|]. split; [reflexivity|].
      rewrite (copy_exact r k Hok2 Hso2), He. reflexivity.
    + intros k Hk. rewrite (copy_exact r k Hok2 Hso2). unfold mr_size in Hk. rewrite Hres2 in Hk.
      now rewrite (proj2 (nth_error_None (sd l) (N.to_nat k))) by lia.
Qed.

Lemma weights_spec calls w : iw_getWeight (set_weights calls) w = match last_for calls w with Some x => x | None => d_one end.
Proof. unfold iw_getWeight, set_weights, iw_setWeight. change (fold_left _ calls []) with (build calls). now rewrite build_find. Qed.
Lemma add_all_at A (l : list A) :
  fold_left (fun c x => c ++ [x]) l [] = l /\
  forall i, at_or_throw l i = match nth_error l (N.to_nat i) with Some x => Ok x | None => Throw EOutOfRange end.
Proof.
  split; [|intros i; apply at_spec].
  assert (H : forall a, fold_left (fun c x => c ++ [x]) l a = a ++ l).
  { induction l as [|x l IH]; intros a; cbn; [now rewrite app_nil_r|]. now rewrite IH, <- app_assoc. }
  apply H.
Qed.
Lemma wordlist_spec (ws : list word) :
  let l := fold_left (fun l w => fst (wl_addWord w l)) ws [] in
  wl_size l = N.of_nat (length ws) /\ (forall i, wl_at l i = match nth_error ws (N.to_nat i) with Some w => Ok w | None => Throw EOutOfRange end).
Proof. cbv zeta. change (fold_left _ ws []) with (fold_left (fun c x => c ++ [x]) ws []). destruct (add_all_at ws) as [-> H]. split; [reflexivity|exact H]. Qed.
Lemma corpus_spec (ds : list document) :
  let c := fold_left (fun c d => fst (co_addDocument d c)) ds [] in
  co_size c = N.of_nat (length ds) /\ (forall i, co_getDocument c i = match nth_error ds (N.to_nat i) with Some d => Ok d | None => Throw EOutOfRange end).
Proof. cbv zeta. change (fold_left _ ds []) with (fold_left (fun c x => c ++ [x]) ds []). destruct (add_all_at ds) as [-> H]. split; [reflexivity|exact H]. Qed.
Lemma wl_eqb_spec a b : wl_eqb a b = true <-> a = b.
Proof.
  revert b. induction a as [|x a IH]; intros [|y b]; cbn; try (split; [discriminate|discriminate]); [tauto|].
  rewrite Bool.andb_true_iff, IH. destruct (weqb_spec x y) as [->|Hn]; split; intros H; try (destruct H; congruence); injection H; intuition congruence.
Qed.
(** ** SearchParameters, MatcherStatistics *)
Lemma nosearch_spec ws : forall w, sp_isNonsearchingField (fold_left (fun p w => sp_addNonsearchingField w p) ws sp_new) w = true <-> In w ws.
Proof.
  intros w.
  assert (H : forall p, msorted wltb (sp_nosearch p) ->
     (sp_isNonsearchingField (fold_left (fun p w => sp_addNonsearchingField w p) ws p) w = true <-> In w ws \/ In w (map fst (sp_nosearch p)))).
  { induction ws as [|x ws IH]; intros p Hs; cbn.
    - unfold sp_isNonsearchingField. destruct (mp_find wltb w (sp_nosearch p)) as [u|] eqn:Hf.
      + split; [intros _; right|reflexivity]. apply (find_in wltb_order _ _ Hs) in Hf. apply (in_map fst) in Hf. exact Hf.
      + apply (find_none wltb_order _ Hs) in Hf. split; [discriminate|tauto].
    - rewrite IH by (cbn; now apply (set_sorted wltb_order)). cbn. rewrite (set_keys wltb_order _ _ _ Hs). intuition congruence. }
  rewrite (H sp_new) by constructor. cbn. tauto.
Qed.
Lemma st_find_set s id v j : st_find (st_set s id v) j = if j =? id then Some v else st_find s j.
Proof.
  unfold st_find. induction s as [|p s IH]; cbn.
  - rewrite N.eqb_sym. now destruct (N.eqb_spec j id).
  - destruct (N.eqb_spec (fst p) id) as [He|He]; cbn.
    + rewrite (N.eqb_sym id j). destruct (N.eqb_spec j id) as [Hx|Hj]; [reflexivity|]. replace (fst p =? j) with false by lia. reflexivity.
    + destruct (N.eqb_spec (fst p) j) as [Hj|Hj]; [replace (j =? id) with false by lia; reflexivity|exact IH].
Qed.
Lemma stats_spec ids id : st_getTotalWordCount (fold_left (fun s i => st_wordProcessed i s) ids []) id = N.of_nat (count_occ N.eq_dec ids id).
Proof.
  assert (H : forall s, st_getTotalWordCount (fold_left (fun s i => st_wordProcessed i s) ids s) id = st_getTotalWordCount s id + N.of_nat (count_occ N.eq_dec ids id)).
  { induction ids as [|i ids IH]; intros s; cbn; [lia|]. rewrite IH. unfold st_getTotalWordCount at 1, st_wordProcessed. 
    assert (Hx : match st_find (match st_find s i with Some c => st_set s i (c + 1) | None => st_set s i 1 end) id with Some c => c | None => 0 end
                 = st_getTotalWordCount s id + (if N.eq_dec i id then 1 else 0)).
    { unfold st_getTotalWordCount. destruct (st_find s i) as [c|] eqn:Hi; rewrite st_find_set; destruct (N.eqb_spec id i) as [->|Hne]; destruct (N.eq_dec i _); try congruence; try rewrite Hi; try lia. }
    rewrite Hx. destruct (N.eq_dec i id); lia. }
  rewrite H. reflexivity.
Qed.
