(** Calls that do not look at the orders of the environment. *)
From Verif Require Import Base TrieM WordStoreM ErrorValuesM LevIndexM WordM MapM DoubleM ContM MatcherM Spec_Hist Spec_Match.
Local Open Scope N_scope.
Local Open Scope m_scope.

Lemma mbind_cong {S A B} (x y : M S A) (f g : A -> M S B) s : x s = y s -> (forall a s', f a s' = g a s') -> mbind x f s = mbind y g s.
Proof. intros Hx Hf. unfold mbind. rewrite Hx. destruct (y s) as [s' [a| | | |]]; [apply Hf|reflexivity..]. Qed.
Ltac same := repeat first [reflexivity | apply mbind_cong; [|intros] | match goal with |- (if ?b then _ else _) _ = (if ?b then _ else _) _ => destruct b end].

Section Same.
Variables (E : env) (sort : list (N * Z) -> list (N * Z)) (order : list N -> list N -> list N).
Let E' := reorder E sort order.
Lemma grow_same fuel size : forall t, grow_loop E fuel size t = grow_loop E' fuel size t.
Proof. induction fuel as [|f IH]; intros t; [reflexivity|]. cbn [grow_loop]. same; apply IH. Qed.
Lemma append_same cells t : append E cells t = append E' cells t.
Proof. unfold append. same. Qed.
Lemma node_same parent t : addNewNode E parent t = addNewNode E' parent t.
Proof. unfold addNewNode. same; apply append_same. Qed.
Lemma sibling_same node sib l t : addNewSibling E node sib l t = addNewSibling E' node sib l t.
Proof. unfold addNewSibling. same; first [apply node_same|apply append_same]. Qed.
Lemma insert_loop_same ls : forall node t, insert_loop E node ls t = insert_loop E' node ls t.
Proof. induction ls as [|l ls IH]; intros node t; [reflexivity|]. cbn [insert_loop]. same; first [apply IH|apply sibling_same]. Qed.
Lemma insert_same w id t : insertWord E w id t = insertWord E' w id t.
Proof. destruct w as [|l w]; [reflexivity|]. unfold insertWord. same; apply insert_loop_same. Qed.
Lemma trie_new_same : trie_new E = trie_new E'.
Proof.
  unfold trie_new. change (grow_ok E' 1024) with (grow_ok E 1024). destruct (grow_ok E 1024); [|reflexivity].
  match goal with |- (let (_, _) := ?x in _) = (let (_, _) := ?y in _) => assert (H : x = y); [|now rewrite H] end.
  same; apply node_same.
Qed.
Lemma broken_same w : forall a b, broken_loop E a b w = broken_loop E' a b w.
Proof.
  induction w as [|c w IH]; intros a b; [reflexivity|]. cbn [broken_loop]. rewrite !IH. reflexivity.
Qed.
Lemma letters_same ls : word_of_letters E ls = word_of_letters E' ls.
Proof. unfold word_of_letters, has_broken. destruct (rev ls); [reflexivity|]. now rewrite !broken_same. Qed.
Lemma constructible_same w : constructible E w <-> constructible E' w.
Proof. split; intros (b & H); exists b; [rewrite <- letters_same|rewrite letters_same]; exact H. Qed.
Lemma ws_new_same : ws_new E = ws_new E'.
Proof. unfold ws_new. now rewrite trie_new_same. Qed.
Lemma mt_new_same : mt_new E = mt_new E'.
Proof. unfold mt_new. now rewrite ws_new_same. Qed.
Lemma li_new_same : li_new E = li_new E'.
Proof. unfold li_new. now rewrite trie_new_same. Qed.
Lemma on_trie_same {A} (x y : M trie A) s : x (ws_trie s) = y (ws_trie s) -> on_trie x s = on_trie y s.
Proof. unfold on_trie. now intros ->. Qed.
Lemma on_li_same {A} (x y : M trie A) s : x (li_trie s) = y (li_trie s) -> on_li_trie x s = on_li_trie y s.
Proof. unfold on_li_trie. now intros ->. Qed.
Lemma on_store_same {A} (x y : M wstore A) s : x (mt_store s) = y (mt_store s) -> on_store x s = on_store y s.
Proof. unfold on_store. now intros ->. Qed.
Lemma getID_same w s : ws_getID E w s = ws_getID E' w s.
Proof. unfold ws_getID. same; apply on_trie_same, insert_same. Qed.
Lemma store_same w m : on_store (ws_getID E w) m = on_store (ws_getID E' w) m.
Proof. apply on_store_same, getID_same. Qed.
Lemma li_insert_same w id s : li_insertWord E w id s = li_insertWord E' w id s.
Proof. unfold li_insertWord. destruct (Nat.eqb (length w) 0); [reflexivity|]. same; apply on_li_same, insert_same. Qed.
Lemma add_same w wid iid m : addToIndex E w wid iid m = addToIndex E' w wid iid m.
Proof.
  unfold addToIndex. rewrite <- li_new_same. destruct (mp_find N.ltb iid (mt_idx m)) as [li|]; [now rewrite li_insert_same|].
  destruct (li_new E); try reflexivity. now rewrite li_insert_same.
Qed.
Lemma words_same d f ws : forall m, index_words E d f ws m = index_words E' d f ws m.
Proof. induction ws as [|w ws IH]; intros m; [reflexivity|]. cbn [index_words]. same; first [apply store_same|apply add_same|apply IH]. Qed.
Lemma fields_same d fs : forall m, index_fields E d fs m = index_fields E' d fs m.
Proof. induction fs as [|f fs IH]; intros m; [reflexivity|]. cbn [index_fields]. same; first [apply store_same|apply words_same|apply IH]. Qed.
Lemma index_same c : forall m, mt_index E c m = mt_index E' c m.
Proof. unfold mt_index. induction c as [|d c IH]; intros m; [reflexivity|]. cbn [buildIndexes]. same; first [apply fields_same|apply IH]. Qed.
Lemma ids_same v f m : both_ids E v f m = both_ids E' v f m.
Proof. unfold both_ids. change (e_rtl E') with (e_rtl E). same; apply store_same. Qed.
Lemma subs_same filter term id n : forall sub m, subtermsMatch E filter term id n sub m = subtermsMatch E' filter term id n sub m.
Proof. induction n as [|n IH]; intros sub m; [reflexivity|]. cbn [subtermsMatch]. same; first [apply ids_same|apply IH]. Qed.
Lemma terms_same filter id n : forall term m, termsMatch E filter id n term m = termsMatch E' filter id n term m.
Proof. induction n as [|n IH]; intros term m; [reflexivity|]. cbn [termsMatch]. same; first [apply subs_same|apply IH]. Qed.
Lemma loop_same filter n : forall i all matched m, filter_loop E filter n i all matched m = filter_loop E' filter n i all matched m.
Proof.
  induction n as [|n IH]; intros i all matched m; [reflexivity|]. cbn [filter_loop]. destruct (mr_getDocumentID i all) as [all' o]. same; first [apply terms_same|apply IH|idtac].
  destruct (mr_copyResult all' i matched) as [mt o']. same; apply IH.
Qed.
End Same.
