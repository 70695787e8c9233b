(** C122: the simulation of Matcher, indexing and searching. *)
From Verif Require Import Base TrieM TrieA TrieP TrieP2 TrieD WordStoreM ErrorValuesM LevIndexM WordM MapM MapP DoubleM ContM MatcherM Spec_Hist TrieH WordStoreP ResM ResP ResQ Spec_Res Spec_EV Spec_Cont ContP Spec_Match MatchP MatchQ HoldM Spec_Hold HoldP HoldQ.
From Coq Require Import ZifyBool ZifyN ZifyNat.
Local Open Scope N_scope.
Local Open Scope m_scope.

Lemma see_idx_at s l r i : see_idx s l = Some r -> In i (tries_in l) -> exists rt, trie_at s i rt.
Proof.
  revert r. induction l as [|[k x] l IH]; intros r H Hi; [contradiction|]. cbn [see_idx] in H. destruct (see_lev s x) as [li|] eqn:Hx; [|discriminate].
  destruct (see_idx s l) as [r'|]; [|discriminate]. destruct Hi as [<-|Hi]; [|now apply (IH _ eq_refl)].
  unfold see_lev in Hx. cbn [snd]. destruct (see_trie s (hl_trie x)) as [t|] eqn:Ht; [|discriminate]. apply see_at in Ht as (rt & Hr & _). now exists rt.
Qed.
Lemma see_handles s h v i : see s h = Some v -> In i (handles h) -> exists rt, trie_at s i rt.
Proof.
  intros H [<-|Hi]; [destruct (see_store_at H) as (rt & Hr & _); now exists rt|]. unfold see in H. destruct (see_idx s (h_idx h)) as [idx|] eqn:Hx; [|discriminate].
  now apply (see_idx_at Hx).
Qed.
Lemma see_grown s s' h v x : see s h = Some v -> s_tries s' = s_tries s ++ x -> see s' h = Some v.
Proof.
  intros H Ht. rewrite <- H. apply see_same. intros i Hi. destruct (see_handles H Hi) as (rt & Hr). unfold see_trie. rewrite Ht, nth_error_app1; [reflexivity|]. now apply (at_lt Hr).
Qed.
Lemma see_idx_of s h v : see s h = Some v -> see_idx s (h_idx h) = Some (mt_idx v).
Proof. unfold see. destruct (see_idx s (h_idx h)); [|discriminate]. destruct (see_store s (h_store h)); [|discriminate]. now intros [= <-]. Qed.

Lemma hsim_addToIndex E w id k : writable w -> hsim (h_addToIndex E w id k) (addToIndex E w id k).
Proof.
  intros Hw s h v s' h' o L H Hc. unfold h_addToIndex in H. cbn [fst snd] in H. unfold addToIndex. pose proof (see_find k (see_idx_of (ls_see L))) as Hf.
  destruct (mp_find N.ltb k (h_idx h)) as [x|] eqn:Hk.
  - destruct Hf as (li & Hx & ->). destruct (li_ok Hw L Hk Hx H Hc) as (H1 & H2 & H3). destruct (li_insertWord E w id li) as [li' o'] eqn:He. cbn [fst snd] in *. subst o'.
    eexists. split; [reflexivity|]. now split.
  - rewrite Hf. unfold mbind in H at 1. unfold h_sys in H at 1. cbn [fst snd] in H. destruct (t_new E s) as [s1 o1] eqn:Hn.
    assert (Hc1 : came o1) by (destruct o1; [exact I|exact I|injection H as <- <- <-; contradiction..]).
    destruct (new_ok (ls_inv L) Hn Hc1) as (Hinv & Hfl & [(-> & rt & Ht & Hnew & Hm)|(-> & Ht & Hnew & Hm)]).
    + unfold li_new. rewrite Hnew. cbn [obind]. unfold mbind in H at 1. unfold h_set in H at 1. cbn [fst snd] in H.
      set (x := mkHL [] 0 0 (length (s_tries s))) in *. set (h1 := h_put_idx k x h) in *.
      assert (Hx : see_lev s1 x = Some (mkLI [] 0 0 (rt_t rt))).
      { unfold see_lev, see_trie, x. cbn [hl_trie]. rewrite Ht, nth_error_app2 by lia. now rewrite Nat.sub_diag. }
      assert (Hp : Permutation (handles h1) (handles h ++ [length (s_tries s)])).
      { unfold handles, h1, h_put_idx. cbn [h_store h_idx app]. apply perm_skip. exact (set_new x Hk). }
      assert (Hnin : ~ In (length (s_tries s)) (handles h)).
      { intros Hi. destruct (see_handles (ls_see L) Hi) as (rt0 & Hr). apply at_lt in Hr. lia. }
      assert (L1 : LS s1 h1 (set_idx k (mkLI [] 0 0 (rt_t rt)) v)).
      { constructor; [exact Hinv| |].
        - apply see_put_idx; [exact (see_grown (ls_see L) Ht)|exact Hx].
        - apply (Permutation_NoDup (Permutation_sym Hp)). apply (Permutation_NoDup (Permutation_cons_append _ _)). constructor; [exact Hnin|exact (ls_nodup L)]. }
      assert (G1 : G s h s1 h1 false).
      { assert (Hlen : length (s_tries s1) = S (length (s_tries s))) by (rewrite Ht, app_length; cbn; lia).
        constructor; rewrite ?Hlen; cbn [Nat.b2n]; try lia.
        - replace (S (length (s_tries s)) - length (s_tries s))%nat with 1%nat by lia. exact Hp.
        - unfold alive. rewrite Ht, filter_app, app_length. cbn. lia.
        - intros j _ Hj. rewrite Ht. now apply nth_error_app1. }
      assert (Hk1 : mp_find N.ltb k (h_idx h1) = Some x) by apply find_set_hl.
      destruct (li_ok Hw L1 Hk1 Hx H Hc) as (H1 & H2 & H3). destruct (li_insertWord E w id (mkLI [] 0 0 (rt_t rt))) as [li' o'] eqn:He. cbn [fst snd] in *. subst o'.
      eexists. split; [reflexivity|]. rewrite set_idx_twice in H2. split; [exact H2|]. exact (G_trans G1 H3).
    + injection H as <- <- <-. unfold li_new. rewrite Hnew. cbn [obind]. exists v. split; [reflexivity|]. split.
      * constructor; [exact Hinv| |exact (ls_nodup L)]. apply (@see_grown s s1 h v []); [exact (ls_see L)|now rewrite app_nil_r].
      * constructor; rewrite ?Ht, ?Nat.sub_diag; cbn [no_room Nat.b2n seq]; try lia; [now rewrite app_nil_r|unfold alive; now rewrite Ht|reflexivity].
Qed.
Lemma usable_writable w : usable w -> writable w.
Proof. intros [->|(_ & H1 & H2)]; [split; [constructor|reflexivity]|]. split; [exact H1|exact H2]. Qed.
Lemma hsim_words E doc f ws : Forall usable ws -> hsim (h_words E doc f ws) (index_words E doc f ws).
Proof.
  induction ws as [|w ws IH]; intros H; [apply hsim_ret|]. apply Forall_cons_iff in H as [Hw H]. apply usable_writable in Hw. cbn [h_words index_words].
  apply hsim_bind; [now apply hsim_getID|]. intros id. apply hsim_bind; [apply hsim_stats|]. intros _. apply hsim_bind; [now apply hsim_addToIndex|]. intros _.
  apply hsim_bind; [apply hsim_rev|]. intros _. now apply IH.
Qed.
Lemma hsim_fields E d fs : Forall (fun f => exists t, doc_getText d f = Ok t /\ usable f /\ Forall usable t) fs -> hsim (h_fields E d fs) (index_fields E d fs).
Proof.
  induction fs as [|f fs IH]; intros H; [apply hsim_ret|]. apply Forall_cons_iff in H as [(t & Ht & Hf & Hw) H]. cbn [h_fields index_fields].
  apply hsim_bind; [apply hsim_getID; now apply usable_writable|]. intros id. rewrite Ht.
  apply hsim_bind_in; [apply hsim_look|]. intros v v' a Ha. injection Ha as <- <-. intros s' h' s2 h2 o L. revert s' h' v L s2 h2 o.
  assert (G : hsim (h_set (h_put_size (doc_getID d) id (wl_size t)) ;;; h_words E (doc_getID d) id t ;;; h_fields E d fs)
                   (set_size (doc_getID d) id (wl_size t) ;;; index_words E (doc_getID d) id t ;;; index_fields E d fs)).
  { apply hsim_bind; [apply hsim_size|]. intros _. apply hsim_bind; [now apply hsim_words|]. intros _. now apply IH. }
  intros s h v L s' h' o Hr Hc. exact (G _ _ _ _ _ _ L Hr Hc).
Qed.
Lemma hsim_index E c : Forall doc_ok c -> Forall (fun s => usable (said s)) (flat_map plan_doc c) -> hsim (h_index E c) (buildIndexes E c).
Proof.
  induction c as [|d c IH]; intros Hd Hu; [apply hsim_ret|]. apply Forall_cons_iff in Hd as [Hd1 Hd]. cbn [flat_map] in *.
  apply Forall_app in Hu as [Hu1 Hu]. cbn [buildIndexes h_index]. apply hsim_bind; [|intros _; now apply IH].
  apply hsim_fields. rewrite Forall_forall. intros f Hf.
  assert (Ht : exists t, doc_getText d f = Ok t).
  { cbn in Hf. destruct Hd1 as (id & calls & ->). unfold doc_getText. destruct (mp_find wltb f (d_texts (add_texts id calls))) as [t|] eqn:Hx; [now exists t|].
    exfalso. apply (find_none wltb_order) in Hx; [now apply Hx|]. destruct (texts_build id calls) as [_ ->]. apply build_sorted. }
  destruct Ht as [t Ht]. exists t. split; [exact Ht|]. rewrite Forall_forall in Hu1.
  assert (G : forall s, In s (plan_field d f) -> usable (said s)).
  { intros s Hs. apply Hu1. unfold plan_doc. apply in_flat_map. exists f. split; [exact Hf|exact Hs]. }
  unfold plan_field in G. rewrite Ht in G. split; [apply (G (SField (doc_getID d) f (N.of_nat (length t)))); now left|].
  rewrite Forall_forall. intros w Hw. apply (G (SWord (doc_getID d) f w)). right. now apply in_map.
Qed.

(** ** Searching *)
Definition filter_usable (f : rfilter) : Prop := Forall (Forall (fun s => usable (fst s) /\ usable (snd s))) f.
Lemma sub_usable f term sub : filter_usable f -> (forall w, rf_getField f term sub = Ok w -> usable w) /\ (forall w, rf_getWord f term sub = Ok w -> usable w).
Proof.
  intros H. unfold filter_usable in H. rewrite Forall_forall in H. unfold rf_getField, rf_getWord, at_or_throw. split; intros w.
  all: destruct (N.of_nat (length f) <=? term); [discriminate|].
  all: destruct (nth_error f (N.to_nat term)) as [t|] eqn:Ht; [|discriminate]; cbn [obind].
  all: destruct (N.of_nat (length t) <=? sub); [discriminate|].
  all: destruct (nth_error t (N.to_nat sub)) as [x|] eqn:Hx; [|discriminate]; cbn [obind].
  all: intros [= <-]; apply nth_error_In in Ht; apply H in Ht; rewrite Forall_forall in Ht; apply nth_error_In in Hx; now apply Ht.
Qed.
(** The simulation at one state. *)
Definition hsim_at {A} (s : sys) (h : hmatcher) (v : matcher) (hm : M hst A) (m : M matcher A) : Prop := forall s' h' o, hm (s, h) = ((s', h'), o) -> came o ->
  exists v', m v = (v', o) /\ LS s' h' v' /\ G s h s' h' (no_room o).
Lemma at_all A (hm : M hst A) m : (forall s h v, LS s h v -> hsim_at s h v hm m) -> hsim hm m.
Proof. intros H s h v s' h' o L. exact (H _ _ _ L s' h' o). Qed.
Lemma all_at A (hm : M hst A) m s h v : hsim hm m -> LS s h v -> hsim_at s h v hm m.
Proof. intros H L s' h' o. exact (H _ _ _ _ _ _ L). Qed.
Lemma at_bind A B (hm : M hst A) m (hf : A -> M hst B) f s h v : hsim_at s h v hm m -> (forall a, hsim (hf a) (f a)) -> hsim_at s h v (mbind hm hf) (mbind m f).
Proof.
  intros H1 H2 s' h' o H Hc. unfold mbind in *. destruct (hm (s, h)) as [[s1 h1] o1] eqn:He.
  destruct o1 as [a|e| | |]; try (injection H as <- <- <-; contradiction).
  - destruct (H1 _ _ _ He I) as (v1 & -> & L1 & G1). destruct (H2 a _ _ _ _ _ _ L1 H Hc) as (v2 & Hv2 & L2 & G2). exists v2. split; [exact Hv2|]. split; [exact L2|]. exact (G_trans G1 G2).
  - injection H as <- <- <-. destruct (H1 _ _ _ He I) as (v1 & -> & L1 & G1). exists v1. split; [reflexivity|]. now split.
Qed.
(** Reading does not change the state. *)
Lemma at_look A B (f : matcher -> outcome A) (hf : A -> M hst B) g s h v : LS s h v -> (forall a, f v = Ok a -> hsim_at s h v (hf a) (g a)) -> hsim_at s h v (mbind (h_look f) hf) (mbind (reads f) g).
Proof.
  intros L H s' h' o Hr Hc. unfold mbind, h_look, reads in *. cbn [fst snd] in Hr. rewrite (ls_see L) in Hr.
  destruct (f v) as [a|e| | |]; try (injection Hr as <- <- <-; contradiction).
  - exact (H a eq_refl _ _ _ Hr Hc).
  - injection Hr as <- <- <-. exists v. split; [reflexivity|]. split; [exact L|now apply G_same].
Qed.
Lemma hsim_both E a b : usable a -> usable b -> hsim (h_both_ids E a b) (both_ids E a b).
Proof.
  intros Ha Hb. apply usable_writable in Ha, Hb. unfold h_both_ids, both_ids. destruct (e_rtl E); (apply hsim_bind; [now apply hsim_getID|]; intros x; apply hsim_bind; [now apply hsim_getID|]; intros y; apply hsim_ret).
Qed.
Lemma hsim_subterms E f term id n : filter_usable f -> forall sub, hsim (h_subtermsMatch E f term id n sub) (subtermsMatch E f term id n sub).
Proof.
  intros Hf. induction n as [|n IH]; intros sub; [apply hsim_ret|]. cbn [h_subtermsMatch subtermsMatch]. destruct (sub_usable term sub Hf) as [U1 U2].
  apply at_all. intros s h v L. apply at_look; [exact L|]. intros a Ha. apply at_look; [exact L|]. intros b Hb. apply all_at; [|exact L].
  apply hsim_bind; [apply hsim_both; [now apply U2|now apply U1]|]. intros ids. apply hsim_bind; [apply hsim_look|]. intros [|]; [apply IH|apply hsim_ret].
Qed.
Lemma hsim_terms E f id n : filter_usable f -> forall term, hsim (h_termsMatch E f id n term) (termsMatch E f id n term).
Proof.
  intros Hf. induction n as [|n IH]; intros term; [apply hsim_ret|]. cbn [h_termsMatch termsMatch]. apply hsim_bind; [apply hsim_look|]. intros k.
  apply hsim_bind; [now apply hsim_subterms|]. intros [|]; [apply hsim_ret|apply IH].
Qed.
Lemma hsim_loop E f n : filter_usable f -> forall i a b, hsim (h_filter_loop E f n i a b) (filter_loop E f n i a b).
Proof.
  intros Hf. induction n as [|n IH]; intros i a b; [apply hsim_ret|]. cbn [h_filter_loop filter_loop]. destruct (mr_getDocumentID i a) as [a' o].
  apply hsim_bind; [apply hsim_look|]. intros id. apply hsim_bind; [now apply hsim_terms|]. intros [|]; [|apply IH]. destruct (mr_copyResult a' i b) as [b' o'].
  apply hsim_bind; [apply hsim_look|]. intros _. apply IH.
Qed.
Lemma hsim_match E q p : filter_usable (sp_filter p) -> hsim (h_match E q p) (mt_match E q p).
Proof.
  intros Hf. unfold h_match, mt_match. destruct q as [|w q]; [apply hsim_ret|]. apply hsim_bind; [apply hsim_look|]. intros r. cbv zeta. now apply hsim_loop.
Qed.
Lemma at_known E w s h v : ws_hasWord (mt_store v) w = Ok true -> LS s h v -> hsim_at s h v (h_getID E w) (on_store (ws_getID E w)).
Proof. intros Hk L s' h' o. exact (hsim_known Hk L). Qed.
Lemma hsim_counts E q k : forall c, hsim (h_countExacts E q k c) (countExacts E q k c).
Proof.
  induction q as [|w q IH]; intros c; [apply hsim_ret|]. cbn [h_countExacts countExacts]. destruct (Nat.eqb (length w) 0); [apply IH|].
  apply at_all. intros s h v L. apply at_look; [exact L|]. intros [|] Hk; cbn [negb]; [|apply all_at; [apply IH|exact L]].
  apply at_bind; [now apply at_known|]. intros id. apply hsim_bind; [apply hsim_look|]. intros ds. apply IH.
Qed.
Lemma see_sizes s h v : see s h = Some v -> mt_sizes v = h_sizes h.
Proof. unfold see. destruct (see_idx s (h_idx h)); [|discriminate]. destruct (see_store s (h_store h)); [|discriminate]. now intros [= <-]. Qed.
Lemma hsim_scores n k st : forall acc, hsim (h_exact_scores n k st acc) (exact_scores n k st acc).
Proof.
  induction st as [|[id m] st IH]; intros acc; [apply hsim_ret|]. cbn [h_exact_scores exact_scores]. cbv zeta. apply hsim_bind; [|intros b; apply IH].
  destruct (m =? n); [|apply hsim_ret]. intros s h v s' h' o L H Hc. cbn [snd] in H. rewrite (see_sizes (ls_see L)). destruct (mp_find pair_lt (id, k) (h_sizes h)) as [z|].
  - injection H as <- <- <-. exists v. split; [reflexivity|]. split; [exact L|now apply G_same].
  - assert (HS : hsim (h_set (h_put_size id k 0) ;;; ret (m =? 0)) (set_size id k 0 ;;; ret (m =? 0))) by (apply hsim_bind; [apply hsim_size|intros _; apply hsim_ret]).
    destruct (HS _ _ _ _ _ _ L H Hc) as (v' & Hv & HL). exists v'. split; [|exact HL]. exact Hv.
Qed.
Lemma hsim_online E q f : hsim (h_onlineMatch E q f) (mt_onlineMatch E q f).
Proof.
  unfold h_onlineMatch, mt_onlineMatch. apply at_all. intros s h v L. apply at_look; [exact L|]. intros [|] Hk; cbn [negb].
  2: { apply all_at; [|exact L]. apply hsim_bind; [apply hsim_look|]. intros _. apply hsim_throw. }
  apply at_bind; [now apply at_known|]. intros id. apply hsim_bind; [apply hsim_counts|]. intros st. apply hsim_bind; [apply hsim_scores|]. intros acc.
  apply hsim_bind; [apply hsim_match; cbn; repeat constructor|]. intros r. apply hsim_bind; [apply hsim_look|]. intros acc'. apply hsim_ret.
Qed.
(** A call that does not crash does what it does in MatcherM. *)
Lemma hsim_do E c : clean c -> hsim (h_do E c) (m_do E c).
Proof.
  intros Hc. destruct c as [c|c|f x|q p|q f]; cbn [h_do m_do] in *.
  - destruct Hc. now apply hsim_index.
  - apply hsim_ev.
  - apply hsim_w.
  - apply hsim_bind; [now apply hsim_match|]. intros _. apply hsim_ret.
  - apply hsim_bind; [apply hsim_online|]. intros _. apply hsim_ret.
Qed.
