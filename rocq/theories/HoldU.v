(** C122: a call that crashes on the tries of ResM crashes in MatcherM. *)
From Verif Require Import Base TrieM TrieA TrieP TrieP2 TrieD WordStoreM ErrorValuesM LevIndexM WordM MapM MapP DoubleM ContM MatcherM Spec_Hist TrieH WordStoreP ResM ResP ResQ Spec_Res Spec_EV Spec_Cont ContP Spec_Match MatchP MatchQ MatchY HoldM Spec_Hold HoldP HoldQ HoldR HoldS HoldT.
From Coq Require Import ZifyBool ZifyN ZifyNat.
Local Open Scope N_scope.
Local Open Scope m_scope.

Lemma plain_gone E w id t : t_mapped t = false -> w <> [] -> ~ came (snd (insertWord E w id t)).
Proof.
  intros Hm Hw. destruct w as [|l v]; [congruence|]. unfold insertWord. unfold mbind at 1. unfold massert at 1.
  assert (G : forall (g : N -> M trie N), ~ came (snd (mbind (reads (fun t => Ok (t_root t))) (fun root => mbind (insert_loop E root (l :: v)) g) t))).
  { intros g. unfold mbind at 1, reads at 1. cbn [insert_loop]. unfold mbind at 1. unfold mbind at 1. unfold reads at 1.
    destruct (find_sib_gone (t_fuel t) l (u32 (t_root t + SZ_NODE)) Hm) as [Hg|Hg]; rewrite Hg; intros []. }
  destruct (negb _); [apply G|]. destruct (e_ndebug E); [apply G|intros []].
Qed.
Lemma ins_back E i w id s rt : inv s -> trie_at s i rt -> writable w -> ~ came (snd (t_insertWord E i w id s)) -> ~ came (snd (insertWord E w id (rt_t rt))).
Proof.
  intros Hinv Hi Hw H. unfold t_insertWord in H. pose proof Hi as Hi0. unfold trie_at in Hi. rewrite Hi in H.
  destruct (r_insertWord E w id (s_k s, rt)) as [[k' rt'] o0] eqn:Hr. cbn [snd] in H.
  destruct (i_ok Hinv Hi0) as (_ & _ & Hg). destruct (t_mapped (rt_t rt)) eqn:Hm.
  - destruct (Hg eq_refl) as [Hh (es & ids & nw & R & _)].
    destruct (@insert_sim E (s_k s, rt) es ids nw w id) as (s2 & He2 & Ht2 & _); [split; assumption|exact R|apply Hw|].
    rewrite Hr in He2. cbn [snd] in He2. injection He2 as _ ->. exact H.
  - destruct w as [|l v]; [cbn in Hr; injection Hr as <- <- <-; exact H|]. apply plain_gone; [exact Hm|discriminate].
Qed.
Lemma new_back E s : came (snd (t_new E s)).
Proof.
  unfold t_new. cbv zeta. destruct (grow_ok E 1024) eqn:Hg; [|exact I]. destruct (first_good Hg) as (t & r & Hft & _).
  change (mkTrie true 1024 (fun o0 => if o0 =? H_TOTAL then 1024 else 0) 0) with blank.
  set (k0 := mkK (k_files (s_k s) ++ [true]) (k_maps (s_k s) ++ [Some 1024])) in *.
  assert (Ha : nth_error (k_maps k0) (length (k_maps (s_k s))) = Some (Some 1024)).
  { unfold k0. cbn [k_maps]. rewrite nth_error_app2 by lia. now rewrite Nat.sub_diag. }
  destruct (first_sim E (length (k_files (s_k s))) Ha) as (s2 & He2 & Ht2 & _). cbn [snd rt_t] in He2, Ht2.
  rewrite Hft in He2. cbn [snd] in He2. rewrite He2. destruct s2 as [k' rt]. exact I.
Qed.

(** At one state. *)
Definition back_at {A} (s : sys) (h : hmatcher) (v : matcher) (hm : M hst A) (m : M matcher A) : Prop := came (snd (m v)) -> came (snd (hm (s, h))).
Definition back {A} (hm : M hst A) (m : M matcher A) : Prop := forall s h v, LS s h v -> back_at s h v hm m.
Definition both {A} (hm : M hst A) (m : M matcher A) : Prop := hsim hm m /\ back hm m.
Lemma came_dec {A} (o : outcome A) : {came o} + {~ came o}.
Proof. destruct o; cbn; auto. Qed.
Lemma both_ret A (a : A) : both (ret a) (ret a).
Proof. split; [apply hsim_ret|]. intros s h v L _. exact I. Qed.
Lemma both_throw A e : both (A := A) (mthrow e) (mthrow e).
Proof. split; [apply hsim_throw|]. intros s h v L _. exact I. Qed.
Lemma back_look A (f : matcher -> outcome A) : back (h_look f) (reads f).
Proof. intros s h v L H. unfold h_look, reads in *. cbn [fst snd] in *. now rewrite (ls_see L). Qed.
Lemma both_look A (f : matcher -> outcome A) : both (h_look f) (reads f).
Proof. split; [apply hsim_look|apply back_look]. Qed.
Lemma both_set f g : hsim (h_set f) g -> both (h_set f) g.
Proof. intros H. split; [exact H|]. intros s h v L _. exact I. Qed.
Lemma back_bind_at A B (hm : M hst A) m (hf : A -> M hst B) f s h v : hsim_at s h v hm m -> back_at s h v hm m -> (forall a, back (hf a) (f a)) -> back_at s h v (mbind hm hf) (mbind m f).
Proof.
  intros H1 H2 H3 H. unfold back_at in *. unfold mbind in *. destruct (m v) as [v1 o1] eqn:Hm. cbn [snd] in H2.
  assert (Hc1 : came o1) by (destruct o1; [exact I|exact I|exact H..]). specialize (H2 Hc1).
  destruct (hm (s, h)) as [[s1 h1] o2] eqn:Hh. cbn [snd] in H2. destruct (H1 _ _ _ Hh H2) as (v2 & Hv2 & L2 & _). rewrite Hm in Hv2. injection Hv2 as <- ->.
  destruct o2 as [a|e| | |]; try contradiction; [|exact I]. exact (H3 a _ _ _ L2 H).
Qed.
Lemma both_bind A B (hm : M hst A) m (hf : A -> M hst B) f : both hm m -> (forall a, both (hf a) (f a)) -> both (mbind hm hf) (mbind m f).
Proof.
  intros [H1 H2] H3. split; [apply hsim_bind; [exact H1|]; intros a; apply H3|]. intros s h v L. apply back_bind_at; [exact (all_at H1 L)|exact (H2 _ _ _ L)|]. intros a. apply H3.
Qed.
Lemma back_look_at A B (f : matcher -> outcome A) (hf : A -> M hst B) g s h v : LS s h v -> (forall a, f v = Ok a -> back_at s h v (hf a) (g a)) -> back_at s h v (mbind (h_look f) hf) (mbind (reads f) g).
Proof.
  intros L H Hc. unfold back_at, mbind, h_look, reads in *. cbn [fst snd] in *. rewrite (ls_see L). destruct (f v) as [a|e| | |]; try contradiction; [|exact I]. exact (H a eq_refl Hc).
Qed.
Lemma both_ext A (hm : M hst A) m m' : (forall v, m v = m' v) -> both hm m -> both hm m'.
Proof. intros He [H1 H2]. split; [exact (hsim_ext He H1)|]. intros s h v L. unfold back_at. rewrite <- He. exact (H2 _ _ _ L). Qed.
Lemma came_map {A B} (o : outcome A) (f : A -> outcome B) : came (obind o f) -> came o.
Proof. destruct o; cbn; auto. Qed.

Lemma both_store E w n : writable w -> both (fun s => h_sys (t_insertWord E (hs_trie (h_store (snd s))) w n) s) (on_store (on_trie (insertWord E w n))).
Proof.
  intros Hw. split; [now apply hsim_store|]. intros s h v L H. unfold back_at, h_sys in *. cbn [fst snd] in *. destruct (see_store_at (ls_see L)) as (rt & Hrt & Hst).
  destruct (came_dec (snd (t_insertWord E (hs_trie (h_store h)) w n s))) as [Hc|Hc]; [destruct (t_insertWord E (hs_trie (h_store h)) w n s); exact Hc|].
  exfalso. apply (ins_back (ls_inv L) Hrt Hw Hc). unfold on_store, on_trie in H. rewrite Hst in H. cbn [ws_trie ws_index] in H. destruct (insertWord E w n (rt_t rt)). exact H.
Qed.
Lemma both_getID E w : writable w -> both (h_getID E w) (on_store (ws_getID E w)).
Proof.
  intros Hw. apply (both_ext (getID_m E w)). unfold h_getID, ws_getID_m. apply both_bind; [apply both_look|]. intros [|]; [apply both_look|].
  apply both_bind; [apply both_look|]. intros n. apply both_bind; [now apply both_store|]. intros node. apply both_bind; [apply both_set, hsim_push|]. intros _. apply both_look.
Qed.
Lemma back_known E w s h v : ws_hasWord (mt_store v) w = Ok true -> LS s h v -> back_at s h v (h_getID E w) (on_store (ws_getID E w)).
Proof.
  intros Hk L. unfold back_at. rewrite <- getID_m. unfold ws_getID_m, h_getID. unfold mbind, h_look, reads. cbn [fst snd]. unfold ws_hasWord in Hk. rewrite (ls_see L), Hk. cbn [fst snd]. rewrite (ls_see L). auto.
Qed.
Lemma li_back E w id k x s h v li : writable w -> LS s h v -> mp_find N.ltb k (h_idx h) = Some x -> see_lev s x = Some li ->
  came (snd (li_insertWord E w id li)) -> came (snd (h_li_insertWord E w id k x (s, h))).
Proof.
  intros Hw L Hk Hx H. unfold h_li_insertWord, li_insertWord in *. destruct (Nat.eqb (length w) 0); [exact I|].
  unfold mbind, h_sys, reads, on_li_trie in *. cbn [fst snd] in *. unfold see_lev in Hx. destruct (see_trie s (hl_trie x)) as [t|] eqn:Ht; [|discriminate]. injection Hx as <-. cbn [li_trie li_counts li_max li_longest] in *.
  apply see_at in Ht as (rt & Hrt & <-). pose proof (@ins_back E (hl_trie x) w id s rt (ls_inv L) Hrt Hw) as Hb.
  destruct (t_insertWord E (hl_trie x) w id s) as [s1 o1] eqn:He. cbn [snd] in Hb. destruct (came_dec o1) as [Hc|Hc]; [destruct o1; try contradiction; exact I|].
  exfalso. apply (Hb Hc). destruct (insertWord E w id (rt_t rt)) as [t' o']. destruct o'; try exact I; exact H.
Qed.
Lemma both_addToIndex E w id k : writable w -> both (h_addToIndex E w id k) (addToIndex E w id k).
Proof.
  intros Hw. split; [now apply hsim_addToIndex|]. intros s h v L. unfold back_at, h_addToIndex, addToIndex. cbn [fst snd]. pose proof (see_find k (see_idx_of (ls_see L))) as Hf.
  destruct (mp_find N.ltb k (h_idx h)) as [x|] eqn:Hk.
  - destruct Hf as (li & Hx & ->). intros H. apply (li_back Hw L Hk Hx). destruct (li_insertWord E w id li). exact H.
  - rewrite Hf. intros H. unfold mbind at 1. unfold h_sys at 1. cbn [fst snd]. destruct (t_new E s) as [s1 o1] eqn:Hn.
    assert (Hc1 : came o1) by (pose proof (new_back E s) as Hb; now rewrite Hn in Hb).
    destruct (new_ok (ls_inv L) Hn Hc1) as (Hinv & Hfl & [(-> & rt & Ht & Hnew & Hm)|(-> & Ht & Hnew & Hm)]); [|exact I].
    unfold li_new in H. rewrite Hnew in H. cbn [obind] in H. unfold mbind at 1. unfold h_set at 1. cbn [fst snd].
    set (x := mkHL [] 0 0 (length (s_tries s))) in *. set (h1 := h_put_idx k x h) in *.
    assert (Hx : see_lev s1 x = Some (mkLI [] 0 0 (rt_t rt))).
    { unfold see_lev, see_trie, x. cbn [hl_trie]. rewrite Ht, nth_error_app2 by lia. now rewrite Nat.sub_diag. }
    assert (Hp : Permutation (handles h1) (handles h ++ [length (s_tries s)])).
    { unfold handles, h1, h_put_idx. cbn [h_store h_idx app]. apply perm_skip. exact (set_new x Hk). }
    assert (Hnin : ~ In (length (s_tries s)) (handles h)).
    { intros Hi. destruct (see_handles (ls_see L) Hi) as (rt0 & Hr). apply at_lt in Hr. lia. }
    assert (L1 : LS s1 h1 (set_idx k (mkLI [] 0 0 (rt_t rt)) v)).
    { constructor; [exact Hinv| |].
      - apply see_put_idx; [exact (see_grown (ls_see L) Ht)|exact Hx].
      - apply (Permutation_NoDup (Permutation_sym Hp)).
        apply (Permutation_NoDup (Permutation_cons_append _ _)). constructor; [exact Hnin|exact (ls_nodup L)]. }
    assert (Hk1 : mp_find N.ltb k (h_idx h1) = Some x) by apply find_set_hl.
    apply (li_back Hw L1 Hk1 Hx). destruct (li_insertWord E w id (mkLI [] 0 0 (rt_t rt))). exact H.
Qed.
Lemma both_words E doc f ws : Forall usable ws -> both (h_words E doc f ws) (index_words E doc f ws).
Proof.
  induction ws as [|w ws IH]; intros H; [apply both_ret|]. apply Forall_cons_iff in H as [Hw H]. apply usable_writable in Hw. cbn [h_words index_words].
  apply both_bind; [now apply both_getID|]. intros id. apply both_bind; [apply both_set, hsim_stats|]. intros _. apply both_bind; [now apply both_addToIndex|]. intros _.
  apply both_bind; [apply both_set, hsim_rev|]. intros _. now apply IH.
Qed.
Lemma back_fields E d fs : Forall (fun f => exists t, doc_getText d f = Ok t /\ usable f /\ Forall usable t) fs -> back (h_fields E d fs) (index_fields E d fs).
Proof.
  induction fs as [|f fs IH]; intros H; [apply both_ret|]. apply Forall_cons_iff in H as [(t & Ht & Hf & Hw) H]. cbn [h_fields index_fields].
  intros s h v L. destruct (both_getID E (usable_writable Hf)) as [B1 B2]. apply back_bind_at; [exact (all_at B1 L)|exact (B2 _ _ _ L)|]. intros id. rewrite Ht.
  intros s1 h1 v1 L1. apply back_look_at; [exact L1|]. intros a [= <-].
  apply (@back_bind_at _ _ (h_set (h_put_size (doc_getID d) id (wl_size t)))); [exact (all_at (@hsim_size (doc_getID d) id (wl_size t)) L1)|intros _; exact I|]. intros _ s2 h2 v2 L2.
  destruct (both_words E (doc_getID d) id Hw) as [C1 C2]. apply back_bind_at; [exact (all_at C1 L2)|exact (C2 _ _ _ L2)|]. intros _. now apply IH.
Qed.
Lemma texts_usable d : doc_ok d -> Forall (fun s => usable (said s)) (plan_doc d) -> Forall (fun f => exists t, doc_getText d f = Ok t /\ usable f /\ Forall usable t) (fst (doc_getFieldNames d [])).
Proof.
  intros Hd1 Hu1. rewrite Forall_forall. intros f Hf.
  assert (Ht : exists t, doc_getText d f = Ok t).
  { cbn in Hf. destruct Hd1 as (id & calls & ->). unfold doc_getText. destruct (mp_find wltb f (d_texts (add_texts id calls))) as [t|] eqn:Hx; [now exists t|].
    exfalso. apply (find_none wltb_order) in Hx; [now apply Hx|]. destruct (texts_build id calls) as [_ ->]. apply build_sorted. }
  destruct Ht as [t Ht]. exists t. split; [exact Ht|]. rewrite Forall_forall in Hu1.
  assert (G : forall s, In s (plan_field d f) -> usable (said s)).
  { intros s Hs. apply Hu1. unfold plan_doc. apply in_flat_map. exists f. split; [exact Hf|exact Hs]. }
  unfold plan_field in G. rewrite Ht in G. split; [apply (G (SField (doc_getID d) f (N.of_nat (length t)))); now left|].
  rewrite Forall_forall. intros w Hw. apply (G (SWord (doc_getID d) f w)). right. now apply in_map.
Qed.
Lemma back_index E c : Forall doc_ok c -> Forall (fun s => usable (said s)) (flat_map plan_doc c) -> back (h_index E c) (buildIndexes E c).
Proof.
  induction c as [|d c IH]; intros Hd Hu; [apply both_ret|]. apply Forall_cons_iff in Hd as [Hd1 Hd]. cbn [flat_map] in *.
  apply Forall_app in Hu as [Hu1 Hu]. cbn [buildIndexes h_index]. pose proof (texts_usable Hd1 Hu1) as Ht.
  intros s h v L. apply back_bind_at; [exact (all_at (@hsim_fields E d _ Ht) L)|exact (@back_fields E d _ Ht _ _ _ L)|]. intros _. now apply IH.
Qed.
Lemma both_both E a b : usable a -> usable b -> both (h_both_ids E a b) (both_ids E a b).
Proof.
  intros Ha Hb. apply usable_writable in Ha, Hb. unfold h_both_ids, both_ids. destruct (e_rtl E); (apply both_bind; [now apply both_getID|]; intros x; apply both_bind; [now apply both_getID|]; intros y; apply both_ret).
Qed.
Lemma both_subterms E f term id n : filter_usable f -> forall sub, both (h_subtermsMatch E f term id n sub) (subtermsMatch E f term id n sub).
Proof.
  intros Hf. induction n as [|n IH]; intros sub; [apply both_ret|]. split; [now apply hsim_subterms|]. cbn [h_subtermsMatch subtermsMatch]. destruct (sub_usable term sub Hf) as [U1 U2].
  intros s h v L. apply back_look_at; [exact L|]. intros a Ha. apply back_look_at; [exact L|]. intros b Hb.
  destruct (both_both E (U2 _ Hb) (U1 _ Ha)) as [B1 B2]. apply back_bind_at; [exact (all_at B1 L)|exact (B2 _ _ _ L)|]. intros ids.
  apply both_bind; [apply both_look|]. intros [|]; [apply IH|apply both_ret].
Qed.
Lemma both_terms E f id n : filter_usable f -> forall term, both (h_termsMatch E f id n term) (termsMatch E f id n term).
Proof.
  intros Hf. induction n as [|n IH]; intros term; [apply both_ret|]. cbn [h_termsMatch termsMatch]. apply both_bind; [apply both_look|]. intros k.
  apply both_bind; [now apply both_subterms|]. intros [|]; [apply both_ret|apply IH].
Qed.
Lemma both_loop E f n : filter_usable f -> forall i a b, both (h_filter_loop E f n i a b) (filter_loop E f n i a b).
Proof.
  intros Hf. induction n as [|n IH]; intros i a b; [apply both_ret|]. cbn [h_filter_loop filter_loop]. destruct (mr_getDocumentID i a) as [a' o].
  apply both_bind; [apply both_look|]. intros id. apply both_bind; [now apply both_terms|]. intros [|]; [|apply IH]. destruct (mr_copyResult a' i b) as [b' o'].
  apply both_bind; [apply both_look|]. intros _. apply IH.
Qed.
Lemma both_match E q p : filter_usable (sp_filter p) -> both (h_match E q p) (mt_match E q p).
Proof.
  intros Hf. unfold h_match, mt_match. destruct q as [|w q]; [apply both_ret|]. apply both_bind; [apply both_look|]. intros r. cbv zeta. now apply both_loop.
Qed.
Lemma back_counts E q k : forall c, back (h_countExacts E q k c) (countExacts E q k c).
Proof.
  induction q as [|w q IH]; intros c; [apply both_ret|]. cbn [h_countExacts countExacts]. destruct (Nat.eqb (length w) 0); [apply IH|].
  intros s h v L. apply back_look_at; [exact L|]. intros [|] Hk; cbn [negb]; [|exact (IH _ _ _ _ L)].
  apply back_bind_at; [now apply at_known|now apply back_known|]. intros id s1 h1 v1 L1. apply back_look_at; [exact L1|]. intros ds _. exact (IH _ _ _ _ L1).
Qed.
Lemma back_scores n k st : forall acc, back (h_exact_scores n k st acc) (exact_scores n k st acc).
Proof.
  induction st as [|[id m] st IH]; intros acc; [apply both_ret|]. cbn [h_exact_scores exact_scores]. cbv zeta.
  match goal with |- back (mbind ?x ?f) (mbind ?y ?g) => assert (HS : hsim x y /\ back x y) end.
  { split.
    - destruct (m =? n); [|apply hsim_ret]. intros s h v s' h' o L H Hc. cbn [snd] in H. rewrite (see_sizes (ls_see L)). destruct (mp_find pair_lt (id, k) (h_sizes h)) as [z|].
      + injection H as <- <- <-. exists v. split; [reflexivity|]. split; [exact L|now apply G_same].
      + assert (HS : hsim (h_set (h_put_size id k 0) ;;; ret (m =? 0)) (set_size id k 0 ;;; ret (m =? 0))) by (apply hsim_bind; [apply hsim_size|intros _; apply hsim_ret]).
        destruct (HS _ _ _ _ _ _ L H Hc) as (v' & Hv & HL). exists v'. split; [|exact HL]. exact Hv.
    - intros s h v L _. destruct (m =? n); [|exact I]. cbn [snd]. destruct (mp_find pair_lt (id, k) (h_sizes h)); exact I. }
  destruct HS as [H1 H2]. intros s h v L. apply back_bind_at; [exact (all_at H1 L)|exact (H2 _ _ _ L)|]. intros b. apply IH.
Qed.
Lemma both_online E q f : both (h_onlineMatch E q f) (mt_onlineMatch E q f).
Proof.
  split; [apply hsim_online|]. unfold h_onlineMatch, mt_onlineMatch. intros s h v L. apply back_look_at; [exact L|]. intros [|] Hk; cbn [negb].
  2: { apply (both_bind (both_look (fun _ => asUtf8 f)) (fun _ => both_throw mresults EInvalidArg)). exact L. }
  apply back_bind_at; [now apply at_known|now apply back_known|]. intros id s1 h1 v1 L1. apply back_bind_at; [exact (all_at (@hsim_counts E q id []) L1)|exact (@back_counts E q id [] _ _ _ L1)|].
  intros st s2 h2 v2 L2. apply back_bind_at; [exact (all_at (@hsim_scores (wl_size q) id st []) L2)|exact (@back_scores (wl_size q) id st [] _ _ _ L2)|]. intros acc.
  apply both_bind; [apply both_match; cbn; repeat constructor|]. intros r. apply both_bind; [apply both_look|]. intros acc'. apply both_ret.
Qed.
Lemma both_do E c : clean c -> both (h_do E c) (m_do E c).
Proof.
  intros Hc. split; [now apply hsim_do|]. destruct c as [c|c|f x|q p|q f]; cbn [h_do m_do] in *.
  - destruct Hc. now apply back_index.
  - intros s h v L H. unfold back_at, h_on_ev, on_ev in *. cbn [fst snd] in *. pose proof (ls_see L) as Hs. unfold see in Hs.
    destruct (see_idx s (h_idx h)); [|discriminate]. destruct (see_store s (h_store h)); [|discriminate]. injection Hs as <-. cbn [mt_ev] in H. destruct (ev_do c (h_ev h)). exact H.
  - intros s h v L _. exact I.
  - apply both_bind; [now apply both_match|]. intros _. apply both_ret.
  - apply both_bind; [apply both_online|]. intros _. apply both_ret.
Qed.
(** So both come to the same, or both crash. *)
Lemma not_came {A} (o : outcome A) : ~ came o -> crashed o.
Proof. destruct o; cbn; tauto. Qed.
Lemma agree_at A (hm : M hst A) m s h v : both hm m -> LS s h v -> alike (snd (hm (s, h))) (snd (m v)).
Proof.
  intros [H1 H2] L. destruct (came_dec (snd (hm (s, h)))) as [Hc|Hc].
  - left. destruct (hm (s, h)) as [[s1 h1] o] eqn:He. cbn [snd] in *. destruct (H1 _ _ _ _ _ _ L He Hc) as (v' & -> & _). reflexivity.
  - right. split; [now apply not_came|]. apply not_came. intros Hm. apply Hc. exact (H2 _ _ _ L Hm).
Qed.
Lemma same_now E prog xs s k h : env_ok E -> p_reaches E prog xs s -> refusals prog xs = 0%nat -> matcher_at s k h -> exists m, history E (calls_on k prog) m /\ see (ms_sys s) h = Some m /\
  (forall c, clean c -> alike (snd (h_do E c (ms_sys s, h))) (snd (m_do E c m))) /\
  (forall q p, clean (MMatch q p) -> alike (snd (h_match E q p (ms_sys s, h))) (snd (mt_match E q p m))) /\
  (forall q f, alike (snd (h_onlineMatch E q f (ms_sys s, h))) (snd (mt_onlineMatch E q f m))).
Proof.
  intros HE H Hz Hk. destruct (ph_live (reach_PH HE H Hz) Hk) as [_ (m & Hm & Hh)]. destruct (pi_live (reach_PI H) Hk) as (v & L). rewrite (ls_see L) in Hm. injection Hm as ->.
  exists m. split; [exact Hh|]. split; [exact (ls_see L)|]. split; [|split].
  - intros c Hc. exact (agree_at (both_do E Hc) L).
  - intros q p Hc. exact (agree_at (@both_match E q p Hc) L).
  - intros q f. exact (agree_at (both_online E q f) L).
Qed.
Lemma safe_now E prog xs s k h c : env_ok E -> p_reaches E prog xs s -> refusals prog xs = 0%nat -> matcher_at s k h -> sound_history E (calls_on k prog ++ [c]) -> nameable c ->
  expected c (snd (p_do E (PCall k c) s)).
Proof.
  intros HE H Hz Hk HS Hn. destruct (same_now HE H Hz Hk) as (m & Hh & _ & Hd & _). destruct (HS (calls_on k prog) c [] eq_refl) as [Hc _]. specialize (Hd c Hc).
  destruct (m_do E c m) as [m' o] eqn:Hm. pose proof (call_expected HE HS Hn Hh Hm) as Hx. cbn [snd] in Hd. cbn [p_do]. unfold h_on. unfold matcher_at in Hk. rewrite Hk.
  destruct (h_do E c (ms_sys s, h)) as [[k1 h1] o1]. cbn [snd] in *. destruct Hd as [->|[_ Hcr]]; [exact Hx|]. exfalso.
  destruct c; cbn [expected] in Hx; destruct o; try contradiction; intuition discriminate.
Qed.
