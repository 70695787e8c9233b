(** LevenshteinIndex: history invariant and the properties of findWords. *)
From Verif Require Import Base TrieM TrieA TrieP TrieP2 TrieD Spec_Hist TrieH ErrorValuesM LevIndexM
  Spec_Edit Spec_Lev Spec_EV EVP EditP SearchP HitsP.
From Coq Require Import ZifyBool ZifyN ZifyNat.
Local Open Scope Z_scope.

Record LV (s : levindex) (es : edges) (ids : list N) (d ops : list (word * N)) : Prop := {
  lv_hist : exists offs, hist (li_trie s) es ids d (real ops) offs;
  lv_ins : Forall (fun op => insertable (fst op)) (real ops);
  lv_counts : forall id, li_wordCount s id = times id ops;
  lv_le : forall id, (times id ops <= li_max s)%N;
  lv_max : exists id, times id ops = li_max s;
  lv_longest : li_longest s = longest ops
}.

Lemma real_app a b : real (a ++ b) = real a ++ real b.
Proof. apply filter_app. Qed.
Lemma times_app id a b : times id (a ++ b) = (times id a + times id b)%N.
Proof. unfold times. rewrite real_app, filter_app, app_length. lia. Qed.
Lemma longest_app a b : longest (a ++ b) = Nat.max (longest a) (longest b).
Proof. unfold longest. induction a as [|x a IH]; cbn [app fold_right]; [lia|]. rewrite IH. lia. Qed.
Lemma real_cons w id : w <> [] -> real [(w, id)] = [(w, id)].
Proof. destruct w; [congruence|reflexivity]. Qed.

Lemma counts_find_set c id v k : counts_find (counts_set c id v) k = if (id =? k)%N then Some v else counts_find c k.
Proof.
  unfold counts_find. induction c as [|[x y] r IH]; cbn [counts_set find fst].
  - destruct (id =? k)%N; reflexivity.
  - destruct (N.eqb_spec x id) as [->|Hne]; cbn [find fst].
    + destruct (N.eqb_spec id k); reflexivity.
    + destruct (N.eqb_spec x k) as [->|Hk]; [destruct (N.eqb_spec id k); [congruence|reflexivity]|exact IH].
Qed.

Lemma lev_step E s es ids d ops w id s' : LV s es ids d ops ->
  (w = [] \/ insertable w) -> id <> INVALID_WORDID -> li_insertWord E w id s = (s', Ok tt) ->
  exists es' ids' d', LV s' es' ids' d' (ops ++ [(w, id)]).
Proof.
  intros L Hw Hid Hr. destruct (lv_hist L) as [offs H]. unfold li_insertWord in Hr.
  destruct (Nat.eqb_spec (length w) 0) as [Hl|Hl].
  - destruct w; [|discriminate]. injection Hr as <-. exists es, ids, d.
    assert (Ht : forall k, times k (ops ++ [([], id)]) = times k ops).
    { intros k. rewrite times_app. change (times k [([], id)]) with 0%N. lia. }
    constructor.
    + exists offs. rewrite real_app, app_nil_r. exact H.
    + rewrite real_app, app_nil_r. apply (lv_ins L).
    + intros k. rewrite Ht. apply (lv_counts L).
    + intros k. rewrite Ht. apply (lv_le L).
    + destruct (lv_max L) as [k Hk]. exists k. now rewrite Ht.
    + rewrite longest_app, (lv_longest L). cbn. lia.
  - assert (Hne : w <> []) by (intros ->; now apply Hl).
    destruct Hw as [->|Hw]; [congruence|].
    unfold mbind in Hr. unfold reads at 1 in Hr. unfold on_li_trie in Hr.
    destruct (hist_step E H (w := w) (id := id) Hw Hid)
      as [(t1 & off & es1 & ids1 & d1 & x & He & Hx & H1)|[(t1 & He & _)|(t1 & He & _)]]; rewrite He in Hr; try discriminate.
    cbn [li_counts li_max li_longest li_trie] in Hr. injection Hr as <-.
    assert (Ht : forall k, times k (ops ++ [(w, id)]) = (times k ops + if (id =? k)%N then 1 else 0)%N).
    { intros k. rewrite times_app. unfold times at 2. rewrite real_cons by exact Hne. cbn [filter snd].
      destruct (id =? k)%N; reflexivity. }
    set (c := match counts_find (li_counts s) id with Some c => (c + 1)%N | None => 1%N end).
    assert (Hc : c = (times id ops + 1)%N).
    { pose proof (lv_counts L id) as Hc. unfold li_wordCount in Hc. unfold c. destruct (counts_find _ id); lia. }
    exists es1, ids1, d1. constructor; cbn [li_counts li_max li_longest li_trie].
    + exists (offs ++ [off]). rewrite real_app, real_cons by exact Hne. exact H1.
    + rewrite real_app, real_cons by exact Hne. apply Forall_app. split; [apply (lv_ins L)|]. constructor; [exact Hw|constructor].
    + intros k. unfold li_wordCount. cbn [li_counts]. rewrite counts_find_set, Ht. fold c.
      destruct (N.eqb_spec id k) as [<-|]; [exact Hc|]. pose proof (lv_counts L k) as Hk. unfold li_wordCount in Hk. lia.
    + intros k. rewrite Ht. pose proof (@lv_le _ _ _ _ _ L k). destruct (N.eqb_spec id k) as [<-|]; destruct (N.ltb_spec (li_max s) c); lia.
    + destruct (lv_max L) as [k Hk]. destruct (N.ltb_spec (li_max s) c).
      * exists id. rewrite Ht, N.eqb_refl. lia.
      * exists k. rewrite Ht. destruct (N.eqb_spec id k) as [<-|]; [lia|]. lia.
    + rewrite longest_app, (lv_longest L). cbn [longest fold_right fst]. destruct (Nat.ltb_spec (longest ops) (length w)); lia.
Qed.

Lemma lev_run E ops2 : forall s es ids d ops s', LV s es ids d ops -> lev_ops ops2 ->
  lev_insert_all E ops2 s = (s', Ok tt) -> exists es' ids' d', LV s' es' ids' d' (ops ++ ops2).
Proof.
  induction ops2 as [|[w id] r IH]; intros s es ids d ops s' L Hok Hr.
  - injection Hr as <-. exists es, ids, d. now rewrite app_nil_r.
  - apply Forall_cons_iff in Hok as [[Hw Hid] Hok]. cbn [fst snd] in *. cbn [lev_insert_all] in Hr.
    unfold mbind in Hr. destruct (li_insertWord E w id s) as [s1 o] eqn:H1. destruct o as [[]| | | |]; try discriminate.
    destruct (lev_step L Hw Hid H1) as (es1 & ids1 & d1 & L1).
    destruct (IH _ _ _ _ _ _ L1 Hok Hr) as (es2 & ids2 & d2 & L2). exists es2, ids2, d2.
    now rewrite <- app_assoc in L2.
Qed.
Lemma lev_new E s : li_new E = Ok s -> LV s [] [INVALID_WORDID] [] [].
Proof.
  unfold li_new. intros H. destruct (trie_new E) as [t| | | |] eqn:Ht; try discriminate. cbn [obind] in H. injection H as <-.
  constructor; cbn; try reflexivity; try (now constructor).
  - exists []. now apply (hist_new Ht).
  - now exists 0%N.
Qed.
Lemma lev_all E s0 ops s : li_new E = Ok s0 -> lev_ops ops -> lev_insert_all E ops s0 = (s, Ok tt) ->
  exists es ids d, LV s es ids d ops.
Proof. intros Hn Hok Hr. exact (lev_run (lev_new Hn) Hok Hr). Qed.

(** ** Counts *)
Lemma real_words ops w : w <> [] -> (In w (words_of (real ops)) <-> In w (words_of ops)).
Proof.
  intros Hne. unfold words_of, real. rewrite !in_map_iff. split.
  - intros (op & <- & Hin). apply filter_In in Hin as [Hin _]. eauto.
  - intros (op & <- & Hin). exists op. split; [reflexivity|]. apply filter_In. split; [exact Hin|].
    destruct (fst op); [congruence|reflexivity].
Qed.

Lemma lev_counts E s0 ops s : li_new E = Ok s0 -> lev_ops ops -> lev_insert_all E ops s0 = (s, Ok tt) ->
  (forall id, li_wordCount s id = times id ops) /\
  (forall id, times id ops <= li_maxCount s)%N /\ (exists id, times id ops = li_maxCount s) /\
  (forall w, w <> [] -> Forall nonnul w ->
     (In w (words_of ops) /\ li_hasWord s w = Ok true) \/ (~ In w (words_of ops) /\ li_hasWord s w = Ok false)) /\
  (forall ws, NoDup ws -> (forall w, In w ws <-> In w (words_of ops) /\ w <> []) ->
     li_numWords s = Ok (N.of_nat (length ws))).
Proof.
  intros Hn Hok Hr. destruct (lev_all Hn Hok Hr) as (es & ids & d & L). destruct (lv_hist L) as [offs H].
  split; [apply (lv_counts L)|]. split; [apply (lv_le L)|]. split; [apply (lv_max L)|]. split.
  - intros w Hne Hw. unfold li_hasWord. rewrite (hist_hasWord H Hw). rewrite <- (real_words ops Hne).
    destruct (assoc (real ops) w) as [i|] eqn:Ha.
    + left. split; [|reflexivity]. apply assoc_some_in in Ha. apply in_map_iff. now exists (w, i).
    + right. split; [|reflexivity]. now apply assoc_none.
  - intros ws Hnd Hws. unfold li_numWords.
    erewrite TR_numWords by (exists es, ids; split; [apply (hi_rep H)|apply (hi_abs H)]).
    do 2 f_equal. transitivity (length (map fst d)); [symmetry; apply map_length|].
    apply NoDup_same_len; [apply (ta_nodup (hi_abs H))|exact Hnd|].
    intros w. change (map fst d) with (words_of d). rewrite (hist_words H w). rewrite Hws. split.
    + intros Hin. assert (Hne : w <> []).
      { unfold words_of in Hin. apply in_map_iff in Hin as (op & <- & Hin). pose proof (lv_ins L) as Hall.
        rewrite Forall_forall in Hall. apply Hall in Hin. apply Hin. }
      split; [now apply (proj1 (real_words ops Hne))|exact Hne].
    + intros [Hin Hne]. now apply (proj2 (real_words ops Hne)).
Qed.

(** ** findWords *)
Section Find.
Variables (E : env) (s : levindex) (es : edges) (ids : list N) (d ops : list (word * N)).
Hypothesis L : LV s es ids d ops.
Variable e : errvals.
Hypothesis W : ev_wf e.
Variable q : word.
Hypothesis Hq : Forall nonnul q.
Hypothesis Hfit : fits e ops q.
Variable maxE : Z.
Notation P := (prices_of e (length q)).
Notation DD := (D P q).

Lemma sub_val a b : getSubstituteError e a b = Ok (p_sub P a b).
Proof. cbn [prices_of p_sub]. now rewrite (get_val a b W). Qed.

Lemma depth_le : forall p j, awalk es 0 p = Some j -> (length p <= longest ops)%nat.
Proof.
  destruct (lv_hist L) as [offs H]. intros p j Hp.
  destruct (ta_pref (hi_abs H) Hp) as [->|(w & id & r & Hin & ->)]; [cbn; lia|].
  assert (Hw : In (p ++ r) (words_of ops)).
  { assert (Hd : In (p ++ r) (words_of d)) by (unfold words_of; apply in_map_iff; now exists (p ++ r, id)).
    apply (hist_words H) in Hd. unfold words_of in *. apply in_map_iff in Hd as (op & <- & Hop).
    apply filter_In in Hop as [Hop _]. apply in_map_iff. now exists op. }
  apply (Nat.le_trans _ (length (p ++ r))); [rewrite app_length; lia|]. clear - Hw.
  unfold words_of in Hw. apply in_map_iff in Hw as (op & <- & Hop). unfold longest.
  induction ops as [|x l IH]; [destruct Hop|]. cbn [fold_right]. destruct Hop as [->|Hop]; [apply Nat.le_max_l|]. specialize (IH Hop). etransitivity; [exact IH|apply Nat.le_max_r].
Qed.

Definition found : list (word * N) := top_hitsW (li_trie s) es ids e q maxE.
Lemma rep_s : rep (li_trie s) es ids (N.of_nat (length d)).
Proof. destruct (lv_hist L) as [offs H]. apply (hi_rep H). Qed.

Lemma find_ok m0 : e_ndebug E = true \/ q = [] \/ getInsertionError e = getDeletionError e ->
  findWords E s q e maxE m0 = (e_sort E (m0 ++ map (price e q) found), Ok tt).
Proof.
  intros Has. destruct Hfit as (B & H0 & H1 & H2 & H3 & H4 & H5 & H6 & H7).
  unfold found. rewrite <- top_hits_map.
  apply (@findWords_spec (li_trie s) es ids _ rep_s e q (longest ops) B); try assumption.
  - intros a b. split; [apply sub_val|]. apply (H6 a b). apply sub_val.
  - exact depth_le.
  - reflexivity.
  - apply (lv_longest L).
Qed.

(** With assertions on and different prices for insertion and deletion the call
    aborts. *)
Lemma find_abort m0 : e_ndebug E = false -> q <> [] -> getInsertionError e <> getDeletionError e ->
  findWords E s q e maxE m0 = (m0, Abort).
Proof.
  intros Hnd Hne Hp. destruct Hfit as (B & H0 & H1 & H2 & H3 & H4 & H5 & H6 & H7).
  assert (Hs : forall a b, getSubstituteError e a b = Ok (p_sub P a b) /\ - B <= p_sub P a b <= B).
  { intros a b. split; [apply sub_val|]. apply (H6 a b). apply sub_val. }
  unfold findWords. rewrite (lv_longest L).
  destruct (@em_new_spec es 0%N e q (longest ops) B H0 H1 H2 H4 Hs H7 depth_le) as (em & He & V).
  rewrite He. cbv zeta.
  match goal with |- (match snd ?r with _ => _ end) = _ => assert (Hr : r = ((em, m0), Abort)) end.
  2:{ rewrite Hr. reflexivity. }
  assert (Hg0 : em_get em 0 0 = Ok (DD [] 0)).
  { apply (@get_ok_cell es 0%N e q (longest ops) B Hs H7 depth_le em [] [] [] 0%nat V eq_refl); cbn [length]; lia. }
  assert (Hg1 : em_get em 0 1 = Ok (DD [] 1)).
  { apply (@get_ok_cell es 0%N e q (longest ops) B Hs H7 depth_le em [] [] [] 1%nat V eq_refl); cbn [length]; [|lia].
    destruct q; [congruence|cbn; lia]. }
  erewrite mbind_ok by (apply reads_ok; cbn [fst]; exact Hg0).
  erewrite mbind_ok by (apply massert_true; rewrite D_nil; reflexivity).
  replace (Nat.ltb 0 (length q)) with true by (destruct q; [congruence|reflexivity]).
  unfold mbind at 1. unfold mbind at 1. unfold reads at 1. cbn [fst]. rewrite Hg1. unfold massert. rewrite Hnd, D_nil.
  change (p_del P) with (getDeletionError e).
  replace (Z.of_nat 1 * getDeletionError e =? getInsertionError e) with false by lia. reflexivity.
Qed.

Lemma in_d w id : In (w, id) d <-> assoc (real ops) w = Some id.
Proof.
  destruct (lv_hist L) as [offs H]. rewrite <- (hi_assoc H w). symmetry. apply assoc_in. apply (ta_nodup (hi_abs H)).
Qed.
Lemma d_nonempty w id : In (w, id) d -> w <> [].
Proof.
  intros Hin. apply in_d in Hin. apply assoc_some_in in Hin. pose proof (lv_ins L) as Hall.
  rewrite Forall_forall in Hall. apply Hall in Hin. apply Hin.
Qed.
Lemma found_in w id : In (w, id) found <-> assoc (real ops) w = Some id /\ DD (rev w) (length q) <= maxE /\ not_cut e q maxE w.
Proof.
  destruct (lv_hist L) as [offs H]. unfold found.
  rewrite (@top_hitsW_in _ _ _ _ rep_s e q maxE d w id (hi_abs H) d_nonempty). now rewrite in_d.
Qed.
Lemma found_nodup : NoDup (map fst found).
Proof. apply (@top_hitsW_nodup _ _ _ _ rep_s e q maxE). Qed.

Lemma find_inv m0 m : findWords E s q e maxE m0 = (m, Ok tt) -> m = e_sort E (m0 ++ map (price e q) found).
Proof.
  intros Hr. destruct (e_ndebug E) eqn:Hnd; [rewrite find_ok in Hr by (now left); congruence|].
  destruct (list_eq_dec N.eq_dec q []) as [Hnil|Hne]; [rewrite find_ok in Hr by (right; now left); congruence|].
  destruct (Z.eq_dec (getInsertionError e) (getDeletionError e)) as [Heq|Hn].
  - rewrite find_ok in Hr by (right; now right). congruence.
  - rewrite find_abort in Hr by assumption. discriminate.
Qed.

Lemma find_members m : env_ok E -> findWords E s q e maxE [] = (m, Ok tt) -> forall id err,
  In (id, err) m <-> exists w, assoc (real ops) w = Some id /\ err = DD (rev w) (length q) /\ err <= maxE /\ not_cut e q maxE w.
Proof.
  intros Hok Hr id err. rewrite (find_inv Hr). cbn [app].
  assert (Hx : In (id, err) (e_sort E (map (price e q) found)) <-> In (id, err) (map (price e q) found)).
  { split; apply Permutation_in; [|symmetry]; apply (eo_sort_perm Hok). }
  rewrite Hx, in_map_iff. split.
  - intros ([w i] & Hp & Hin). unfold price in Hp. cbn [fst snd] in Hp. injection Hp as -> Hd.
    apply found_in in Hin as (Ha & Hle & Hc). exists w. repeat split; try assumption; lia.
  - intros (w & Ha & -> & Hle & Hc). exists (w, id). split; [reflexivity|]. now apply found_in.
Qed.
End Find.

Lemma edit_nonneg Q n i j qs w c :
  0 <= p_ins Q -> 0 <= p_del Q -> 0 <= p_edel Q -> 0 <= p_sins Q -> 0 <= p_trans Q -> (forall a b, 0 <= p_sub Q a b) ->
  edit Q n i j qs w c -> 0 <= c.
Proof.
  intros H1 H2 H3 H4 H5 H6. induction 1; try lia.
  - specialize (H6 a b). lia.
  - destruct (Nat.eqb j 0); lia.
  - destruct (Nat.eqb i 0); [lia|]. destruct (Nat.eqb i n); lia.
Qed.

Lemma nonneg_sub e n : ev_wf e -> nonneg e -> forall a b, 0 <= p_sub (prices_of e n) a b.
Proof.
  intros W (_ & _ & _ & _ & _ & H) a b. apply (H a b). cbn [prices_of p_sub]. now rewrite (get_val a b W).
Qed.
Lemma nonneg_D e q w : ev_wf e -> nonneg e -> 0 <= D (prices_of e (length q)) q (rev w) (length q).
Proof.
  intros W Hn. pose proof (@nonneg_sub e (length q) W Hn) as Hs. destruct Hn as (H1 & H2 & H3 & H4 & H5 & _).
  destruct (D_min (prices_of e (length q)) q w) as [He _]. unfold edit_cost in He.
  eapply edit_nonneg in He; cbn [prices_of p_ins p_del p_edel p_sins p_trans] in *; eauto.
Qed.
Lemma mono_prices e q : ev_wf e -> nonneg e -> swaps_not_cheap e (length q) -> monotone_prices e q.
Proof.
  intros W Hn Hsw. pose proof (@nonneg_sub e (length q) W Hn) as Hs. destruct Hn as (H1 & H2 & H3 & H4 & H5 & _).
  unfold monotone_prices. cbn [prices_of p_ins p_del p_edel p_sins p_trans]. repeat split; try assumption; [apply H4|].
  destruct Hsw as [Hsw|Hsw]; [left|now right]. intros a b. apply (Hsw a b). cbn [prices_of p_sub]. now rewrite (get_val a b W).
Qed.

(** Exact spelling. *)
Lemma D_exact P q : (forall a, In a q -> p_sub P a a = 0) -> forall s1 s2, q = s1 ++ s2 -> D P q (rev s1) (length s1) <= 0.
Proof.
  intros H0. induction s1 as [|l s1 IH] using rev_ind; intros s2 Hq; [cbn; lia|].
  rewrite rev_app_distr, app_length. cbn [rev app length]. rewrite Nat.add_1_r, D_S. cbv zeta.
  rewrite <- app_assoc in Hq. specialize (IH _ Hq). cbn [app] in Hq.
  assert (Hn : nth (length s1) q 0%N = l) by (rewrite Hq, app_nth2, Nat.sub_diag by lia; reflexivity).
  rewrite Hn, H0; [lia|]. rewrite Hq. apply in_or_app. right. now left.
Qed.
Lemma exact_not_cut e q maxE : 0 <= maxE -> (forall a, In a q -> p_sub (prices_of e (length q)) a a = 0) -> not_cut e q maxE q.
Proof.
  intros Hm H0 s1 s2 Hq H1 H2.
  pose proof (D_exact H0 Hq) as HD.
  pose proof (@rmin_le (D (prices_of e (length q)) q (rev s1)) (length q) (length s1)) as Hr.
  specialize (Hr ltac:(rewrite Hq, app_length; lia)). lia.
Qed.

Lemma begins_iff e q maxE w : not_cut e q maxE w <-> begins_near (prices_of e (length q)) q w maxE.
Proof.
  unfold not_cut, begins_near. split; intros H a b Hw Ha Hb; specialize (H a b Hw Ha Hb).
  - assert (G : forall k, (k <= length q)%nat -> rmin (D (prices_of e (length q)) q (rev a)) k <= maxE ->
      exists i, (i <= length q)%nat /\ D (prices_of e (length q)) q (rev a) i <= maxE).
    { induction k as [|k IH]; intros Hk Hr; cbn [rmin] in Hr; [now exists 0%nat|].
      destruct (Z_le_gt_dec (D (prices_of e (length q)) q (rev a) (S k)) maxE) as [Hle|Hgt]; [now exists (S k)|]. apply IH; lia. }
    destruct (G (length q) (Nat.le_refl _) H) as (i & Hi & Hle). exists i, (D (prices_of e (length q)) q (rev a) i).
    split; [exact Hi|]. split; [|exact Hle].
    pose proof (@D_edit (prices_of e (length q)) q _ (rev a) i (Nat.le_refl _) Hi) as He. rewrite rev_involutive in He. exact He.
  - destruct H as (k & c & Hk & He & Hc). rewrite <- (rev_involutive a) in He.
    pose proof (@D_le (prices_of e (length q)) q _ (rev a) k c (Nat.le_refl _) Hk He) as Hd.
    pose proof (@rmin_le (D (prices_of e (length q)) q (rev a)) (length q) k Hk). lia.
Qed.

(** ** The statements used by Thm_Lev *)
Section Statements.
Variables (E : env) (s0 s : levindex) (ops : list (word * N)) (calls : list ev_call) (q : word).
Hypothesis Hnew : li_new E = Ok s0.
Hypothesis Hops : lev_ops ops.
Hypothesis Hrun : lev_insert_all E ops s0 = (s, Ok tt).
Notation e := (ev_after calls).
Hypothesis Hq : Forall nonnul q.
Hypothesis Hfit : fits e ops q.
Notation P := (prices_of e (length q)).

Lemma sound maxE m id err : env_ok E -> findWords E s q e maxE [] = (m, Ok tt) -> In (id, err) m ->
  exists w, assoc (real ops) w = Some id /\ min_cost P q w err /\ err <= maxE.
Proof.
  intros Hok Hr Hin. destruct (lev_all Hnew Hops Hrun) as (es & ids & d & L).
  apply (@find_members E s es ids d ops L e (after_wf calls) q Hq Hfit maxE m Hok Hr) in Hin as (w & Ha & -> & Hle & _).
  exists w. split; [exact Ha|]. split; [apply D_min|exact Hle].
Qed.

Lemma complete maxE m w id c : env_ok E -> nonneg e -> swaps_not_cheap e (length q) ->
  findWords E s q e maxE [] = (m, Ok tt) -> assoc (real ops) w = Some id ->
  min_cost P q w c -> c <= maxE -> In (id, c) m.
Proof.
  intros Hok Hnn Hsw Hr Ha Hc Hle. destruct (lev_all Hnew Hops Hrun) as (es & ids & d & L).
  apply (@find_members E s es ids d ops L e (after_wf calls) q Hq Hfit maxE m Hok Hr).
  apply min_cost_D in Hc. exists w. repeat split; try assumption.
  apply monotone_not_cut; [apply mono_prices; [apply after_wf|assumption|assumption]|]. rewrite <- Hc. exact Hle.
Qed.

Lemma exactly maxE m : env_ok E -> findWords E s q e maxE [] = (m, Ok tt) -> forall id err,
  In (id, err) m <-> exists w, assoc (real ops) w = Some id /\ min_cost P q w err /\ err <= maxE /\ begins_near P q w maxE.
Proof.
  intros Hok Hr id err. destruct (lev_all Hnew Hops Hrun) as (es & ids & d & L).
  rewrite (@find_members E s es ids d ops L e (after_wf calls) q Hq Hfit maxE m Hok Hr id err).
  split; intros (w & Ha & Hd & Hle & Hc); exists w; (split; [exact Ha|]); (split; [|split; [exact Hle|now apply begins_iff]]).
  - subst err. apply D_min.
  - now apply min_cost_D.
Qed.

Lemma unique_sorted maxE m0 m : env_ok E -> findWords E s q e maxE m0 = (m, Ok tt) ->
  exists new, findWords E s q e maxE [] = (new, Ok tt) /\ Permutation m (m0 ++ new) /\
    Sorted (fun a b => snd a <= snd b) m /\
    ((forall w1 w2 id, assoc (real ops) w1 = Some id -> assoc (real ops) w2 = Some id -> w1 = w2) -> NoDup (map fst new)).
Proof.
  intros Hok Hr. destruct (lev_all Hnew Hops Hrun) as (es & ids & d & L).
  pose proof (@find_inv E s es ids d ops L e (after_wf calls) q Hq Hfit maxE m0 m Hr) as Hm.
  exists (e_sort E (map (price e q) (found s es ids e q maxE))). split; [|split; [|split]].
  - destruct (e_ndebug E) eqn:Hnd.
    + apply (@find_ok E s es ids d ops L e (after_wf calls) q Hq Hfit maxE []). now left.
    + destruct (list_eq_dec N.eq_dec q []) as [Hnil|Hne].
      * apply (@find_ok E s es ids d ops L e (after_wf calls) q Hq Hfit maxE []). right. now left.
      * destruct (Z.eq_dec (getInsertionError e) (getDeletionError e)) as [Heq|Hn].
        -- apply (@find_ok E s es ids d ops L e (after_wf calls) q Hq Hfit maxE []). right. now right.
        -- rewrite (@find_abort E s es ids d ops L e (after_wf calls) q Hq Hfit maxE m0 Hnd Hne Hn) in Hr. discriminate.
  - rewrite Hm, (eo_sort_perm Hok). apply Permutation_app_head. symmetry. apply (eo_sort_perm Hok).
  - rewrite Hm. apply (eo_sort_sorted Hok).
  - intros Hinj. eapply Permutation_NoDup; [apply Permutation_map; symmetry; apply (eo_sort_perm Hok)|].
    rewrite map_map. cbn [price fst].
    pose proof (@found_nodup s es ids d ops L e q maxE) as Hnd.
    assert (Hin : forall w id, In (w, id) (found s es ids e q maxE) -> assoc (real ops) w = Some id).
    { intros w id Hx. now apply (@found_in s es ids d ops L e q maxE) in Hx as [Ha _]. }
    revert Hnd Hin. generalize (found s es ids e q maxE) as l. clear - Hinj.
    induction l as [|[w id] l IH]; intros Hnd Hin; [constructor|]. cbn [map fst snd] in *.
    apply NoDup_cons_iff in Hnd as [Hw Hnd]. constructor; [|apply IH; [exact Hnd|intros; apply Hin; now right]].
    intros Hx. apply in_map_iff in Hx as ([w2 id2] & Hid & Hx). cbn in Hid. subst id2.
    assert (w = w2) as <- by (apply (Hinj w w2 id); apply Hin; [now left|now right]).
    apply Hw. apply in_map_iff. now exists (w, id).
Qed.

Lemma exact_spelling maxE m id : env_ok E -> nonneg e -> 0 <= maxE ->
  (forall a, In a q -> getSubstituteError e a a = Ok 0) ->
  findWords E s q e maxE [] = (m, Ok tt) -> assoc (real ops) q = Some id ->
  In (id, 0) m /\ forall id' err, In (id', err) m -> 0 <= err.
Proof.
  intros Hok Hnn Hm H0 Hr Ha. destruct (lev_all Hnew Hops Hrun) as (es & ids & d & L).
  assert (Hs : forall a, In a q -> p_sub P a a = 0) by (intros a Hx; cbn [prices_of p_sub]; now rewrite H0).
  pose proof (@D_exact P q Hs q [] ltac:(now rewrite app_nil_r)) as HD.
  pose proof (@nonneg_D e q q (after_wf calls) Hnn) as HD2.
  split.
  - apply (@find_members E s es ids d ops L e (after_wf calls) q Hq Hfit maxE m Hok Hr).
    exists q. repeat split; try assumption; [lia|]. now apply exact_not_cut.
  - intros id' err Hin.
    apply (@find_members E s es ids d ops L e (after_wf calls) q Hq Hfit maxE m Hok Hr) in Hin as (w & _ & -> & _ & _).
    apply nonneg_D; [apply after_wf|exact Hnn].
Qed.

Lemma limit_mono m1 m2 r1 r2 id err : env_ok E -> m1 <= m2 ->
  findWords E s q e m1 [] = (r1, Ok tt) -> findWords E s q e m2 [] = (r2, Ok tt) ->
  In (id, err) r1 -> In (id, err) r2.
Proof.
  intros Hok Hm H1 H2 Hin. destruct (lev_all Hnew Hops Hrun) as (es & ids & d & L).
  apply (@find_members E s es ids d ops L e (after_wf calls) q Hq Hfit m1 r1 Hok H1) in Hin as (w & Ha & He & Hle & Hc).
  apply (@find_members E s es ids d ops L e (after_wf calls) q Hq Hfit m2 r2 Hok H2).
  exists w. repeat split; try assumption; [lia|]. intros x y Hw Hx Hy. specialize (Hc x y Hw Hx Hy). lia.
Qed.

Lemma safe maxE m0 :
  (e_ndebug E = true \/ q = [] \/ getInsertionError e = getDeletionError e -> exists m, findWords E s q e maxE m0 = (m, Ok tt)) /\
  (e_ndebug E = false -> q <> [] -> getInsertionError e <> getDeletionError e -> findWords E s q e maxE m0 = (m0, Abort)).
Proof.
  destruct (lev_all Hnew Hops Hrun) as (es & ids & d & L). split.
  - intros Has. eexists. exact (@find_ok E s es ids d ops L e (after_wf calls) q Hq Hfit maxE m0 Has).
  - intros Hnd Hne Hp. exact (@find_abort E s es ids d ops L e (after_wf calls) q Hq Hfit maxE m0 Hnd Hne Hp).
Qed.
End Statements.
