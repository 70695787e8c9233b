(** Matcher: leaving out fields, later queries, other iteration orders. *)
From Verif Require Import Base TrieM TrieA TrieP TrieP2 TrieD WordStoreM Spec_Hist TrieH WordStoreP ErrorValuesM LevIndexM
  Spec_Edit Spec_EV Spec_Lev EVP EditP HitsP LevP WordM MapM DoubleM FloatP ContM MatcherM MapP Spec_Cont ContP Spec_Match MatchP MatchQ MatchR MatchS MatchT MatchU.
From Coq Require Import ZifyBool ZifyN ZifyNat.
Local Open Scope N_scope.
Local Open Scope m_scope.

(** ** Maps are determined by their lookups *)
Lemma msorted_key_ss {K V} (lt : K -> K -> bool) (m : list (K * V)) : msorted lt m -> StronglySorted (fun x y => lt (fst x) (fst y) = true) m.
Proof.
  induction 1 as [|k v m Hb Hs IH]; constructor; [exact IH|]. exact Hb.
Qed.
Lemma map_unique {K V} (lt : K -> K -> bool) (HO : order_ok lt) (m1 m2 : list (K * V)) : msorted lt m1 -> msorted lt m2 ->
  (forall k, mp_find lt k m1 = mp_find lt k m2) -> m1 = m2.
Proof.
  intros S1 S2 He. apply (@ssorted_unique _ (fun x y : K * V => lt (fst x) (fst y) = true)).
  - intros a Ha. rewrite (oo_irr HO) in Ha. discriminate.
  - intros a b c. apply (oo_tr HO).
  - now apply msorted_key_ss.
  - now apply msorted_key_ss.
  - intros [k v]. rewrite <- (find_in HO k v S1), <- (find_in HO k v S2). now rewrite He.
Qed.
Lemma filter_msorted {K V} (lt : K -> K -> bool) f (m : list (K * V)) : msorted lt m -> msorted lt (filter f m).
Proof.
  induction 1 as [|k v m Hb Hs IH]; cbn; [constructor|]. destruct (f (k, v)); [|exact IH]. constructor; [|exact IH].
  unfold below in *. rewrite Forall_forall in *. intros x Hx. apply filter_In in Hx as [Hx _]. now apply Hb.
Qed.
Lemma assoc_filter {B} (keep : word -> bool) (c : list (word * B)) f : assoc (filter (fun x => keep (fst x)) c) f = if keep f then assoc c f else None.
Proof.
  unfold assoc. induction c as [|[k v] c IH]; cbn; [now destruct (keep f)|]. destruct (keep k) eqn:Hk; cbn.
  - destruct (weqb_spec f k) as [->|Hne]; [now rewrite Hk|exact IH].
  - destruct (weqb_spec f k) as [->|Hne]; [now rewrite Hk in *|exact IH].
Qed.
Lemma filter_build {B} (keep : word -> bool) (c : list (word * B)) : build (filter (fun x => keep (fst x)) c) = filter (fun x => keep (fst x)) (build c).
Proof.
  apply (map_unique wltb_order); [apply build_sorted|apply filter_msorted, build_sorted|]. intros f. rewrite build_find.
  unfold last_for. rewrite <- filter_rev, assoc_filter. change (assoc (rev c) f) with (last_for c f). rewrite <- build_find.
  destruct (mp_find wltb f (filter _ (build c))) as [v|] eqn:Hf.
  - apply (find_in wltb_order) in Hf; [|apply filter_msorted, build_sorted]. apply filter_In in Hf as [Hf Hk]. cbn in Hk. rewrite Hk.
    now apply (find_in wltb_order); [apply build_sorted|].
  - destruct (keep f) eqn:Hk; [|reflexivity]. destruct (mp_find wltb f (build c)) as [v|] eqn:Hg; [|reflexivity].
    apply (find_in wltb_order) in Hg; [|apply build_sorted]. assert (Hin : In (f, v) (filter (fun x => keep (fst x)) (build c))) by (apply filter_In; now split).
    apply (find_in wltb_order) in Hin; [congruence|apply filter_msorted, build_sorted].
Qed.

(** ** Leaving out fields *)
Definition text_steps (id : N) (x : word * wordlist) : list step := SField id (fst x) (N.of_nat (length (snd x))) :: map (SWord id (fst x)) (snd x).
Lemma flat_map_map {A B C} (g : B -> list C) (h : A -> B) l : flat_map g (map h l) = flat_map (fun x => g (h x)) l.
Proof. induction l as [|a l IH]; [reflexivity|]. cbn. now rewrite IH. Qed.
Lemma plan_texts d : msorted wltb (d_texts d) -> plan_doc d = flat_map (text_steps (d_id d)) (d_texts d).
Proof.
  intros Hs. unfold plan_doc, doc_getFieldNames. cbn [fst app]. rewrite flat_map_map.
  assert (G : forall r, incl r (d_texts d) -> flat_map (fun x => match doc_getText d (fst x) with
      | Ok t => SField (doc_getID d) (fst x) (N.of_nat (length t)) :: map (SWord (doc_getID d) (fst x)) t | _ => [] end) r = flat_map (text_steps (d_id d)) r); [|apply G, incl_refl].
  induction r as [|[f t] r IH]; intros Hi; [reflexivity|]. cbn [flat_map]. rewrite IH by (intros y Hy; apply Hi; now right). f_equal.
  unfold doc_getText. cbn [fst]. assert (Hin : In (f, t) (d_texts d)) by (apply Hi; now left). apply (find_in wltb_order) in Hin; [|exact Hs]. now rewrite Hin.
Qed.
Definition field_of (s : step) : word := match s with SField _ f _ => f | SWord _ f _ => f | SName w => w end.
Definition keepf (p : sparams) (f : word) : bool := negb (sp_isNonsearchingField p f).
Lemma plan_strip p id cs : plan_doc (add_texts id (filter (fun x => keepf p (fst x)) cs)) = filter (fun s => keepf p (field_of s)) (plan_doc (add_texts id cs)).
Proof.
  destruct (texts_build id cs) as [I1 T1], (texts_build id (filter (fun x => keepf p (fst x)) cs)) as [I2 T2].
  rewrite !plan_texts by (rewrite ?T1, ?T2; apply build_sorted). rewrite I1, I2, T1, T2, filter_build. clear.
  induction (build cs) as [|[f t] r IH]; [reflexivity|]. cbn [filter flat_map fst]. rewrite filter_app, <- IH. unfold text_steps at 2. cbn [filter field_of fst snd].
  assert (Hw : filter (fun s => keepf p (field_of s)) (map (SWord id f) t) = if keepf p f then map (SWord id f) t else []).
  { induction t as [|w t IHt]; cbn; [now destruct (keepf p f)|]. rewrite IHt. now destruct (keepf p f). }
  rewrite Hw. destruct (keepf p f); reflexivity.
Qed.
Lemma strip_corpus p a b : Forall2 (stripped_doc p) a b -> flat_map plan_doc b = filter (fun s => keepf p (field_of s)) (flat_map plan_doc a).
Proof.
  induction 1 as [|d d' a b (id & cs & -> & ->) _ IH]; [reflexivity|]. cbn [flat_map]. rewrite filter_app, IH. f_equal. apply plan_strip.
Qed.
Lemma told_filter f l : Forall (fun s => said s <> []) l -> told (filter f l) = filter f (told l).
Proof.
  intros Hl. rewrite (whole_told Hl). apply whole_told. rewrite Forall_forall in *. intros s Hs. apply filter_In in Hs as [Hs _]. now apply Hl.
Qed.
Lemma strip_indexed p c1 c2 : Forall2 (stripped p) c1 c2 -> Forall whole c1 -> indexed c2 = filter (fun s => keepf p (field_of s)) (indexed c1).
Proof.
  induction 1 as [|a b c1 c2 Hab _ IH]; intros W; [reflexivity|]. apply Forall_cons_iff in W as [Wa W]. unfold indexed in *. cbn [flat_map].
  rewrite filter_app, IH by exact W. f_equal. destruct a, b; cbn in Hab; try contradiction; try reflexivity; try discriminate.
  rewrite (strip_corpus Hab). now apply told_filter.
Qed.
Lemma strip_occ p c1 c2 : Forall2 (stripped p) c1 c2 -> Forall whole c1 -> occ c2 = filter (fun x => keepf p (snd (fst x))) (occ c1).
Proof.
  intros Hs W. unfold occ. rewrite (strip_indexed Hs W). unfold occs. induction (indexed c1) as [|s l IH]; [reflexivity|].
  cbn [filter flat_map]. rewrite filter_app, <- IH. destruct s; cbn [field_of]; destruct (keepf p f) eqn:Hk || destruct (keepf p w) eqn:Hk; cbn [flat_map app filter fst snd]; rewrite ?Hk; reflexivity.
Qed.
Lemma strip_prices p c1 c2 : Forall2 (stripped p) c1 c2 -> prices_after c2 = prices_after c1.
Proof.
  intros Hs. unfold prices_after. f_equal. induction Hs as [|a b c1 c2 Hab _ IH]; [reflexivity|]. cbn. rewrite IH. f_equal.
  destruct a, b; cbn in Hab; try contradiction; try discriminate; try reflexivity; congruence.
Qed.
Lemma strip_weights p c1 c2 : Forall2 (stripped p) c1 c2 -> weight_calls c2 = weight_calls c1.
Proof.
  intros Hs. unfold weight_calls. induction Hs as [|a b c1 c2 Hab _ IH]; [reflexivity|]. cbn. rewrite IH. f_equal.
  destruct a, b; cbn in Hab; try contradiction; try discriminate; try reflexivity; congruence.
Qed.
Lemma filter_fw p o f : keepf p f = true -> field_words (filter (fun x => keepf p (snd (fst x))) o) f = field_words o f.
Proof.
  intros Hk. unfold field_words. f_equal. induction o as [|[[d f'] w] o IH]; [reflexivity|]. cbn [filter fst snd].
  destruct (weqb_spec f' f) as [->|Hne]; [rewrite Hk; cbn [filter fst snd]; rewrite weqb_refl; now f_equal|].
  destruct (keepf p f'); [|exact IH]. cbn [filter fst snd]. destruct (weqb_spec f' f); [contradiction|exact IH].
Qed.
Lemma strip_setup E p c1 c2 : Forall2 (stripped p) c1 c2 -> Forall whole c1 -> sound_setup E c1 -> sound_setup E c2.
Proof.
  intros Hs W [A B C D F G I]. pose proof (strip_occ Hs W) as Ho. constructor.
  - exact A.
  - clear - Hs B. induction Hs as [|a b c1 c2 Hab _ IH]; [constructor|]. apply Forall_cons_iff in B as [Ba B]. constructor; [|now apply IH].
    destruct a, b; cbn in Hab; try contradiction; try discriminate; try (injection Hab as <- <-; exact Ba); try exact I.
    cbn in *. destruct Ba as [_ Bu]. split.
    + clear - Hab. induction Hab as [|d d' a b (id & cs & -> & ->) _ IH]; constructor; [|exact IH]. eexists _, _. reflexivity.
    + rewrite (strip_corpus Hab). rewrite Forall_forall in *. intros s Hin. apply filter_In in Hin as [Hin _]. now apply Bu.
  - now rewrite (strip_prices Hs).
  - now rewrite (strip_prices Hs).
  - now rewrite (strip_weights Hs).
  - intros d f w Hin. rewrite Ho in Hin. apply filter_In in Hin as [Hin _]. exact (G d f w Hin).
  - rewrite Ho. assert (length (filter (fun x => keepf p (snd (fst x))) (occ c1)) <= length (occ c1))%nat; [|lia].
    clear. induction (occ c1) as [|x r IH]; cbn [filter length]; [lia|]. destruct (keepf _ _); cbn [length]; lia.
Qed.
Lemma nonsearching_irrelevant E p c1 c2 m1 m2 q m1' m2' r1 r2 : Forall2 (stripped p) c1 c2 -> Forall whole c1 -> sound_setup E c1 -> sound_query c1 q ->
  history E c1 m1 -> history E c2 m2 -> clean (MMatch q p) -> unfiltered p -> mt_match E q p m1 = (m1', Ok r1) -> mt_match E q p m2 = (m2', Ok r2) ->
  exists v1 v2, shows r1 v1 /\ shows r2 v2 /\
    (forall d, (exists x, In (x, d) v1) <-> (exists x, In (x, d) v2)) /\
    (forall d x1 x2, In (x1, d) v1 -> In (x2, d) v2 -> exists a b, Permutation a b /\ x1 = total a /\ x2 = total b).
Proof.
  intros Hs W SS1 SQ1 HH1 HH2 Hc Hu R1 R2. pose proof (strip_setup Hs W SS1) as SS2. pose proof (strip_occ Hs W) as Ho. pose proof (strip_prices Hs) as Hpr.
  assert (SQ2 : sound_query c2 q).
  { destruct SQ1 as [A B]. split; [exact A|]. rewrite Hpr, Forall_forall in *. intros w Hw. eapply fits_le; [|now apply B]. apply longest_le.
    intros v i Hin. apply in_map_iff in Hin as (x & [= <- <-] & Hx). exists 0. apply in_map_iff. exists x. split; [reflexivity|].
    rewrite Ho in Hx. now apply filter_In in Hx as [Hx _]. }
  destruct (the_log SS1 HH1) as [l1 H1], (the_log SS2 HH2) as [l2 H2].
  pose proof (match_answer H1 SS1 SQ1 Hc R1) as A1. pose proof (match_answer H2 SS2 SQ2 Hc R2) as A2.
  pose proof A1 as (v1 & S1 & _). pose proof A2 as (v2 & S2 & _).
  destruct (answer_fine H1 SS1 A1 S1) as (F1 & K1 & M1), (answer_fine H2 SS2 A2 S2) as (F2 & K2 & M2).
  assert (Hk : forall f, searching p f -> keepf p f = true) by (intros f Hf; unfold keepf; now rewrite Hf).
  assert (Hocc : forall d f w, searching p f -> (In (d, f, w) (occ c1) <-> In (d, f, w) (occ c2))).
  { intros d f w Hf. rewrite Ho, filter_In. cbn [fst snd]. rewrite (Hk f Hf). tauto. }
  assert (Hfil : forall o d, filter_holds o (sp_filter p) d) by (intros o d; exists []; split; [exact Hu|constructor]).
  exists v1, v2. split; [exact S1|]. split; [exact S2|]. split.
  - intros d. split; intros [x Hin].
    + apply M1 in Hin as [Hsc _]. destruct (scored_there (c2 := c2) (m2 := m2) (l2 := l2) SS2 SQ2 H2 Hpr Hocc Hsc) as [x' Hx']. exists x'. apply M2. split; [exact Hx'|apply Hfil].
    + apply M2 in Hin as [Hsc _]. destruct (scored_there (c2 := c1) (m2 := m1) (l2 := l1) SS1 SQ1 H1 (eq_sym Hpr) (fun d f w Hf => iff_sym (Hocc d f w Hf)) Hsc) as [x' Hx']. exists x'. apply M1. split; [exact Hx'|apply Hfil].
  - intros d x1 x2 I1 I2. apply M1, proj1 in I1. apply M2, proj1 in I2.
    assert (Hcnt : forall f w, searching p f -> count_in (occ c1) f w = count_in (occ c2) f w) by (intros f w Hf; unfold count_in; now rewrite Ho, filter_fw by now apply Hk).
    eapply scored_same; [exact Hpr|exact Hocc|exact Hcnt| | |exact I1|exact I2].
    + intros f Hf. apply count_max; [|intros w; now apply Hcnt]. intros w. rewrite Ho, filter_fw by now apply Hk. tauto.
    + intros f _. unfold weight_after. now rewrite (strip_weights Hs).
Qed.

(** ** Later queries *)
Lemma scored_order o l order R q p wt d x : (forall w, In w (names l) -> position w order = position w (names l)) ->
  (forall d f w, In (d, f, w) o -> In f (names l) /\ In w (names l)) -> (scored o (names l) R q p wt d x <-> scored o order R q p wt d x).
Proof.
  intros Hpos Ho.
  assert (G : forall a b xs, (forall w, In w (names l) -> position w a = position w b) -> parts o a R q p d xs -> parts o b R q p d xs).
  { intros a b xs Hp [P1 P2]. split; [|exact P2].
    assert (Hin : forall y, In y xs -> In (fst (fst y)) (names l) /\ In (snd (fst y)) (names l)) by (intros [[f w] err] Hy; apply P2 in Hy as [Hy _]; exact (Ho d f w Hy)).
    clear P2. induction P1 as [|y ys Hs IH Hf]; constructor; [apply IH; intros; apply Hin; now right|]. rewrite Forall_forall in *. intros z Hz.
    destruct (Hf z Hz) as (i & i' & j & j' & H1 & H2 & H3 & H4 & H5). exists i, i', j, j'.
    destruct (Hin y (or_introl eq_refl)), (Hin z (or_intror Hz)). rewrite <- !Hp by assumption. now repeat split. }
  split; intros (y & ys & Hp & ->); exists y, ys; (split; [|reflexivity]); eapply G; try exact Hp; intros w Hw; [symmetry|]; now apply Hpos.
Qed.
Lemma queries_say_nothing qs : Forall is_query qs -> indexed qs = [] /\ flat_map (fun c => match c with MErr c => [c] | _ => [] end) qs = [] /\ weight_calls qs = [].
Proof.
  induction 1 as [|c qs Hc _ (IH1 & IH2 & IH3)]; [repeat split|]. unfold indexed, weight_calls in *. cbn. rewrite IH1, IH2, IH3. destruct c; cbn in Hc; try contradiction; repeat split.
Qed.
Lemma after_queries calls qs : Forall is_query qs -> indexed (calls ++ qs) = indexed calls /\ prices_after (calls ++ qs) = prices_after calls /\ weight_calls (calls ++ qs) = weight_calls calls.
Proof.
  intros Hq. destruct (queries_say_nothing Hq) as (A & B & C). rewrite indexed_app, A, app_nil_r. split; [reflexivity|].
  unfold prices_after, weight_calls in *. rewrite !flat_map_app, B, C, !app_nil_r. now split.
Qed.
Lemma setup_queries E calls qs : Forall is_query qs -> Forall clean qs -> sound_setup E calls -> sound_setup E (calls ++ qs).
Proof.
  intros Hq Hc [A B C D F G I]. destruct (after_queries calls Hq) as (A1 & A2 & A3). unfold occ in *. constructor; unfold occ; rewrite ?A1, ?A2, ?A3; auto. now apply Forall_app.
Qed.
Lemma run_app E a : forall b m, m_run E (a ++ b) m = let (m', o) := m_run E a m in match o with Ok _ => m_run E b m' | _ => (m', o) end.
Proof.
  induction a as [|c a IH]; intros b m; [reflexivity|]. cbn [app m_run]. destruct (m_do E c m) as [m1 o]. destruct (fatal c o) eqn:Hf; [|apply IH]. destruct o; try discriminate; reflexivity.
Qed.
Lemma history_app E calls qs m m2 : history E calls m -> m_run E qs m = (m2, Ok tt) -> history E (calls ++ qs) m2.
Proof. intros (m0 & H0 & Hr) Hq. exists m0. split; [exact H0|]. now rewrite run_app, Hr. Qed.
Lemma history_li E calls m : history E calls m -> exists li0, li_new E = Ok li0.
Proof. intros (m0 & H0 & _). exact (proj2 (hi_new H0)). Qed.
Lemma later_log E calls qs m m2 l : env_ok E -> Forall is_query qs -> Forall clean qs -> HI calls m l -> history E calls m -> m_run E qs m = (m2, Ok tt) ->
  exists l2, HI (calls ++ qs) m2 l2 /\ (forall w, In w (names l) -> position w (names l2) = position w (names l)).
Proof.
  intros HE Hq Hc H HH Hr. destruct (history_li HH) as [li0 Hli]. destruct (hi_run HE Hli Hc H Hr) as (x & H2). exists (l ++ x). split; [exact H2|].
  intros w Hw. rewrite names_app. destruct (distinct_app (map said x) (names l)) as [y ->]. destruct (position_in Hw) as [i Hi]. now rewrite (position_app y Hi), Hi.
Qed.
Lemma later_answers E calls qs m m2 q p m' m2' r r2 : sound_setup E calls -> sound_query calls q -> history E calls m -> Forall is_query qs -> Forall clean qs ->
  m_run E qs m = (m2, Ok tt) -> clean (MMatch q p) -> mt_match E q p m = (m', Ok r) -> mt_match E q p m2 = (m2', Ok r2) ->
  exists view, shows r view /\ shows r2 view.
Proof.
  intros SS SQ HH Hq Hc Hrun Hcl R1 R2. destruct (the_log SS HH) as [l H]. destruct (later_log (ss_env SS) Hq Hc H HH Hrun) as (l2 & H2 & Hpos).
  pose proof (setup_queries Hq Hc SS) as SS2. destruct (after_queries calls Hq) as (A1 & A2 & A3).
  assert (SQ2 : sound_query (calls ++ qs) q) by (destruct SQ as [Q1 Q2]; split; [exact Q1|]; unfold occ in *; now rewrite A1, A2).
  pose proof (match_answer H SS SQ Hcl R1) as B1. pose proof (match_answer H2 SS2 SQ2 Hcl R2) as B2.
  pose proof B1 as (v1 & S1 & _). pose proof B2 as (v2 & S2 & _).
  destruct (answer_fine H SS B1 S1) as (F1 & K1 & M1), (answer_fine H2 SS2 B2 S2) as (F2 & K2 & M2).
  exists v1. split; [exact S1|]. replace v1 with v2; [exact S2|]. apply view_unique; try assumption. intros [x d]. rewrite M1, M2.
  unfold occ, weight_after. rewrite A1, A2, A3. apply and_iff_compat_r. symmetry. apply scored_order; [exact Hpos|]. intros d' f w Hin. exact (occ_nm H Hin).
Qed.
