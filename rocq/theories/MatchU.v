(** Matcher: comparing searches. *)
From Verif Require Import Base TrieM TrieA TrieP TrieP2 TrieD WordStoreM Spec_Hist TrieH WordStoreP ErrorValuesM LevIndexM
  Spec_Edit Spec_EV Spec_Lev EVP EditP HitsP LevP WordM MapM DoubleM FloatP ContM MatcherM MapP Spec_Cont ContP Spec_Match MatchP MatchQ MatchR MatchS MatchT.
From Coq Require Import ZifyBool ZifyN ZifyNat.
Local Open Scope N_scope.
Local Open Scope m_scope.

Lemma ss_nodup {A} (R : A -> A -> Prop) l : (forall a, ~ R a a) -> StronglySorted R l -> NoDup l.
Proof.
  intros Hi. induction 1 as [|a l Hs IH Hf]; constructor; [|exact IH]. intros Hin. rewrite Forall_forall in Hf. exact (Hi a (Hf a Hin)).
Qed.
Lemma scored_total o order R q p wt d x : scored o order R q p wt d x -> exists xs, parts o order R q p d xs /\ x = total (map (contribution o wt) xs) /\ xs <> [].
Proof.
  intros (y & ys & Hp & ->). exists (y :: ys). split; [exact Hp|]. split; [|discriminate]. cbn. now rewrite fold_map.
Qed.
(** The answer with the log given. *)
Lemma match_answer E calls m l q p m' r : HI calls m l -> sound_setup E calls -> sound_query calls q -> clean (MMatch q p) -> mt_match E q p m = (m', Ok r) ->
  answer calls l q p r.
Proof.
  intros H SS SQ Hc Hr. destruct (match_yield H SS SQ Hc) as (m1 & o1 & Hr1 & Ho). rewrite Hr in Hr1. injection Hr1 as <- <-. destruct Ho as [[Ho _]|[Ho _]]; [discriminate|exact Ho].
Qed.
Lemma answer_fine E calls m l q p r view : HI calls m l -> sound_setup E calls -> answer calls l q p r -> shows r view -> Forall fine view /\ ranked view /\
  forall x d, In (x, d) view <-> scored (occ calls) (names l) (hit (prices_after calls) p) q p (weight_after calls) d x /\ filter_holds (occ calls) (sp_filter p) d.
Proof.
  intros H SS (v & Hs & Hk & Hm) Hv. rewrite (shows_unique Hv Hs). split; [|now split]. rewrite Forall_forall. intros [x d] Hin. apply Hm in Hin.
  apply weak_nan. exact (scored_weak SS (proj1 Hin)).
Qed.

(** ** The same search with two filters *)
Lemma scored_params o order e q p p' wt d x : sp_dynamic p' = sp_dynamic p -> (forall f, sp_isNonsearchingField p' f = sp_isNonsearchingField p f) ->
  scored o order (hit e p) q p wt d x -> scored o order (hit e p') q p' wt d x.
Proof.
  intros Hd Hn (y & ys & [P1 P2] & ->). exists y, ys. split; [|reflexivity]. split; [exact P1|]. intros f w err. rewrite P2.
  assert (Hh : forall qw v k, hit e p qw v k <-> hit e p' qw v k) by (intros; unfold hit, limit; now rewrite Hd).
  unfold searching, least. rewrite Hn. split; intros (A & B & (qw & C & D) & F); (split; [exact A|]); (split; [exact B|]); (split; [exists qw; split; [exact C|now apply Hh]|]);
    intros qw' err' G1 G2; apply (F qw' err' G1); now apply Hh.
Qed.
Lemma filter_acts E calls m q p p0 m' m0 r r0 : sound_setup E calls -> sound_query calls q -> history E calls m ->
  sp_dynamic p0 = sp_dynamic p -> (forall f, sp_isNonsearchingField p0 f = sp_isNonsearchingField p f) -> unfiltered p0 ->
  clean (MMatch q p) -> clean (MMatch q p0) -> mt_match E q p m = (m', Ok r) -> mt_match E q p0 m = (m0, Ok r0) ->
  exists view keep, shows r0 view /\ shows r (filter (fun x => keep (snd x)) view) /\ forall d, keep d = true <-> filter_holds (occ calls) (sp_filter p) d.
Proof.
  intros SS SQ HH Hd Hn Hu Hc Hc0 Hr Hr0. destruct (the_log SS HH) as [l H].
  pose proof (match_answer H SS SQ Hc Hr) as A. pose proof (match_answer H SS SQ Hc0 Hr0) as A0.
  pose proof A as (v & Hs & _). pose proof A0 as (v0 & Hs0 & _).
  destruct (answer_fine H SS A Hs) as (F & K & M), (answer_fine H SS A0 Hs0) as (F0 & K0 & M0).
  exists v0, (filterb (occ calls) (sp_filter p)). split; [exact Hs0|]. split; [|intros d; apply filterb_holds].
  replace (filter _ v0) with v; [exact Hs|]. apply view_unique.
  - exact F.
  - rewrite Forall_forall in *. intros x Hx. apply filter_In in Hx as [Hx _]. now apply F0.
  - exact K.
  - now apply ssorted_filter.
  - intros [x d]. rewrite filter_In, M, M0. cbn [snd]. rewrite filterb_holds.
    assert (G : filter_holds (occ calls) (sp_filter p0) d) by (exists []; split; [exact Hu|constructor]).
    split.
    + intros [S1 S2]. split; [|exact S2]. split; [|exact G]. now apply (scored_params Hd Hn).
    + intros [[S1 _] S2]. split; [|exact S2]. eapply scored_params; [| |exact S1]; intros; now symmetry.
Qed.

(** ** Two histories that say the same about the searched fields *)
Section Compare.
Variables (E1 E2 : env) (c1 c2 : list m_call) (m1 m2 : matcher) (l1 l2 : list step) (q : list word) (p : sparams).
Hypothesis SS1 : sound_setup E1 c1.
Hypothesis SS2 : sound_setup E2 c2.
Hypothesis SQ1 : sound_query c1 q.
Hypothesis SQ2 : sound_query c2 q.
Hypothesis H1 : HI c1 m1 l1.
Hypothesis H2 : HI c2 m2 l2.
Hypothesis Hprices : prices_after c2 = prices_after c1.
Hypothesis Hocc : forall d f w, searching p f -> (In (d, f, w) (occ c1) <-> In (d, f, w) (occ c2)).
Lemma parts_same d xs1 xs2 : parts (occ c1) (names l1) (hit (prices_after c1) p) q p d xs1 -> parts (occ c2) (names l2) (hit (prices_after c2) p) q p d xs2 -> Permutation xs1 xs2.
Proof.
  intros [P1 P2] [Q1 Q2]. apply NoDup_Permutation; [exact (ss_nodup (earlier_irr (l := l1)) P1)|exact (ss_nodup (earlier_irr (l := l2)) Q1)|].
  intros [[f w] err]. rewrite P2, Q2, Hprices. split; intros (A & B & C); (split; [now apply Hocc|now split]).
Qed.
Lemma scored_there d x : scored (occ c1) (names l1) (hit (prices_after c1) p) q p (weight_after c1) d x ->
  exists x', scored (occ c2) (names l2) (hit (prices_after c2) p) q p (weight_after c2) d x'.
Proof.
  intros (y & ys & [_ Hp] & _). destruct y as [[f w] err]. destruct (proj1 (Hp f w err)) as (Hd & Hse & (qw & Hq & Hh) & _); [now left|].
  destruct (rel_spec H2 SS2 p SQ2) as (docs & _ & _ & _ & Hex). apply (Hex d f w qw err); [now apply Hocc|exact Hse|exact Hq|]. now rewrite Hprices.
Qed.
Hypothesis Hcount : forall f w, searching p f -> count_in (occ c1) f w = count_in (occ c2) f w.
Hypothesis Hmax : forall f, searching p f -> max_in (occ c1) f = max_in (occ c2) f.
Hypothesis Hw : forall f, searching p f -> weight_after c1 f = weight_after c2 f.
Lemma scored_same d x1 x2 : scored (occ c1) (names l1) (hit (prices_after c1) p) q p (weight_after c1) d x1 ->
  scored (occ c2) (names l2) (hit (prices_after c2) p) q p (weight_after c2) d x2 -> exists a b, Permutation a b /\ x1 = total a /\ x2 = total b.
Proof.
  intros S1 S2. apply scored_total in S1 as (xs1 & P1 & -> & _), S2 as (xs2 & P2 & -> & _).
  exists (map (contribution (occ c1) (weight_after c1)) xs1), (map (contribution (occ c2) (weight_after c2)) xs2). split; [|now split].
  rewrite (Permutation_map (contribution (occ c2) (weight_after c2)) (Permutation_sym (parts_same P1 P2))).
  replace (map (contribution (occ c1) (weight_after c1)) xs1) with (map (contribution (occ c2) (weight_after c2)) xs1); [reflexivity|].
  apply map_ext_in. intros [[f w] err] Hin. apply P1 in Hin as (_ & Hs & _). unfold contribution. now rewrite Hcount, Hmax, Hw.
Qed.
End Compare.
Lemma count_max o1 o2 f : (forall w, In w (field_words o1 f) <-> In w (field_words o2 f)) -> (forall w, count_in o1 f w = count_in o2 f w) -> max_in o1 f = max_in o2 f.
Proof.
  intros Hi Hc. unfold max_in.
  assert (Hx : forall r, fold_right (fun w n => N.max (count_in o1 f w) n) 0 r = fold_right (fun w n => N.max (count_in o2 f w) n) 0 r) by (induction r; cbn; congruence).
  rewrite Hx. clear Hx.
  assert (G : forall r s, incl r s -> fold_right (fun w n => N.max (count_in o2 f w) n) 0 r <= fold_right (fun w n => N.max (count_in o2 f w) n) 0 s).
  { induction r as [|x r IH]; intros s Hs; cbn; [lia|]. assert (count_in o2 f x <= fold_right (fun w n => N.max (count_in o2 f w) n) 0 s).
    { assert (Hx : In x s) by (apply Hs; now left). clear - Hx. induction s as [|y s IH]; [destruct Hx|]. cbn. destruct Hx as [->|Hx]; [lia|apply IH in Hx; lia]. }
    specialize (IH s). assert (incl r s) by (intros y Hy; apply Hs; now right). apply IH in H0. lia. }
  apply N.le_antisymm; apply G; intros w Hin; now apply Hi.
Qed.

(** ** What was indexed, when nothing is empty *)
Lemma whole_told l : Forall (fun s => said s <> []) l -> told l = l.
Proof. intros Hl. apply told_id. intros Hx. unfold stops in Hx. apply in_map_iff in Hx as (s & Hs & Hin). rewrite Forall_forall in Hl. exact (Hl s Hin Hs). Qed.
Lemma indexed_whole calls : Forall whole calls -> indexed calls = flat_map plan_doc (corpora calls).
Proof.
  induction 1 as [|c calls Hc _ IH]; [reflexivity|]. unfold indexed, corpora in *. cbn [flat_map]. rewrite flat_map_app, IH. f_equal.
  destruct c; try reflexivity. apply whole_told, Hc.
Qed.
Lemma perm_flat {A B} (f : A -> list B) l l' : Permutation l l' -> Permutation (flat_map f l) (flat_map f l').
Proof.
  induction 1 as [|x l l' _ IH|x y l|l l2 l3 _ IH1 _ IH2]; cbn; [constructor|now apply Permutation_app_head| |now transitivity (flat_map f l2)].
  rewrite !app_assoc. apply Permutation_app_tail, Permutation_app_comm.
Qed.
Lemma occ_perm c1 c2 : Forall whole c1 -> Forall whole c2 -> Permutation (corpora c1) (corpora c2) -> Permutation (occ c1) (occ c2).
Proof. intros W1 W2 Hp. unfold occ, occs. rewrite !indexed_whole by assumption. now apply perm_flat, perm_flat. Qed.
Lemma perm_filter {A} (f : A -> bool) l l' : Permutation l l' -> Permutation (filter f l) (filter f l').
Proof.
  induction 1 as [|x l l' _ IH|x y l|l l2 l3 _ IH1 _ IH2]; cbn; [constructor| | |now transitivity (filter f l2)].
  - destruct (f x); [now constructor|exact IH].
  - destruct (f x), (f y); try reflexivity. apply perm_swap.
Qed.
Lemma count_perm o1 o2 f w : Permutation o1 o2 -> count_in o1 f w = count_in o2 f w.
Proof.
  intros Hp. unfold count_in, occurrences. f_equal. apply (Permutation_count_occ (list_eq_dec N.eq_dec)). unfold field_words. now apply Permutation_map, perm_filter.
Qed.
Lemma order_irrelevant E c1 c2 m1 m2 q p m1' m2' r1 r2 : sound_setup E c1 -> sound_setup E c2 -> sound_query c1 q -> history E c1 m1 -> history E c2 m2 ->
  Forall whole c1 -> Forall whole c2 -> Permutation (corpora c1) (corpora c2) -> prices_after c2 = prices_after c1 -> (forall f, weight_after c1 f = weight_after c2 f) ->
  clean (MMatch q p) -> mt_match E q p m1 = (m1', Ok r1) -> mt_match E q p m2 = (m2', Ok r2) ->
  exists v1 v2, shows r1 v1 /\ shows r2 v2 /\
    (forall d, (exists x, In (x, d) v1) <-> (exists x, In (x, d) v2)) /\
    (forall d x1 x2, In (x1, d) v1 -> In (x2, d) v2 -> exists a b, Permutation a b /\ x1 = total a /\ x2 = total b).
Proof.
  intros SS1 SS2 SQ1 HH1 HH2 W1 W2 Hp Hpr Hwt Hc R1 R2. pose proof (occ_perm W1 W2 Hp) as Ho.
  assert (SQ2 : sound_query c2 q).
  { destruct SQ1 as [A B]. split; [exact A|]. rewrite Hpr, Forall_forall in *. intros w Hw. eapply fits_le; [|now apply B]. apply longest_le.
    intros v i Hin. apply in_map_iff in Hin as (x & [= <- <-] & Hx). exists 0. apply in_map_iff. exists x. split; [reflexivity|]. now apply (Permutation_in _ (Permutation_sym Ho)). }
  destruct (the_log SS1 HH1) as [l1 H1], (the_log SS2 HH2) as [l2 H2].
  pose proof (match_answer H1 SS1 SQ1 Hc R1) as A1. pose proof (match_answer H2 SS2 SQ2 Hc R2) as A2.
  pose proof A1 as (v1 & S1 & _). pose proof A2 as (v2 & S2 & _).
  destruct (answer_fine H1 SS1 A1 S1) as (F1 & K1 & M1), (answer_fine H2 SS2 A2 S2) as (F2 & K2 & M2).
  assert (Hocc : forall d f w, In (d, f, w) (occ c1) <-> In (d, f, w) (occ c2)) by (intros; split; apply Permutation_in; [exact Ho|now symmetry]).
  assert (Hfil : forall d, filter_holds (occ c1) (sp_filter p) d <-> filter_holds (occ c2) (sp_filter p) d).
  { intros d. unfold filter_holds, term_holds. split; intros (t & Hin & Ht); exists t; (split; [exact Hin|]); rewrite Forall_forall in *; intros s Hs; apply Hocc; now apply Ht. }
  exists v1, v2. split; [exact S1|]. split; [exact S2|]. split.
  - intros d. split; intros [x Hin].
    + apply M1 in Hin as [Hs Hf]. destruct (scored_there (c2 := c2) (m2 := m2) (l2 := l2) SS2 SQ2 H2 Hpr (fun d f w _ => Hocc d f w) Hs) as [x' Hx']. exists x'. apply M2. split; [exact Hx'|now apply Hfil].
    + apply M2 in Hin as [Hs Hf]. destruct (scored_there (c2 := c1) (m2 := m1) (l2 := l1) SS1 SQ1 H1 (eq_sym Hpr) (fun d f w _ => iff_sym (Hocc d f w)) Hs) as [x' Hx']. exists x'. apply M1. split; [exact Hx'|now apply Hfil].
  - intros d x1 x2 I1 I2. apply M1, proj1 in I1. apply M2, proj1 in I2. eapply scored_same; [exact Hpr|intros; apply Hocc|intros; now apply count_perm| |intros; apply Hwt|exact I1|exact I2].
    intros f _. apply count_max; [|intros; now apply count_perm]. intros w. rewrite !fw_in. split; intros [d' Hd]; exists d'; now apply Hocc.
Qed.
