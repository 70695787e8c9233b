(** Theorems about Matcher (C46-C60, C65, C66).  The vocabulary is in Spec_Match.v: a
    history is a list of calls made on a new Matcher, [occ] lists what those calls
    indexed, [near] says that a word is within the limit of a query word, [shows r view]
    that reading the result object [r] gives the list [view]. *)
From Verif Require Import Base TrieM WordStoreM ErrorValuesM LevIndexM Spec_Hist Spec_EV Spec_Edit Spec_Lev WordM Spec_Word MapM DoubleM ContM MatcherM Spec_Cont Spec_Match
  MatchT MatchU MatchV MatchW MatchY MatchZ TypoP Demo StoreX MatchX.
Local Open Scope N_scope.

(** C46: with swaps that are not cheap (Spec_Lev.swaps_not_cheap) the documents found are exactly those with a word near a query word, for which the filter holds. *)
Theorem C46_finds : forall E calls m q p m' r, sound_setup E calls -> sound_query calls q -> history E calls m ->
  (forall qw, In qw q -> swaps_not_cheap (prices_after calls) (length qw)) -> clean (MMatch q p) -> mt_match E q p m = (m', Ok r) ->
  exists view, shows r view /\ forall d, (exists x, In (x, d) view) <->
    (exists f w qw err, In (d, f, w) (occ calls) /\ searching p f /\ In qw q /\ near (prices_after calls) p qw w err) /\ filter_holds (occ calls) (sp_filter p) d.
Proof. intros E calls m q p m' r SS SQ HH SW Hc. exact (match_finds SS SQ HH SW Hc). Qed.
Print Assumptions C46_finds.

(** C46, with prices that are all between 0 and 100 and the usual swap: no condition on swaps. *)
Theorem C46_default : forall E calls m q m' r, sound_setup E calls -> sound_query calls q -> history E calls m ->
  default_like (price_calls calls) -> mt_match E q sp_new m = (m', Ok r) ->
  exists view, shows r view /\ forall d, (exists x, In (x, d) view) <->
    exists f w qw err, In (d, f, w) (occ calls) /\ In qw q /\ near (prices_after calls) sp_new qw w err.
Proof. exact match_finds_default. Qed.
Print Assumptions C46_default.
Example C46_ex : sound_setup demo calls_m /\ sound_query calls_m q_ex /\ history demo calls_m m_ex /\ default_like (price_calls calls_m) /\
  map snd (found demo q_ex sp_new m_ex) = [4; 1; 3; 2].
Proof. split; [exact m_ex_setup|]. split; [exact q_ex_ok|]. split; [exact m_ex_history|]. split; [defaults|]. vm_compute. reflexivity. Qed.

(** C46: with any prices that are not negative, only such documents are found. *)
Theorem C46_sound : forall E calls m q p m' r, sound_setup E calls -> sound_query calls q -> history E calls m -> clean (MMatch q p) -> mt_match E q p m = (m', Ok r) ->
  forall view x d, shows r view -> In (x, d) view ->
  exists f w qw err, In (d, f, w) (occ calls) /\ searching p f /\ In qw q /\ near (prices_after calls) p qw w err.
Proof. intros E calls m q p m' r SS SQ HH Hc Hr view x d. exact (match_sound SS SQ HH Hc Hr). Qed.
Print Assumptions C46_sound.

(** C46 and C50, exactly: with any prices that are not negative, the documents and relevancies are those of the words within the limit of a query word all of whose beginnings are within it too. *)
Theorem C46_exact : forall E calls m q p m' r, sound_setup E calls -> sound_query calls q -> history E calls m -> clean (MMatch q p) -> mt_match E q p m = (m', Ok r) ->
  exists order view, NoDup order /\ shows r view /\ ranked view /\
  (forall x d, In (x, d) view <-> scored (occ calls) order (reached (prices_after calls) p) q p (weight_after calls) d x /\ filter_holds (occ calls) (sp_filter p) d) /\
  (forall d, (exists x, In (x, d) view) <->
    (exists f w qw err, In (d, f, w) (occ calls) /\ searching p f /\ In qw q /\ reached (prices_after calls) p qw w err) /\ filter_holds (occ calls) (sp_filter p) d) /\
  ((forall q' p', In (MMatch q' p') calls -> concat (sp_filter p') = []) -> order = distinct [] (map said (indexed calls))).
Proof. intros E calls m q p m' r SS SQ HH Hc. exact (match_exact SS SQ HH Hc). Qed.
Print Assumptions C46_exact.

(** C46 fails for cheap swaps: a word at cost 10 is not found. *)
Theorem C46_cheap_swaps_refuted : exists E calls m q m' r d f w qw err, sound_setup E calls /\ sound_query calls q /\ history E calls m /\ mt_match E q sp_new m = (m', Ok r) /\
  In (d, f, w) (occ calls) /\ In qw q /\ near (prices_after calls) sp_new qw w err /\ mr_size r = 0.
Proof. exact c46_refuted. Qed.
Print Assumptions C46_cheap_swaps_refuted.

(** C47: each document once, best first, equals by document id; no relevancy is negative or NaN. *)
Theorem C47_ranked : forall E calls m q p m' r, sound_setup E calls -> sound_query calls q -> history E calls m -> clean (MMatch q p) -> mt_match E q p m = (m', Ok r) ->
  exists view, shows r view /\ ranked view /\ NoDup (map snd view) /\ Forall (fun x => d_lt (fst x) (S754_zero false) = false /\ fst x <> S754_nan) view.
Proof. intros E calls m q p m' r SS SQ HH Hc Hr. exact (match_ranked_le SS SQ HH Hc Hr). Qed.
Print Assumptions C47_ranked.
Example C47_ex : sound_setup demo calls_m /\ sound_query calls_m q_ex /\ history demo calls_m m_ex /\ clean (MMatch q_ex sp_new) /\ mt_match demo q_ex sp_new m_ex = (state demo q_ex sp_new m_ex, Ok (result demo q_ex sp_new m_ex)) /\
  mr_size (result demo q_ex sp_new m_ex) = 4.
Proof. split; [exact m_ex_setup|]. split; [exact q_ex_ok|]. split; [exact m_ex_history|]. split; [clean1|]. split; [searched|]. vm_compute. reflexivity. Qed.

(** C48: a filter keeps, of the results of the unfiltered search, those for which it holds. *)
Theorem C48_filter : forall E calls m q p p0 m' m0 r r0, sound_setup E calls -> sound_query calls q -> history E calls m ->
  sp_dynamic p0 = sp_dynamic p -> (forall f, sp_isNonsearchingField p0 f = sp_isNonsearchingField p f) -> unfiltered p0 ->
  clean (MMatch q p) -> clean (MMatch q p0) -> mt_match E q p m = (m', Ok r) -> mt_match E q p0 m = (m0, Ok r0) ->
  exists view keep, shows r0 view /\ shows r (filter (fun x => keep (snd x)) view) /\ forall d, keep d = true <-> filter_holds (occ calls) (sp_filter p) d.
Proof. exact filter_acts. Qed.
Print Assumptions C48_filter.
Example C48_ex : sound_setup demo calls_m /\ sound_query calls_m q_ex /\ history demo calls_m m_ex /\ unfiltered sp_new /\ clean (MMatch q_ex p_filter) /\
  is_ok (snd (mt_match demo q_ex p_filter m_ex)) = true /\ map snd (found demo q_ex p_filter m_ex) = [1].
Proof. split; [exact m_ex_setup|]. split; [exact q_ex_ok|]. split; [exact m_ex_history|]. split; [now left|]. split; [clean1|]. split; vm_compute; reflexivity. Qed.

(** C49: the documents are those found in a matcher that was never given those fields; each relevancy is a sum of the same numbers, but perhaps in another order.  Missing: the order (see below). *)
Theorem C49_nonsearching_partial : forall E p c1 c2 m1 m2 q m1' m2' r1 r2, Forall2 (stripped p) c1 c2 -> Forall whole c1 -> sound_setup E c1 -> sound_query c1 q ->
  history E c1 m1 -> history E c2 m2 -> clean (MMatch q p) -> unfiltered p -> mt_match E q p m1 = (m1', Ok r1) -> mt_match E q p m2 = (m2', Ok r2) ->
  exists v1 v2, shows r1 v1 /\ shows r2 v2 /\
    (forall d, (exists x, In (x, d) v1) <-> (exists x, In (x, d) v2)) /\
    (forall d x1 x2, In (x1, d) v1 -> In (x2, d) v2 -> exists a b, Permutation a b /\ x1 = total a /\ x2 = total b).
Proof. exact nonsearching_irrelevant. Qed.
Print Assumptions C49_nonsearching_partial.

(** C49 fails for the relevancies themselves: leaving out the field changes the order of a sum of doubles, and the sum. *)
Theorem C49_same_relevancy_refuted : exists E p c1 c2 m1 m2 q m1' m2' r1 r2, Forall2 (stripped p) c1 c2 /\ Forall whole c1 /\ sound_setup E c1 /\ sound_query c1 q /\ history E c1 m1 /\ history E c2 m2 /\ unfiltered p /\
  mt_match E q p m1 = (m1', Ok r1) /\ mt_match E q p m2 = (m2', Ok r2) /\
  snd (mr_getDocumentID 0 r1) = snd (mr_getDocumentID 0 r2) /\ snd (mr_getRelevancy 0 r1) <> snd (mr_getRelevancy 0 r2).
Proof. exact c49_refuted. Qed.
Print Assumptions C49_same_relevancy_refuted.
Example C49_ex : Forall2 (stripped c49_p) c49_a c49_b /\ map snd (found demo [w_abc] c49_p (after demo c49_a)) = [1] /\ found demo [f2] c49_p (after demo c49_a) = found demo [f2] c49_p (after demo c49_b).
Proof. split; [exact c49_stripped|]. split; vm_compute; reflexivity. Qed.

(** C50: the relevancy is the sum of Spec_Match.contribution over the words of the document that are near, in an order of fields and words that is that of their first mention if no search used a filter. *)
Theorem C50_relevancy : forall E calls m q p m' r, sound_setup E calls -> sound_query calls q -> history E calls m ->
  (forall qw, In qw q -> swaps_not_cheap (prices_after calls) (length qw)) -> clean (MMatch q p) -> mt_match E q p m = (m', Ok r) ->
  exists order view, NoDup order /\ shows r view /\ ranked view /\
  (forall x d, In (x, d) view <-> scored (occ calls) order (near (prices_after calls) p) q p (weight_after calls) d x /\ filter_holds (occ calls) (sp_filter p) d) /\
  ((forall q' p', In (MMatch q' p') calls -> concat (sp_filter p') = []) -> order = distinct [] (map said (indexed calls))).
Proof. intros E calls m q p m' r SS SQ HH SW Hc. exact (match_scores SS SQ HH SW Hc). Qed.
Print Assumptions C50_relevancy.
Example C50_ex : sound_setup demo calls_m /\ sound_query calls_m q_ex /\ history demo calls_m m_ex /\
  nth 0 (map fst (found demo q_ex sp_new m_ex)) (S754_zero false) = d_mul (d_mul (d_div (d_of_Z 100) (d_of_Z 100)) (d_sub (d_of_Z 1) (d_div (d_of_Z 1) (d_of_Z 3)))) (d_of_Z 2).
Proof. split; [exact m_ex_setup|]. split; [exact q_ex_ok|]. split; [exact m_ex_history|]. vm_compute. reflexivity. Qed.

(** C52: indexing corpora one after the other is indexing their concatenation, whatever the state, and also when it fails. *)
Theorem C52_incremental : forall E cs m, mt_index E (concat cs) m = fold_right (fun c k => mbind (mt_index E c) (fun _ => k)) (ret tt) cs m.
Proof. exact index_parts. Qed.
Print Assumptions C52_incremental.
Example C52_ex : is_ok (snd (mt_index demo (concat [docs_ex; docs [(4, [(w_title, [w_xyz])])]]) (after demo []))) = true.
Proof. vm_compute. reflexivity. Qed.

(** C53: the documents found do not depend on the order in which documents are indexed, nor on how they are divided over calls; each relevancy is a sum of the same numbers. *)
Theorem C53_order : forall E c1 c2 m1 m2 q p m1' m2' r1 r2, sound_setup E c1 -> sound_setup E c2 -> sound_query c1 q -> history E c1 m1 -> history E c2 m2 ->
  Forall whole c1 -> Forall whole c2 -> Permutation (corpora c1) (corpora c2) -> prices_after c2 = prices_after c1 -> (forall f, weight_after c1 f = weight_after c2 f) ->
  clean (MMatch q p) -> mt_match E q p m1 = (m1', Ok r1) -> mt_match E q p m2 = (m2', Ok r2) ->
  exists v1 v2, shows r1 v1 /\ shows r2 v2 /\
    (forall d, (exists x, In (x, d) v1) <-> (exists x, In (x, d) v2)) /\
    (forall d x1 x2, In (x1, d) v1 -> In (x2, d) v2 -> exists a b, Permutation a b /\ x1 = total a /\ x2 = total b).
Proof. exact order_irrelevant. Qed.
Print Assumptions C53_order.
Example C53_ex : sound_setup demo [MIndex docs_ex] /\ sound_setup demo [MIndex (rev docs_ex)] /\ Permutation (corpora [MIndex docs_ex]) (corpora [MIndex (rev docs_ex)]) /\
  history demo [MIndex docs_ex] (after demo [MIndex docs_ex]) /\ history demo [MIndex (rev docs_ex)] (after demo [MIndex (rev docs_ex)]) /\
  map snd (found demo [w_abc] sp_new (after demo [MIndex docs_ex])) = [1; 2; 3].
Proof. split; [unfold docs_ex; setup|]. split; [apply rev_setup|]. split; [apply rev_corpora|]. split; [happens|]. split; [happens|]. vm_compute. reflexivity. Qed.

(** C54: searches made after the last indexing call change nothing: the results are the same. *)
Theorem C54_queries_between : forall E calls qs m m2 q p m' m2' r r2, sound_setup E calls -> sound_query calls q -> history E calls m -> Forall is_query qs -> Forall clean qs ->
  m_run E qs m = (m2, Ok tt) -> clean (MMatch q p) -> mt_match E q p m = (m', Ok r) -> mt_match E q p m2 = (m2', Ok r2) ->
  exists view, shows r view /\ shows r2 view.
Proof. exact later_answers. Qed.
Print Assumptions C54_queries_between.

(** C54: wherever the searches are made, the same documents are found, with sums of the same numbers; without filters the results are the same. *)
Theorem C54_queries_anywhere : forall E c1 c2 m1 m2 q p m1' m2' r1 r2, setup_calls c1 = setup_calls c2 -> sound_setup E c1 -> Forall clean c2 -> sound_query c1 q ->
  history E c1 m1 -> history E c2 m2 -> clean (MMatch q p) -> mt_match E q p m1 = (m1', Ok r1) -> mt_match E q p m2 = (m2', Ok r2) ->
  exists v1 v2, shows r1 v1 /\ shows r2 v2 /\
    (forall d, (exists x, In (x, d) v1) <-> (exists x, In (x, d) v2)) /\
    (forall d x1 x2, In (x1, d) v1 -> In (x2, d) v2 -> exists a b, Permutation a b /\ x1 = total a /\ x2 = total b) /\
    ((forall w, ~ in_filter c1 w) -> (forall w, ~ in_filter c2 w) -> v1 = v2).
Proof. exact searches_between. Qed.
Print Assumptions C54_queries_anywhere.

(** C54 fails for a filtered search before an indexing call: it gives the names in the filter their ids, and later sums are taken in another order. *)
Theorem C54_filtered_search_refuted : exists E c1 c2 m1 m2 q m1' m2' r1 r2, setup_calls c1 = setup_calls c2 /\ sound_setup E c1 /\ sound_setup E c2 /\ sound_query c1 q /\ history E c1 m1 /\ history E c2 m2 /\
  mt_match E q sp_new m1 = (m1', Ok r1) /\ mt_match E q sp_new m2 = (m2', Ok r2) /\
  snd (mr_getDocumentID 0 r1) = snd (mr_getDocumentID 0 r2) /\ snd (mr_getRelevancy 0 r1) <> snd (mr_getRelevancy 0 r2).
Proof. exact c54_refuted. Qed.
Print Assumptions C54_filtered_search_refuted.
Example C54_ex : sound_setup demo calls_m /\ sound_query calls_m q_ex /\ history demo calls_m m_ex /\ snd (m_run demo [MMatch q_ex p_filter; MOnline q_ex w_title] m_ex) = Ok tt /\
  found demo q_ex sp_new (fst (m_run demo [MMatch q_ex p_filter; MOnline q_ex w_title] m_ex)) = found demo q_ex sp_new m_ex.
Proof. split; [exact m_ex_setup|]. split; [exact q_ex_ok|]. split; [exact m_ex_history|]. split; vm_compute; reflexivity. Qed.

(** C55: with any hash iteration order and any way std::sort treats ties, a history leads to the same matcher, and a search in it to the same results. *)
Theorem C55_iteration_order : forall E sort order calls m, env_ok E -> env_ok (reorder E sort order) -> sound_history E calls -> history E calls m ->
  history (reorder E sort order) calls m /\ forall q, sound_setup E calls -> sound_query calls q ->
    (forall p, mt_match (reorder E sort order) q p m = mt_match E q p m) /\ (forall f, Forall nonnul f -> mt_onlineMatch (reorder E sort order) q f m = mt_onlineMatch E q f m).
Proof. exact same_on_reorder. Qed.
Print Assumptions C55_iteration_order.
Example C55_ex : env_ok demo_rev /\ sound_history demo calls_h /\ history demo calls_h (after demo calls_h) /\ e_order demo [] [1; 2] <> e_order demo_rev [] [1; 2] /\ found demo_rev q_ex sp_new m_ex = found demo q_ex sp_new m_ex.
Proof. split; [exact demo_rev_ok|]. split; [exact calls_h_sound|]. split; [happens|]. split; [discriminate|]. vm_compute. reflexivity. Qed.

(** C56: onlineMatch in an indexed field or word: the documents of match and those with an exact word, each with the exact part (Spec_Match.exact_part) added. *)
Theorem C56_online : forall E calls m q f, sound_setup E calls -> sound_query calls q -> history E calls m ->
  (forall qw, In qw q -> swaps_not_cheap (prices_after calls) (length qw)) -> In f (map said (indexed calls)) ->
  exists r order view, mt_onlineMatch E q f m = (m, Ok r) /\ NoDup order /\ shows r view /\ ranked view /\
    (forall x d, In (x, d) view <-> online_scored calls order (near (prices_after calls) sp_new) q f d x) /\
    ((forall w, ~ in_filter calls w) -> order = distinct [] (map said (indexed calls))).
Proof. intros E calls m q f SS SQ HH SW. exact (online_result SS SQ HH SW). Qed.
Print Assumptions C56_online.

(** C56, with any prices that are not negative. *)
Theorem C56_any_prices : forall E calls m q f, sound_setup E calls -> sound_query calls q -> history E calls m -> In f (map said (indexed calls)) ->
  exists r order view, mt_onlineMatch E q f m = (m, Ok r) /\ NoDup order /\ shows r view /\ ranked view /\
    (forall x d, In (x, d) view <-> online_scored calls order (reached (prices_after calls) sp_new) q f d x) /\
    ((forall w, ~ in_filter calls w) -> order = distinct [] (map said (indexed calls))).
Proof. intros E calls m q f SS SQ HH. exact (online_exact SS SQ HH (f := f)). Qed.
Print Assumptions C56_any_prices.

(** C56: if no letter costs something against itself, the documents are those of match, and each relevancy is the exact part plus that of match. *)
Theorem C56_same_documents : forall E calls m q f mr r m', sound_setup E calls -> sound_query calls q -> history E calls m -> no_self_price (price_calls calls) ->
  In f (map said (indexed calls)) -> mt_onlineMatch E q f m = (m', Ok r) -> mt_match E q sp_new m = (m', Ok mr) ->
  exists view views, shows r view /\ shows mr views /\ (forall d, (exists x, In (x, d) view) <-> (exists y, In (y, d) views)) /\
    forall d x y, In (x, d) view -> In (y, d) views ->
      x = d_add (exact_part (last_size (indexed calls) d f None) (N.of_nat (length q)) (exact_count (occ calls) f q d)) y.
Proof. intros E calls m q f mr r m' SS SQ HH Hs Hf. exact (online_documents SS SQ HH Hs Hf). Qed.
Print Assumptions C56_same_documents.

(** C56: a name that was neither indexed nor used in a filter is refused, and nothing changes. *)
Theorem C56_unknown : forall E calls m q f, sound_setup E calls -> history E calls m -> ~ In f (map said (indexed calls)) -> ~ in_filter calls f ->
  Forall (fun l => 0 < l < 65536) f -> short f -> well_formed f -> mt_onlineMatch E q f m = (m, Throw EInvalidArg).
Proof. intros E calls m q f SS HH. exact (online_refused q SS HH (f := f)). Qed.
Print Assumptions C56_unknown.
Example C56_ex : sound_setup demo calls_m /\ sound_query calls_m q_ex /\ history demo calls_m m_ex /\ In w_title (map said (indexed calls_m)) /\ ~ In w_c (map said (indexed calls_m)) /\ map snd (online demo [w_abc; w_def] w_title m_ex) = [1; 2; 3] /\
  snd (mt_onlineMatch demo q_ex w_c m_ex) = Throw EInvalidArg.
Proof. split; [exact m_ex_setup|]. split; [exact q_ex_ok|]. split; [exact m_ex_history|]. split; [vm_compute; tauto|]. split; [vm_compute; intuition discriminate|]. split; vm_compute; reflexivity. Qed.

(** C57: for a query without repeated words, and documents with ids of their own, what onlineMatch adds to the relevancy of match has the bonus exactly if the text is the query up to order.  Missing: queries with repeated words, for which it fails. *)
Theorem C57_bonus_partial : forall E calls m q f mr r m' D t, sound_setup E calls -> sound_query calls q -> history E calls m -> no_self_price (price_calls calls) ->
  Forall whole calls -> NoDup (map doc_getID (corpora calls)) -> In D (corpora calls) -> doc_getText D f = Ok t -> q <> [] -> NoDup q ->
  In f (map said (indexed calls)) -> mt_onlineMatch E q f m = (m', Ok r) -> mt_match E q sp_new m = (m', Ok mr) ->
  exists view views, shows r view /\ shows mr views /\
    forall x y, In (x, doc_getID D) view -> In (y, doc_getID D) views -> exists e, x = d_add e y /\ exact_bonus q t e.
Proof. intros E calls m q f mr r m' D t SS SQ HH. exact (online_has_bonus SS SQ HH (f := f) (D := D) (t := t)). Qed.
Print Assumptions C57_bonus_partial.

(** C57, exactly: for every query, repeated words or not, the bonus is given if and only if each query word is in the text and there are as many of them as the text has words; the query being the text up to order is a case of this. *)
Theorem C57_given : forall E calls m q f mr r m' D t, sound_setup E calls -> sound_query calls q -> history E calls m -> no_self_price (price_calls calls) ->
  Forall whole calls -> NoDup (map doc_getID (corpora calls)) -> In D (corpora calls) -> doc_getText D f = Ok t -> q <> [] ->
  In f (map said (indexed calls)) -> mt_onlineMatch E q f m = (m', Ok r) -> mt_match E q sp_new m = (m', Ok mr) ->
  exists view views, shows r view /\ shows mr views /\
    forall x y, In (x, doc_getID D) view -> In (y, doc_getID D) views -> exists e, x = d_add e y /\ given_bonus q t e.
Proof. intros E calls m q f mr r m' D t SS SQ HH. exact (online_gives_bonus SS SQ HH (f := f) (D := D) (t := t)). Qed.
Print Assumptions C57_given.

(** C57 fails: query 'a a', text 'a b'. *)
Theorem C57_repeated_word_refuted : exists E calls m q f m' r D t x, sound_setup E calls /\ sound_query calls q /\ history E calls m /\ In f (map said (indexed calls)) /\
  mt_onlineMatch E q f m = (m', Ok r) /\ corpora calls = [D] /\ doc_getText D f = Ok t /\ ~ Permutation q t /\
  snd (mr_getDocumentID 0 r) = Ok (doc_getID D) /\ snd (mr_getRelevancy 0 r) = Ok x /\ d_lt (d_of_Z 100) x = true.
Proof. exact c57_refuted. Qed.
Print Assumptions C57_repeated_word_refuted.
Example C57_ex : sound_setup demo calls_m /\ sound_query calls_m q_ex /\ history demo calls_m m_ex /\ no_self_price (price_calls calls_m) /\
  Forall whole calls_m /\ map doc_getID (corpora calls_m) = [1; 2; 3; 4] /\ NoDup [w_def; w_abc] /\ In w_title (map said (indexed calls_m)) /\
  exact_part (last_size (indexed calls_m) 1 w_title None) 2 (exact_count (occ calls_m) w_title [w_def; w_abc] 1) = d_of_Z 104.
Proof.
  split; [exact m_ex_setup|]. split; [exact q_ex_ok|]. split; [exact m_ex_history|]. split; [intros a v; vm_compute; intuition discriminate|].
  split; [exact m_ex_whole|]. split; [vm_compute; reflexivity|]. split; [|split; [vm_compute; tauto|vm_compute; reflexivity]].
  constructor; [intros [H|[]]; discriminate H|]. constructor; [intros []|constructor].
Qed.

(** C58: every history of calls completes; each call comes to what Spec_Match.expected allows, and only exhausted storage ends the history. *)
Theorem C58_safe : forall E m0, env_ok E -> mt_new E = Ok m0 -> forall calls, sound_history E calls -> Forall nameable calls ->
  (forall m o, m_run E calls m0 = (m, o) -> o = Ok tt \/ o = Throw ERuntime) /\
  (forall pre c m m' o, calls = pre ++ [c] -> history E pre m -> m_do E c m = (m', o) -> expected c o).
Proof. exact history_safe. Qed.
Print Assumptions C58_safe.
Example C58_ex : mt_new demo = Ok M0 /\ sound_history demo calls_h /\ Forall nameable calls_h /\ snd (m_run demo calls_h M0) = Ok tt.
Proof. split; [exact M0_new|]. split; [exact calls_h_sound|]. split; [exact calls_h_nameable|]. vm_compute. reflexivity. Qed.

(** C59: an empty query. *)
Theorem C59_empty_query : forall E p m, mt_match E [] p m = (m, Ok mr_new).
Proof. exact match_nothing. Qed.
Print Assumptions C59_empty_query.

(** C59: nothing indexed. *)
Theorem C59_nothing_indexed : forall E calls m q p, env_ok E -> Forall clean calls -> history E calls m -> occ calls = [] -> mt_match E q p m = (m, Ok mr_new).
Proof. exact match_unindexed. Qed.
Print Assumptions C59_nothing_indexed.

(** C59: an empty query given to onlineMatch. *)
Theorem C59_empty_online : forall E calls m f r m', sound_setup E calls -> history E calls m -> In f (map said (indexed calls)) -> mt_onlineMatch E [] f m = (m', Ok r) -> mr_size r = 0.
Proof. exact online_nothing. Qed.
Print Assumptions C59_empty_online.
Example C59_ex : history demo [MWeight w_title big; MIndex (docs [(1, [(w_title, [])])])] (after demo [MWeight w_title big; MIndex (docs [(1, [(w_title, [])])])]) /\ occ [MWeight w_title big; MIndex (docs [(1, [(w_title, [])])])] = [] /\
  is_ok (snd (mt_onlineMatch demo [] w_title m_ex)) = true.
Proof. split; [happens|]. split; vm_compute; reflexivity. Qed.

(** C60: an index call that meets an empty name or word ends with out_of_range (unless storage ran out); the matcher stays usable and what was indexed is what came before the empty word. *)
Theorem C60_failing_index : forall E calls m c1 c2 D, env_ok E -> Forall clean calls -> history E calls m -> clean (MIndex (c1 ++ D :: c2)) -> whole (MIndex c1) -> In [] (map said (plan_doc D)) ->
  (forall m' o, mt_index E (c1 ++ D :: c2) m = (m', o) -> o = Throw ERuntime \/
    (o = Throw EOutOfRange /\ history E (calls ++ [MIndex (c1 ++ D :: c2)]) m' /\ exists m1, mt_index E c1 m = (m1, Ok tt) /\ history E (calls ++ [MIndex c1]) m1)) /\
  indexed (calls ++ [MIndex (c1 ++ D :: c2)]) = indexed calls ++ flat_map plan_doc c1 ++ told (plan_doc D).
Proof. intros E calls m c1 c2 D HE Hcl HH Hc Hw Hb. split; [exact (failing_index HE Hcl HH Hc Hw Hb)|exact (failing_log calls c2 Hw Hb)]. Qed.
Print Assumptions C60_failing_index.

(** C60: after it, a document other than the offending one is found exactly if it is found when only the documents before that were indexed.  Missing: equal relevancies, which fail. *)
Theorem C60_earlier_documents_partial : forall E calls c1 c2 D m' m1 q p n' n1 r r1 d, whole (MIndex c1) -> In [] (map said (plan_doc D)) ->
  sound_setup E (calls ++ [MIndex (c1 ++ D :: c2)]) -> sound_setup E (calls ++ [MIndex c1]) -> sound_query (calls ++ [MIndex (c1 ++ D :: c2)]) q -> sound_query (calls ++ [MIndex c1]) q ->
  history E (calls ++ [MIndex (c1 ++ D :: c2)]) m' -> history E (calls ++ [MIndex c1]) m1 -> clean (MMatch q p) ->
  mt_match E q p m' = (n', Ok r) -> mt_match E q p m1 = (n1, Ok r1) -> d <> doc_getID D ->
  exists v v1, shows r v /\ shows r1 v1 /\ ((exists x, In (x, d) v) <-> (exists x, In (x, d) v1)).
Proof. intros E calls c1 c2 D m' m1 q p n' n1 r r1 d Hw Hb. exact (@failing_found E calls c1 c2 D Hw Hb m' m1 q p n' n1 r r1 d). Qed.
Print Assumptions C60_earlier_documents_partial.

(** C60 fails as stated: the offending document is found too, and its words change the relevancies of others. *)
Theorem C60_as_if_not_given_refuted : exists E c1 D c2 m0 m1 m2 q m1' m2' r1 r2, env_ok E /\ mt_new E = Ok m0 /\ clean (MIndex (c1 ++ D :: c2)) /\ whole (MIndex c1) /\ In [] (map said (plan_doc D)) /\
  mt_index E c1 m0 = (m1, Ok tt) /\ mt_index E (c1 ++ D :: c2) m0 = (m2, Throw EOutOfRange) /\
  sound_setup E [MIndex c1] /\ sound_setup E [MIndex (c1 ++ D :: c2)] /\ sound_query [MIndex c1] q /\
  mt_match E q sp_new m1 = (m1', Ok r1) /\ mt_match E q sp_new m2 = (m2', Ok r2) /\
  mr_size r1 <> mr_size r2 /\ snd (mr_getDocumentID 0 r1) = snd (mr_getDocumentID 0 r2) /\ snd (mr_getRelevancy 0 r1) <> snd (mr_getRelevancy 0 r2).
Proof. exact c60_refuted. Qed.
Print Assumptions C60_as_if_not_given_refuted.

(** C65: one typing error of any kind, or two that are not swaps.  Missing: two errors of which one is a swap, for which it fails. *)
Theorem C65_typo_partial : forall E calls m q p m' r d f w qw, sound_setup E calls -> sound_query calls q -> history E calls m -> clean (MMatch q p) -> default_like (price_calls calls) -> no_self_price (price_calls calls) ->
  unfiltered p -> In (d, f, w) (occ calls) -> searching p f -> In qw q ->
  (typo w qw \/ swapped w qw \/ ((2 <= length qw)%nat \/ sp_dynamic p = false) /\ exists w', typo w w' /\ typo w' qw) ->
  mt_match E q p m = (m', Ok r) -> exists view x, shows r view /\ In (x, d) view.
Proof. intros E calls m q p m' r d f w qw SS SQ HH Hc Hd Hs. exact (@typo_found E calls m q p SS SQ HH Hc Hd Hs m' r d f w qw). Qed.
Print Assumptions C65_typo_partial.

(** C65 fails: abc, one letter left out, then a swap: ca. *)
Theorem C65_swap_and_typo_refuted : exists E calls m q m' r d f w w' qw, sound_setup E calls /\ sound_query calls q /\ history E calls m /\ price_calls calls = [] /\
  mt_match E q sp_new m = (m', Ok r) /\ In (d, f, w) (occ calls) /\ In qw q /\ (2 <= length qw)%nat /\ typo w w' /\ swapped w' qw /\ mr_size r = 0.
Proof. exact c65_refuted. Qed.
Print Assumptions C65_swap_and_typo_refuted.
Example C65_ex : sound_setup demo calls_m /\ sound_query calls_m q_ex /\ history demo calls_m m_ex /\ default_like (price_calls calls_m) /\ no_self_price (price_calls calls_m) /\ typo w_def [100; 101; 120] /\ typo [100; 101; 120] [101; 120] /\ map snd (found demo [[101; 120]] sp_new m_ex) = [1].
Proof. split; [exact m_ex_setup|]. split; [exact q_ex_ok|]. split; [exact m_ex_history|]. split; [defaults|]. split; [intros a v [H|[]]; discriminate|]. split; [exact (ty_replace [100; 101] 102 120 [])|]. split; [exact (ty_leave [] 100 [101; 120])|]. vm_compute. reflexivity. Qed.

(** C66: in substring mode a part of a word costs at most 15 for each letter before and after it. *)
Theorem C66_part_cost : forall cs a q b, s_sins (scalars_after cs) = 15%Z -> s_edel (scalars_after cs) = 15%Z -> s_limit (scalars_after cs) <= N.of_nat (length q) -> q <> [] -> no_self_price cs ->
  exists c, min_cost (prices_of (ev_after cs) (length q)) q (a ++ q ++ b) c /\ (c <= 15 * Z.of_nat (length a) + 15 * Z.of_nat (length b))%Z.
Proof. exact substring_cost. Qed.
Print Assumptions C66_part_cost.

(** C66: and so it is found if that is within the limit. *)
Theorem C66_part_found : forall E calls m q p m' r d f a qw b, sound_setup E calls -> sound_query calls q -> history E calls m -> clean (MMatch q p) ->
  default_like (price_calls calls) -> no_self_price (price_calls calls) ->
  s_sins (scalars_after (price_calls calls)) = 15%Z -> s_edel (scalars_after (price_calls calls)) = 15%Z -> s_limit (scalars_after (price_calls calls)) <= N.of_nat (length qw) -> qw <> [] ->
  (15 * Z.of_nat (length a) + 15 * Z.of_nat (length b) <= limit p qw)%Z ->
  unfiltered p -> In (d, f, a ++ qw ++ b) (occ calls) -> searching p f -> In qw q ->
  mt_match E q p m = (m', Ok r) -> exists view x, shows r view /\ In (x, d) view.
Proof. exact substring_found. Qed.
Print Assumptions C66_part_found.
Example C66_ex : sound_setup demo c66 /\ sound_query c66 [w_abc] /\ history demo c66 (after demo c66) /\ scalars_after (price_calls c66) = mkSc 100 100 15 15 100 3 /\ map snd (found demo [w_abc] sp_new (after demo c66)) = [1].
Proof. split; [unfold c66; setup|]. split; [query|]. split; [happens|]. split; vm_compute; reflexivity. Qed.
