(** Theorems that compare searches (C89 - C93).  A history is a list of calls made on a new Matcher; [shows r view] says that reading the result
    object [r] gives the list [view] of (relevancy, document); the prices are those of
    Spec_Edit.v. *)
From Verif Require Import Base TrieM WordStoreM ErrorValuesM LevIndexM Spec_Hist Spec_EV Spec_Edit Spec_Lev WordM Spec_Word MapM DoubleM ContM MatcherM Spec_Cont Spec_Match Spec_Query
  EVR MetricP QueryP QueryG Demo StoreX LevX MatchX QueryX.
Local Open Scope N_scope.

(** C89: two queries with the same words, in whatever order and however often, show the same results, bit for bit. *)
Theorem C89_same_words : forall E calls m q1 q2 p m1 m2 r1 r2, sound_setup E calls -> sound_query calls q1 -> history E calls m -> (forall w, In w q1 <-> In w q2) ->
  clean (MMatch q1 p) -> mt_match E q1 p m = (m1, Ok r1) -> mt_match E q2 p m = (m2, Ok r2) -> exists view, shows r1 view /\ shows r2 view.
Proof. exact query_set. Qed.
Print Assumptions C89_same_words.
Example C89_ex : sound_setup demo calls_m /\ sound_query calls_m q_ex /\ history demo calls_m m_ex /\ (forall w, In w q_ex <-> In w q_xx) /\ clean (MMatch q_ex sp_new) /\
  is_ok (snd (mt_match demo q_ex sp_new m_ex)) = true /\ is_ok (snd (mt_match demo q_xx sp_new m_ex)) = true /\ map snd (found demo q_xx sp_new m_ex) = [4; 1; 3; 2].
Proof.
  split; [exact m_ex_setup|]. split; [exact q_ex_ok|]. split; [exact m_ex_history|]. split; [exact q_xx_same|]. split; [clean1|]. split; [vm_compute; reflexivity|]. split; vm_compute; reflexivity.
Qed.

(** C89: onlineMatch does not depend on the order of the query words. *)
Theorem C89_online_order : forall E calls m q1 q2 f r1 m1, sound_setup E calls -> sound_query calls q1 -> history E calls m -> Permutation q1 q2 -> Forall nonnul f ->
  mt_onlineMatch E q1 f m = (m1, Ok r1) -> exists r2 view, mt_onlineMatch E q2 f m = (m1, Ok r2) /\ shows r1 view /\ shows r2 view.
Proof. exact query_order_online. Qed.
Print Assumptions C89_online_order.
Example C89_online_ex : sound_setup demo calls_m /\ sound_query calls_m [w_abc; w_def] /\ history demo calls_m m_ex /\ Permutation [w_abc; w_def] [w_def; w_abc] /\ Forall nonnul w_title /\
  is_ok (snd (mt_onlineMatch demo [w_abc; w_def] w_title m_ex)) = true /\ map snd (online demo [w_def; w_abc] w_title m_ex) = [1; 2; 3].
Proof.
  split; [exact m_ex_setup|]. split; [query|]. split; [exact m_ex_history|]. split; [constructor|]. split; [repeat constructor|]. split; vm_compute; reflexivity.
Qed.
(** ... but it counts a word again when it is repeated. *)
Theorem C89_online_repeats_refuted : exists E calls m q1 q2 f r1 r2 v1 v2, sound_setup E calls /\ sound_query calls q1 /\ sound_query calls q2 /\ history E calls m /\ (forall w, In w q1 <-> In w q2) /\
  mt_onlineMatch E q1 f m = (m, Ok r1) /\ mt_onlineMatch E q2 f m = (m, Ok r2) /\ shows r1 v1 /\ shows r2 v2 /\ v1 <> v2.
Proof. exact online_twice. Qed.
Print Assumptions C89_online_repeats_refuted.

(** C90: a query with more words finds all that the shorter one finds (any prices that are not negative); for the relevancies see Thm_Float. *)
Theorem C90_more_words : forall E calls m q1 q2 p m1 m2 r1 r2, sound_setup E calls -> sound_query calls q2 -> history E calls m -> incl q1 q2 ->
  clean (MMatch q1 p) -> mt_match E q1 p m = (m1, Ok r1) -> mt_match E q2 p m = (m2, Ok r2) ->
  exists v1 v2, shows r1 v1 /\ shows r2 v2 /\ forall x1 d, In (x1, d) v1 -> exists x2, In (x2, d) v2.
Proof. exact more_words. Qed.
Print Assumptions C90_more_words.
Example C90_ex : sound_setup demo calls_m /\ sound_query calls_m q_ex /\ history demo calls_m m_ex /\ incl [w_abc] q_ex /\ clean (MMatch [w_abc] sp_new) /\
  map snd (found demo [w_abc] sp_new m_ex) = [1; 2; 3] /\ map snd (found demo q_ex sp_new m_ex) = [4; 1; 3; 2].
Proof.
  split; [exact m_ex_setup|]. split; [exact q_ex_ok|]. split; [exact m_ex_history|]. split; [intros w [<-|[]]; now left|]. split; [clean1|]. split; vm_compute; reflexivity.
Qed.

(** C91: a document that is found is still found after any further calls that do not change prices. *)
Theorem C91_more_documents : forall E c more m1 m2 q p m1' m2' r1 r2, sound_setup E (c ++ more) -> sound_query (c ++ more) q -> Forall not_price more -> history E c m1 ->
  m_run E more m1 = (m2, Ok tt) -> clean (MMatch q p) -> mt_match E q p m1 = (m1', Ok r1) -> mt_match E q p m2 = (m2', Ok r2) ->
  exists v1 v2, shows r1 v1 /\ shows r2 v2 /\ forall x1 d, In (x1, d) v1 -> exists x2, In (x2, d) v2.
Proof. exact more_documents. Qed.
Print Assumptions C91_more_documents.
Example C91_ex : sound_setup demo (calls_1 ++ more_1) /\ sound_query (calls_1 ++ more_1) [w_abc] /\ Forall not_price more_1 /\ history demo calls_1 m_1 /\ m_run demo more_1 m_1 = (m_2, Ok tt) /\
  map snd (found demo [w_abc] sp_new m_1) = [1] /\ map snd (found demo [w_abc] sp_new m_2) = [1; 2].
Proof.
  split; [exact both_setup|]. split; [exact both_query|]. split; [repeat constructor|]. split; [exact m_1_history|]. split; [exact m_2_run|]. split; vm_compute; reflexivity.
Qed.
(** Its relevancy may fall, though. *)
Theorem C91_relevancy_kept_refuted : exists E c more m1 m2 q m1' m2' r1 r2 d x1 x2, sound_setup E (c ++ more) /\ sound_query (c ++ more) q /\ Forall not_price more /\ history E c m1 /\
  m_run E more m1 = (m2, Ok tt) /\ mt_match E q sp_new m1 = (m1', Ok r1) /\ mt_match E q sp_new m2 = (m2', Ok r2) /\
  snd (mr_getDocumentID 0 r1) = Ok d /\ snd (mr_getRelevancy 0 r1) = Ok x1 /\ snd (mr_getDocumentID 0 r2) = Ok d /\ snd (mr_getRelevancy 0 r2) = Ok x2 /\ d_lt x2 x1 = true.
Proof. exact relevancy_falls. Qed.
Print Assumptions C91_relevancy_kept_refuted.

(** C93: a weight does not change which documents are found, and no relevancy of a document without words in that (searched) field. *)
Theorem C93_weight_local : forall E c f x m1 m2 q p m1' m2' r1 r2, sound_setup E c -> good_weight x -> sound_query c q -> history E c m1 -> m_do E (MWeight f x) m1 = (m2, Ok tt) ->
  clean (MMatch q p) -> mt_match E q p m1 = (m1', Ok r1) -> mt_match E q p m2 = (m2', Ok r2) ->
  exists v1 v2, shows r1 v1 /\ shows r2 v2 /\ (forall d, (exists y, In (y, d) v1) <-> (exists y, In (y, d) v2)) /\
    forall d, (forall w, In (d, f, w) (occ c) -> ~ searching p f) -> forall y, In (y, d) v1 <-> In (y, d) v2.
Proof. exact weight_others. Qed.
Print Assumptions C93_weight_local.
Example C93_ex : sound_setup demo calls_m /\ good_weight (d_of_Z 3) /\ sound_query calls_m q_ex /\ history demo calls_m m_ex /\ is_ok (snd (m_do demo (MWeight w_title (d_of_Z 3)) m_ex)) = true /\
  (forall w, ~ In (3, w_title, w) (occ calls_m)) /\ map snd (found demo q_ex sp_new (fst (m_do demo (MWeight w_title (d_of_Z 3)) m_ex))) = [4; 1; 2; 3].
Proof.
  split; [exact m_ex_setup|]. split; [exact I|]. split; [exact q_ex_ok|]. split; [exact m_ex_history|]. split; [vm_compute; reflexivity|].
  split; [|vm_compute; reflexivity]. vm_compute. intros w H. repeat (destruct H as [H|H]; [discriminate|]). exact H.
Qed.

(** C92: the error is zero for the word itself only, when every edit costs something. *)
Theorem C92_zero : forall calls q w, all_cost (ev_after calls) (length q) -> (forall a v, ~ In (SetError a a v) calls) ->
  (min_cost (prices_of (ev_after calls) (length q)) q w 0%Z <-> q = w).
Proof. exact zero_iff. Qed.
Print Assumptions C92_zero.
(** ... so a match with error zero is the word that was asked for. *)
Theorem C92_zero_found : forall E s0, env_ok E -> li_new E = Ok s0 -> forall s ops calls q maxE m id, lev_ops ops -> lev_insert_all E ops s0 = (s, Ok tt) ->
  Forall nonnul q -> fits (ev_after calls) ops q -> all_cost (ev_after calls) (length q) -> (forall a v, ~ In (SetError a a v) calls) ->
  findWords E s q (ev_after calls) maxE [] = (m, Ok tt) -> In (id, 0%Z) m -> assoc (real ops) q = Some id.
Proof. exact found_zero. Qed.
Print Assumptions C92_zero_found.
(** C92: the error of a word for a query is that of the query for the word, if adding and leaving out letters cost the same everywhere (whatever the substitution prices). *)
Theorem C92_symmetric : forall calls q w k c, even_handed (ev_after calls) (length q) k -> even_handed (ev_after calls) (length w) k ->
  (min_cost (prices_of (ev_after calls) (length q)) q w c <-> min_cost (prices_of (ev_after calls) (length w)) w q c).
Proof. exact symmetric. Qed.
Print Assumptions C92_symmetric.
Theorem C92_symmetric_found : forall E s0, env_ok E -> li_new E = Ok s0 -> forall s1 s2 calls q w id k maxE m1 m2,
  lev_ops [(w, id)] -> lev_insert_all E [(w, id)] s0 = (s1, Ok tt) -> lev_ops [(q, id)] -> lev_insert_all E [(q, id)] s0 = (s2, Ok tt) ->
  q <> [] -> w <> [] -> fits (ev_after calls) [(w, id)] q -> fits (ev_after calls) [(q, id)] w -> nonneg (ev_after calls) -> (forall n, swaps_not_cheap (ev_after calls) n) ->
  even_handed (ev_after calls) (length q) k -> even_handed (ev_after calls) (length w) k ->
  findWords E s1 q (ev_after calls) maxE [] = (m1, Ok tt) -> findWords E s2 w (ev_after calls) maxE [] = (m2, Ok tt) -> forall c, In (id, c) m1 <-> In (id, c) m2.
Proof. exact exchange. Qed.
Print Assumptions C92_symmetric_found.
(** C92: the error grows with the difference in length ... *)
Theorem C92_lengths : forall E s0, env_ok E -> li_new E = Ok s0 -> forall s ops calls q maxE m id err k, lev_ops ops -> lev_insert_all E ops s0 = (s, Ok tt) ->
  Forall nonnul q -> fits (ev_after calls) ops q -> nonneg (ev_after calls) -> letters_cost (ev_after calls) (length q) k ->
  findWords E s q (ev_after calls) maxE [] = (m, Ok tt) -> In (id, err) m ->
  exists w, assoc (real ops) w = Some id /\ (k * Z.abs (Z.of_nat (length q) - Z.of_nat (length w)) <= err)%Z.
Proof. exact found_lengths. Qed.
Print Assumptions C92_lengths.
(** ... and is bounded by the length of the longer word. *)
Theorem C92_bound : forall calls q w B c, edits_cost_at_most (ev_after calls) (length q) B ->
  min_cost (prices_of (ev_after calls) (length q)) q w c -> (c <= B * Z.of_nat (Nat.max (length q) (length w)))%Z.
Proof. exact upper_bound. Qed.
Print Assumptions C92_bound.
(** A new ErrorValues object has all these properties, with a price of 100; a search for "abc". *)
Example C92_ex : (forall n, all_cost (ev_after []) n /\ even_handed (ev_after []) n 100 /\ letters_cost (ev_after []) n 100 /\ edits_cost_at_most (ev_after []) n 100) /\
  nonneg (ev_after []) /\ (forall n, swaps_not_cheap (ev_after []) n) /\ li_new demo = Ok (li0 demo) /\ lev_ops lev_ex /\ lev_insert_all demo lev_ex (li0 demo) = (lev_s, Ok tt) /\ fits (ev_after []) lev_ex q_abc /\
  fits (ev_after []) [(w_abcd, 7)] q_abc /\
  findWords demo lev_s q_abc (ev_after []) 100 [] = ([(1, 100%Z); (2, 100%Z)], Ok tt).
Proof.
  destruct (default_prices (calls := []) (Forall_nil _)) as (H1 & H2 & H3).
  split; [exact new_costs|]. split; [exact H1|]. split; [exact H2|]. split; [apply li0_demo|]. split; [apply lev_ex_ok|]. split; [apply lev_ex_run|]. split; [apply H3; cbn; lia|].
  split; [apply H3; cbn; lia|]. vm_compute. reflexivity.
Qed.
(** C92: there is no triangle inequality: "ca" to "ac" costs 100, "ac" to "abc" costs 100, but "ca" to "abc" costs 300 (what that means for match is C65_swap_and_typo_refuted). *)
Theorem C92_triangle_refuted : exists q v w c1 c2 c, min_cost (prices_of (ev_after []) (length q)) q v c1 /\ min_cost (prices_of (ev_after []) (length v)) v w c2 /\
  min_cost (prices_of (ev_after []) (length q)) q w c /\ (c1 + c2 < c)%Z.
Proof. exists w_ca, w_ac, w_abc, 100%Z, 100%Z, 300%Z. destruct costs as (H1 & H2 & H3). split; [exact H1|]. split; [exact H2|]. split; [exact H3|]. reflexivity. Qed.
Print Assumptions C92_triangle_refuted.

(** C118: the documents found depend only on which words each document has in which field and on the prices: two histories that agree on these find the same documents, however often, in which order and in how many calls they were indexed, and whatever the weights. *)
Theorem C118_same_words : forall E c1 c2 m1 m2 q p m1' m2' r1 r2, sound_setup E c1 -> sound_setup E c2 -> sound_query c1 q -> history E c1 m1 -> history E c2 m2 ->
  (forall d f w, In (d, f, w) (occ c1) <-> In (d, f, w) (occ c2)) -> prices_after c2 = prices_after c1 ->
  clean (MMatch q p) -> mt_match E q p m1 = (m1', Ok r1) -> mt_match E q p m2 = (m2', Ok r2) ->
  exists v1 v2, shows r1 v1 /\ shows r2 v2 /\ forall d, (exists x, In (x, d) v1) <-> (exists x, In (x, d) v2).
Proof. exact same_words. Qed.
Print Assumptions C118_same_words.
(** C118: so indexing documents again does not change what is found. *)
Theorem C118_again : forall E c k m1 m2 q p m1' m2' r1 r2, sound_setup E (c ++ [MIndex k]) -> sound_query c q -> history E c m1 -> m_do E (MIndex k) m1 = (m2, Ok tt) ->
  Forall whole c -> incl k (corpora c) -> clean (MMatch q p) -> mt_match E q p m1 = (m1', Ok r1) -> mt_match E q p m2 = (m2', Ok r2) ->
  exists v1 v2, shows r1 v1 /\ shows r2 v2 /\ forall d, (exists x, In (x, d) v1) <-> (exists x, In (x, d) v2).
Proof. exact indexed_again. Qed.
Print Assumptions C118_again.
Example C118_ex : sound_setup demo (calls_again ++ [MIndex again_2]) /\ sound_query calls_again [w_abc; w_xyz] /\ history demo calls_again (after demo calls_again) /\
  m_do demo (MIndex again_2) (after demo calls_again) = (m_again, Ok tt) /\ Forall whole calls_again /\ incl again_2 (corpora calls_again) /\
  map snd (found demo [w_abc; w_xyz] sp_new (after demo calls_again)) = [1; 2] /\ map snd (found demo [w_abc; w_xyz] sp_new m_again) = [1; 2].
Proof.
  split; [exact again_setup|]. split; [exact again_query|]. split; [exact again_history|]. split; [exact again_run|]. split; [exact again_whole|]. split; [exact again_incl|]. split; vm_compute; reflexivity.
Qed.
(** The relevancies do change: a document that was not indexed again can gain. *)
Theorem C118_same_relevancy_refuted : exists E c k m1 m2 q m1' m2' r1 r2 d x1 x2, sound_setup E (c ++ [MIndex k]) /\ sound_query c q /\ history E c m1 /\ m_do E (MIndex k) m1 = (m2, Ok tt) /\
  Forall whole c /\ incl k (corpora c) /\ mt_match E q sp_new m1 = (m1', Ok r1) /\ mt_match E q sp_new m2 = (m2', Ok r2) /\
  snd (mr_getDocumentID 0 r1) = Ok d /\ snd (mr_getRelevancy 0 r1) = Ok x1 /\ snd (mr_getDocumentID 0 r2) = Ok d /\ snd (mr_getRelevancy 0 r2) = Ok x2 /\ d_lt x1 x2 = true.
Proof. exact again_changes. Qed.
Print Assumptions C118_same_relevancy_refuted.
