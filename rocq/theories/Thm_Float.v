(** Theorems that compare relevancies (C51, C81, C90, C93, C117, C125).  Relevancies are IEEE doubles
    (DoubleM.v); [Spec_Match.contribution] is what one matching word adds, C50 says
    that a relevancy is the sum of these; [at_least x y] says that neither is NaN and
    [x < y] is false. *)
From Verif Require Import Base TrieM WordStoreM ErrorValuesM LevIndexM Spec_Hist Spec_EV Spec_Edit Spec_Lev WordM Spec_Word MapM DoubleM ContM MatcherM Spec_Cont Spec_Match
  Spec_Query Spec_First FloatR FloatS FloatT QueryP QueryF Demo StoreX MatchX QueryX FloatX.
From Coq Require Import Permutation.
Local Open Scope N_scope.

(** C51: a contribution is finite, not negative and at most the weight of the field. *)
Theorem C51_bounds : forall o wt f w err, (0 <= err < 2147483648)%Z -> max_in o f < 9007199254740992 -> good_weight (wt f) -> is_double (wt f) ->
  finite (contribution o wt (f, w, err)) /\ at_least (contribution o wt (f, w, err)) (S754_zero false) /\ at_least (wt f) (contribution o wt (f, w, err)).
Proof. exact contribution_fine. Qed.
Print Assumptions C51_bounds.
Example C51_bounds_ex : finite (contribution (occ calls_m) (weight_after calls_m) (w_title, w_abc, 30%Z)) /\ good_weight (weight_after calls_m w_title) /\
  is_double (weight_after calls_m w_title) /\ max_in (occ calls_m) w_title = 2 /\
  d_lt (S754_zero false) (contribution (occ calls_m) (weight_after calls_m) (w_title, w_abc, 30%Z)) = true.
Proof.
  split; [vm_compute; exact I|]. split; [vm_compute; exact I|]. split; [vm_compute; reflexivity|]. split; vm_compute; reflexivity.
Qed.

(** C51: a smaller error, a word used less often in its field, or a greater weight never gives a smaller contribution. *)
Theorem C51_monotone : forall o wt wt' f f' w w' err err', (0 <= err <= err')%Z -> (err' < 2147483648)%Z -> max_in o f < 9007199254740992 ->
  max_in o f = max_in o f' -> count_in o f w <= count_in o f' w' -> good_weight (wt f) -> is_double (wt f) -> good_weight (wt' f') -> is_double (wt' f') ->
  at_least (wt f) (wt' f') -> at_least (contribution o wt (f, w, err)) (contribution o wt' (f', w', err')).
Proof. exact contribution_mono. Qed.
Print Assumptions C51_monotone.
Example C51_monotone_ex : count_in (occ calls_m) w_title w_def <= count_in (occ calls_m) w_title w_abc /\
  d_lt (contribution (occ calls_m) (fun _ => d_of_Z 1) (w_title, w_abc, 40%Z)) (contribution (occ calls_m) (weight_after calls_m) (w_title, w_def, 30%Z)) = true.
Proof. split; vm_compute; [discriminate|reflexivity]. Qed.

(** C51, as match shows it: two documents in which the query finds one word each, in the same field; the one with the smaller error and the word that is not used more often does not have the smaller relevancy. *)
Theorem C51_match : forall E calls, sound_setup E calls -> real_weights calls -> forall m q p m' r, sound_query calls q -> history E calls m ->
  (forall qw, In qw q -> swaps_not_cheap (prices_after calls) (length qw)) -> clean (MMatch q p) -> mt_match E q p m = (m', Ok r) ->
  forall view x1 d1 x2 d2 f w1 w2 e1 e2, shows r view -> In (x1, d1) view -> In (x2, d2) view ->
  only_hit (occ calls) (near (prices_after calls) p) q p d1 f w1 e1 -> only_hit (occ calls) (near (prices_after calls) p) q p d2 f w2 e2 ->
  (e1 <= e2)%Z -> count_in (occ calls) f w1 <= count_in (occ calls) f w2 -> at_least x1 x2.
Proof. exact match_better. Qed.
Print Assumptions C51_match.
Example C51_match_ex : sound_setup demo calls_f /\ real_weights calls_f /\ sound_query calls_f q_f /\ history demo calls_f m_f /\
  (forall qw, In qw q_f -> swaps_not_cheap (prices_after calls_f) (length qw)) /\
  only_hit (occ calls_f) (near (prices_after calls_f) sp_new) q_f sp_new 1 w_title w_abc 0 /\
  only_hit (occ calls_f) (near (prices_after calls_f) sp_new) q_f sp_new 2 w_title w_xyz 100 /\
  count_in (occ calls_f) w_title w_abc <= count_in (occ calls_f) w_title w_xyz /\ map snd (found demo q_f sp_new m_f) = [1; 2].
Proof.
  split; [exact f_setup|]. split; [exact f_weights|]. split; [exact f_query|]. split; [exact f_history|]. split; [exact f_swaps|]. split; [exact f_only1|]. split; [exact f_only2|].
  split; vm_compute; [discriminate|reflexivity].
Qed.

(** C81: a document that has, in each searched field, all the words that another document found has there, does not have the smaller relevancy (any prices that are not negative). *)
Theorem C81_more_words : forall E calls, sound_setup E calls -> real_weights calls -> forall m q p m' r, sound_query calls q -> history E calls m -> clean (MMatch q p) ->
  mt_match E q p m = (m', Ok r) -> forall view x1 d1 x2 d2, shows r view -> In (x1, d1) view -> In (x2, d2) view ->
  (forall f w, searching p f -> In (d2, f, w) (occ calls) -> In (d1, f, w) (occ calls)) -> at_least x1 x2.
Proof. exact match_more. Qed.
Print Assumptions C81_more_words.
Example C81_ex : sound_setup demo calls_m /\ real_weights calls_m /\ sound_query calls_m q_ex /\ history demo calls_m m_ex /\
  (forall f w, In (2, f, w) (occ calls_m) -> In (1, f, w) (occ calls_m)) /\ map snd (found demo q_ex sp_new m_ex) = [4; 1; 3; 2].
Proof.
  split; [exact m_ex_setup|]. split; [exact m_weights|]. split; [exact q_ex_ok|]. split; [exact m_ex_history|]. split; [|vm_compute; reflexivity].
  vm_compute. intros f w H. repeat (destruct H as [H|H]; [first [discriminate|injection H as <- <-; tauto]|]). destruct H.
Qed.

(** C90: a query with more words finds all that the shorter one finds, and gives none of it a smaller relevancy (any prices that are not negative). *)
Theorem C90_relevancy : forall E calls m q1 q2 p m1 m2 r1 r2, sound_setup E calls -> real_weights calls -> sound_query calls q2 -> history E calls m -> incl q1 q2 ->
  clean (MMatch q1 p) -> mt_match E q1 p m = (m1, Ok r1) -> mt_match E q2 p m = (m2, Ok r2) ->
  exists v1 v2, shows r1 v1 /\ shows r2 v2 /\ (forall x1 d, In (x1, d) v1 -> exists x2, In (x2, d) v2) /\ forall x1 x2 d, In (x1, d) v1 -> In (x2, d) v2 -> at_least x2 x1.
Proof. exact more_words_higher. Qed.
Print Assumptions C90_relevancy.
Example C90_relevancy_ex : sound_setup demo calls_m /\ real_weights calls_m /\ sound_query calls_m q_ex /\ history demo calls_m m_ex /\ incl [w_abc] q_ex /\ clean (MMatch [w_abc] sp_new) /\
  map snd (found demo [w_abc] sp_new m_ex) = [1; 2; 3] /\ map snd (found demo q_ex sp_new m_ex) = [4; 1; 3; 2].
Proof.
  split; [exact m_ex_setup|]. split; [exact m_weights|]. split; [exact q_ex_ok|]. split; [exact m_ex_history|]. split; [intros w [<-|[]]; now left|]. split; [clean1|]. split; vm_compute; reflexivity.
Qed.

(** C93: raising the weight of a field lowers no relevancy. *)
Theorem C93_heavier : forall E c f x m1 m2 q p m1' m2' r1 r2, sound_setup E c -> real_weights c -> good_weight x -> is_double x -> at_least x (weight_after c f) ->
  sound_query c q -> history E c m1 -> m_do E (MWeight f x) m1 = (m2, Ok tt) -> clean (MMatch q p) -> mt_match E q p m1 = (m1', Ok r1) -> mt_match E q p m2 = (m2', Ok r2) ->
  exists v1 v2, shows r1 v1 /\ shows r2 v2 /\ (forall d, (exists y, In (y, d) v1) <-> (exists y, In (y, d) v2)) /\ forall y1 y2 d, In (y1, d) v1 -> In (y2, d) v2 -> at_least y2 y1.
Proof. exact heavier_higher. Qed.
Print Assumptions C93_heavier.
Example C93_heavier_ex : sound_setup demo calls_m /\ real_weights calls_m /\ good_weight (d_of_Z 3) /\ is_double (d_of_Z 3) /\ at_least (d_of_Z 3) (weight_after calls_m w_title) /\ sound_query calls_m q_ex /\
  history demo calls_m m_ex /\ is_ok (snd (m_do demo (MWeight w_title (d_of_Z 3)) m_ex)) = true /\ map snd (found demo q_ex sp_new m_ex) = [4; 1; 3; 2] /\
  map snd (found demo q_ex sp_new (fst (m_do demo (MWeight w_title (d_of_Z 3)) m_ex))) = [4; 1; 2; 3].
Proof.
  split; [exact m_ex_setup|]. split; [exact m_weights|]. split; [exact I|]. split; [reflexivity|]. split; [split; [vm_compute; discriminate|split; [vm_compute; discriminate|vm_compute; reflexivity]]|].
  split; [exact q_ex_ok|]. split; [exact m_ex_history|]. split; [vm_compute; reflexivity|]. split; vm_compute; reflexivity.
Qed.

(** C117: if no field weighs more than K and at most n (field, word) pairs of the document are near a word of the query, with K n at most 2^53, the relevancy of the document is finite and at most K n: no rounding adds up to more. *)
Theorem C117_at_most : forall E calls, sound_setup E calls -> real_weights calls -> forall m q p m' r, sound_query calls q -> history E calls m -> clean (MMatch q p) ->
  mt_match E q p m = (m', Ok r) -> forall view x d K hits, shows r view -> In (x, d) view ->
  (forall f, at_least (d_of_Z K) (weight_after calls f)) ->
  (forall f w qw err, In (d, f, w) (occ calls) -> searching p f -> In qw q -> near (prices_after calls) p qw w err -> In (f, w) hits) ->
  (0 <= K)%Z -> (K * Z.of_nat (length hits) <= 2 ^ 53)%Z ->
  finite x /\ at_least (d_of_Z (K * Z.of_nat (length hits))) x.
Proof. exact match_bounded. Qed.
Print Assumptions C117_at_most.
(** C117: if every field weighs at least a millionth, every document found has a relevancy above zero. *)
Theorem C117_positive : forall E calls, sound_setup E calls -> real_weights calls -> forall m q p m' r, sound_query calls q -> history E calls m -> clean (MMatch q p) ->
  mt_match E q p m = (m', Ok r) -> forall view x d, shows r view -> In (x, d) view -> (forall f, at_least (weight_after calls f) millionth) ->
  d_lt (S754_zero false) x = true.
Proof. exact match_positive. Qed.
Print Assumptions C117_positive.
Example C117_ex : sound_setup demo calls_f /\ real_weights calls_f /\ sound_query calls_f q_f /\ history demo calls_f m_f /\ map snd (found demo q_f sp_new m_f) = [1; 2] /\
  (forall f, at_least (d_of_Z 3) (weight_after calls_f f)) /\ (forall f, at_least (weight_after calls_f f) millionth) /\
  (forall f w qw err, In (1, f, w) (occ calls_f) -> searching sp_new f -> In qw q_f -> near (prices_after calls_f) sp_new qw w err -> In (f, w) [(w_title, w_abc)]) /\
  (* at most 3, above 0; with weight 0 the documents are still found, with relevancy 0 *)
  map (fun x => (d_lt (S754_zero false) (fst x), d_lt (d_of_Z 1) (fst x), d_lt (fst x) (d_of_Z 3))) (found demo q_f sp_new m_f) = [(true, true, true); (true, false, true)] /\
  found demo q_f sp_new (after demo calls_z) = [(S754_zero false, 1); (S754_zero false, 2)].
Proof.
  split; [exact f_setup|]. split; [exact f_weights|]. split; [exact f_query|]. split; [exact f_history|]. split; [vm_compute; reflexivity|]. split; [exact f_heavy|]. split; [exact f_light|]. split; [exact f_hits|].
  split; vm_compute; reflexivity.
Qed.

(** C125: a document whose text in the given field is the query, up to the order of the words, is found by onlineMatch, and comes before every document of which this is not true if the
    words of that document that are close to the query are few or of little weight ([light]).  Missing: documents with many or heavy such words, for which it fails; queries with repeated words. *)
Theorem C125_first_partial : forall E calls, sound_setup E calls -> real_weights calls -> forall m q f D, sound_query calls q -> history E calls m -> Forall whole calls ->
  NoDup (map doc_getID (corpora calls)) -> q <> [] -> NoDup q -> (Z.of_nat (length q) <= 2 ^ 51)%Z -> In D (corpora calls) -> reads_as D f q ->
  exists r i, mt_onlineMatch E q f m = (m, Ok r) /\ at_place r i (doc_getID D) /\
    forall D' j, In D' (corpora calls) -> ~ reads_as D' f q -> light calls q (doc_getID D') -> at_place r j (doc_getID D') -> i < j.
Proof. exact typed_first. Qed.
Print Assumptions C125_first_partial.

(** C125 fails: the query is the title of document 1, but is also a word in the body of document 2, and bodies weigh 1000. *)
Theorem C125_first_refuted : exists E calls m q f D D' r, sound_setup E calls /\ real_weights calls /\ sound_query calls q /\ history E calls m /\ Forall whole calls /\
  NoDup (map doc_getID (corpora calls)) /\ NoDup q /\ In D (corpora calls) /\ reads_as D f q /\ In D' (corpora calls) /\ ~ reads_as D' f q /\
  mt_onlineMatch E q f m = (m, Ok r) /\ at_place r 0 (doc_getID D') /\ at_place r 1 (doc_getID D).
Proof. exact h_refuted. Qed.
Print Assumptions C125_first_refuted.

Example C125_ex : sound_setup demo calls_t /\ real_weights calls_t /\ sound_query calls_t q_t /\ history demo calls_t m_t /\ Forall whole calls_t /\
  map doc_getID (corpora calls_t) = [3; 2; 1] /\ NoDup q_t /\ In (d_t 2) (corpora calls_t) /\ reads_as (d_t 2) w_title q_t /\
  ~ reads_as (d_t 0) w_title q_t /\ light calls_t q_t (doc_getID (d_t 0)) /\ ~ reads_as (d_t 1) w_title q_t /\ light calls_t q_t (doc_getID (d_t 1)) /\
  map snd (online demo q_t w_title m_t) = [1; 3; 2].
Proof.
  split; [exact t_setup|]. split; [exact t_weights|]. split; [exact t_query|]. split; [exact t_history|]. split; [exact t_whole|]. split; [vm_compute; reflexivity|].
  split; [constructor; [intros [H|[]]; discriminate H|constructor; [intros []|constructor]]|]. split; [vm_compute; tauto|].
  split; [exists [w_abc; w_def]; split; [vm_compute; reflexivity|apply perm_swap]|].
  split; [intros (t & Ht & Hp); vm_compute in Ht; injection Ht as <-; assert (Hx : In w_dex q_t) by (apply (Permutation_in w_dex (Permutation_sym Hp)); vm_compute; tauto); vm_compute in Hx; intuition discriminate|].
  split; [apply t_light; repeat constructor|].
  split; [intros (t & Ht & Hp); vm_compute in Ht; injection Ht as <-; apply Permutation_length in Hp; discriminate Hp|].
  split; [apply t_light; repeat constructor|]. vm_compute. reflexivity.
Qed.
