(** Properties C07 (second half), C09 - C19 and C70: approximate word search. *)
From Verif Require Import Base TrieM TrieH ErrorValuesM LevIndexM Spec_Hist Spec_Edit Spec_EV Spec_Lev EVR LevP LevX Demo StoreX.
Local Open Scope Z_scope.

(** In all theorems [ops] is the history of insertWord calls of the index and
    [calls] the history of calls on the ErrorValues object (calls that threw
    included). *)

(** C07, index half.  The empty word is ignored in every state. *)
Theorem C07_levindex_ignores_empty : forall E s id, li_insertWord E [] id s = (s, Ok tt).
Proof. reflexivity. Qed.
Print Assumptions C07_levindex_ignores_empty.
Example C07_lev_ex : li_insertWord demo [] 5 lev_s = (lev_s, Ok tt) /\ li_wordCount lev_s 9 = 0%N.
Proof. split; [reflexivity|]. vm_compute. reflexivity. Qed.

(** C09. *)
Theorem C09_counts : forall E s0 ops s,
  li_new E = Ok s0 -> lev_ops ops -> lev_insert_all E ops s0 = (s, Ok tt) ->
  (forall id, li_wordCount s id = times id ops) /\
  (forall id, times id ops <= li_maxCount s)%N /\ (exists id, times id ops = li_maxCount s) /\
  (forall w, w <> [] -> Forall nonnul w ->
     (In w (words_of ops) /\ li_hasWord s w = Ok true) \/ (~ In w (words_of ops) /\ li_hasWord s w = Ok false)) /\
  (forall ws, NoDup ws -> (forall w, In w ws <-> In w (words_of ops) /\ w <> []) ->
     li_numWords s = Ok (N.of_nat (length ws))).
Proof. exact @lev_counts. Qed.
Print Assumptions C09_counts.
Example C09_ex : li_new demo = Ok (li0 demo) /\ lev_ops lev_ex /\ lev_insert_all demo lev_ex (li0 demo) = (lev_s, Ok tt) /\
  times 1 lev_ex = 2%N /\ li_wordCount lev_s 1 = 2%N /\ li_maxCount lev_s = 2%N /\ li_numWords lev_s = Ok 4%N.
Proof.
  split; [apply li0_demo|]. split; [apply lev_ex_ok|]. split; [apply lev_ex_run|]. repeat split; vm_compute; reflexivity.
Qed.

(** C10.  Every reported match is an inserted word at its minimum edit cost. *)
Theorem C10_sound : forall E s0 s ops calls q,
  li_new E = Ok s0 -> lev_ops ops -> lev_insert_all E ops s0 = (s, Ok tt) ->
  Forall nonnul q -> fits (ev_after calls) ops q ->
  forall maxE m id err, env_ok E -> findWords E s q (ev_after calls) maxE [] = (m, Ok tt) -> In (id, err) m ->
  exists w, assoc (real ops) w = Some id /\ min_cost (prices_of (ev_after calls) (length q)) q w err /\ err <= maxE.
Proof. exact @sound. Qed.
Print Assumptions C10_sound.

(** C11.  Every inserted word within the limit is reported, at that cost, when a
    swap is not cheaper than the alternatives ... *)
Theorem C11_complete : forall E s0 s ops calls q,
  li_new E = Ok s0 -> lev_ops ops -> lev_insert_all E ops s0 = (s, Ok tt) ->
  Forall nonnul q -> fits (ev_after calls) ops q ->
  forall maxE m w id c, env_ok E -> nonneg (ev_after calls) -> swaps_not_cheap (ev_after calls) (length q) ->
  findWords E s q (ev_after calls) maxE [] = (m, Ok tt) -> assoc (real ops) w = Some id ->
  min_cost (prices_of (ev_after calls) (length q)) q w c -> c <= maxE -> In (id, c) m.
Proof. exact @complete. Qed.
Print Assumptions C11_complete.
(** ... which is so for the defaults, substring mode and the standard tables. *)
Theorem C11_defaults_qualify : forall calls, default_like calls ->
  nonneg (ev_after calls) /\ (forall n, swaps_not_cheap (ev_after calls) n) /\
  (forall ops q, Z.of_nat (longest ops + length q + 2) * 100 + 10000 <= 2147483647 -> fits (ev_after calls) ops q).
Proof. exact default_prices. Qed.
Print Assumptions C11_defaults_qualify.
(** C10 and C11 together are not vacuous: a search in substring mode with
    keyboard errors and an accent group finds two of the four words. *)
Example C11_ex :
  li_new demo = Ok (li0 demo) /\ lev_ops lev_ex /\ lev_insert_all demo lev_ex (li0 demo) = (lev_s, Ok tt) /\
  env_ok demo /\ Forall nonnul q_abc /\ default_like calls_ex /\ fits (ev_after calls_ex) lev_ex q_abc /\
  nonneg (ev_after calls_ex) /\ swaps_not_cheap (ev_after calls_ex) (length q_abc) /\
  snd (findWords demo lev_s q_abc (ev_after calls_ex) 100 []) = Ok tt /\
  fst (findWords demo lev_s q_abc (ev_after calls_ex) 100 []) = [(2%N, 15); (1%N, 100)] /\
  snd (findWords demo lev_s q_abc (ev_after []) 100 []) = Ok tt /\
  fst (findWords demo lev_s q_abc (ev_after []) 100 []) = [(1%N, 100); (2%N, 100)].
Proof.
  split; [apply li0_demo|]. split; [apply lev_ex_ok|]. split; [apply lev_ex_run|]. split; [apply demo_ok|].
  split; [apply q_abc_ok|]. split; [apply calls_ex_default|].
  destruct (default_prices calls_ex_default) as (H1 & H2 & H3).
  split; [apply H3; cbn; lia|]. split; [exact H1|]. split; [apply H2|]. repeat split; vm_compute; reflexivity.
Qed.

(** C12, exactly: for all prices, negative ones included, a word is reported - at its minimum edit cost - if and only if that cost is within the limit and each proper beginning of the word is within the limit of some beginning of the query. *)
Theorem C12_exact : forall E s0 s ops calls q,
  li_new E = Ok s0 -> lev_ops ops -> lev_insert_all E ops s0 = (s, Ok tt) ->
  Forall nonnul q -> fits (ev_after calls) ops q ->
  forall maxE m, env_ok E -> findWords E s q (ev_after calls) maxE [] = (m, Ok tt) -> forall id err,
  In (id, err) m <-> exists w, assoc (real ops) w = Some id /\
    min_cost (prices_of (ev_after calls) (length q)) q w err /\ err <= maxE /\
    begins_near (prices_of (ev_after calls) (length q)) q w maxE.
Proof. exact @exactly. Qed.
Print Assumptions C12_exact.

(** With a swap at 10 the word 'ab' is at 10 from 'ba', but its beginning 'a' is at 100: found with a limit of 100, not with 10. *)
Example C12_ex : li_new demo = Ok (li0 demo) /\ lev_ops c12_ops /\ snd (lev_insert_all demo c12_ops (li0 demo)) = Ok tt /\ Forall nonnul c12_q /\
  fits (ev_after [SetTransposeError 10]) c12_ops c12_q /\
  findWords demo c12_s c12_q (ev_after [SetTransposeError 10]) 100 [] = ([(1%N, 10)], Ok tt) /\
  findWords demo c12_s c12_q (ev_after [SetTransposeError 10]) 10 [] = ([], Ok tt).
Proof.
  split; [apply li0_demo|]. split; [exact c12_ops_ok|]. split; [vm_compute; reflexivity|]. split; [exact c12_q_ok|]. split; [exact c12_fits|].
  split; [rewrite (@run_eq _ _ (findWords demo c12_s c12_q (ev_after [SetTransposeError 10]) 100) [] (Ok tt)) by (vm_compute; reflexivity)|
          rewrite (@run_eq _ _ (findWords demo c12_s c12_q (ev_after [SetTransposeError 10]) 10) [] (Ok tt)) by (vm_compute; reflexivity)];
  f_equal; vm_compute; reflexivity.
Qed.

(** C12 is false. *)
Theorem C12_complete_any_prices_refuted : exists E s0 ops s calls q maxE m w id c,
  env_ok E /\ li_new E = Ok s0 /\ lev_ops ops /\ lev_insert_all E ops s0 = (s, Ok tt) /\
  Forall nonnul q /\ fits (ev_after calls) ops q /\ nonneg (ev_after calls) /\
  findWords E s q (ev_after calls) maxE [] = (m, Ok tt) /\
  assoc (real ops) w = Some id /\ min_cost (prices_of (ev_after calls) (length q)) q w c /\ c <= maxE /\
  ~ In id (map fst m).
Proof. exact c12_refuted. Qed.
Print Assumptions C12_complete_any_prices_refuted.

(** C13.  Matches come sorted; old matches stay; each id is reported once if no
    two words share an id. *)
Theorem C13_unique_sorted : forall E s0 s ops calls q,
  li_new E = Ok s0 -> lev_ops ops -> lev_insert_all E ops s0 = (s, Ok tt) ->
  Forall nonnul q -> fits (ev_after calls) ops q ->
  forall maxE m0 m, env_ok E -> findWords E s q (ev_after calls) maxE m0 = (m, Ok tt) ->
  exists new, findWords E s q (ev_after calls) maxE [] = (new, Ok tt) /\ Permutation m (m0 ++ new) /\
    Sorted (fun a b => snd a <= snd b) m /\
    ((forall w1 w2 id, assoc (real ops) w1 = Some id -> assoc (real ops) w2 = Some id -> w1 = w2) -> NoDup (map fst new)).
Proof. exact @unique_sorted. Qed.
Print Assumptions C13_unique_sorted.
Example C13_ex : snd (findWords demo lev_s q_abc (ev_after []) 200 [(8%N, 150)]) = Ok tt /\
  fst (findWords demo lev_s q_abc (ev_after []) 200 [(8%N, 150)]) = [(1%N, 100); (2%N, 100); (8%N, 150); (3%N, 200)].
Proof. split; vm_compute; reflexivity. Qed.

(** The accessors give the match at that position and refuse all others; clear forgets all. *)
Theorem C13_access : forall (m : imatches) num,
  (forall id err, nth_error m (N.to_nat num) = Some (id, err) -> (num < im_size m)%N /\ im_getMatch m num = Ok id /\ im_getMatchError m num = Ok err) /\
  ((im_size m <= num)%N -> im_getMatch m num = Throw EOutOfRange /\ im_getMatchError m num = Throw EOutOfRange /\ im_getQuery m num = Throw EOutOfRange) /\
  im_size (im_clear m) = 0%N.
Proof. exact im_access. Qed.
Print Assumptions C13_access.
Example C13_access_ex : im_getMatch [(8%N, 150)] 0 = Ok 8%N /\ im_getMatch [(8%N, 150)] 1 = Throw EOutOfRange.
Proof. split; reflexivity. Qed.

(** C14. *)
Theorem C14_exact_spelling : forall E s0 s ops calls q,
  li_new E = Ok s0 -> lev_ops ops -> lev_insert_all E ops s0 = (s, Ok tt) ->
  Forall nonnul q -> fits (ev_after calls) ops q ->
  forall maxE m id, env_ok E -> nonneg (ev_after calls) -> 0 <= maxE ->
  (forall a, In a q -> getSubstituteError (ev_after calls) a a = Ok 0) ->
  findWords E s q (ev_after calls) maxE [] = (m, Ok tt) -> assoc (real ops) q = Some id ->
  In (id, 0) m /\ forall id' err, In (id', err) m -> 0 <= err.
Proof. exact @exact_spelling. Qed.
Print Assumptions C14_exact_spelling.
Example C14_ex : nonneg (ev_after calls_ex) /\ fits (ev_after calls_ex) lev_ex [97; 98; 99]%N /\
  (forall a, In a [97; 98; 99]%N -> getSubstituteError (ev_after calls_ex) a a = Ok 0) /\
  assoc (real lev_ex) [97; 98; 99]%N = Some 1%N /\
  snd (findWords demo lev_s [97; 98; 99]%N (ev_after calls_ex) 0 []) = Ok tt /\
  fst (findWords demo lev_s [97; 98; 99]%N (ev_after calls_ex) 0 []) = [(1%N, 0)].
Proof.
  destruct (default_prices calls_ex_default) as (H1 & H2 & H3).
  split; [exact H1|]. split; [apply H3; cbn; lia|]. split; [|repeat split; vm_compute; reflexivity].
  intros a [<-|[<-|[<-|[]]]]; vm_compute; reflexivity.
Qed.

(** C15. *)
Theorem C15_limit_monotone : forall E s0 s ops calls q,
  li_new E = Ok s0 -> lev_ops ops -> lev_insert_all E ops s0 = (s, Ok tt) ->
  Forall nonnul q -> fits (ev_after calls) ops q ->
  forall m1 m2 r1 r2 id err, env_ok E -> m1 <= m2 ->
  findWords E s q (ev_after calls) m1 [] = (r1, Ok tt) -> findWords E s q (ev_after calls) m2 [] = (r2, Ok tt) ->
  In (id, err) r1 -> In (id, err) r2.
Proof. exact @limit_mono. Qed.
Print Assumptions C15_limit_monotone.
Example C15_ex : fst (findWords demo lev_s q_abc (ev_after calls_ex) 99 []) = [(2%N, 15)] /\
  snd (findWords demo lev_s q_abc (ev_after calls_ex) 99 []) = Ok tt /\
  snd (findWords demo lev_s q_abc (ev_after calls_ex) 100 []) = Ok tt.
Proof. repeat split; vm_compute; reflexivity. Qed.

(** C16 (and the general form of C18's failed assertion).  A search without NUL
    query letters never has undefined behaviour; it completes unless assertions
    are on and the insertion and deletion prices differ. *)
Theorem C16_search_safe : forall E s0 s ops calls q,
  li_new E = Ok s0 -> lev_ops ops -> lev_insert_all E ops s0 = (s, Ok tt) ->
  Forall nonnul q -> fits (ev_after calls) ops q ->
  forall maxE m0,
  (e_ndebug E = true \/ q = [] \/ getInsertionError (ev_after calls) = getDeletionError (ev_after calls) ->
     exists m, findWords E s q (ev_after calls) maxE m0 = (m, Ok tt)) /\
  (e_ndebug E = false -> q <> [] -> getInsertionError (ev_after calls) <> getDeletionError (ev_after calls) ->
     findWords E s q (ev_after calls) maxE m0 = (m0, Abort)).
Proof. exact @safe. Qed.
Print Assumptions C16_search_safe.
(** The overflow hypothesis follows from a bound on the values given to the
    setters. *)
Theorem C16_bounded_arguments_fit : forall calls B ops q, 100 <= B -> Forall (value_in (- B) B) calls ->
  Z.of_nat (longest ops + length q + 2) * B + 10000 <= 2147483647 -> fits (ev_after calls) ops q.
Proof. exact fits_bounded. Qed.
Print Assumptions C16_bounded_arguments_fit.
Example C16_ex : fits (ev_after [SetError 97 98 (-5000); SetTransposeError 7000]) lev_ex q_abc.
Proof. apply (@fits_bounded _ 10000); [lia|repeat (constructor; [cbn; lia|]); constructor|cbn; lia]. Qed.

(** C17 is false: a query with a NUL letter reads before the matrix. *)
Theorem C17_nul_query_refuted : exists E s0 ops s q,
  env_ok E /\ li_new E = Ok s0 /\ lev_ops ops /\ lev_insert_all E ops s0 = (s, Ok tt) /\
  constructible E q /\ fits (ev_after []) ops q /\
  snd (findWords E s q (ev_after []) 200 []) = UB.
Proof. exact c17_refuted. Qed.
Print Assumptions C17_nul_query_refuted.

(** C18 is false: with different prices a search aborts in a debug build; in a
    release build dropping the first letter of the query "ba" is charged the
    deletion price 100 although an insertion costs 10. *)
Theorem C18_independent_prices_refuted :
  (exists E s0 ops s calls q, env_ok E /\ li_new E = Ok s0 /\ lev_ops ops /\ lev_insert_all E ops s0 = (s, Ok tt) /\
     Forall nonnul q /\ fits (ev_after calls) ops q /\ findWords E s q (ev_after calls) 200 [] = ([], Abort)) /\
  (exists E s0 ops s calls, env_ok E /\ li_new E = Ok s0 /\ lev_ops ops /\ lev_insert_all E ops s0 = (s, Ok tt) /\
     ops = [([97], 1)]%N /\ getInsertionError (ev_after calls) = 10 /\
     findWords E s [98; 97]%N (ev_after calls) 200 [] = ([(1%N, 100)], Ok tt)).
Proof. exact c18_refuted. Qed.
Print Assumptions C18_independent_prices_refuted.

(** C19. *)
Theorem C19_matrix_set : forall r c v em,
  ((r <= em_rows em)%nat /\ (c <= em_cols em)%nat ->
     exists em', em_set r c v em = (em', Ok tt) /\ em_rows em' = em_rows em /\ em_cols em' = em_cols em /\
       em_get em' r c = Ok v /\ forall r' c', (r', c') <> (r, c) -> em_get em' r' c' = em_get em r' c') /\
  (~ ((r <= em_rows em)%nat /\ (c <= em_cols em)%nat) -> em_set r c v em = (em, Throw EOutOfRange)).
Proof. exact set_spec. Qed.
Print Assumptions C19_matrix_set.
Theorem C19_total_min : forall em r, (0 < em_cols em)%nat ->
  (forall c, (c < em_cols em)%nat -> exists x, em_get em r c = Ok x) ->
  em_total em r = em_get em r (em_cols em - 1) /\
  exists v, em_min em r = Ok v /\
    (forall c x, (c < em_cols em)%nat -> em_get em r c = Ok x -> v <= x) /\
    (exists c, (c < em_cols em)%nat /\ em_get em r c = Ok v).
Proof. exact total_min_spec. Qed.
Print Assumptions C19_total_min.
Example C19_ex : exists em, em_new 3 2 100 15 = Ok em /\ em_total em 0 = Ok 100 /\ em_min em 0 = Ok 0 /\
  em_get em 3 0 = Ok 45 /\ em_set 4 0 1 em = (em, Throw EOutOfRange) /\ em_get em 1 1 = UB.
Proof. eexists. split; [reflexivity|]. repeat split. Qed.

(** C70 is false: the query word given to a match is lost - IndexMatches::getQuery
    answers the empty word for every match. *)
Theorem C70_match_remembers_query_refuted :
  (forall (m : imatches) num, (num < im_size m)%N -> im_getQuery m num = Ok []) /\
  exists q id err, q <> [] /\ im_getQuery (im_addMatch q id err []) 0 <> Ok q.
Proof. split; [exact getQuery_empty|]. exists [97%N], 1%N, 0. split; discriminate. Qed.
Print Assumptions C70_match_remembers_query_refuted.
