(** C133: a LevenshteinIndex, used alone, that runs out of memory.  The function:
    [l_insertWord] in LvOomM.v; clients: [l_all], where a list of booleans says which
    allocations succeed; with memory enough: [lev_insert_all] of Spec_Lev.v; vocabulary:
    Spec_LvOom.v and Spec_Lev.v. *)
From Verif Require Import Base TrieM ErrorValuesM LevIndexM Spec_Hist Spec_Lev Spec_EV FailM LvOomM Spec_LvOom Demo StoreX LevX LvOomP LvOomX.
Local Open Scope N_scope.

(** C133: every call returns or runs out of memory, up to the end that the same calls have
    with memory enough. *)
Theorem C133_ends : forall E s0 ops plan st os, l_all E ops (mkLO s0 plan) = (st, os) ->
  exists s r, lev_insert_all E ops s0 = (s, r) /\ match r with Ok _ => length os = length ops /\ Forall went os | _ => exists os', os = os' ++ [as_res r] /\ Forall went os' end.
Proof. exact lo_ends. Qed.
Print Assumptions C133_ends.

(** C133: the counts are those of the insertions that returned. *)
Theorem C133_counts : forall E s0 ops plan st os, li_new E = Ok s0 -> l_all E ops (mkLO s0 plan) = (st, os) ->
  (forall id, li_wordCount (lo_index st) id = times id (finished ops os)) /\ (forall id, times id (finished ops os) <= li_maxCount (lo_index st)) /\ exists id, times id (finished ops os) = li_maxCount (lo_index st).
Proof. exact lo_counts. Qed.
Print Assumptions C133_counts.

(** C133: the words are those of all insertions, also of those that ran out of memory. *)
Theorem C133_words : forall E s0 ops plan st os, l_all E ops (mkLO s0 plan) = (st, os) -> Forall went os ->
  exists s, lev_insert_all E ops s0 = (s, Ok tt) /\ (forall w, li_hasWord (lo_index st) w = li_hasWord s w) /\ li_numWords (lo_index st) = li_numWords s /\ li_numNodes (lo_index st) = li_numNodes s.
Proof. exact lo_words. Qed.
Print Assumptions C133_words.
(** C133: so an insertion that ran out of memory has an effect, and words and counts differ. *)
Theorem C133_nothing_refuted : exists E s0 w id plan st, li_new E = Ok s0 /\ lev_ops [(w, id)] /\ l_all E [(w, id)] (mkLO s0 plan) = (st, [Out]) /\
  li_hasWord (lo_index st) w = Ok true /\ li_wordCount (lo_index st) id = 0 /\ li_maxCount (lo_index st) = 0.
Proof. exact lo_uncounted. Qed.
Print Assumptions C133_nothing_refuted.

(** C133: a search answers as with memory enough.  Missing: indexes where the longest words
    are all words for which memory ran out. *)
Theorem C133_search_partial : forall E s0 ops plan st os, li_new E = Ok s0 -> l_all E ops (mkLO s0 plan) = (st, os) -> Forall went os -> covered ops os ->
  exists s, lev_insert_all E ops s0 = (s, Ok tt) /\ forall q e maxE m, findWords E (lo_index st) q e maxE m = findWords E s q e maxE m.
Proof. exact lo_search. Qed.
Print Assumptions C133_search_partial.
(** C133: which none is if every insertion that ran out was repeated until it returned. *)
Theorem C133_retry : forall ops os, (forall op, In op ops -> In op (finished ops os)) -> covered ops os.
Proof. exact lo_retry. Qed.
Print Assumptions C133_retry.
(** C133: false of the others: a search goes outside its matrix. *)
Theorem C133_deep_refuted : exists E s0 ops plan st q e maxE, li_new E = Ok s0 /\ lev_ops ops /\ l_all E ops (mkLO s0 plan) = (st, [Val tt; Out]) /\
  Forall nonnul q /\ snd (findWords E (lo_index st) q e maxE []) = UB.
Proof. exact lo_deep. Qed.
Print Assumptions C133_deep_refuted.

(** C133: with memory enough, and if no call ran out, all is as in C09 to C19. *)
Theorem C133_enough : forall E ops s0 s, lev_insert_all E ops s0 = (s, Ok tt) -> l_all E ops (mkLO s0 []) = (mkLO s [], repeat (Val tt) (length ops)).
Proof. exact l_enough. Qed.
Print Assumptions C133_enough.
Theorem C133_told : forall E ops st st', l_all E ops st = (st', repeat (Val tt) (length ops)) -> lev_insert_all E ops (lo_index st) = (lo_index st', Ok tt).
Proof. exact l_told. Qed.
Print Assumptions C133_told.

(** Memory runs out for the second and third word; only the second is inserted again. *)
Example C133_ex : li_new demo = Ok (li0 demo) /\ lev_ops lo_ops /\ l_all demo lo_ops (mkLO (li0 demo) lo_plan0) = (lo_st, [Val tt; Out; Out; Val tt; Val tt]) /\
  Forall went [Val tt; Out; Out; Val tt; Val tt] /\ covered lo_ops [Val tt; Out; Out; Val tt; Val tt] /\ finished lo_ops [Val tt; Out; Out; Val tt; Val tt] = [([97; 98], 1); ([97; 98], 1); ([120; 121; 122; 120], 2)].
Proof. exact (conj li0_demo (conj lo_ops_ok (conj lo_run_eq (conj lo_went (conj lo_covered eq_refl))))). Qed.
Example C133_answers : li_wordCount (lo_index lo_st) 1 = 2 /\ li_wordCount (lo_index lo_st) 2 = 1 /\ li_wordCount (lo_index lo_st) 3 = 0 /\ li_maxCount (lo_index lo_st) = 2 /\ li_hasWord (lo_index lo_st) [97; 99] = Ok true.
Proof. exact lo_number. Qed.
Example C133_answer : snd (findWords demo (lo_index lo_st) [97] (ev_after []) 1000 []) = Ok tt /\ fst (findWords demo (lo_index lo_st) [97] (ev_after []) 1000 []) = [(1, 100%Z); (3, 100%Z); (2, 400%Z)].
Proof. exact lo_answer. Qed.
