(** C134: a search of a LevenshteinIndex that runs out of memory.  The function:
    [r_findWords] in SrOomM.v, where a list of booleans says which allocations succeed and
    a number counts the blocks allocated; with memory enough: [findWords] in LevIndexM.v.
    The index is an argument only: no search changes it. *)
From Verif Require Import Base TrieM ErrorValuesM LevIndexM Spec_Hist Spec_Lev Spec_EV FailM SrOomM Demo StoreX LevX SrOomP SrOomX.
From Coq Require Import Permutation.

(** C134: a search ends as with memory enough, or runs out of memory; then the matches the
    caller had are there as before, followed by some of those the search finds. *)
Theorem C134_ends : forall E s q e maxE m0 plan live st o, env_ok E -> r_findWords E s q e maxE (mkSR m0 plan live) = (st, o) ->
  (exists r, findWords E s q e maxE m0 = (sr_matches st, r) /\ o = as_res r) \/
  (o = Out /\ exists some, sr_matches st = m0 ++ some /\ forall m, findWords E s q e maxE m0 = (m, Ok tt) -> exists rest, Permutation m (m0 ++ some ++ rest)).
Proof. exact sr_ends. Qed.
Print Assumptions C134_ends.
(** C134: with memory enough it does not run out. *)
Theorem C134_enough : forall E s q e maxE m0 plan live, Forall (fun b => b = true) plan ->
  exists st, r_findWords E s q e maxE (mkSR m0 plan live) = (st, as_res (snd (findWords E s q e maxE m0))) /\ sr_matches st = fst (findWords E s q e maxE m0).
Proof. exact sr_enough. Qed.
Print Assumptions C134_enough.

(** C134: a search that returns or throws has freed what it allocated, and so has one that
    runs out of memory when its matrix is complete.  Missing: searches that run out before;
    they lose at most the blocks of the matrix. *)
Theorem C134_freed_partial : forall E s q e maxE m0 plan live st o, r_findWords E s q e maxE (mkSR m0 plan live) = (st, o) -> o = Val tt \/ o = Out \/ (exists x, o = Thrown x) ->
  (live <= sr_live st)%nat /\ (sr_live st < live + (li_longest s + 3))%nat /\
  (Forall (fun b => b = true) (firstn (li_longest s + 3) plan) -> sr_live st = live) /\ (o <> Out -> sr_live st = live).
Proof. exact sr_freed. Qed.
Print Assumptions C134_freed_partial.
(** C134: they do lose them. *)
Theorem C134_leak_refuted : exists E s0 ops s q e maxE plan st, li_new E = Ok s0 /\ lev_ops ops /\ lev_insert_all E ops s0 = (s, Ok tt) /\ Forall nonnul q /\
  r_findWords E s q e maxE (mkSR [] plan 0) = (st, Out) /\ sr_live st = 2%nat.
Proof. exact sr_leak. Qed.
Print Assumptions C134_leak_refuted.

(** Memory runs out at the second match of three; and the same search with memory enough. *)
Example C134_ex : env_ok demo /\ sr_matches (fst sr_run) = [(8%N, 150%Z); (3%N, 200%Z)] /\ sr_live (fst sr_run) = 5%nat /\ snd sr_run = Out.
Proof. exact (conj demo_ok sr_run_eq). Qed.
Example C134_enough_ex : Forall (fun b => b = true) [true; true] /\ sr_matches (fst sr_run2) = [(1%N, 100%Z); (2%N, 100%Z); (8%N, 150%Z); (3%N, 200%Z)] /\ sr_live (fst sr_run2) = 5%nat /\ snd sr_run2 = Val tt.
Proof. split; [now repeat constructor|exact sr_run2_eq]. Qed.
Example C134_freed_ex : li_longest lev_s = 6%nat /\ Forall (fun b => b = true) (firstn 9 sr_plan0).
Proof. split; [vm_compute; reflexivity|now repeat constructor]. Qed.
