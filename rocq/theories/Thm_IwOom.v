(** C135: IndexWeights and MatcherStatistics that run out of memory.  The functions:
    [i_setWeight] and [t_wordProcessed] in IwOomM.v, where a list of booleans says which
    allocations succeed and a number counts the blocks allocated; clients: [o_all], and
    [o_life] with constructor and destructor; vocabulary: Spec_IwOom.v, and [last_for] of
    Spec_Cont.v, the last value given for a key. *)
From Verif Require Import Base TrieM WordM MapM DoubleM ContM Spec_Cont FailM IwOomM Spec_IwOom ContP IwOomP.

(** C135: every setWeight returns or runs out of memory, and the weights are those that the
    calls which returned would give alone. *)
Theorem C135_weights : forall calls plan live st os, o_all i_setWeight calls (mkHO [] plan live) = (st, os) -> length os = length calls /\ Forall as_told os /\
  forall w, iw_getWeight (ho_obj st) w = match last_for (returned calls os) w with Some x => x | None => d_of_Z 1 end.
Proof. exact iw_run. Qed.
Print Assumptions C135_weights.
(** C135: every wordProcessed returns or runs out of memory, and the counts are those of the
    calls which returned. *)
Theorem C135_counts : forall ids plan live st os, o_all t_wordProcessed ids (mkHO [] plan live) = (st, os) -> length os = length ids /\ Forall as_told os /\
  forall id, st_getTotalWordCount (ho_obj st) id = N.of_nat (count_occ N.eq_dec (returned ids os) id).
Proof. exact ms_run. Qed.
Print Assumptions C135_counts.
(** C135: after any calls the object holds the blocks that its elements need and no others... *)
Theorem C135_held : (forall calls plan live st os, o_all i_setWeight calls (mkHO [] plan live) = (st, os) -> ho_live st = (live + i_blocks (ho_obj st))%nat) /\
  (forall ids plan live st os, o_all t_wordProcessed ids (mkHO [] plan live) = (st, os) -> ho_live st = (live + t_blocks (ho_obj st))%nat).
Proof. exact (conj iw_held ms_held). Qed.
Print Assumptions C135_held.
(** ... so that nothing is left at the end of its life. *)
Theorem C135_freed : (forall calls plan live os live', o_life i_setWeight i_blocks [] calls plan live = (os, live') -> live' = live /\ Forall as_told os) /\
  (forall ids plan live os live', o_life t_wordProcessed t_blocks [] ids plan live = (os, live') -> live' = live /\ Forall as_told os).
Proof. exact (conj iw_life ms_life). Qed.
Print Assumptions C135_freed.
(** C135: with memory enough no call runs out. *)
Theorem C135_enough : (forall calls plan live, Forall (fun b => b = true) plan -> snd (o_all i_setWeight calls (mkHO [] plan live)) = repeat (Val tt) (length calls)) /\
  (forall ids plan live, Forall (fun b => b = true) plan -> snd (o_all t_wordProcessed ids (mkHO [] plan live)) = repeat (Val tt) (length ids)).
Proof. exact (conj iw_enough ms_enough). Qed.
Print Assumptions C135_enough.

(** The copy of the second key, and the node of the third, cannot be allocated; the second
    weight is set again. *)
Example C135_ex : let calls := [([1], d_of_Z 2); ([2], d_of_Z 3); ([], d_of_Z 4); ([2], d_of_Z 5); ([1], d_of_Z 6)]%N in
  let r := o_all i_setWeight calls (mkHO [] [true; true; true; false; false] 7) in
  snd r = [Val tt; Out; Out; Val tt; Val tt] /\ ho_live (fst r) = 11%nat /\ returned calls (snd r) = [([1], d_of_Z 2); ([2], d_of_Z 5); ([1], d_of_Z 6)]%N /\
  iw_getWeight (ho_obj (fst r)) [1]%N = d_of_Z 6 /\ iw_getWeight (ho_obj (fst r)) []%N = d_of_Z 1.
Proof. cbv zeta. split; [vm_compute; reflexivity|]. split; [vm_compute; reflexivity|]. split; [vm_compute; reflexivity|]. split; vm_compute; reflexivity. Qed.
Example C135_counts_ex : let r := o_all t_wordProcessed [4; 5; 4; 5]%N (mkHO [] [true; false] 7) in
  snd r = [Val tt; Out; Val tt; Val tt] /\ st_getTotalWordCount (ho_obj (fst r)) 4 = 2%N /\ st_getTotalWordCount (ho_obj (fst r)) 5 = 1%N /\ ho_live (fst r) = 9%nat.
Proof. repeat split; reflexivity. Qed.
Example C135_freed_ex : o_life i_setWeight i_blocks [] [([1]%N, d_of_Z 2)] [true; true; false] 7 = ([Out], 7%nat) /\ Forall (fun b => b = true) [true; true].
Proof. split; [reflexivity|now repeat constructor]. Qed.
