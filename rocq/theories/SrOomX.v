(** Searches that run out of memory: runs. *)
From Verif Require Import Base TrieM ErrorValuesM LevIndexM Spec_Hist Spec_Lev Spec_EV FailM SrOomM SrOomP Demo StoreX LevX.

Definition sr_plan0 : list bool := [true; true; true; true; true; true; true; true; true; true; false].
Definition sr_run : rstate * fres unit := r_findWords demo lev_s q_abc (ev_after []) 200 (mkSR [(8%N, 150%Z)] sr_plan0 5).
Lemma sr_run_eq : sr_matches (fst sr_run) = [(8%N, 150%Z); (3%N, 200%Z)] /\ sr_live (fst sr_run) = 5%nat /\ snd sr_run = Out.
Proof. split; [vm_compute; reflexivity|]. split; vm_compute; reflexivity. Qed.
Definition sr_run2 : rstate * fres unit := r_findWords demo lev_s q_abc (ev_after []) 200 (mkSR [(8%N, 150%Z)] [] 5).
Lemma sr_run2_eq : sr_matches (fst sr_run2) = [(1%N, 100%Z); (2%N, 100%Z); (8%N, 150%Z); (3%N, 200%Z)] /\ sr_live (fst sr_run2) = 5%nat /\ snd sr_run2 = Val tt.
Proof. split; [vm_compute; reflexivity|]. split; vm_compute; reflexivity. Qed.

(** The third allocation of the matrix fails. *)
Definition leak_run : rstate * fres unit := r_findWords demo lev_s q_abc (ev_after []) 200 (mkSR [] [true; true; false] 0).
Lemma leak_out : snd leak_run = Out.
Proof. vm_compute. reflexivity. Qed.
Lemma leak_live : sr_live (fst leak_run) = 2%nat.
Proof. vm_compute. reflexivity. Qed.
Lemma leak_eq : leak_run = (fst leak_run, Out).
Proof. rewrite <- leak_out at 1. apply surjective_pairing. Qed.
Lemma sr_leak : exists E s0 ops s q e maxE plan st, li_new E = Ok s0 /\ lev_ops ops /\ lev_insert_all E ops s0 = (s, Ok tt) /\ Forall nonnul q /\ r_findWords E s q e maxE (mkSR [] plan 0) = (st, Out) /\ sr_live st = 2%nat.
Proof.
  exists demo, (li0 demo), lev_ex, lev_s, q_abc, (ev_after []), 200%Z, [true; true; false], (fst leak_run).
  exact (conj li0_demo (conj lev_ex_ok (conj lev_ex_run (conj q_abc_ok (conj leak_eq leak_live))))).
Qed.
