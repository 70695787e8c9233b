(** LevenshteinIndexes that run out of memory: runs. *)
From Verif Require Import Base TrieM ErrorValuesM LevIndexM Spec_Hist Spec_Lev Spec_EV FailM LvOomM Spec_LvOom LvOomP Demo StoreX LevX.
Local Open Scope N_scope.

Definition lo_ops : list (word * N) := [([97; 98], 1); ([120; 121; 122; 120], 2); ([97; 99], 3); ([97; 98], 1); ([120; 121; 122; 120], 2)].
Definition lo_plan0 : list bool := [true; false; false].
Definition lo_run : lstate * list (fres unit) := l_all demo lo_ops (mkLO (li0 demo) lo_plan0).
Definition lo_st : lstate := fst lo_run.
Lemma lo_ops_ok : lev_ops lo_ops.
Proof. unfold lo_ops. levops. Qed.
Lemma lo_os_eq : snd lo_run = [Val tt; Out; Out; Val tt; Val tt].
Proof. vm_compute. reflexivity. Qed.
Lemma lo_run_eq : l_all demo lo_ops (mkLO (li0 demo) lo_plan0) = (lo_st, [Val tt; Out; Out; Val tt; Val tt]).
Proof. unfold lo_st. generalize lo_os_eq. unfold lo_run. generalize (l_all demo lo_ops (mkLO (li0 demo) lo_plan0)). intros [a b] H. cbn [fst snd] in *. now rewrite H. Qed.
Lemma lo_went : Forall went [Val tt; Out; Out; Val tt; Val tt].
Proof. repeat (constructor; [first [now left|now right]|]). constructor. Qed.
Lemma lo_covered : covered lo_ops [Val tt; Out; Out; Val tt; Val tt].
Proof. vm_compute. repeat constructor. Qed.
Lemma lo_answer : snd (findWords demo (lo_index lo_st) [97] (ev_after []) 1000 []) = Ok tt /\ fst (findWords demo (lo_index lo_st) [97] (ev_after []) 1000 []) = [(1, 100%Z); (3, 100%Z); (2, 400%Z)].
Proof. split; vm_compute; reflexivity. Qed.
Lemma lo_number : li_wordCount (lo_index lo_st) 1 = 2 /\ li_wordCount (lo_index lo_st) 2 = 1 /\ li_wordCount (lo_index lo_st) 3 = 0 /\ li_maxCount (lo_index lo_st) = 2 /\ li_hasWord (lo_index lo_st) [97; 99] = Ok true.
Proof. split; [vm_compute; reflexivity|]. split; [vm_compute; reflexivity|]. split; [vm_compute; reflexivity|]. split; vm_compute; reflexivity. Qed.

(** A word longer than all others. *)
Definition long_ops : list (word * N) := [([97; 98], 1); ([120; 121; 122; 120; 121; 122], 2)].
Definition long_plan : list bool := [true; false].
Definition long_run : lstate * list (fres unit) := l_all demo long_ops (mkLO (li0 demo) long_plan).
Definition long_st : lstate := fst long_run.
Lemma long_ops_ok : lev_ops long_ops.
Proof. unfold long_ops. levops. Qed.
Lemma long_os_eq : snd long_run = [Val tt; Out].
Proof. vm_compute. reflexivity. Qed.
Lemma long_run_eq : l_all demo long_ops (mkLO (li0 demo) long_plan) = (long_st, [Val tt; Out]).
Proof. unfold long_st. generalize long_os_eq. unfold long_run. generalize (l_all demo long_ops (mkLO (li0 demo) long_plan)). intros [a b] H. cbn [fst snd] in *. now rewrite H. Qed.
Lemma a_ok : Forall nonnul [97].
Proof. constructor; [unfold nonnul; lia|constructor]. Qed.
Lemma long_ub : snd (findWords demo (lo_index long_st) [97] (ev_after []) 1000 []) = UB.
Proof. vm_compute. reflexivity. Qed.
Lemma lo_deep : exists E s0 ops plan st q e maxE, li_new E = Ok s0 /\ lev_ops ops /\ l_all E ops (mkLO s0 plan) = (st, [Val tt; Out]) /\ Forall nonnul q /\ snd (findWords E (lo_index st) q e maxE []) = UB.
Proof.
  exists demo, (li0 demo), long_ops, long_plan, long_st, [97], (ev_after []), 1000%Z.
  exact (conj li0_demo (conj long_ops_ok (conj long_run_eq (conj a_ok long_ub)))).
Qed.
(** A word that is in the trie and that nothing counts. *)
Definition lone_ops : list (word * N) := [([97; 98], 1)].
Definition lone_plan : list bool := [false].
Definition lone_run : lstate * list (fres unit) := l_all demo lone_ops (mkLO (li0 demo) lone_plan).
Definition lone_st : lstate := fst lone_run.
Lemma lone_ops_ok : lev_ops lone_ops.
Proof. unfold lone_ops. levops. Qed.
Lemma lone_os_eq : snd lone_run = [Out].
Proof. vm_compute. reflexivity. Qed.
Lemma lone_run_eq : l_all demo lone_ops (mkLO (li0 demo) lone_plan) = (lone_st, [Out]).
Proof. unfold lone_st. generalize lone_os_eq. unfold lone_run. generalize (l_all demo lone_ops (mkLO (li0 demo) lone_plan)). intros [a b] H. cbn [fst snd] in *. now rewrite H. Qed.
Lemma lone_has : li_hasWord (lo_index lone_st) [97; 98] = Ok true.
Proof. vm_compute. reflexivity. Qed.
Lemma lone_count : li_wordCount (lo_index lone_st) 1 = 0.
Proof. vm_compute. reflexivity. Qed.
Lemma lone_max : li_maxCount (lo_index lone_st) = 0.
Proof. vm_compute. reflexivity. Qed.
Lemma lo_uncounted : exists E s0 w id plan st, li_new E = Ok s0 /\ lev_ops [(w, id)] /\ l_all E [(w, id)] (mkLO s0 plan) = (st, [Out]) /\ li_hasWord (lo_index st) w = Ok true /\ li_wordCount (lo_index st) id = 0 /\ li_maxCount (lo_index st) = 0.
Proof.
  exists demo, (li0 demo), [97; 98], 1, lone_plan, lone_st.
  exact (conj li0_demo (conj lone_ops_ok (conj lone_run_eq (conj lone_has (conj lone_count lone_max))))).
Qed.
