(** C64, C88: who owns which memory.  Programs: [op] and [prog] in OwnM.v; what they should
    do without memory: Spec_Own.v. *)
From Verif Require Import Base TrieM WordM MapM DoubleM ContM OwnM Spec_Own Demo OwnX OwnP OwnQ OwnR OwnS.

(** C64: a program of constructions, copies, moves, assignments, methods and destructions
    of Word, WordList, Document, Corpus and MatchResults objects, correct on values, runs
    without memory error and leaves in every variable the value it should have. *)
Theorem C64_values E ops vs os : explicit ops -> v_prog E ops [] = (vs, Ok os) ->
  exists m cs, prog E ops ([], []) = ((m, cs), Ok os) /\ holds_values m cs vs.
Proof. exact (@prog_values E ops vs os). Qed.
Print Assumptions C64_values.
Example C64_values_ex : explicit tour /\ v_prog demo tour [] = (tour_values, Ok tour_outcomes).
Proof. split; [exact tour_explicit|exact tour_ok]. Qed.

(** C64: at every point of such a program no address is reached twice, from the same
    object or from two, and none is freed. *)
Theorem C64_no_sharing E ops vs os m cs : explicit ops -> v_prog E ops [] = (vs, Ok os) -> prog E ops ([], []) = ((m, cs), Ok os) ->
  NoDup (flat_map (var_storage m) cs) /\ (forall a, In a (flat_map (var_storage m) cs) -> exists b, nth_error m a = Some (Some b)).
Proof. exact (@prog_storage E ops vs os m cs). Qed.
Print Assumptions C64_no_sharing.
Example C64_no_sharing_ex : prog demo tour ([], []) = ((tour_mem, tour_vars), Ok tour_outcomes) /\ length (flat_map (var_storage tour_mem) tour_vars) = 32%nat.
Proof. split; [exact tour_run|vm_compute; reflexivity]. Qed.

(** C64: a statement changes the value of no variable but its targets. *)
Theorem C64_independent E ops vs os m cs c vs' o : explicit (ops ++ [c]) -> v_prog E ops [] = (vs, Ok os) -> prog E ops ([], []) = ((m, cs), Ok os) ->
  v_exec E c vs = (vs', o) -> fine o ->
  exists m' cs', exec E c (m, cs) = ((m', cs'), o) /\ forall y, (y < length cs)%nat -> ~ In y (changes c) -> var_value m' cs' y = var_value m cs y.
Proof. exact (@independent E ops vs os m cs c vs' o). Qed.
Print Assumptions C64_independent.
Example C64_independent_ex : explicit (tour ++ [ListAdd 3 (WVar 1)]) /\ fine (snd (v_exec demo (ListAdd 3 (WVar 1)) tour_values)) /\ (5 < length tour_vars)%nat /\ ~ In 5%nat (changes (ListAdd 3 (WVar 1))).
Proof. split; [now apply all_explicit|]. split; [vm_compute; exact I|]. split; [vm_compute; repeat constructor|]. intros [H|[]]; discriminate H. Qed.

(** C64: after all variables are destroyed every allocation is freed, if no conversion
    failed. *)
Theorem C64_freed E ops vs os m cs : explicit ops -> v_prog E ops [] = (vs, Ok os) -> prog E ops ([], []) = ((m, cs), Ok os) ->
  (forall o, In o os -> o <> Throw ERuntime) -> (forall v, In v vs -> v = None) -> forall b, In b m -> b = None.
Proof. exact (@prog_freed E ops vs os m cs). Qed.
Print Assumptions C64_freed.
Example C64_freed_ex : explicit tour_ends /\ v_prog demo tour_ends [] = (tour_gone, Ok (repeat (Ok tt) 31)) /\
  prog demo tour_ends ([], []) = ((tour_end_mem, repeat None 10), Ok (repeat (Ok tt) 31)) /\ length tour_end_mem = 51%nat.
Proof. split; [exact tour_ends_explicit|]. split; [exact tour_ends_ok|]. split; [exact tour_end_run|reflexivity]. Qed.

(** C64: false for the classes whose copy constructor is the implicit one: the copy and
    the original free the same memory. *)
Theorem C64_implicit_copy_refuted : exists E ops, fine (snd (v_prog E ops [])) /\ snd (prog E ops ([], [])) = UB.
Proof. exists demo, twice. vm_compute. split; [exact I|reflexivity]. Qed.
Print Assumptions C64_implicit_copy_refuted.

(** C88: false that a statement that throws leaves nothing allocated. *)
Theorem C88_no_leak_refuted : exists E ops vs os m, explicit ops /\ v_prog E ops [] = (vs, Ok os) /\ (forall v, In v vs -> v = None) /\
  prog E ops ([], []) = ((m, [None]), Ok os) /\ unfreed m = 4%nat.
Proof.
  exists demo, fail_ends, [None], fail_outcomes, fail_mem. split; [exact fail_explicit|]. split; [exact fail_ok|]. split; [intros v [<-|[]]; reflexivity|].
  split; [exact fail_run|reflexivity].
Qed.
Print Assumptions C88_no_leak_refuted.
(** C88: at every point what is allocated is what the variables reach, and the
    allocations lost: one for each runtime_error of a conversion, two for that of a
    splitToWords or of an addText that splits. *)
Theorem C88_leak_count E ops vs os m cs : explicit ops -> v_prog E ops [] = (vs, Ok os) -> prog E ops ([], []) = ((m, cs), Ok os) ->
  unfreed m = (length (flat_map (var_storage m) cs) + all_lost ops os)%nat.
Proof. exact (@prog_count E ops vs os m cs). Qed.
Print Assumptions C88_leak_count.
Example C88_leak_count_ex : explicit fail_ends /\ v_prog demo fail_ends [] = ([None], Ok fail_outcomes) /\ prog demo fail_ends ([], []) = ((fail_mem, [None]), Ok fail_outcomes) /\
  all_lost fail_ends fail_outcomes = 4%nat.
Proof. split; [exact fail_explicit|]. split; [exact fail_ok|]. split; [exact fail_run|reflexivity]. Qed.
