(** C127, C128: MatchResults, ResultFilter and SearchParameters when memory runs out.
    Programs: [pstmt] and [p_runs] in ParM.v, where a list of booleans says which
    allocations succeed; what should happen: Spec_Par.v. *)
From Verif Require Import Base TrieM WordM MapM DoubleM ContM OwnM OomM Spec_Oom ParM Spec_Par ParR ParX.
Local Open Scope N_scope.

(** C127: all or nothing: whichever allocations fail, the variables hold what the
    statements that were done give when run alone, with memory enough. *)
Theorem C127_effects p ops m vs fs : p_runs ops (mkMem p 0) [] = (m, vs, fs) -> y_run (p_done ops fs) [] = Some (the_pvalues vs).
Proof. exact (@effects p ops m vs fs). Qed.
Print Assumptions C127_effects.
Example C127_effects_ex : p_runs x_tour (mkMem x_plan 0) [] = (x_mem, x_vars, x_fates) /\ length x_tour = 21%nat /\ length (p_done x_tour x_fates) = 18%nat /\
  y_filter (the_pvalues x_vars) 2 = Some [[([97], [98])]; [([97], [100])]] /\
  option_map sp_filter (y_params (the_pvalues x_vars) 3) = Some [[]; []].
Proof. split; [exact x_run|]. vm_compute. repeat split. Qed.
(** C127: a statement that would return with memory enough either has just that effect,
    or throws bad_alloc and leaves all variables as they are; the latter only if
    allocations are yet to fail. *)
Theorem C127_next p ops m vs fs c v' : p_runs ops (mkMem p 0) [] = (m, vs, fs) -> ~ In Died_undefined fs -> y_step c (the_pvalues vs) = Some v' ->
  exists m' vs' f, p_runs (ops ++ [c]) (mkMem p 0) [] = (m', vs', fs ++ [f]) /\
  ((f = Done /\ the_pvalues vs' = v') \/ (f = Threw OutOfMemory /\ vs' = vs /\ plan m <> [])).
Proof. exact (fun H => @next p ops m vs fs H c v'). Qed.
Print Assumptions C127_next.
Example C127_next_ex : ~ In Died_undefined x_fates /\ exists v', y_step (QParamsSubTerm 3 [97] [98]) (the_pvalues x_vars) = Some v' /\
  option_map sp_filter (y_params v' 3) = Some [[]; [([97], [98])]].
Proof. split; [vm_compute; intuition discriminate|]. eexists. split; vm_compute; reflexivity. Qed.
(** C127: nothing but bad_alloc is thrown, and out_of_range by copyResult; bad_alloc not
    with memory enough. *)
Theorem C127_thrown p ops m vs fs : p_runs ops (mkMem p 0) [] = (m, vs, fs) ->
  (forall q, In (Threw q) fs -> q = OutOfMemory \/ q = Thrown EOutOfRange) /\ (p = [] -> ~ In (Threw OutOfMemory) fs).
Proof. exact (fun H => conj (@thrown p ops m vs fs H) (@enough p ops m vs fs H)). Qed.
Print Assumptions C127_thrown.
Theorem C127_range p ops m vs fs x y i r r2 : p_runs ops (mkMem p 0) [] = (m, vs, fs) -> ~ In Died_undefined fs ->
  y_res (the_pvalues vs) x = Some r -> y_res (the_pvalues vs) y = Some r2 -> mr_size r2 <= i ->
  p_runs (ops ++ [QResTake x y i]) (mkMem p 0) [] = (m, vs, fs ++ [Threw (Thrown EOutOfRange)]).
Proof. exact (fun H => @range p ops m vs fs H x y i r r2). Qed.
Print Assumptions C127_range.
Example C127_range_ex : exists r2, y_res (the_pvalues x_vars) 0 = Some r2 /\ mr_size r2 = 5.
Proof. eexists. split; vm_compute; reflexivity. Qed.
(** C127: whichever allocations fail, nothing is undefined but r.addResults(r), and no
    assertion fails. *)
Theorem C127_safe p ops m vs fs : p_runs ops (mkMem p 0) [] = (m, vs, fs) ->
  ~ In Died_abort fs /\ ~ In Died_fuel fs /\ forall k, nth_error fs k = Some Died_undefined -> exists x, nth_error ops k = Some (QResAddAll x x).
Proof. exact (@safe p ops m vs fs). Qed.
Print Assumptions C127_safe.
Example C127_safe_ex : snd (p_runs [QRes; QResAdd 0 7 d_one; QResAddAll 0 0; QRes] (mkMem [] 0) []) = [Done; Done; Died_undefined].
Proof. vm_compute. reflexivity. Qed.

(** C128: after a program that destroyed all it made no more is allocated than one for
    each copy of MatchResults and each constructor of ResultFilter and SearchParameters
    that threw; and not less than nothing.  Missing: that nothing is. *)
Theorem C128_freed_partial p ops m vs fs : p_runs ops (mkMem p 0) [] = (m, vs, fs) -> ~ In Died_undefined fs ->
  (forall v, In v vs -> v = None) -> (0 <= live m <= p_lost ops fs)%Z.
Proof. exact (@freed p ops m vs fs). Qed.
Print Assumptions C128_freed_partial.
Example C128_freed_ex : exists m vs, p_runs x_ends (mkMem x_plan 0) [] = (m, vs, x_fates ++ repeat Done 4) /\ (forall v, In v vs -> v = None) /\
  p_lost x_ends (x_fates ++ repeat Done 4) = 0%Z.
Proof. eexists _, _. split; [vm_compute; reflexivity|]. split; [|vm_compute; reflexivity]. intros v H. repeat (destruct H as [<-|H]; [reflexivity|]). destruct H. Qed.
(** C128: nothing is freed that was not allocated. *)
Theorem C128_not_too_much p ops m vs fs : p_runs ops (mkMem p 0) [] = (m, vs, fs) -> ~ In Died_undefined fs -> (0 <= live m)%Z.
Proof. exact (@not_too_much p ops m vs fs). Qed.
Print Assumptions C128_not_too_much.
Example C128_not_too_much_ex : live x_mem = 18%Z.
Proof. vm_compute. reflexivity. Qed.
(** C128: false of the copy of MatchResults that are not empty, of the constructor of
    ResultFilter and of that of SearchParameters: whenever their last allocation fails
    one is lost. *)
Theorem C128_copy_refuted p ops m vs fs x r q : p_runs ops (mkMem p 0) [] = (m, vs, fs) -> ~ In Died_undefined fs ->
  y_res (the_pvalues vs) x = Some r -> mr_results r <> [] -> plan m = true :: false :: q ->
  p_runs (ops ++ [QResCopy x]) (mkMem p 0) [] = (mkMem q (live m + 1), vs, fs ++ [Threw OutOfMemory]).
Proof. exact (fun H => @leak_copy p ops m vs fs H x r q). Qed.
Print Assumptions C128_copy_refuted.
Example C128_copy_ex : exists m vs, p_runs [QRes; QResAdd 0 7 d_one; QResCopy 0; QDestroy 0] (mkMem (fails 3) 0) [] = (m, vs, [Done; Done; Threw OutOfMemory; Done]) /\
  vs = [None] /\ live m = 1%Z.
Proof. eexists _, _. split; [vm_compute; reflexivity|]. split; reflexivity. Qed.
Theorem C128_filter_refuted p ops m vs fs q : p_runs ops (mkMem p 0) [] = (m, vs, fs) -> ~ In Died_undefined fs -> plan m = true :: false :: q ->
  p_runs (ops ++ [QFilter]) (mkMem p 0) [] = (mkMem q (live m + 1), vs, fs ++ [Threw OutOfMemory]).
Proof. exact (fun H => @leak_filter p ops m vs fs H q). Qed.
Print Assumptions C128_filter_refuted.
Theorem C128_params_refuted p ops m vs fs q : p_runs ops (mkMem p 0) [] = (m, vs, fs) -> ~ In Died_undefined fs -> plan m = true :: true :: false :: q ->
  p_runs (ops ++ [QParams]) (mkMem p 0) [] = (mkMem q (live m + 1), vs, fs ++ [Threw OutOfMemory]).
Proof. exact (fun H => @leak_params p ops m vs fs H q). Qed.
Print Assumptions C128_params_refuted.
Example C128_params_ex : p_runs [QFilter] (mkMem (fails 1) 0) [] = (mkMem [] 1, [], [Threw OutOfMemory]) /\ p_runs [QParams] (mkMem (fails 2) 0) [] = (mkMem [] 1, [], [Threw OutOfMemory]).
Proof. vm_compute. split; reflexivity. Qed.
