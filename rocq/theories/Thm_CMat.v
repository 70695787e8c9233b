(** C131: a C program whose matchers run out of memory.  The functions: [x_do] in CMatM.v,
    programs: [x_run], where a list of booleans says which allocations succeed; the same
    with memory enough: [c_run] of CApiM.v; vocabulary: Spec_CMat.v. *)
From Verif Require Import Base TrieM WordStoreM ErrorValuesM LevIndexM WordM MapM DoubleM ContM MatcherM DataFileM CApiM FailM
  Spec_Hist Spec_EV Spec_Word Spec_Cont Spec_Edit Spec_Lev Spec_Match Spec_File Spec_CApi Spec_Fail CMatM Spec_CMat StoreX DataX CApiX CMatP CMatQ CMatR CMatS CMatX.
Local Open Scope N_scope.

(** C131: a matcher of a C program is what a C++ program would have that makes the same
    calls, catches std::bad_alloc and goes on (C123, C124). *)
Theorem C131_as_cpp : forall E W calls plan st n m, folds_shipped E -> shipped W -> Forall c_strings calls -> x_reached E W calls plan st -> live (x_heap st) n (OMatcher m) ->
  let hist := x_history E W calls (mkX [] plan []) n in unfilled hist ->
  exists plan', f_history E (map fst hist) plan' (map snd hist) (as_is st n m).
Proof. exact (fun E W calls plan st n m HF HW => @x_as_cpp E W HF HW calls plan st n m). Qed.
Print Assumptions C131_as_cpp.

(** C131: a search that returns results finds the documents that have a word close enough to
    a word of the query among those indexed before memory ran out: of each call that ran
    out some beginning of its words, of the others all.  Missing: the two places of C123. *)
Theorem C131_search_partial : forall E W calls plan st n m, env_ok E -> lower_ok E -> folds_shipped E -> shipped W -> Forall c_strings calls -> x_reached E W calls plan st ->
  live (x_heap st) n (OMatcher m) -> let hist := x_history E W calls (mkX [] plan []) n in unfilled hist -> in_bounds (map fst hist) -> spared (as_is st n m) ->
  exists done, remains (map fst hist) (map snd hist) done /\ forall s q st' k, c_text s -> splitToWords E s = Ok q -> moderate (map fst hist) q ->
    x_do E W (col_matcher_match (PAt n) s) st = (st', Gave (VPtr (PAt k))) ->
    exists r view, live (x_heap st') k (OResults r) /\ shows r view /\ ranked view /\
      forall d, (exists x, In (x, d) view) <-> exists f w qw err, In (d, f, w) (occs done) /\ In qw q /\ near (prices_after (map fst hist)) sp_new qw w err.
Proof. exact (fun E W calls plan st n m HEo HE HF HW => @x_search E W HEo HE HF HW calls plan st n m). Qed.
Print Assumptions C131_search_partial.

(** C131: calls on a matcher, its prices and its weights return, with or without having
    run out of memory; nothing is undefined.  Missing: the two places of C123. *)
Theorem C131_safe_partial : forall E W calls plan st n m c st' e, env_ok E -> lower_ok E -> folds_shipped E -> shipped W -> Forall c_strings calls -> x_reached E W calls plan st ->
  live (x_heap st) n (OMatcher m) -> let hist := x_history E W calls (mkX [] plan []) n in unfilled hist -> on_matcher c n -> handles_ok c (x_heap st) -> c_strings c ->
  match c with col_matcher_match _ s => in_bounds (map fst hist) /\ forall q, splitToWords E s = Ok q -> moderate (map fst hist) q | _ => True end ->
  x_do E W c st = (st', e) -> ~ In AtWordIndex (places st' n) /\ ~ In AtCounts (places st' n) -> exists v, e = Gave v \/ e = Short v.
Proof. exact (fun E W calls plan st n m c st' e HEo HE HF HW => @x_safe E W HEo HE HF HW calls plan st n m c st' e). Qed.
Print Assumptions C131_safe_partial.
(** C131: false at those places. *)
Theorem C131_crash_refuted : exists E W calls plan st s n m, Forall c_strings calls /\ x_reached E W calls plan st /\ live (x_heap st) n (OMatcher m) /\ unfilled (x_history E W calls (mkX [] plan []) n) /\
  c_strings (col_matcher_match (PAt n) s) /\ snd (x_do E W (col_matcher_match (PAt n) s) st) = X_undefined.
Proof. exact x_crash. Qed.
Print Assumptions C131_crash_refuted.

(** C131: a function that runs out of memory gives what its caller is to take for a failure,
    if it gives anything ... *)
Theorem C131_fallback : forall E W calls plan st es k c v, x_run E W calls (mkX [] plan []) = (st, es) -> nth_error calls k = Some c -> nth_error es k = Some (Short v) -> v = fallback c.
Proof. exact (fun E W calls plan => @x_fallback_run E W calls (mkX [] plan [])). Qed.
Print Assumptions C131_fallback.
(** ... but col_matcher_index gives nothing: false that a program can tell.  All calls give
    the same with and without enough memory, and later searches do not. *)
Theorem C131_silent_refuted : exists E W calls plan1 plan2 st1 es1 st2 es2 look v1 v2, x_run E W calls (mkX [] plan1 []) = (st1, es1) /\ x_run E W calls (mkX [] plan2 []) = (st2, es2) /\
  all_end es1 /\ all_end es2 /\ map given es1 = map given es2 /\ x_plan st1 = x_plan st2 /\
  snd (x_run E W look st1) = map Gave v1 /\ snd (x_run E W look st2) = map Gave v2 /\ v1 <> v2.
Proof. exact x_silent. Qed.
Print Assumptions C131_silent_refuted.

(** C131: with memory enough a program does what it does in the model that knows nothing
    of memory (C61, C84 - C87). *)
Theorem C131_enough : forall E W calls h vs, c_run E W calls [] = (h, Ok vs) -> x_run E W calls (mkX [] [] []) = (mkX h [] [], map Gave vs).
Proof. exact x_enough. Qed.
Print Assumptions C131_enough.

(** C131: a call that did not run out does what it does in that model, whatever happened
    before; one that did makes no object, and changes none but the one it is called on. *)
Theorem C131_effects : forall E W c st st' v, (x_do E W c st = (st', Gave v) -> c_do E W c (x_heap st) = (x_heap st', Ok v)) /\
  (x_do E W c st = (st', Short v) -> length (x_heap st') = length (x_heap st) /\ forall k, ~ may_change c k -> nth_error (x_heap st') k = nth_error (x_heap st) k).
Proof. exact (fun E W c st st' v => conj (@x_gave E W c st st' v) (@x_rest E W c st st' v)). Qed.
Print Assumptions C131_effects.
(** C131: so does a program none of whose calls ran out. *)
Theorem C131_told : forall E W calls plan st vs, x_run E W calls (mkX [] plan []) = (st, map Gave vs) -> c_run E W calls [] = (x_heap st, Ok vs).
Proof. exact (fun E W calls plan => @x_told E W calls (mkX [] plan [])). Qed.
Print Assumptions C131_told.

Example C131_ex : env_ok demo_file /\ lower_ok demo_file /\ folds_shipped demo_file /\ shipped the_disk /\ Forall c_strings c_prog /\ x_reached demo_file the_disk c_prog (q_plan 19) q_st /\
  live (x_heap q_st) 0 (OMatcher q_mat) /\ unfilled q_hist /\ in_bounds (map fst q_hist) /\ spared (as_is q_st 0 q_mat) /\ places q_st 0 = [AtStats] /\ map snd q_hist = [Val tt; Val tt; Val tt; Out].
Proof.
  split; [exact file_env_ok|]. split; [exact file_lower_ok|]. split; [exact fold_ok|]. split; [exact the_disk_ok|]. split; [exact c_prog_strings|]. split; [exact q_reached|]. split; [exact q_live|].
  split; [exact q_unfilled|]. split; [exact q_bounds|]. split; [exact q_spared|]. split; [exact q_places|exact q_outs].
Qed.
(** "helo" finds the document, "world" was not indexed. *)
Example C131_search_ex : c_text s_helo /\ splitToWords demo_file s_helo = Ok q_helo /\ moderate (map fst q_hist) q_helo /\ on_matcher (col_matcher_match (PAt 0) s_helo) 0 /\
  snd (x_run demo_file the_disk q_look q_st) = [Gave (VPtr (PAt 4)); Gave (VSize 1); Gave (VPtr (PAt 5)); Gave (VSize 0)].
Proof. split; [exact s_helo_text|]. split; [exact q_helo_split|]. split; [exact q_moderate|]. split; [right; left; now exists s_helo|exact q_found]. Qed.
Example C131_fallback_ex : x_run demo_file the_disk c_prog (mkX [] (q_plan 19) []) = (q_st, q_ends) /\ nth_error q_ends 12 = Some (Short VVoid) /\
  snd (x_run demo_file the_disk [col_matcher_new] (mkX [] [false] [])) = [Short (VPtr PNull)].
Proof. split; [exact q_run_eq|]. split; vm_compute; reflexivity. Qed.
Example C131_enough_ex : c_run demo_file the_disk c_prog [] = (c_heap, Ok c_vals).
Proof. exact c_prog_run. Qed.
Example C131_effects_ex : snd (x_do demo_file the_disk (col_matcher_match (PAt 0) s_helo) q_st) = Gave (VPtr (PAt 4)) /\
  snd (x_do demo_file the_disk (col_matcher_match (PAt 0) s_helo) (mkX (x_heap q_st) [false] [])) = Short (VPtr PNull) /\ may_change (col_matcher_match (PAt 0) s_helo) 0 /\ ~ may_change (col_matcher_match (PAt 0) s_helo) 1.
Proof. split; [vm_compute; reflexivity|]. split; [vm_compute; reflexivity|]. split; [reflexivity|discriminate]. Qed.
Example C131_told_ex : snd (x_run demo_file the_disk c_prog (mkX [] (repeat true 12) [])) = map Gave c_vals.
Proof. vm_compute. reflexivity. Qed.
