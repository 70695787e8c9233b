(** C136 and C137 in whole programs: Documents assigned and asked for their fields, among
    the statements of OomM.v, when memory runs out.  Programs: [xruns] of DfOomM.v, where a
    list of booleans says which allocations succeed and a number counts the blocks allocated;
    vocabulary: Spec_DfOom.v, and [no_crash] and [the_values] of Spec_Oom.v. *)
From Verif Require Import Base TrieM WordM MapM DoubleM ContM OwnM Spec_Own Demo OomM Spec_Oom OomX DaOomX DfOomM Spec_DfOom DfOomP DfOomX.
Local Open Scope Z_scope.

(** C136, C137: whichever allocations fail, and how many assignments of Documents and calls of
    getFieldNames throw, nothing is undefined but what is so with any amount of memory, a Word
    from no letters and asUtf8 of a Word too long for its buffer; with assertions every
    statement has its effect, those that threw the one that Spec_DfOom.v says; and when all
    objects are destroyed there is left at most what the statements that threw may lose, a
    block for each assignment of a Document and none for getFieldNames.  Missing: that an
    assignment that throws does nothing and loses nothing (refuted in Thm_DaOom.v), and
    programs where other statements that give a new value throw (refuted in Thm_Oom.v). *)
Theorem C136_programs_partial E p ops m vs fs : xruns E ops (mkMem p 0) [] = (m, vs, fs) -> x_never ops fs ->
  ~ In Died_fuel fs /\
  (forall k, nth_error fs k = Some Died_undefined -> nth_error ops k = Some (XStmt (SWordLetters [])) \/
     exists z w, nth_error ops k = Some (XStmt (SWordUtf8 z)) /\ nth_error (the_values vs) z = Some (Some (VWord (WGood w))) /\ asUtf8 w = UB) /\
  (e_ndebug E = false -> effects E ops fs [] (the_values vs)) /\
  (no_crash fs -> (forall v, In v vs -> v = None) -> 0 <= live m <= x_lost ops fs).
Proof. exact (@x_prog E p ops m vs fs). Qed.
Print Assumptions C136_programs_partial.

Example C136_programs_ex : xruns demo x_mixed (mkMem x_mixed_plan 0) [] = (mkMem [] 1, repeat None 5, x_mixed_fates) /\ x_never x_mixed x_mixed_fates /\ x_lost x_mixed x_mixed_fates = 1.
Proof. split; [exact x_mixed_run|]. split; [exact x_mixed_never|reflexivity]. Qed.
Example C136_values_ex : exists m vs, xruns demo (firstn 13 x_mixed) (mkMem x_mixed_plan 0) [] = (m, vs, firstn 13 x_mixed_fates) /\
  nth_error (the_values vs) 0 = Some (Some (VDoc x_new)) /\ nth_error (the_values vs) 4 = Some (Some (VList (Some [[97; 98]]%N))).
Proof. exact x_mixed_values. Qed.
