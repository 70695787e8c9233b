(** C119-C121: running out of memory.  Programs: [stmt] and [runs] in OomM.v, where a list
    of booleans says which allocations succeed; what should happen: Spec_Oom.v. *)
From Verif Require Import Base TrieM WordM MapM DoubleM ContM OwnM Spec_Own Demo OomM Spec_Oom OomS OomT OomX.
Local Open Scope N_scope.

(** C119: whichever allocations fail, a program in which nothing that overwrites a value
    threw (no assignment, no addText for a field already there) does nothing undefined, but
    for what is undefined with any amount of memory: a Word from no letters, and asUtf8 of a
    Word too long for its buffer (C75).  Missing: what overwrites and throws. *)
Theorem C119_safe_partial E p ops m vs fs : runs E ops (mkMem p 0) [] = (m, vs, fs) -> undamaged E ops (mkMem p 0) [] ->
  ~ In Died_fuel fs /\
  forall k, nth_error fs k = Some Died_undefined ->
    nth_error ops k = Some (SWordLetters []) \/
    exists x w, nth_error ops k = Some (SWordUtf8 x) /\ nth_error (the_values vs) x = Some (Some (VWord (WGood w))) /\ asUtf8 w = UB.
Proof. exact (fun H Hn => conj (@fuel E p ops m vs fs H Hn) (@safe E p ops m vs fs H Hn)). Qed.
Print Assumptions C119_safe_partial.
Example C119_safe_ex : runs demo x_tour (mkMem x_plan 0) [] = (x_mem, x_vars, x_fates) /\ undamaged demo x_tour (mkMem x_plan 0) [] /\ length x_vars = 7%nat /\
  nth_error x_fates 4 = Some (Threw OutOfMemory).
Proof. split; [exact x_run|]. split; [exact x_undamaged|]. split; reflexivity. Qed.
Example C119_new_field_ex : undamaged demo x_new_field (mkMem (fails_at 13) 0) [] /\
  snd (runs demo x_new_field (mkMem (fails_at 13) 0) []) = [Done; Done; Threw OutOfMemory; Done; Done].
Proof. split; [apply x_new_field_undamaged; auto|vm_compute; reflexivity]. Qed.

(** C119: false after the copy assignment of a Word: whenever the allocation fails, the
    Word assigned to can no more be destroyed. *)
Theorem C119_word_assignment_refuted E p ops m vs fs x y r : runs E ops (mkMem p 0) [] = (m, vs, fs) -> undamaged E ops (mkMem p 0) [] -> no_crash fs ->
  x <> y -> has_letters (the_values vs) x -> has_letters (the_values vs) y -> plan m = false :: r ->
  exists m' vs', runs E (ops ++ [SWordAssign x y; SDestroy x]) (mkMem p 0) [] = (m', vs', fs ++ [Threw OutOfMemory; Died_undefined]).
Proof. exact (fun H Hn => @bad_assign E p ops m vs fs H Hn x y r). Qed.
Print Assumptions C119_word_assignment_refuted.
Example C119_word_assignment_ex : exists m vs fs, let ops := [SWordText x_ab; SWordText x_euros] in
  runs demo ops (mkMem (fails_at 5) 0) [] = (m, vs, fs) /\ undamaged demo ops (mkMem (fails_at 5) 0) [] /\ no_crash fs /\
  has_letters (the_values vs) 0 /\ has_letters (the_values vs) 1 /\ plan m = [false].
Proof.
  eexists _, _, _. cbv zeta. split; [vm_compute; reflexivity|]. split; [eapply never_undamaged; [vm_compute; reflexivity|constructor|now apply never_of]|]. split; [split; intros [H|[H|[]]]; discriminate H|].
  split; [eexists; split; [reflexivity|discriminate]|]. split; [eexists; split; [reflexivity|discriminate]|reflexivity].
Qed.

(** C119: nor after the assignment of a WordList, nor after addText to a field the
    Document has. *)
Theorem C119_list_assignment_refuted : exists n m vs, runs demo x_list (mkMem (fails_at n) 0) [] = (m, vs, [Done; Done; Threw OutOfMemory; Died_undefined]).
Proof. exists 17%nat. eexists _, _. vm_compute. reflexivity. Qed.
Print Assumptions C119_list_assignment_refuted.
Theorem C119_addText_refuted : exists n m vs, runs demo x_field (mkMem (fails_at n) 0) [] = (m, vs, [Done; Done; Done; Done; Threw OutOfMemory; Died_undefined]).
Proof. exists 20%nat. eexists _, _. vm_compute. reflexivity. Qed.
Print Assumptions C119_addText_refuted.

(** C119: the assignment of a text leaves, however it fails, a Word that can be destroyed... *)
Theorem C119_text_assignment_partial E p ops m vs fs x w s m' vs' fs' : runs E ops (mkMem p 0) [] = (m, vs, fs) -> undamaged E ops (mkMem p 0) [] -> no_crash fs ->
  nth_error (the_values vs) x = Some (Some (VWord w)) ->
  runs E (ops ++ [SWordAssignText x s; SDestroy x]) (mkMem p 0) [] = (m', vs', fs') -> ~ In Died_undefined fs'.
Proof. exact (fun H Hn => @text_assign E p ops m vs fs H Hn x w s m' vs' fs'). Qed.
Print Assumptions C119_text_assignment_partial.
Example C119_text_assignment_ex : runs demo x_tour (mkMem x_plan 0) [] = (x_mem, x_vars, x_fates) /\ no_crash x_fates /\ nth_error (the_values x_vars) 0 = Some (Some (VWord (WGood x_ab))) /\
  snd (runs demo [SWordText x_ab; SWordAssignText 0 x_euros; SDestroy 0] (mkMem (fails_at 4) 0) []) = [Done; Threw OutOfMemory; Done].
Proof. split; [exact x_run|]. split; [exact x_fine|]. split; vm_compute; reflexivity. Qed.
(** ...but perhaps not read: its length is that of letters it does not have. *)
Theorem C119_text_assignment_refuted : exists n m vs, runs demo x_read (mkMem (fails_at n) 0) [] = (m, vs, [Done; Threw OutOfMemory; Died_undefined]).
Proof. exists 4%nat. eexists _, _. vm_compute. reflexivity. Qed.
Print Assumptions C119_text_assignment_refuted.

(** C120: all or nothing, in a build with assertions: the variables hold what the
    statements that were done give when run alone, with memory enough.  Missing:
    assignments that threw; builds without assertions. *)
Theorem C120_effects_partial E p ops m vs fs : e_ndebug E = false -> runs E ops (mkMem p 0) [] = (m, vs, fs) -> never_threw assigns ops fs ->
  v_prog E (map same (done ops fs)) [] = (the_values vs, Ok (map (fun _ => Ok tt) (done ops fs))).
Proof. exact (fun Hd H Hn => @effects E p ops m vs fs H Hn (or_introl Hd)). Qed.
Print Assumptions C120_effects_partial.
Example C120_effects_ex : e_ndebug demo = false /\ length (done x_tour x_fates) = 13%nat /\ length x_tour = 17%nat /\
  nth_error (the_values x_vars) 2 = Some (Some (VList (Some [[97; 98]]))).
Proof. vm_compute. repeat split. Qed.
(** C120: with memory enough that is so in every build, and nothing throws bad_alloc. *)
Theorem C120_enough E ops m vs fs : runs E ops (mkMem [] 0) [] = (m, vs, fs) -> never_threw assigns ops fs ->
  ~ In (Threw OutOfMemory) fs /\ v_prog E (map same (done ops fs)) [] = (the_values vs, Ok (map (fun _ => Ok tt) (done ops fs))).
Proof. exact (fun H Hn => conj (@enough E [] ops m vs fs H (@never_undamaged E ops _ _ _ _ _ H (Forall_nil _) Hn) eq_refl) (@effects E [] ops m vs fs H Hn (or_intror eq_refl))). Qed.
Print Assumptions C120_enough.
Example C120_enough_ex : exists m vs, runs demo_release (x_added ++ [SListAdd 2 1; SCorpus; SCorpusAdd 3 0]) (mkMem [] 0) [] = (m, vs, repeat Done 7) /\ live m = 22%Z /\ length vs = 4%nat.
Proof. eexists _, _. split; [vm_compute; reflexivity|]. split; reflexivity. Qed.
(** C120: false that running out of memory is always reported as bad_alloc: if the second
    allocation of a conversion fails the assertion after it does, whatever the text; in a
    build without assertions the Word is made, and is empty. *)
Theorem C120_abort_refuted E s r : e_ndebug E = false -> runs E [SWordText s] (mkMem (true :: false :: r) 0) [] = (mkMem r 1, [], [Died_abort]).
Proof. exact (@strdup_abort E s r). Qed.
Print Assumptions C120_abort_refuted.
Theorem C120_silent_refuted E s : e_ndebug E = true ->
  exists m vs, runs E [SWordText s] (mkMem [true; false] 0) [] = (m, vs, [Done]) /\ the_values vs = [Some (VWord (WGood []))].
Proof. exact (@strdup_silent E s). Qed.
Print Assumptions C120_silent_refuted.
Example C120_silent_ex : e_ndebug demo_release = true /\ word_of_utf8 demo_release x_ab = Ok [97; 98].
Proof. vm_compute. split; reflexivity. Qed.
(** C120: false of addText: the Document may be left with a new field without words. *)
Theorem C120_addText_refuted : exists n m vs, runs demo x_added (mkMem (fails_at n) 0) [] = (m, vs, [Done; Done; Done; Threw OutOfMemory]) /\
  nth_error (the_values vs) 0 = Some (Some (VDoc (mkDoc 1 [([97; 98], [])]))).
Proof. exists 17%nat. eexists _, _. split; vm_compute; reflexivity. Qed.
Print Assumptions C120_addText_refuted.

(** C121: after a program that destroyed all it made no more is allocated than the
    statements that threw may lose: one for each conversion of a text to a Word, asUtf8 and
    copy of a WordList, two for each splitToWords, copy of a Document, addDocument and
    addText that splits, nothing for all others; and not less than nothing.  Missing: what
    overwrites and throws. *)
Theorem C121_freed_partial E p ops m vs fs : runs E ops (mkMem p 0) [] = (m, vs, fs) -> undamaged E ops (mkMem p 0) [] -> no_crash fs ->
  (forall v, In v vs -> v = None) -> (0 <= live m <= may_be_lost ops fs)%Z.
Proof. exact (fun H Hn => @freed E p ops m vs fs H Hn). Qed.
Print Assumptions C121_freed_partial.
Example C121_freed_ex : runs demo x_ends (mkMem x_plan 0) [] = (mkMem [] 0, repeat None 7, x_end_fates) /\ undamaged demo x_ends (mkMem x_plan 0) [] /\
  no_crash x_end_fates /\ In (Threw OutOfMemory) x_end_fates /\ may_be_lost x_ends x_end_fates = 0%Z.
Proof. split; [exact x_end_run|]. split; [exact x_end_undamaged|]. split; [exact x_end_fine|]. split; [vm_compute; auto|reflexivity]. Qed.
(** C121: nothing is freed that was not allocated, whatever throws but what overwrites. *)
Theorem C121_not_too_much E p ops m vs fs : runs E ops (mkMem p 0) [] = (m, vs, fs) -> undamaged E ops (mkMem p 0) [] -> no_crash fs -> (0 <= live m)%Z.
Proof. exact (fun H Hn => @not_too_much E p ops m vs fs H Hn). Qed.
Print Assumptions C121_not_too_much.
Example C121_not_too_much_ex : no_crash x_fates /\ live x_mem = 26%Z.
Proof. split; [exact x_fine|reflexivity]. Qed.
(** C121: false of the copy constructor of WordList: whenever the list has words and the
    allocation after the first fails, that first one is lost. *)
Theorem C121_list_copy_refuted E p ops m vs fs x l r : runs E ops (mkMem p 0) [] = (m, vs, fs) -> undamaged E ops (mkMem p 0) [] -> no_crash fs ->
  nth_error (the_values vs) x = Some (Some (VList (Some l))) -> l <> [] -> plan m = true :: false :: r ->
  runs E (ops ++ [SListCopy x]) (mkMem p 0) [] = (mkMem r (live m + 1), vs, fs ++ [Threw OutOfMemory]).
Proof. exact (fun H Hn => @leak_copy E p ops m vs fs H Hn x l r). Qed.
Print Assumptions C121_list_copy_refuted.
Example C121_list_copy_ex : exists m vs fs, let ops := [SListSplit x_ab] in
  runs demo ops (mkMem (fails_at 7) 0) [] = (m, vs, fs) /\ undamaged demo ops (mkMem (fails_at 7) 0) [] /\ no_crash fs /\
  nth_error (the_values vs) 0 = Some (Some (VList (Some [[97; 98]]))) /\ plan m = [true; false].
Proof.
  eexists _, _, _. cbv zeta. split; [vm_compute; reflexivity|]. split; [eapply never_undamaged; [vm_compute; reflexivity|constructor|now apply never_of]|]. split; [split; intros [H|[]]; discriminate H|]. split; reflexivity.
Qed.
(** C121: and false of a conversion, of asUtf8, of splitToWords, of the copy constructors
    of WordList and Document and of addDocument: each can lose all it may. *)
Theorem C121_leaks_refuted : forall t, In t x_leaks -> exists m vs fs, runs demo (fst t) (mkMem (fails_at (snd t)) 0) [] = (m, vs, fs) /\
  In (Threw OutOfMemory) fs /\ undamaged demo (fst t) (mkMem (fails_at (snd t)) 0) [] /\ no_crash fs /\ (forall v, In v vs -> v = None) /\ live m = may_be_lost (fst t) fs /\ (0 < live m)%Z.
Proof. exact leaks_lose. Qed.
Print Assumptions C121_leaks_refuted.
(** C121: and of addText for a field the Document did not have. *)
Theorem C121_addText_refuted : exists m vs fs, runs demo x_new_field (mkMem (fails_at 7) 0) [] = (m, vs, fs) /\ no_crash fs /\ In (Threw OutOfMemory) fs /\
  undamaged demo x_new_field (mkMem (fails_at 7) 0) [] /\ (forall v, In v vs -> v = None) /\ live m = 2%Z.
Proof. exact new_field_loses. Qed.
Print Assumptions C121_addText_refuted.
