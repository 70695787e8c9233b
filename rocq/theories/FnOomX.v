(** Concrete runs of getFieldNames out of memory. *)
From Verif Require Import Base TrieM WordM MapM DoubleM ContM OwnM Spec_Own Demo OomM Spec_Oom OomS OomX FnOomM.
Local Open Scope N_scope.

(** A Document with two fields in variable 0, a WordList with two words in variable 2. *)
Definition x_fields : list stmt := x_added ++ [SWordText x_euros; SDocAddText 0 3 2].
Definition x_ending : list stmt := [SListAdd 2 3; SDestroy 0; SDestroy 1; SDestroy 2; SDestroy 3].
(** The allocation for the second name fails; a Word is added and all is destroyed. *)
Lemma x_names : exists m vs fs d l m' l' m2 vs2, runs demo x_fields (mkMem (fails_at 33) 0) [] = (m, vs, fs) /\ undamaged demo x_fields (mkMem (fails_at 33) 0) [] /\ no_crash fs /\
  nth_error vs 0 = Some (Some (ODoc d)) /\ nth_error vs 2 = Some (Some (OList l)) /\ map fst (d_texts (the_doc d)) = [[97; 98]; [8364; 8364]] /\ the_list l = [[99; 100]; [101; 102]] /\
  d_getFieldNames d l m = (m', Val (l', Some OutOfMemory)) /\ the_list l' = [[99; 100]; [101; 102]; [97; 98]] /\
  runs demo x_ending m' (upd 2 (Some (OList l')) vs) = (m2, vs2, repeat Done 5) /\ undamaged demo x_ending m' (upd 2 (Some (OList l')) vs) /\ (forall v, In v vs2 -> v = None) /\ live m2 = 0%Z.
Proof.
  eexists _, _, _, _, _, _, _, _, _. split; [vm_compute; reflexivity|]. split; [eapply never_undamaged; [vm_compute; reflexivity|constructor|now apply never_of]|]. split; [split; intros H; none H|].
  split; [reflexivity|]. split; [reflexivity|]. split; [reflexivity|]. split; [reflexivity|]. split; [vm_compute; reflexivity|]. split; [reflexivity|]. split; [vm_compute; reflexivity|].
  split; [eapply never_undamaged; [vm_compute; reflexivity|repeat constructor|now apply never_of]|]. split; [|reflexivity]. intros v H. repeat destruct H as [<-|H]; try reflexivity. destruct H.
Qed.
Lemma x_all_names : exists m vs fs d l m' l', runs demo x_fields (mkMem [] 0) [] = (m, vs, fs) /\ undamaged demo x_fields (mkMem [] 0) [] /\ nth_error vs 0 = Some (Some (ODoc d)) /\ nth_error vs 2 = Some (Some (OList l)) /\
  plan m = [] /\ d_getFieldNames d l m = (m', Val (l', None)) /\ the_list l' = [[99; 100]; [101; 102]; [97; 98]; [8364; 8364]].
Proof.
  eexists _, _, _, _, _, _, _. split; [vm_compute; reflexivity|]. split; [eapply never_undamaged; [vm_compute; reflexivity|constructor|now apply never_of]|].
  split; [reflexivity|]. split; [reflexivity|]. split; [reflexivity|]. split; [vm_compute; reflexivity|reflexivity].
Qed.
