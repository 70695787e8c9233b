(** Concrete assignments of Documents that run out of memory. *)
From Verif Require Import Base TrieM WordM MapM DoubleM ContM OwnM Spec_Own Demo OomM Spec_Oom OomS OomX DaOomM.
Local Open Scope N_scope.

(** Two Documents with the same text under the same field, in variables 0 and 3. *)
Definition x_two : list stmt := x_added ++ [SDoc 2; SDocAddText 3 1 2].
Definition x_old : document := mkDoc 1 [([97; 98], [[99; 100]; [101; 102]])].
Definition x_new : document := mkDoc 2 [([97; 98], [[99; 100]; [101; 102]])].
(** After [x_two], in a process where the allocation after [n] others fails, the Document 3
    is assigned to the Document 0: what that is then, the exception, and what is lost once
    it is destroyed. *)
Definition x_assigned (n : nat) (e : option stop) (d : document) (lost : Z) : Prop :=
  exists m vs fs a b m' a' m1 m2, runs demo x_two (mkMem (fails_at n) 0) [] = (m, vs, fs) /\ undamaged demo x_two (mkMem (fails_at n) 0) [] /\
    nth_error vs 0 = Some (Some (ODoc a)) /\ nth_error vs 3 = Some (Some (ODoc b)) /\ the_doc a = x_old /\ the_doc b = x_new /\
    d_assign a b m = (m', Val (a', e)) /\ the_doc a' = d /\ d_destroy a m = (m1, Val tt) /\ d_destroy a' m' = (m2, Val tt) /\ live m2 = (live m1 + lost)%Z.
Lemma x_undam n : (exists m vs, runs demo x_two (mkMem (fails_at n) 0) [] = (m, vs, repeat Done 6)) -> undamaged demo x_two (mkMem (fails_at n) 0) [].
Proof. intros (m & vs & H). eapply never_undamaged; [exact H|constructor|now apply never_of]. Qed.
Ltac x_go := eexists _, _, _, _, _, _, _, _, _; split; [vm_compute; reflexivity|]; split; [apply x_undam; eexists _, _; vm_compute; reflexivity|];
  split; [reflexivity|]; split; [reflexivity|]; split; [reflexivity|]; split; [reflexivity|]; split; [vm_compute; reflexivity|]; split; [vm_compute; reflexivity|];
  split; [vm_compute; reflexivity|]; split; [vm_compute; reflexivity|]; vm_compute; reflexivity.
Lemma x_done : x_assigned 32 None x_new 0.
Proof. x_go. Qed.
Lemma x_emptied : x_assigned 27 (Some OutOfMemory) (mkDoc 2 []) 0.
Proof. x_go. Qed.
Lemma x_leaks1 : x_assigned 30 (Some OutOfMemory) (mkDoc 2 []) 1.
Proof. x_go. Qed.
Lemma x_plenty : exists m vs fs a b, runs demo x_two (mkMem [] 0) [] = (m, vs, fs) /\ nth_error vs 0 = Some (Some (ODoc a)) /\ nth_error vs 3 = Some (Some (ODoc b)) /\
  undamaged demo x_two (mkMem [] 0) [] /\ plan m = [].
Proof.
  eexists _, _, _, _, _. split; [vm_compute; reflexivity|]. split; [reflexivity|]. split; [reflexivity|]. split; [|reflexivity].
  eapply never_undamaged; [vm_compute; reflexivity|constructor|now apply never_of].
Qed.
(** The field has no words. *)
Definition x_bare : list stmt := [SDoc 1; SWordText x_ab; SList; SDocAddText 0 1 2; SDoc 2; SDocAddText 3 1 2].
Lemma x_bare_run : exists m vs fs a b m' a', runs demo x_bare (mkMem (fails_at 12) 0) [] = (m, vs, fs) /\ nth_error vs 0 = Some (Some (ODoc a)) /\ nth_error vs 3 = Some (Some (ODoc b)) /\
  undamaged demo x_bare (mkMem (fails_at 12) 0) [] /\ d_texts (the_doc b) = [([97; 98], [])] /\ d_assign a b m = (m', Val (a', Some OutOfMemory)).
Proof.
  eexists _, _, _, _, _, _, _. split; [vm_compute; reflexivity|]. split; [reflexivity|]. split; [reflexivity|]. split; [|split; [reflexivity|vm_compute; reflexivity]].
  eapply never_undamaged; [vm_compute; reflexivity|constructor|now apply never_of].
Qed.
(** Where a block is lost: the Document is given a text again, and all is destroyed. *)
Definition x_rest : list stmt := [SDocAddText 0 1 2; SDestroy 0; SDestroy 1; SDestroy 2; SDestroy 3].
Lemma x_goes_on : exists m vs fs a b m' a' m2 vs2, runs demo x_two (mkMem (fails_at 30) 0) [] = (m, vs, fs) /\ no_crash fs /\ nth_error vs 0 = Some (Some (ODoc a)) /\ nth_error vs 3 = Some (Some (ODoc b)) /\
  d_assign a b m = (m', Val (a', Some OutOfMemory)) /\ runs demo x_rest m' (upd 0 (Some (ODoc a')) vs) = (m2, vs2, repeat Done 5) /\ undamaged demo x_rest m' (upd 0 (Some (ODoc a')) vs) /\
  (forall v, In v vs2 -> v = None) /\ live m2 = 1%Z.
Proof.
  eexists _, _, _, _, _, _, _, _, _. split; [vm_compute; reflexivity|]. split; [split; intros H; none H|]. split; [reflexivity|]. split; [reflexivity|]. split; [vm_compute; reflexivity|]. split; [vm_compute; reflexivity|].
  split; [eapply never_undamaged; [vm_compute; reflexivity|repeat constructor|now apply never_of]|]. split; [|reflexivity]. intros v H. repeat destruct H as [<-|H]; try reflexivity. destruct H.
Qed.
