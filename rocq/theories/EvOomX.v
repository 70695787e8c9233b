(** Concrete runs of ErrorValues calls that run out of memory. *)
From Verif Require Import Base WordM OomM ErrorValuesM Spec_EV EvOomM Spec_EvOom EvOomQ.
Local Open Scope N_scope.

Lemma triple (A B C : Type) (x : A * B * C) r : snd x = r -> x = (fst (fst x), snd (fst x), r).
Proof. destruct x as [[a b] c]. cbn. now intros ->. Qed.
Definition x_group : ev_call := SetGroupError [600; 601; 97; 98] 30%Z.
Definition x_accents : ev_call := AddAccents [[97; 225]; []; [101; 233]].
Lemma x_readable : readable x_group /\ readable x_accents.
Proof. split; [intros g [<-|[]]|intros g [<-|[<-|[<-|[]]]]]; eexists; vm_compute; reflexivity. Qed.
(** The 60th allocation of addKeyboardErrors fails. *)
Lemma x_keyboard : exists e1 m1, v_do AddKeyboardErrors ev_new (mkMem (repeat true 59 ++ [false]) 0) = (e1, m1, Fail OutOfMemory) /\
  getSubstituteError e1 49 50 = Ok 30%Z /\ getSubstituteError e1 107 108 = Ok 100%Z.
Proof. eexists _, _. split; [apply triple; vm_compute; reflexivity|]. split; vm_compute; reflexivity. Qed.
Lemma group_changes : exists e1 m1, v_do x_group ev_new (mkMem [true; true; true; false] 0) = (e1, m1, Fail OutOfMemory) /\
  getSubstituteError e1 600 601 = Ok 30%Z /\ getSubstituteError ev_new 600 601 = Ok 100%Z /\ getSubstituteError e1 97 98 = Ok 100%Z.
Proof. eexists _, _. split; [apply triple; vm_compute; reflexivity|]. repeat split; vm_compute; reflexivity. Qed.
Lemma accents_stuck : exists e1 m1, v_do x_accents ev_new (mkMem (repeat true 8 ++ [false]) 0) = (e1, m1, Fail OutOfMemory) /\
  isInGroup e1 97 = true /\ isInGroup e1 101 = false /\ snd (v_do x_accents e1 (mkMem [] 0)) = Fail (Thrown ERuntime).
Proof. eexists _, _. split; [apply triple; vm_compute; reflexivity|]. repeat split; vm_compute; reflexivity. Qed.
Lemma message_late : exists e1 m1, v_do (SetGroupError [97; 98] 30%Z) ev_new (mkMem [true; true; true; true; false] 0) = (e1, m1, Fail OutOfMemory) /\
  getSubstituteError e1 97 98 = Ok 30%Z /\ live m1 = 1%Z.
Proof. eexists _, _. split; [apply triple; vm_compute; reflexivity|]. split; vm_compute; reflexivity. Qed.
Lemma x_clear : exists e1, reached e1 /\ isInGroup e1 600 = true /\ isInGroup e1 601 = false /\
  getSubstituteError (ev_after [x_group]) 97 601 = Ok 30%Z /\ isInGroup (ev_after [x_group]) 97 = true.
Proof.
  exists (fst (fst (v_do x_group ev_new (mkMem [true; true; false] 0)))). split.
  - apply (@reached_do x_group ev_new (mkMem [true; true; false] 0) _ (snd (fst (v_do x_group ev_new (mkMem [true; true; false] 0)))) (Fail OutOfMemory)); [constructor|].
    apply triple. vm_compute. reflexivity.
  - repeat split; vm_compute; reflexivity.
Qed.
