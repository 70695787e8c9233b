(** Concrete runs of programs that run out of memory. *)
From Verif Require Import Base TrieM WordM MapM DoubleM ContM OwnM Spec_Own Demo OomM Spec_Oom OomS.
Local Open Scope N_scope.

(** The allocation after [n] others fails. *)
Definition fails_at (n : nat) : list bool := repeat true n ++ [false].
Definition m_run (ops : list stmt) (p : list bool) : memory * ovars * list fate := runs demo ops (mkMem p 0) [].
Definition show (ops : list stmt) (p : list bool) := let '(m, vs, fs) := m_run ops p in (live m, the_values vs, fs).
(** Texts: "ab", "cd ef", two euro signs. *)
Definition x_ab : list N := [97; 98].
Definition x_cdef : list N := [99; 100; 32; 101; 102].
Definition x_euros : list N := [226; 130; 172; 226; 130; 172].

Definition x_list : list stmt := [SListSplit x_cdef; SListSplit x_ab; SListAssign 0 1; SDestroy 0].
Definition x_field : list stmt := [SDoc 1; SWordText x_ab; SListSplit x_cdef; SDocAddText 0 1 2; SDocAddText 0 1 2; SDestroy 0].
Definition x_read : list stmt := [SWordText x_ab; SWordAssignText 0 x_euros; SWordCopy 0].
Definition x_added : list stmt := [SDoc 1; SWordText x_ab; SListSplit x_cdef; SDocAddText 0 1 2].
(** Objects of every class, with allocations that fail on the way; then all are destroyed. *)
Definition x_tour : list stmt :=
  [SWordText x_ab; SWordCopy 0; SWordCopy 0; SList; SListAdd 2 0; SListAdd 2 1; SListAdd 2 1; SWordJoin 0 1; SListAt 2 0;
   SDoc 7; SDocAddText 4 0 2; SCorpus; SCorpusAdd 5 4; SCorpusAdd 5 4; SWordAssign 0 3; SWordMove 3; SWordAssign 1 0].
Definition x_plan : list bool := [true; true; false; true; true; false; true; false; true; true; false].
Definition x_ends : list stmt := x_tour ++ map SDestroy (seq 0 8).
(** Each of these loses memory, as much as it may. *)
Definition x_leaks : list (list stmt * nat) :=
  [([SWordText x_euros], 2%nat); ([SWordText x_ab; SWordUtf8 0; SDestroy 0], 3%nat); ([SListSplit x_euros], 4%nat);
   ([SList; SWord; SListAdd 0 1; SListCopy 0; SDestroy 0; SDestroy 1], 3%nat);
   (x_added ++ [SDocCopy 0; SDestroy 0; SDestroy 1; SDestroy 2], 24%nat);
   (x_added ++ [SCorpus; SCorpusAdd 3 0; SDestroy 0; SDestroy 1; SDestroy 2; SDestroy 3], 26%nat)].
Lemma never_of kind ops fs : forallb (fun t => match snd t with Threw _ => negb (kind (fst t)) | _ => true end) (combine ops fs) = true -> never_threw kind ops fs.
Proof.
  intros H k c p Hc Hk Hf. revert fs k H Hc Hf. induction ops as [|o ops IH]; intros [|f fs] [|k] H Hc Hf; try discriminate; cbn in *; apply andb_prop in H as [H1 H2].
  - injection Hc as ->. injection Hf as ->. now rewrite Hk in H1.
  - exact (IH _ _ H2 Hc Hf).
Qed.
Definition x_mem : memory := Eval vm_compute in fst (fst (m_run x_tour x_plan)).
Definition x_vars : ovars := Eval vm_compute in snd (fst (m_run x_tour x_plan)).
Definition x_fates : list fate := Eval vm_compute in snd (m_run x_tour x_plan).
Lemma x_run : runs demo x_tour (mkMem x_plan 0) [] = (x_mem, x_vars, x_fates).
Proof. vm_compute. reflexivity. Qed.
Lemma x_never : never_threw assigns x_tour x_fates.
Proof. now apply never_of. Qed.
Lemma x_undamaged : undamaged demo x_tour (mkMem x_plan 0) [].
Proof. eapply never_undamaged; [exact x_run|constructor|exact x_never]. Qed.
Lemma x_fine : no_crash x_fates.
Proof. split; vm_compute; intros H; repeat destruct H as [H|H]; try discriminate H; destruct H. Qed.
Definition x_end_fates : list fate := Eval vm_compute in snd (m_run x_ends x_plan).
Lemma x_end_run : runs demo x_ends (mkMem x_plan 0) [] = (mkMem [] 0, repeat None 7, x_end_fates).
Proof. vm_compute. reflexivity. Qed.
Lemma x_end_never : never_threw assigns x_ends x_end_fates.
Proof. now apply never_of. Qed.
Lemma x_end_undamaged : undamaged demo x_ends (mkMem x_plan 0) [].
Proof. eapply never_undamaged; [exact x_end_run|constructor|exact x_end_never]. Qed.
Lemma x_end_fine : no_crash x_end_fates.
Proof. split; vm_compute; intros H; repeat destruct H as [H|H]; try discriminate H; destruct H. Qed.
Ltac none H := repeat destruct H as [H|H]; try discriminate H; try destruct H.
Lemma leaks_lose : forall t, In t x_leaks -> exists m vs fs, runs demo (fst t) (mkMem (fails_at (snd t)) 0) [] = (m, vs, fs) /\
  In (Threw OutOfMemory) fs /\ undamaged demo (fst t) (mkMem (fails_at (snd t)) 0) [] /\ no_crash fs /\ (forall v, In v vs -> v = None) /\ live m = may_be_lost (fst t) fs /\ (0 < live m)%Z.
Proof.
  intros t H. unfold x_leaks in H. repeat destruct H as [<-|H]; [..|destruct H]; cbn [fst snd]; eexists _, _, _.
  all: split; [vm_compute; reflexivity|]; split; [cbn; auto 12|]; split; [eapply never_undamaged; [vm_compute; reflexivity|constructor|now apply never_of]|]; split; [split; vm_compute; intros H; none H|]; split; [|split; reflexivity]; intros v Hv; repeat destruct Hv as [<-|Hv]; try reflexivity; destruct Hv.
Qed.
(** addText that throws for a field the Document did not have. *)
Definition x_new_field : list stmt := [SDoc 1; SWordText x_ab; SDocAddUtf8 0 1 x_euros; SDestroy 0; SDestroy 1].
Lemma x_new_field_undamaged n : (n = 7 \/ n = 13)%nat -> undamaged demo x_new_field (mkMem (fails_at n) 0) [].
Proof.
  intros Hn k c m1 vs1 fs1 m2 vs2 p Hc Hr Hf Ho Ht. destruct k as [|[|[|[|[|k]]]]]; cbn in Hc; try injection Hc as <-; try discriminate Ho; try (destruct k; discriminate Hc).
  destruct Hn as [-> | ->]; vm_compute in Hr; injection Hr as <- <- <-; destruct (Ho _ _ eq_refl eq_refl).
Qed.
Lemma new_field_loses : exists m vs fs, runs demo x_new_field (mkMem (fails_at 7) 0) [] = (m, vs, fs) /\ no_crash fs /\ In (Threw OutOfMemory) fs /\
  undamaged demo x_new_field (mkMem (fails_at 7) 0) [] /\ (forall v, In v vs -> v = None) /\ live m = 2%Z.
Proof.
  eexists _, _, _. split; [vm_compute; reflexivity|]. split; [split; vm_compute; intros H; none H|]. split; [cbn; auto|]. split; [apply x_new_field_undamaged; auto|].
  split; [|reflexivity]. intros v Hv; repeat destruct Hv as [<-|Hv]; try reflexivity; destruct Hv.
Qed.
