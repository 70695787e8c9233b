(** Concrete programs for ParM. *)
From Verif Require Import Base TrieM WordM MapM DoubleM ContM OwnM OomM Spec_Oom ParM Spec_Par.
Local Open Scope N_scope.

Definition fails (n : nat) : list bool := repeat true n ++ [false].
(** Results, a filter and parameters. *)
Definition x_tour : list pstmt :=
  [QRes; QResAdd 0 7 d_one; QResAdd 0 8 d_one; QResCopy 0; QResAdd 1 9 d_one; QResAddAll 0 1; QResTake 1 0 9; QResTake 1 0 4; QResAssign 1 0;
   QFilter; QSubTerm 2 [97] [98]; QSubTerm 2 [99] []; QTerm 2; QSubTerm 2 [97] [100];
   QParams; QField 3 [97; 98]; QField 3 [97; 98]; QField 3 []; QDynamic 3 false; QParamsTerm 3; QParamsSubTerm 3 [97] [98]].
(** The 17th allocation fails, in the middle of the second addNewSubTerm, and the 30th. *)
Definition x_plan : list bool := fails 16 ++ repeat true 12 ++ [false].
Definition x_ends : list pstmt := x_tour ++ [QDestroy 0; QDestroy 1; QDestroy 2; QDestroy 3].
Definition x_fates : list fate := repeat Done 6 ++ [Threw (Thrown EOutOfRange); Done; Done; Done; Done; Threw OutOfMemory] ++ repeat Done 8 ++ [Threw OutOfMemory].
(** The variables afterwards. *)
Definition x_end : memory * pvars * list fate := p_runs x_tour (mkMem x_plan 0) [].
Definition x_mem : memory := fst (fst x_end).
Definition x_vars : pvars := snd (fst x_end).
Lemma x_run : p_runs x_tour (mkMem x_plan 0) [] = (x_mem, x_vars, x_fates).
Proof. vm_compute. reflexivity. Qed.
