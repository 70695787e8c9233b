(** A concrete program with assignments of Documents and getFieldNames. *)
From Verif Require Import Base TrieM WordM MapM DoubleM ContM OwnM Spec_Own Demo OomM Spec_Oom OomX DaOomX DfOomM Spec_DfOom.
Local Open Scope N_scope.

(** Of the two Documents of [x_two] one is assigned to the other, twice, and asked for its
    fields, twice; then all is destroyed. *)
Definition x_mixed : list xstmt :=
  map XStmt x_two ++ [XAssign 0 3; XStmt SList; XNames 0 4; XAssign 0 3; XAssign 0 0; XNames 0 4; XNames 0 4] ++ map (fun x => XStmt (SDestroy x)) (seq 0 5).
(** The first assignment fails at its fourth allocation, the second getFieldNames at its first. *)
Definition x_mixed_plan : list bool := repeat true 30 ++ [false] ++ repeat true 7 ++ [false].
Definition x_mixed_fates : list fate := repeat Done 6 ++ [Threw OutOfMemory; Done; Done; Done; Done; Threw OutOfMemory; Done] ++ repeat Done 5.
Lemma x_mixed_run : xruns demo x_mixed (mkMem x_mixed_plan 0) [] = (mkMem [] 1, repeat None 5, x_mixed_fates).
Proof. vm_compute. reflexivity. Qed.
Lemma x_mixed_never : x_never x_mixed x_mixed_fates.
Proof.
  intros k c p Hk Ha Hf. unfold x_mixed, x_two, x_added in Hk. cbn in Hk. unfold x_mixed_fates in Hf. cbn in Hf.
  do 18 (destruct k as [|k]; [cbn in Hf; try discriminate Hf; cbn in Hk; try discriminate Hk|]). destruct k; discriminate Hf.
Qed.
(** Before anything is destroyed. *)
Lemma x_mixed_values : exists m vs, xruns demo (firstn 13 x_mixed) (mkMem x_mixed_plan 0) [] = (m, vs, firstn 13 x_mixed_fates) /\
  nth_error (the_values vs) 0 = Some (Some (VDoc x_new)) /\ nth_error (the_values vs) 4 = Some (Some (VList (Some [[97; 98]]))).
Proof. eexists _, _. split; [vm_compute; reflexivity|]. split; reflexivity. Qed.
