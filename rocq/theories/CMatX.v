(** A C program that runs out of memory while its matcher indexes. *)
From Verif Require Import Base TrieM WordStoreM ErrorValuesM LevIndexM WordM MapM DoubleM ContM MatcherM DataFileM CApiM FailM
  Spec_Hist Spec_EV Spec_Word Spec_Cont Spec_Edit Spec_Lev Spec_Match Spec_File Spec_CApi Spec_Fail CMatM Spec_CMat Demo StoreX DataX MatchX WordP CApiP CApiQ CApiR CApiS CApiX FailU CMatP CMatQ CMatR.
From Coq Require Import ZifyBool ZifyN ZifyNat.
Local Open Scope N_scope.
(** "world" *)
Definition s_world : list N := [119; 111; 114; 108; 100].
Definition q_plan (n : nat) : list bool := repeat true n ++ [false].
Definition q_run (n : nat) := x_run demo_file the_disk c_prog (mkX [] (q_plan n) []).
Definition q_look : list c_call := [col_matcher_match (PAt 0) s_helo; col_match_results_size (PAt 4); col_matcher_match (PAt 0) s_world; col_match_results_size (PAt 5)].
(** Memory runs out while the second word is indexed. *)
Definition q_st : xstate := fst (q_run 19).
Definition q_ends : list x_end := snd (q_run 19).
Lemma pair_eq A B (x : A * B) : x = (fst x, snd x).
Proof. now destruct x. Qed.
Lemma q_run_eq : x_run demo_file the_disk c_prog (mkX [] (q_plan 19) []) = (q_st, q_ends).
Proof. unfold q_st, q_ends, q_run. apply pair_eq. Qed.
Lemma q_ends_eq : q_ends = [Gave (VPtr (PAt 0)); Gave (VPtr (PAt 1)); Gave (VPtr (PAt 2)); Gave (VPtr (PAt 3)); Gave VVoid; Gave VVoid; Gave VVoid; Gave (VPtr (PErr 0)); Gave VVoid; Gave VVoid;
  Gave (VPtr (PWeights 0)); Gave VVoid; Short VVoid; Gave (VPtr PNull)].
Proof. vm_compute. reflexivity. Qed.
Lemma q_reached : x_reached demo_file the_disk c_prog (q_plan 19) q_st.
Proof. exists q_ends. split; [exact q_run_eq|]. rewrite q_ends_eq. repeat constructor. Qed.
Definition q_mat : matcher := match nth_error (x_heap q_st) 0 with Some (Some (OMatcher m)) => m | _ => dmatcher end.
Lemma q_live : live (x_heap q_st) 0 (OMatcher q_mat).
Proof.
  assert (H : kind (x_heap q_st) 0 = 3) by (vm_compute; reflexivity). unfold live, q_mat, kind in *. destruct (nth_error (x_heap q_st) 0) as [[[]|]|]; try discriminate H. reflexivity.
Qed.
Definition q_hist := x_history demo_file the_disk c_prog (mkX [] (q_plan 19) []) 0.
Lemma q_unfilled : unfilled q_hist.
Proof.
  assert (H : forallb (fun x => negb (f_fatal (fst x) (snd x))) q_hist = true) by (vm_compute; reflexivity). unfold unfilled. rewrite forallb_forall in H. rewrite Forall_forall.
  intros x Hx. apply negb_true_iff. exact (H x Hx).
Qed.
Lemma q_outs : map snd q_hist = [Val tt; Val tt; Val tt; Out].
Proof. vm_compute. reflexivity. Qed.
Lemma q_bounds : in_bounds (map fst q_hist).
Proof.
  assert (Hw : map snd (weight_calls (map fst q_hist)) = [d_of_Z 2]) by (vm_compute; reflexivity). split.
  - intros f x Hin. apply (in_map snd) in Hin. cbn [snd] in Hin. rewrite Hw in Hin. destruct Hin as [<-|[]]. exact I.
  - assert (Ho : length (occ (map fst q_hist)) = 2%nat) by (vm_compute; reflexivity). now rewrite Ho.
Qed.
Lemma q_places : places q_st 0 = [AtStats].
Proof. vm_compute. reflexivity. Qed.
Lemma q_spared : spared (as_is q_st 0 q_mat).
Proof. unfold spared, as_is. cbn [f_failed]. rewrite q_places. split; intros [H|[]]; discriminate H. Qed.
Lemma q_moderate : moderate (map fst q_hist) q_helo.
Proof.
  split.
  - intros qw [<-|[]]. reflexivity.
  - intros d f w Hin. apply (in_map (fun x => N.of_nat (length (snd x)))) in Hin. assert (Ho : map (fun x => N.of_nat (length (snd x))) (occ (map fst q_hist)) = [5; 5]) by (vm_compute; reflexivity).
    rewrite Ho in Hin. cbn in Hin. lia.
Qed.
Lemma q_found : snd (x_run demo_file the_disk q_look q_st) = [Gave (VPtr (PAt 4)); Gave (VSize 1); Gave (VPtr (PAt 5)); Gave (VSize 0)].
Proof. vm_compute. reflexivity. Qed.
Lemma x_silent : exists E W calls plan1 plan2 st1 es1 st2 es2 look v1 v2, x_run E W calls (mkX [] plan1 []) = (st1, es1) /\ x_run E W calls (mkX [] plan2 []) = (st2, es2) /\ all_end es1 /\ all_end es2 /\
  map given es1 = map given es2 /\ x_plan st1 = x_plan st2 /\ snd (x_run E W look st1) = map Gave v1 /\ snd (x_run E W look st2) = map Gave v2 /\ v1 <> v2.
Proof.
  exists demo_file, the_disk, c_prog, (q_plan 19), [], q_st, q_ends, (fst (x_run demo_file the_disk c_prog (mkX [] [] []))), (snd (x_run demo_file the_disk c_prog (mkX [] [] []))), q_look,
    [VPtr (PAt 4); VSize 1; VPtr (PAt 5); VSize 0], [VPtr (PAt 4); VSize 1; VPtr (PAt 5); VSize 1].
  split; [exact q_run_eq|]. split; [apply pair_eq|]. split; [rewrite q_ends_eq; repeat constructor|]. split; [vm_compute; repeat constructor|]. split; [vm_compute; reflexivity|]. split; [vm_compute; reflexivity|].
  split; [exact q_found|]. split; [vm_compute; reflexivity|discriminate].
Qed.
Lemma x_crash : exists E W calls plan st s n m, Forall c_strings calls /\ x_reached E W calls plan st /\ live (x_heap st) n (OMatcher m) /\ unfilled (x_history E W calls (mkX [] plan []) n) /\ c_strings (col_matcher_match (PAt n) s) /\
  snd (x_do E W (col_matcher_match (PAt n) s) st) = X_undefined.
Proof.
  exists demo_file, the_disk, c_prog, (q_plan 15), (fst (q_run 15)), s_helo, 0%nat, (match nth_error (x_heap (fst (q_run 15))) 0 with Some (Some (OMatcher m)) => m | _ => dmatcher end).
  split; [exact c_prog_strings|]. split; [exists (snd (q_run 15)); split; [unfold q_run; exact (pair_eq (x_run demo_file the_disk c_prog (mkX [] (q_plan 15) [])))|vm_compute; repeat constructor]|]. split.
  { assert (H : kind (x_heap (fst (q_run 15))) 0 = 3) by (vm_compute; reflexivity). unfold live, kind in *. destruct (nth_error (x_heap (fst (q_run 15))) 0) as [[[]|]|]; try discriminate H. reflexivity. }
  split; [|split; [exact s_helo_text|vm_compute; reflexivity]].
  assert (H : forallb (fun x => negb (f_fatal (fst x) (snd x))) (x_history demo_file the_disk c_prog (mkX [] (q_plan 15) []) 0) = true) by (vm_compute; reflexivity). unfold unfilled. rewrite forallb_forall in H. rewrite Forall_forall.
  intros x Hx. apply negb_true_iff. exact (H x Hx).
Qed.
