(** Concrete programs for C102. *)
From Verif Require Import Base TrieM Spec_Hist ResM Spec_Res StoreX Demo.
Local Open Scope N_scope.

(** Two tries; the first grows and is destroyed. *)
Definition long : word := repeat 97 40.
Definition two_tries : list t_call :=
  [TNew; TNew; TInsert 0 long 0; TInsert 1 w_abc 0; TInsert 0 w_abd 1; TDelete 0].
Definition at_two : sys := fst (t_run demo two_tries sys0).
Lemma two_ok : Forall allowed two_tries.
Proof. repeat (constructor; [cbn; auto; try (split; [repeat (constructor; [unfold nonnul; lia|]); constructor|reflexivity])|]); constructor. Qed.
Definition one_gone : list t_call := [TNew; TInsert 0 w_abc 0; TDelete 0].
Lemma one_ok : Forall allowed one_gone.
Proof. repeat (constructor; [cbn; auto; try (split; [repeat (constructor; [unfold nonnul; lia|]); constructor|reflexivity])|]); constructor. Qed.

(** A run is what it leaves, when it comes back. *)
Lemma seq_is E cs : snd (t_seq E cs sys0) = Ok tt -> t_seq E cs sys0 = (fst (t_seq E cs sys0), Ok tt).
Proof. destruct (t_seq E cs sys0) as [s o]. cbn. now intros ->. Qed.
Lemma run_is E cs : snd (t_run E cs sys0) = Ok tt -> t_run E cs sys0 = (fst (t_run E cs sys0), Ok tt).
Proof. destruct (t_run E cs sys0) as [s o]. cbn. now intros ->. Qed.
Definition dead (l : list (option rtrie)) : bool := forallb (fun o => match o with None => true | _ => false end) l.
Lemma dead_all s : dead (s_tries s) = true -> all_destroyed s.
Proof.
  unfold dead, all_destroyed, trie_at. intros H i rt Hi. apply nth_error_In in Hi.
  rewrite forallb_forall in H. now apply H in Hi.
Qed.
Lemma one_clean : runs_clean demo one_gone (fst (t_seq demo one_gone sys0)).
Proof. split; [exact one_ok|]. apply seq_is. vm_compute. reflexivity. Qed.
Lemma one_dead : all_destroyed (fst (t_seq demo one_gone sys0)).
Proof. apply dead_all. vm_compute. reflexivity. Qed.
Lemma one_maps : live_maps (fst (t_seq demo one_gone sys0)) = 1%nat.
Proof. vm_compute. reflexivity. Qed.
Lemma not_given_back : ~ (forall E cs s, runs_clean E cs s -> all_destroyed s -> live_maps s = O).
Proof. intros H. specialize (H _ _ _ one_clean one_dead). rewrite one_maps in H. discriminate. Qed.

(** An operating system that refuses everything. *)
Definition refuses : env := mkEnv false (fun _ => false) isort (fun _ l => l) ascii_lower false.
Lemma refused_run : comes_to refuses [TNew] (mkSys (mkK [true] []) []).
Proof. split; [repeat constructor|reflexivity]. Qed.
Lemma left_open : ~ (forall E cs s, comes_to E cs s -> all_destroyed s -> open_files s = O).
Proof.
  intros H. specialize (H _ _ _ refused_run). cut (1 = 0)%nat; [discriminate|]. apply H. intros [|i] rt Hi; discriminate.
Qed.

Definition mid : list t_call := firstn 5 two_tries.
Definition at_mid : sys := fst (t_seq demo mid sys0).
Definition rt_mid : rtrie := match nth_error (s_tries at_mid) 0 with Some (Some rt) => rt | _ => mkRT 0 0 (mkTrie false 0 (fun _ => 0) 0) end.
Lemma mid_clean : runs_clean demo mid at_mid.
Proof. split; [exact (proj1 (proj1 (Forall_app _ mid [TDelete 0]) two_ok))|]. apply seq_is. vm_compute. reflexivity. Qed.
Lemma mid_at : trie_at at_mid 0 rt_mid.
Proof.
  unfold trie_at, rt_mid.
  assert (H : match nth_error (s_tries at_mid) 0 with Some (Some _) => true | _ => false end = true) by (vm_compute; reflexivity).
  destruct (nth_error (s_tries at_mid) 0) as [[rt|]|]; [reflexivity|discriminate|discriminate].
Qed.
Definition rt_other : rtrie := match nth_error (s_tries at_mid) 1 with Some (Some rt) => rt | _ => mkRT 0 0 (mkTrie false 0 (fun _ => 0) 0) end.
Lemma other_at : trie_at at_mid 1 rt_other.
Proof.
  unfold trie_at, rt_other.
  assert (H : match nth_error (s_tries at_mid) 1 with Some (Some _) => true | _ => false end = true) by (vm_compute; reflexivity).
  destruct (nth_error (s_tries at_mid) 1) as [[rt|]|]; [reflexivity|discriminate|discriminate].
Qed.
Lemma mid_run : t_run demo mid sys0 = (at_mid, Ok tt).
Proof.
  assert (H : forall cs s s', t_seq demo cs s = (s', Ok tt) -> t_run demo cs s = (s', Ok tt)).
  { induction cs as [|c r IH]; intros s s' He; cbn [t_seq t_run] in *.
    - unfold ret in He. congruence.
    - unfold mbind in He. destruct (t_step demo c s) as [s1 [a|e| | |]]; try discriminate. now apply IH. }
  apply H, mid_clean.
Qed.
Lemma mid_to : comes_to demo mid at_mid.
Proof. split; [apply mid_clean|exact mid_run]. Qed.
Definition after_mid : sys := fst (t_run demo [TDelete 0; TNew] at_mid).
Lemma after_run : t_run demo [TDelete 0; TNew] at_mid = (after_mid, Ok tt).
Proof.
  unfold after_mid. assert (H : snd (t_run demo [TDelete 0; TNew] at_mid) = Ok tt) by (vm_compute; reflexivity).
  destruct (t_run demo [TDelete 0; TNew] at_mid) as [s o]. cbn in *. now rewrite H.
Qed.
