(** What a trie takes from the operating system (C102). *)
From Verif Require Import Base TrieM Spec_Hist ResM Spec_Res ResQ ResX StoreX Demo.
Local Open Scope N_scope.

(** C102: every trie has one file, open from [new] to [delete]. *)
Theorem C102_files : forall E cs s, comes_to E cs s -> (open_files s + deletes cs = news cs)%nat.
Proof. exact files_exact. Qed.
Print Assumptions C102_files.
Theorem C102_closed : forall E cs s, runs_clean E cs s -> all_destroyed s -> open_files s = O.
Proof. exact closed_all. Qed.
Print Assumptions C102_closed.
(** Growing a trie leaves no mapping behind: there is never more than one for each trie made. *)
Theorem C102_one_each : forall E cs s, comes_to E cs s -> (live_maps s <= news cs)%nat.
Proof. exact maps_bound. Qed.
Print Assumptions C102_one_each.
Theorem C102_apart : forall E cs s i j a b, comes_to E cs s -> trie_at s i a -> trie_at s j b -> i <> j ->
  rt_f a <> rt_f b /\ rt_map a <> rt_map b.
Proof. exact mappings_apart. Qed.
Print Assumptions C102_apart.
(** The mapping of a usable trie is there, large enough for its nodes and at most twice as large as they need. *)
Theorem C102_size : forall E cs s i rt n, comes_to E cs s -> trie_at s i rt -> numNodes (rt_t rt) = Ok n ->
  exists l, mapping s (rt_map rt) l /\ 4 + 32 * n < l <= N.max 1024 (8 + 64 * n).
Proof. exact own_mapping. Qed.
Print Assumptions C102_size.
(** Nothing gives a mapping back: with no exception there are as many as tries were made,
    destroyed or not; the one of a destroyed trie is there as long as the program runs. *)
Theorem C102_never_back : forall E cs s, runs_clean E cs s -> live_maps s = news cs.
Proof. exact maps_exact. Qed.
Print Assumptions C102_never_back.
Theorem C102_lost : forall E cs s i rt l cs2 s2, comes_to E cs s -> trie_at s i rt -> mapping s (rt_map rt) l ->
  Forall allowed cs2 -> t_run E (TDelete i :: cs2) s = (s2, Ok tt) -> mapping s2 (rt_map rt) l.
Proof. exact lost. Qed.
Print Assumptions C102_lost.
Theorem C102_least : forall E cs s a l, comes_to E cs s -> mapping s a l -> 1024 <= l.
Proof. exact mapping_big. Qed.
Print Assumptions C102_least.
(** The calls do what they do in the model of C01-C08. *)
Theorem C102_same : forall E cs s i rt w id n, comes_to E cs s -> trie_at s i rt -> numNodes (rt_t rt) = Ok n -> allowed (TInsert i w id) ->
  exists s' rt', t_insert E i w id s = (s', let! _ := snd (insertWord E w id (rt_t rt)) in Ok tt) /\
    trie_at s' i rt' /\ rt_t rt' = fst (insertWord E w id (rt_t rt)).
Proof. exact same_insert. Qed.
Print Assumptions C102_same.
Theorem C102_given_back_refuted : ~ (forall E cs s, runs_clean E cs s -> all_destroyed s -> live_maps s = O).
Proof. exact not_given_back. Qed.
Print Assumptions C102_given_back_refuted.
Theorem C102_failed_new_refuted : ~ (forall E cs s, comes_to E cs s -> all_destroyed s -> open_files s = O).
Proof. exact left_open. Qed.
Print Assumptions C102_failed_new_refuted.
(** Two tries, the first of which grows from 1024 to 2048 bytes, is destroyed and leaves those behind. *)
Example C102_ex : runs_clean demo mid at_mid /\ comes_to demo mid at_mid /\ trie_at at_mid 0 rt_mid /\ trie_at at_mid 1 rt_other /\
  open_files at_mid = 2%nat /\ k_maps (s_k at_mid) = [None; Some 1024; Some 2048] /\ numNodes (rt_t rt_mid) = Ok 43 /\
  rt_map rt_mid = 2%nat /\ mapping at_mid (rt_map rt_mid) 2048 /\ allowed (TInsert 0 w_abc 7) /\ Forall allowed [TNew] /\
  t_run demo [TDelete 0; TNew] at_mid = (after_mid, Ok tt) /\ k_files (s_k after_mid) = [false; true; true] /\
  k_maps (s_k after_mid) = [None; Some 1024; Some 2048; Some 1024] /\
  runs_clean demo one_gone (fst (t_seq demo one_gone sys0)) /\ all_destroyed (fst (t_seq demo one_gone sys0)) /\
  comes_to refuses [TNew] (mkSys (mkK [true] []) []).
Proof.
  split; [exact mid_clean|]. split; [exact mid_to|]. split; [exact mid_at|]. split; [exact other_at|].
  split; [vm_compute; reflexivity|]. split; [vm_compute; reflexivity|]. split; [vm_compute; reflexivity|].
  split; [vm_compute; reflexivity|]. split; [vm_compute; reflexivity|].
  split; [split; [repeat (constructor; [unfold nonnul; lia|]); constructor|reflexivity]|].
  split; [repeat constructor|]. split; [exact after_run|]. split; [vm_compute; reflexivity|]. split; [vm_compute; reflexivity|].
  split; [exact one_clean|]. split; [exact one_dead|exact refused_run].
Qed.
