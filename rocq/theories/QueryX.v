(** Concrete runs for Thm_Query, and the counterexamples. *)
From Verif Require Import Base TrieM TrieH WordStoreM ErrorValuesM LevIndexM Spec_Hist Spec_EV Spec_Edit Spec_Lev EVP EVR WordM Spec_Word MapM DoubleM ContM MatcherM MapP Spec_Cont ContP
  Spec_Match Spec_Query EditP LevP LevX MatchP MatchQ MatchT MatchU MatchZ EnvP MatchY TypoP Demo StoreX MatchX.
From Coq Require Import ZifyBool ZifyN ZifyNat.
Local Open Scope N_scope.
Local Open Scope m_scope.

Definition q_xx : wordlist := [w_xyz; w_abc; w_xyz].
Lemma q_xx_ok : sound_query calls_m q_xx.
Proof. query. Qed.
Lemma q_xx_same w : In w q_ex <-> In w q_xx.
Proof. cbn. tauto. Qed.
Lemma r_xx_run : mt_match demo q_xx p_filter m_ex = (state demo q_xx p_filter m_ex, Ok (result demo q_xx p_filter m_ex)).
Proof. searched. Qed.
(** The same word twice counts twice in onlineMatch. *)
Lemma online_twice : exists E calls m q1 q2 f r1 r2 v1 v2, sound_setup E calls /\ sound_query calls q1 /\ sound_query calls q2 /\ history E calls m /\ (forall w, In w q1 <-> In w q2) /\
  mt_onlineMatch E q1 f m = (m, Ok r1) /\ mt_onlineMatch E q2 f m = (m, Ok r2) /\ shows r1 v1 /\ shows r2 v2 /\ v1 <> v2.
Proof.
  exists demo, calls_m, m_ex, [w_xyz], [w_xyz; w_xyz], w_title.
  destruct (@online_result demo calls_m m_ex [w_xyz] w_title m_ex_setup ltac:(query) m_ex_history ltac:(intros; apply default_swaps; defaults) ltac:(vm_compute; tauto)) as (r1 & _ & v1 & R1 & _ & S1 & _).
  destruct (@online_result demo calls_m m_ex [w_xyz; w_xyz] w_title m_ex_setup ltac:(query) m_ex_history ltac:(intros; apply default_swaps; defaults) ltac:(vm_compute; tauto)) as (r2 & _ & v2 & R2 & _ & S2 & _).
  exists r1, r2, v1, v2. split; [exact m_ex_setup|]. split; [query|]. split; [query|]. split; [exact m_ex_history|]. split; [cbn; tauto|]. split; [exact R1|]. split; [exact R2|]. split; [exact S1|]. split; [exact S2|].
  intros He. subst v2. destruct (proj2 S1 0) as (x1 & _ & A1), (proj2 S2 0) as (x2 & _ & A2).
  assert (B1 : snd (mr_getRelevancy 0 (result_o demo [w_xyz] w_title m_ex)) = snd (mr_getRelevancy 0 (result_o demo [w_xyz; w_xyz] w_title m_ex))).
  { unfold result_o. rewrite R1, R2. cbn [snd get_ok]. rewrite A1, A2. reflexivity. }
  vm_compute in B1. discriminate.
Qed.

(** ** More documents *)
Definition calls_1 : list m_call := [MIndex (docs [(1, [(w_title, [w_abc])])])].
Definition more_1 : list m_call := [MIndex (docs [(2, [(w_title, [w_abc])])])].
Lemma calls_1_setup : sound_setup demo calls_1.
Proof. setup. Qed.
Lemma both_setup : sound_setup demo (calls_1 ++ more_1).
Proof. setup. Qed.
Lemma both_query : sound_query (calls_1 ++ more_1) [w_abc].
Proof. query. Qed.
Definition m_1 : matcher := after demo calls_1.
Lemma m_1_history : history demo calls_1 m_1.
Proof. happens. Qed.
Definition m_2 : matcher := fst (m_run demo more_1 m_1).
Lemma m_2_run : m_run demo more_1 m_1 = (m_2, Ok tt).
Proof. unfold m_2. apply run_eq. vm_compute. reflexivity. Qed.
Lemma shows_view r v : shows r v -> forall x, In x v -> exists k, snd (mr_getRelevancy k r) = Ok (fst x) /\ snd (mr_getDocumentID k r) = Ok (snd x).
Proof.
  intros [_ H] x Hin. apply In_nth_error in Hin as [n Hn]. exists (N.of_nat n). destruct (H (N.of_nat n)) as (r' & A & B). rewrite Nat2N.id, Hn in *. now rewrite A, B.
Qed.
Definition rel0 (r : mresults) : double := get_ok d_zero (snd (mr_getRelevancy 0 r)).
(** Indexing another document with the word makes the word less telling. *)
Lemma relevancy_falls : exists E c more m1 m2 q m1' m2' r1 r2 d x1 x2, sound_setup E (c ++ more) /\ sound_query (c ++ more) q /\ Forall not_price more /\ history E c m1 /\
  m_run E more m1 = (m2, Ok tt) /\ mt_match E q sp_new m1 = (m1', Ok r1) /\ mt_match E q sp_new m2 = (m2', Ok r2) /\
  snd (mr_getDocumentID 0 r1) = Ok d /\ snd (mr_getRelevancy 0 r1) = Ok x1 /\ snd (mr_getDocumentID 0 r2) = Ok d /\ snd (mr_getRelevancy 0 r2) = Ok x2 /\ d_lt x2 x1 = true.
Proof.
  exists demo, calls_1, more_1, m_1, m_2, [w_abc], (state demo [w_abc] sp_new m_1), (state demo [w_abc] sp_new m_2), (result demo [w_abc] sp_new m_1), (result demo [w_abc] sp_new m_2), 1,
    (rel0 (result demo [w_abc] sp_new m_1)), (rel0 (result demo [w_abc] sp_new m_2)).
  split; [exact both_setup|]. split; [exact both_query|]. split; [repeat constructor|]. split; [exact m_1_history|]. split; [exact m_2_run|].
  split; [searched|]. split; [searched|]. split; [vm_compute; reflexivity|]. split; [vm_compute; reflexivity|]. split; [vm_compute; reflexivity|]. split; vm_compute; reflexivity.
Qed.

(** ** Distances *)
Definition w_ca : word := [99; 97]. Definition w_ac : word := [97; 99].
Lemma costs : let P := prices_of (ev_after []) in min_cost (P 2%nat) w_ca w_ac 100%Z /\ min_cost (P 2%nat) w_ac w_abc 100%Z /\ min_cost (P 2%nat) w_ca w_abc 300%Z.
Proof.
  cbv zeta. split; [exact (D_min (prices_of (ev_after []) 2) w_ca w_ac)|]. split; [exact (D_min (prices_of (ev_after []) 2) w_ac w_abc)|exact (D_min (prices_of (ev_after []) 2) w_ca w_abc)].
Qed.
Lemma new_subs a b : getSubstituteError (ev_after []) a b = Ok (if a =? b then 0%Z else 100%Z).
Proof. rewrite (@rule_all [] a b); [reflexivity|constructor|exact I|exact I]. Qed.
Lemma new_costs n : all_cost (ev_after []) n /\ even_handed (ev_after []) n 100 /\ letters_cost (ev_after []) n 100 /\ edits_cost_at_most (ev_after []) n 100.
Proof.
  assert (H0 : getStartInsertionError (ev_after []) (N.of_nat n) = 100%Z) by (unfold getStartInsertionError; now destruct (_ <=? _)).
  unfold all_cost, even_handed, letters_cost, edits_cost_at_most. rewrite H0. change (getInsertionError (ev_after [])) with 100%Z. change (getDeletionError (ev_after [])) with 100%Z.
  change (getEndDeletionError (ev_after [])) with 100%Z. change (getTransposeError (ev_after [])) with 100%Z.
  assert (H1 : forall a b v, getSubstituteError (ev_after []) a b = Ok v -> v = (if a =? b then 0%Z else 100%Z)) by (intros a b v; rewrite new_subs; congruence).
  split; [|split; [|split]]; repeat (split; [lia|]); try lia.
  - intros a b Hne v Hv. apply H1 in Hv. destruct (N.eqb_spec a b); [contradiction|lia].
  - intros a b v Hv. apply H1 in Hv. destruct (a =? b); lia.
Qed.

(** ** Indexing again *)
Definition again : corpus := docs [(1, [(w_title, [w_abc; w_def])]); (2, [(w_title, [w_abd; w_def; w_def])])].
Definition calls_again : list m_call := [MIndex again].
Definition again_2 : corpus := docs [(2, [(w_title, [w_abd; w_def; w_def])])].
Lemma again_setup : sound_setup demo (calls_again ++ [MIndex again_2]).
Proof. setup. Qed.
Lemma again_query : sound_query calls_again [w_abc; w_xyz].
Proof. query. Qed.
Lemma again_query2 : sound_query (calls_again ++ [MIndex again_2]) [w_abc; w_xyz].
Proof. query. Qed.
Lemma again_history : history demo calls_again (after demo calls_again).
Proof. happens. Qed.
Lemma again_whole : Forall whole calls_again.
Proof. constructor; [|constructor]. vm_compute. repeat (constructor; [discriminate|]). constructor. Qed.
Lemma again_incl : incl again_2 (corpora calls_again).
Proof. intros D [<-|[]]. right. now left. Qed.
Definition m_again : matcher := fst (m_do demo (MIndex again_2) (after demo calls_again)).
Lemma again_run : m_do demo (MIndex again_2) (after demo calls_again) = (m_again, Ok tt).
Proof. unfold m_again. apply run_eq. vm_compute. reflexivity. Qed.
(** The relevancies change: indexing a document again makes its words more frequent. *)
Lemma again_changes : exists E c k m1 m2 q m1' m2' r1 r2 d x1 x2, sound_setup E (c ++ [MIndex k]) /\ sound_query c q /\ history E c m1 /\ m_do E (MIndex k) m1 = (m2, Ok tt) /\ Forall whole c /\ incl k (corpora c) /\
  mt_match E q sp_new m1 = (m1', Ok r1) /\ mt_match E q sp_new m2 = (m2', Ok r2) /\
  snd (mr_getDocumentID 0 r1) = Ok d /\ snd (mr_getRelevancy 0 r1) = Ok x1 /\ snd (mr_getDocumentID 0 r2) = Ok d /\ snd (mr_getRelevancy 0 r2) = Ok x2 /\ d_lt x1 x2 = true.
Proof.
  exists demo, calls_again, again_2, (after demo calls_again), m_again, [w_abc; w_xyz], (state demo [w_abc; w_xyz] sp_new (after demo calls_again)), (state demo [w_abc; w_xyz] sp_new m_again),
    (result demo [w_abc; w_xyz] sp_new (after demo calls_again)), (result demo [w_abc; w_xyz] sp_new m_again), 1,
    (rel0 (result demo [w_abc; w_xyz] sp_new (after demo calls_again))), (rel0 (result demo [w_abc; w_xyz] sp_new m_again)).
  split; [exact again_setup|]. split; [exact again_query|]. split; [exact again_history|]. split; [exact again_run|]. split; [exact again_whole|]. split; [exact again_incl|].
  split; [searched|]. split; [searched|]. split; [vm_compute; reflexivity|]. split; [vm_compute; reflexivity|]. split; [vm_compute; reflexivity|]. split; vm_compute; reflexivity.
Qed.
