(** Concrete runs of a matcher that runs out of memory. *)
From Verif Require Import Base TrieM TrieH WordStoreM ErrorValuesM LevIndexM Spec_Hist Spec_EV Spec_Edit Spec_Lev WordM Spec_Word MapM DoubleM ContM MatcherM Spec_Cont
  Spec_Match EditP MatchP MatchQ Demo StoreX MatchX FailM Spec_Fail FailP FailU.
From Coq Require Import ZifyBool ZifyN ZifyNat.
Local Open Scope N_scope.
Local Open Scope f_scope.

Definition dfst : fst_ := mkF dmatcher [] [].
(** What is left of a run, and how its calls ended. *)
Definition ran (calls : list m_call) (plan : list bool) : option (fst_ * list (fres unit)) := f_run demo calls (mkF M0 plan []).
Definition left_of (calls : list m_call) (plan : list bool) : fst_ := match ran calls plan with Some (s, _) => s | None => dfst end.
Definition ends_of (calls : list m_call) (plan : list bool) : list (fres unit) := match ran calls plan with Some (_, o) => o | None => [] end.
Lemma ran_history calls plan : match ran calls plan with Some _ => true | None => false end = true -> f_history demo calls plan (ends_of calls plan) (left_of calls plan).
Proof. intros H. exists M0. split; [exact M0_new|]. unfold left_of, ends_of. fold (ran calls plan). destruct (ran calls plan) as [[s o]|]; [reflexivity|discriminate]. Qed.
Ltac happened := apply ran_history; vm_compute; reflexivity.
Definition placeb (a b : place) : bool :=
  match a, b with
  | AtLocal, AtLocal | AtWordIndex, AtWordIndex | AtSizes, AtSizes | AtStats, AtStats | AtNewIndex, AtNewIndex | AtIndexes, AtIndexes | AtCounts, AtCounts | AtReverse, AtReverse | AtWeights, AtWeights => true
  | _, _ => false
  end.
Lemma sparedb s : forallb (fun p => negb (placeb p AtWordIndex) && negb (placeb p AtCounts)) (f_failed s) = true -> spared s.
Proof. intros H. rewrite forallb_forall in H. split; intros Hi; apply H in Hi; discriminate. Qed.
Definition res_of {A} (d : A) (o : fres A) : A := match o with Val a => a | _ => d end.
Definition is_val {A} (o : fres A) : bool := match o with Val _ => true | _ => false end.
Lemma val_run {A} (c : F A) d s : is_val (snd (c s)) = true -> c s = (fst (c s), Val (res_of d (snd (c s)))).
Proof. intros H. destruct (c s) as [s' o]. destruct o; try discriminate. reflexivity. Qed.
Lemma end_run {A} (c : F A) s o : snd (c s) = o -> c s = (fst (c s), o).
Proof. intros <-. now destruct (c s). Qed.
Definition f_found (q : wordlist) (p : sparams) (s : fst_) : list (double * N) := viewb (res_of mr_new (snd (f_match demo q p s))).

Lemma retried_two (c : m_call) o : o <> Out -> retried [c; c] [Out; o].
Proof.
  intros Ho [|[|i]] c' Hc Hx; cbn in Hc, Hx; [| |destruct i; discriminate].
  - injection Hc as <-. exists 1%nat, o. split; [reflexivity|]. split; [reflexivity|exact Ho].
  - congruence.
Qed.
Lemma retried_three (c d : m_call) o o' : o <> Out -> o' <> Out -> retried [c; d; c] [Out; o'; o].
Proof.
  intros Ho Ho' [|[|[|i]]] c' Hc Hx; cbn in Hc, Hx; [|congruence..|destruct i; discriminate].
  injection Hc as <-. exists 2%nat, o. split; [reflexivity|]. split; [reflexivity|exact Ho].
Qed.
Definition d_one : corpus := docs [(1, [(w_title, [w_abc])])].
Definition d_two : corpus := docs [(2, [(w_title, [w_xyz])])].
Definition d_self : corpus := docs [(1, [(w_title, [w_title])])].
(** Out of memory at the counts of the words: the next search is undefined. *)
Definition no_counts : list bool := [true; true; true; true; true; true; true; false].
Lemma counts_refuted : exists E calls plan outs s q s', sound_setup E calls /\ sound_query calls q /\ f_history E calls plan outs s /\ outs = [Out] /\ f_do E (MMatch q sp_new) s = (s', Undefined).
Proof.
  exists demo, [MIndex d_one], no_counts, (ends_of [MIndex d_one] no_counts), (left_of [MIndex d_one] no_counts), [w_abc], (fst (f_do demo (MMatch [w_abc] sp_new) (left_of [MIndex d_one] no_counts))).
  split; [setup|]. split; [query|]. split; [happened|]. split; [vm_compute; reflexivity|].
  apply end_run. vm_compute. reflexivity.
Qed.
(** Out of memory at the list of the words: even if the same call then succeeds, a search throws. *)
Lemma words_refuted : exists E calls plan outs s q s', sound_setup E calls /\ sound_query calls q /\ f_history E calls plan outs s /\ retried calls outs /\
  nth_error outs 1 = Some (Val tt) /\ ~ In AtCounts (f_failed s) /\ f_do E (MMatch q sp_new) s = (s', Thrown EOutOfRange).
Proof.
  exists demo, [MIndex d_self; MIndex d_self], [true; false], (ends_of [MIndex d_self; MIndex d_self] [true; false]), (left_of [MIndex d_self; MIndex d_self] [true; false]), [w_title], (fst (f_do demo (MMatch [w_title] sp_new) (left_of [MIndex d_self; MIndex d_self] [true; false]))).
  split; [setup|]. split; [query|]. split; [happened|].
  assert (Ho : ends_of [MIndex d_self; MIndex d_self] [true; false] = [Out; Val tt]) by (vm_compute; reflexivity). rewrite Ho.
  split; [apply retried_two; discriminate|].
  split; [reflexivity|]. split; [vm_compute; intros [Hi|[]]; discriminate|].
  apply end_run. vm_compute. reflexivity.
Qed.
(** Two words with the same number: a document is found by a word it does not have. *)
Definition clash : list m_call := [MIndex d_one; MIndex d_two; MIndex d_one].
Definition no_word : list bool := [true; true; true; false].
Lemma not_near err : ~ reached (prices_after clash) sp_new w_xyz w_abc err.
Proof.
  intros Hre. assert (SS : sound_setup demo [MIndex d_one]) by setup. assert (SQ : sound_query [MIndex d_one] [w_xyz]) by query.
  assert (HH : f_history demo [MIndex d_one] [] (ends_of [MIndex d_one] []) (left_of [MIndex d_one] [])) by happened.
  assert (Hsp : spared (left_of [MIndex d_one] [])) by (apply sparedb; vm_compute; reflexivity).
  destruct (oom_found SS HH Hsp) as (done & Hrem & G).
  assert (Hc : clean (MMatch [w_xyz] sp_new)) by clean1.
  assert (Hv : is_val (snd (f_match demo [w_xyz] sp_new (left_of [MIndex d_one] []))) = true) by (vm_compute; reflexivity).
  pose proof (@val_run _ (f_match demo [w_xyz] sp_new) mr_new (left_of [MIndex d_one] []) Hv) as Hr. destruct (G _ _ _ _ SQ Hc Hr) as (view & (Hsz & _) & _ & V).
  assert (Hl : length view = 0%nat).
  { clear - Hsz. assert (Hz : mr_size (res_of mr_new (snd (f_match demo [w_xyz] sp_new (left_of [MIndex d_one] [])))) = 0) by (vm_compute; reflexivity). rewrite Hz in Hsz. lia. }
  destruct view as [|? ?]; [|discriminate]. destruct (proj2 (V 1)) as [y []]. split.
  - exists w_title, w_abc, w_xyz, err. split; [|split; [reflexivity|split; [now left|exact Hre]]].
    apply (remains_kept Hrem (j := 0%nat) (c := MIndex d_one) (o := Val tt)); [reflexivity|vm_compute; reflexivity|discriminate|]. vm_compute. now left.
  - exists []. split; [now left|constructor].
Qed.
Lemma clash_refuted : exists E calls plan outs s q s' r d, sound_setup E calls /\ sound_query calls q /\ f_history E calls plan outs s /\ retried calls outs /\
  f_match E q sp_new s = (s', Val r) /\ (exists k, snd (mr_getDocumentID k r) = Ok d) /\ forall f w qw err, In (d, f, w) (occ calls) -> In qw q -> ~ reached (prices_after calls) sp_new qw w err.
Proof.
  exists demo, clash, no_word, (ends_of clash no_word), (left_of clash no_word), [w_xyz], (fst (f_match demo [w_xyz] sp_new (left_of clash no_word))), (res_of mr_new (snd (f_match demo [w_xyz] sp_new (left_of clash no_word)))), 1.
  split; [setup|]. split; [query|]. split; [happened|].
  assert (Ho : ends_of clash no_word = [Out; Val tt; Val tt]) by (vm_compute; reflexivity). rewrite Ho.
  split; [apply retried_three; discriminate|].
  split; [apply (@val_run _ (f_match demo [w_xyz] sp_new) mr_new (left_of clash no_word)); vm_compute; reflexivity|]. split; [exists 0; vm_compute; reflexivity|].
  intros f w qw err Hin [<-|[]]. assert (Hocc : occ clash = [(1, w_title, w_abc); (2, w_title, w_xyz); (1, w_title, w_abc)]) by (vm_compute; reflexivity). rewrite Hocc in Hin.
  destruct Hin as [[= <- <-]|[Hi|[[= <- <-]|[]]]]; [apply not_near|discriminate|apply not_near].
Qed.
(** A run in which memory ran out where it does no harm. *)
Definition x_calls : list m_call := [MIndex docs_ex; MWeight w_title (d_of_Z 2); MErr (SetGroupError [99; 100] 30); MIndex docs_ex; MWeight w_title (d_of_Z 2); MMatch [w_abc] p_filter; MIndex d_two].
Definition x_plan : list bool := repeat true 9 ++ [false; false] ++ repeat true 36 ++ [false].
Definition y_plan : list bool := repeat true 9 ++ [false; false].
Definition x_ends : list (fres unit) := [Out; Out; Val tt; Val tt; Val tt; Val tt; Out].
Definition y_ends : list (fres unit) := [Out; Out; Val tt; Val tt; Val tt; Val tt; Val tt].
Lemma x_history : f_history demo x_calls x_plan x_ends (left_of x_calls x_plan).
Proof. assert (Ho : ends_of x_calls x_plan = x_ends) by (vm_compute; reflexivity). rewrite <- Ho. happened. Qed.
Lemma y_history : f_history demo x_calls y_plan y_ends (left_of x_calls y_plan).
Proof. assert (Ho : ends_of x_calls y_plan = y_ends) by (vm_compute; reflexivity). rewrite <- Ho. happened. Qed.
Lemma x_spared : spared (left_of x_calls x_plan).
Proof. apply sparedb. vm_compute. reflexivity. Qed.
Lemma y_spared : spared (left_of x_calls y_plan).
Proof. apply sparedb. vm_compute. reflexivity. Qed.
Lemma x_setup : sound_setup demo x_calls.
Proof. setup. Qed.
Lemma x_query : sound_query x_calls [w_abc; w_xyz].
Proof. query. Qed.
Lemma y_retried : retried x_calls y_ends.
Proof.
  unfold x_calls, y_ends. generalize (MIndex docs_ex) (MWeight w_title (d_of_Z 2)) (MErr (SetGroupError [99; 100] 30)) (MMatch [w_abc] p_filter) (MIndex d_two). intros a b c d e.
  intros [|[|[|[|[|[|[|i]]]]]]] c' Hc Hx; cbn in Hc, Hx; try congruence; [| |destruct i; discriminate]; injection Hc as <-; [exists 3%nat, (Val tt)|exists 4%nat, (Val tt)]; (split; [reflexivity|]); (split; [reflexivity|discriminate]).
Qed.
(** A word that was counted and not noted: the relevancies are not those of the calls that had memory. *)
Definition z_calls : list m_call := [MIndex d_one; MIndex d_one].
Definition z_plan : list bool := repeat true 8 ++ [false].
Lemma counted_refuted : exists E calls plan outs s m q s' r m' r2, sound_setup E calls /\ sound_query calls q /\ f_history E calls plan outs s /\ spared s /\ retried calls outs /\
  history E (heeded calls outs) m /\ f_match E q sp_new s = (s', Val r) /\ mt_match E q sp_new m = (m', Ok r2) /\
  snd (mr_getDocumentID 0 r) = snd (mr_getDocumentID 0 r2) /\ snd (mr_getRelevancy 0 r) <> snd (mr_getRelevancy 0 r2).
Proof.
  exists demo, z_calls, z_plan, (ends_of z_calls z_plan), (left_of z_calls z_plan), (after demo [MIndex d_one]), [w_abc], (fst (f_match demo [w_abc] sp_new (left_of z_calls z_plan))),
    (res_of mr_new (snd (f_match demo [w_abc] sp_new (left_of z_calls z_plan)))), (state demo [w_abc] sp_new (after demo [MIndex d_one])), (result demo [w_abc] sp_new (after demo [MIndex d_one])).
  split; [setup|]. split; [query|]. split; [happened|]. split; [apply sparedb; vm_compute; reflexivity|].
  assert (Ho : ends_of z_calls z_plan = [Out; Val tt]) by (vm_compute; reflexivity). rewrite Ho. split; [apply retried_two; discriminate|].
  split; [change (heeded z_calls [Out; Val tt]) with [MIndex d_one]; happens|].
  split; [apply (@val_run _ (f_match demo [w_abc] sp_new) mr_new (left_of z_calls z_plan)); vm_compute; reflexivity|].
  split; [apply result_ok; vm_compute; reflexivity|]. split; [vm_compute; reflexivity|]. vm_compute. discriminate.
Qed.
