(** What Matchers take from the operating system (C122). *)
From Verif Require Import Base TrieM WordStoreM ErrorValuesM LevIndexM WordM MapM DoubleM ContM MatcherM Spec_Hist Spec_EV Spec_Match ResM Spec_Res ResX HoldM Spec_Hold HoldT HoldU HoldX MatchX Demo.
Local Open Scope N_scope.

(** C122: as long as the system refuses nothing, the open files are those of the Matchers
    not destroyed: one for the words, and one for each field in which a word was indexed. *)
Theorem C122_files : forall E prog xs s, env_ok E -> p_reaches E prog xs s -> refusals prog xs = 0%nat ->
  open_files (ms_sys s) = list_sum (map (fun k => if destroyed k prog then 0%nat else needs k prog) (seq 0 (made prog))).
Proof. exact files_now. Qed.
Print Assumptions C122_files.
(** Once all Matchers are destroyed no file is open, but for at most one for each refusal. *)
Theorem C122_closed : forall E prog xs s, p_reaches E prog xs s -> (forall k h, ~ matcher_at s k h) -> (open_files (ms_sys s) <= refusals prog xs)%nat.
Proof. exact closed_now. Qed.
Print Assumptions C122_closed.
(** A Matcher can always be destroyed, whatever was refused before. *)
Theorem C122_delete : forall E prog xs s k h, p_reaches E prog xs s -> matcher_at s k h ->
  exists s', p_do E (PDelete k) s = (s', Ok tt) /\ forall h', ~ matcher_at s' k h'.
Proof. exact delete_now. Qed.
Print Assumptions C122_delete.
(** The mappings are those of all Matchers ever made, destroyed or not. *)
Theorem C122_never_back : forall E prog xs s, env_ok E -> p_reaches E prog xs s -> refusals prog xs = 0%nat ->
  live_maps (ms_sys s) = list_sum (map (fun k => needs k prog) (seq 0 (made prog))).
Proof. exact maps_now. Qed.
Print Assumptions C122_never_back.
(** Several Matchers do not disturb each other: each call on one of them ends as it does on a
    Matcher alone, with the same history, in the model of C41-C58. *)
Theorem C122_same : forall E prog xs s k h, env_ok E -> p_reaches E prog xs s -> refusals prog xs = 0%nat -> matcher_at s k h ->
  exists m, history E (calls_on k prog) m /\ see (ms_sys s) h = Some m /\
    (forall c, clean c -> alike (snd (h_do E c (ms_sys s, h))) (snd (m_do E c m))) /\
    (forall q p, clean (MMatch q p) -> alike (snd (h_match E q p (ms_sys s, h))) (snd (mt_match E q p m))) /\
    (forall q f, alike (snd (h_onlineMatch E q f (ms_sys s, h))) (snd (mt_onlineMatch E q f m))).
Proof. exact same_now. Qed.
Print Assumptions C122_same.
(** So each call on each of them does what C58 promises. *)
Theorem C122_safe : forall E prog xs s k h c, env_ok E -> p_reaches E prog xs s -> refusals prog xs = 0%nat -> matcher_at s k h ->
  sound_history E (calls_on k prog ++ [c]) -> nameable c -> expected c (snd (p_do E (PCall k c) s)).
Proof. exact safe_now. Qed.
Print Assumptions C122_safe.
Theorem C122_given_back_refuted : ~ (forall E prog xs s, env_ok E -> p_reaches E prog xs s -> refusals prog xs = 0%nat ->
  (forall k h, ~ matcher_at s k h) -> live_maps (ms_sys s) = 0%nat).
Proof. exact maps_stay. Qed.
Print Assumptions C122_given_back_refuted.
Theorem C122_failed_new_refuted : ~ (forall E prog xs s, p_reaches E prog xs s -> (forall k h, ~ matcher_at s k h) -> open_files (ms_sys s) = 0%nat).
Proof. exact file_stays. Qed.
Print Assumptions C122_failed_new_refuted.
(** Two Matchers; one has two fields, was searched with a filter, and is then destroyed. *)
Example C122_ex : p_reaches demo two_matchers xs_both at_both /\ refusals two_matchers xs_both = 0%nat /\
  needs 0 two_matchers = 3%nat /\ needs 1 two_matchers = 2%nat /\ open_files (ms_sys at_both) = 2%nat /\ live_maps (ms_sys at_both) = 5%nat /\
  p_reaches demo all_gone (xs_both ++ [None]) at_gone /\ (forall k h, ~ matcher_at at_gone k h) /\ open_files (ms_sys at_gone) = 0%nat /\
  p_reaches refuses [PNew] [Some ERuntime] (mkMS (mkSys (mkK [true] []) []) []) /\
  p_reaches demo_small stopped [None; Some ERuntime; None] at_stopped /\ open_files (ms_sys at_stopped) = 0%nat.
Proof.
  split; [exact both_reached|]. repeat (split; [vm_compute; reflexivity|]). split; [exact gone_reached|]. split; [exact gone_all|]. split; [vm_compute; reflexivity|].
  split; [exact refused_new|]. split; [exact stopped_reached|vm_compute; reflexivity].
Qed.
Example C122_same_ex : p_reaches demo before (removelast xs_both) at_before /\ matcher_at at_before 0 h_before /\ clean (MMatch q_ex p_filter) /\
  refusals before (removelast xs_both) = 0%nat /\ sound_history demo (calls_on 0 before ++ [MMatch q_ex p_filter]) /\ nameable (MMatch q_ex p_filter) /\
  (exists s', h_match demo q_ex p_filter (ms_sys at_before, h_before) = (s', Ok r_before)) /\ mr_size r_before = 1.
Proof.
  split; [exact before_reached|]. split; [exact before_at|]. split; [exact before_clean|]. split; [reflexivity|]. split; [exact before_sound|]. split; [exact I|]. split; [exact before_found|vm_compute; reflexivity].
Qed.
