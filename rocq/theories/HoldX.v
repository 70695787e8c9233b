(** Concrete programs for C122. *)
From Verif Require Import Base TrieM WordStoreM ErrorValuesM LevIndexM WordM MapM DoubleM ContM MatcherM Spec_Hist Spec_EV Spec_Match ResM Spec_Res ResX HoldM Spec_Hold HoldP HoldS HoldT HoldU MatchX StoreX Demo.
Local Open Scope N_scope.
Local Open Scope m_scope.

(** Two Matchers, the first with two fields and a search with a filter, and destroyed. *)
Definition two_matchers : list p_call :=
  [PNew; PCall 0 (MIndex docs_ex); PNew; PCall 1 (MIndex (docs [(1, [(w_other, [w_abc])])])); PCall 0 (MMatch q_ex p_filter); PCall 1 (MOnline [w_abc] w_title); PDelete 0].
Definition at_both : msys := fst (p_run demo two_matchers msys0).
Definition xs_both : list (option exn) := [None; None; None; None; None; Some EInvalidArg; None].
Lemma p_is E prog xs : snd (p_run E prog msys0) = Ok xs -> p_run E prog msys0 = (fst (p_run E prog msys0), Ok xs).
Proof. destruct (p_run E prog msys0) as [s o]. cbn. now intros ->. Qed.
Lemma both_reached : p_reaches demo two_matchers xs_both at_both.
Proof.
  split; [|apply p_is; vm_compute; reflexivity]. repeat (apply Forall_cons; [try exact I; cbn [p_clean]; clean1|]). apply Forall_nil.
Qed.
Definition all_gone : list p_call := two_matchers ++ [PDelete 1].
Definition at_gone : msys := fst (p_run demo all_gone msys0).
Lemma gone_reached : p_reaches demo all_gone (xs_both ++ [None]) at_gone.
Proof.
  split; [|apply p_is; vm_compute; reflexivity]. apply Forall_app. split; [exact (proj1 both_reached)|]. repeat constructor.
Qed.
Definition deadb (l : list (option hmatcher)) : bool := forallb (fun o => match o with None => true | _ => false end) l.
Lemma dead_none s : deadb (ms_ms s) = true -> forall k h, ~ matcher_at s k h.
Proof. unfold deadb, matcher_at. intros H k h Hk. apply nth_error_In in Hk. rewrite forallb_forall in H. now apply H in Hk. Qed.
Lemma gone_all : forall k h, ~ matcher_at at_gone k h.
Proof. apply dead_none. vm_compute. reflexivity. Qed.
Lemma gone_maps : live_maps (ms_sys at_gone) = 5%nat.
Proof. vm_compute. reflexivity. Qed.
(** The first Matcher's search, before it was destroyed. *)
Definition before : list p_call := removelast two_matchers.
Definition at_before : msys := fst (p_run demo before msys0).
Lemma before_reached : p_reaches demo before (removelast xs_both) at_before.
Proof.
  split; [|apply p_is; vm_compute; reflexivity]. repeat (apply Forall_cons; [try exact I; cbn [p_clean]; clean1|]). apply Forall_nil.
Qed.
Definition h_before : hmatcher := match nth_error (ms_ms at_before) 0 with Some (Some h) => h | _ => mkHM [] [] ev_new [] [] (mkHS 0 []) [] end.
Lemma before_at : matcher_at at_before 0 h_before.
Proof.
  unfold matcher_at, h_before. destruct (nth_error (ms_ms at_before) 0) as [[h|]|] eqn:H; [reflexivity|exfalso..].
  - assert (X : match nth_error (ms_ms at_before) 0 with Some (Some _) => true | _ => false end = true) by (vm_compute; reflexivity). now rewrite H in X.
  - assert (X : match nth_error (ms_ms at_before) 0 with Some (Some _) => true | _ => false end = true) by (vm_compute; reflexivity). now rewrite H in X.
Qed.
Lemma before_clean : clean (MMatch q_ex p_filter).
Proof. clean1. Qed.
Definition r_before : mresults := get_ok mr_new (snd (h_match demo q_ex p_filter (ms_sys at_before, h_before))).
Lemma snd_is {A B} (p : A * B) b : snd p = b -> exists a, p = (a, b).
Proof. destruct p as [a b']. cbn. intros ->. now exists a. Qed.
Lemma before_found : exists s', h_match demo q_ex p_filter (ms_sys at_before, h_before) = (s', Ok r_before).
Proof. apply snd_is. vm_compute. reflexivity. Qed.

Lemma not_back E prog xs s : env_ok E -> p_reaches E prog xs s -> refusals prog xs = 0%nat -> (forall k h, ~ matcher_at s k h) -> live_maps (ms_sys s) <> 0%nat ->
  ~ (forall E prog xs s, env_ok E -> p_reaches E prog xs s -> refusals prog xs = 0%nat -> (forall k h, ~ matcher_at s k h) -> live_maps (ms_sys s) = 0%nat).
Proof. intros HE H1 H2 H3 H4 H. apply H4. exact (H _ _ _ _ HE H1 H2 H3). Qed.
Lemma maps_stay : ~ (forall E prog xs s, env_ok E -> p_reaches E prog xs s -> refusals prog xs = 0%nat -> (forall k h, ~ matcher_at s k h) -> live_maps (ms_sys s) = 0%nat).
Proof. apply (not_back demo_ok gone_reached eq_refl gone_all). rewrite gone_maps. discriminate. Qed.
Lemma refused_new : p_reaches refuses [PNew] [Some ERuntime] (mkMS (mkSys (mkK [true] []) []) []).
Proof. split; [repeat constructor|reflexivity]. Qed.
Lemma file_stays : ~ (forall E prog xs s, p_reaches E prog xs s -> (forall k h, ~ matcher_at s k h) -> open_files (ms_sys s) = 0%nat).
Proof. intros H. specialize (H _ _ _ _ refused_new). discriminate H. intros [|k] h; discriminate. Qed.
Lemma before_sound : sound_history demo (calls_on 0 before ++ [MMatch q_ex p_filter]).
Proof.
  apply sound_from_history. change (calls_on 0 before ++ [MMatch q_ex p_filter]) with [MIndex docs_ex; MMatch q_ex p_filter; MMatch q_ex p_filter]. cbn [app sound_from].
  repeat (split; [split; [clean1|first [exact I|split; [setup|query]]]|]). exact I.
Qed.
(** A system that grants no more than 1024 bytes: indexing a long word is refused, and the
    Matcher is destroyed. *)
Definition stopped : list p_call := [PNew; PCall 0 (MIndex (docs [(1, [(w_title, [long])])])); PDelete 0].
Definition at_stopped : msys := fst (p_run demo_small stopped msys0).
Lemma stopped_reached : p_reaches demo_small stopped [None; Some ERuntime; None] at_stopped.
Proof. split; [|apply p_is; vm_compute; reflexivity]. repeat (apply Forall_cons; [try exact I; cbn [p_clean]; clean1|]). apply Forall_nil. Qed.
