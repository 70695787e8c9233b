(** The simple prices of an ErrorValues object. *)
From Verif Require Import Base ErrorValuesM Spec_EV EVP.
Local Open Scope N_scope.
Local Open Scope m_scope.

Definition sc (e : errvals) : scalars := mkSc (ev_ins e) (ev_del e) (ev_edel e) (ev_sins e) (ev_trans e) (ev_limit e).
Lemma sc_lut a b v e : sc (addToLUT a b v e) = sc e.
Proof. unfold addToLUT. now destruct (_ && _). Qed.
Lemma sc_error x y v e : sc (setError x y v e) = sc e.
Proof. unfold setError. cbv zeta. now rewrite sc_lut. Qed.
Lemma sc_pairs ps : forall e, sc (set_pairs ps e) = sc e.
Proof. induction ps as [|p ps IH]; intros e; [reflexivity|]. cbn. now rewrite IH, sc_error. Qed.
Lemma sc_lut_pairs l v ls : forall e, sc (lut_pairs l ls v e) = sc e.
Proof. induction ls as [|x ls IH]; intros e; [reflexivity|]. cbn [lut_pairs]. rewrite IH. destruct (l =? x); [reflexivity|apply sc_lut]. Qed.
Lemma sc_group_lut v ls : forall e, sc (addGroupErrorToLUT ls v e) = sc e.
Proof. induction ls as [|x ls IH]; intros e; [reflexivity|]. cbn [addGroupErrorToLUT]. now rewrite IH, sc_lut_pairs. Qed.
Lemma sc_loop n ls : forall e, sc (fst (group_loop n ls e)) = sc e.
Proof. induction ls as [|x ls IH]; intros e; [reflexivity|]. cbn [group_loop]. destruct (find_group (ev_gmap e) x); [|now rewrite IH]. destruct (Nat.eqb _ _); [apply IH|reflexivity]. Qed.
Lemma sc_group g v e : sc (fst (setGroupError g v e)) = sc e.
Proof.
  unfold setGroupError, mbind, reads. pose proof (sc_loop (length (ev_gerr e)) g (with_gerr (ev_gerr e ++ [v]) e)) as H.
  destruct (group_loop _ _ _) as [e2 [[]| | | |]]; cbn [fst] in *; try exact H. now rewrite sc_group_lut.
Qed.
Lemma sc_accents ls : forall e, sc (fst (addAccents ls e)) = sc e.
Proof.
  induction ls as [|g ls IH]; intros e; [reflexivity|]. cbn [addAccents]. unfold mbind.
  assert (H : sc (fst ((match g with [] => ret tt | _ => setGroupError g DEFAULT_GROUP_ERROR end) e)) = sc e) by (destruct g; [reflexivity|apply sc_group]).
  destruct (_ e) as [e1 o]. cbn [fst] in H. destruct o; cbn [fst]; try exact H. now rewrite IH.
Qed.
Lemma sc_step c e : sc (fst (ev_do c e)) = set_scalar c (sc e).
Proof.
  destruct c; cbn [ev_do set_scalar]; [apply sc_error|apply sc_group|apply sc_accents| | | |reflexivity..]; unfold pure; cbn [fst].
  - now rewrite kb_pairs, sc_pairs.
  - now rewrite pad_pairs, sc_pairs.
  - unfold addStandardErrors, mbind. pose proof (sc_accents latin e) as H1. destruct (addAccents latin e) as [e1 [[]| | | |]]; cbn [fst] in *; try exact H1.
    pose proof (sc_accents greek e1) as H2. destruct (addAccents greek e1) as [e2 [[]| | | |]]; cbn [fst] in *; try congruence. rewrite kb_pairs, sc_pairs. congruence.
Qed.
Theorem scalars_spec calls : sc (ev_after calls) = scalars_after calls.
Proof.
  unfold ev_after, ev_run, scalars_after. change (mkSc 100 100 100 100 100 0) with (sc ev_new). generalize ev_new.
  induction calls as [|c calls IH]; intros e; [reflexivity|]. cbn [fold_left]. now rewrite IH, sc_step.
Qed.
Theorem getters_spec calls n : let s := scalars_after calls in let e := ev_after calls in
  getInsertionError e = s_ins s /\ getDeletionError e = s_del s /\ getEndDeletionError e = s_edel s /\
  getTransposeError e = s_trans s /\ getStartInsertionError e n = if s_limit s <=? n then s_sins s else s_ins s.
Proof. cbv zeta. rewrite <- scalars_spec. repeat split. Qed.
