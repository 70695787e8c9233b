(** Prices that a Python program can set. *)
From Verif Require Import Base TrieM WordStoreM ErrorValuesM LevIndexM WordM MapM DoubleM ContM MatcherM DataFileM CApiM PyM
  Spec_Hist Spec_EV Spec_Word Spec_Cont Spec_Match Spec_File Spec_CApi Spec_Py EVP EVE EVR ScalarP TypoP DataP MatchQ MatchY MatchZ PyP PyQ PyR PyS PyT PyU.
From Coq Require Import ZifyBool ZifyN ZifyNat.
Local Open Scope N_scope.

Definition std : ev_call := AddStandardErrors latin_groups greek_groups.
Definition price_state (on : bool) (e : errvals) : Prop :=
  if on then (forall a b, getSubstituteError e a b = Ok (standard_price a b)) /\ isInGroup e 97 = true else sub_equiv e ev_new.
Lemma std_new_group : isInGroup (fst (ev_do std ev_new)) 97 = true.
Proof.
  change ev_new with (ev_after []). destruct (standard_outcome []) as [(_ & _ & H)|(H & _)]; [|change (ev_after []) with ev_new in H; rewrite standard_new_ok in H; discriminate].
  apply (H (hd [] shipped_groups)); vm_compute; now left.
Qed.
Lemma std_state on e : ev_wf e -> price_state on e -> price_state true (fst (ev_do std e)).
Proof.
  intros W H. destruct on; cbn [price_state] in *.
  - destruct H as [H Hi]. cbn [ev_do std]. rewrite standard_accents. change shipped_groups with ((97 :: tl (hd [] shipped_groups)) :: tl shipped_groups).
    destruct (@refused_at_once e 97 (tl (hd [] shipped_groups)) (tl shipped_groups) Hi W) as (e' & -> & H1 & H2). cbn [fst]. split; [intros a b; now rewrite H1|now rewrite H2].
  - destruct (do_equiv std H) as [H1 _]. split; [intros a b; rewrite (sub_equiv_get a b H1); apply standard_new_prices|].
    unfold isInGroup. destruct H1 as (_ & -> & _). exact std_new_group.
Qed.
Lemma same_state on e e' : (forall a b, getSubstituteError e' a b = getSubstituteError e a b) -> (forall l, isInGroup e' l = isInGroup e l) -> sub_equiv e' e -> price_state on e -> price_state on e'.
Proof.
  intros H1 H2 H3. destruct on; cbn [price_state]; [intros [H Hi]; split; [intros a b; now rewrite H1|now rewrite H2]|]. intros H. exact (sub_trans H3 H).
Qed.
Lemma prices_state E cs : Forall (py_like E) cs -> price_state (standard_on cs) (prices_after cs).
Proof.
  induction cs as [|c cs IH] using rev_ind; intros H; [apply sub_refl|]. apply Forall_app in H as [H Hc]. specialize (IH H). inversion_clear Hc as [|? ? Hl _].
  unfold standard_on. rewrite fold_left_app. cbn [fold_left]. fold (standard_on cs). rewrite prices_snoc.
  assert (W : ev_wf (prices_after cs)) by apply after_wf. assert (Hw : exists es, prices_after cs = ev_after es) by (eexists; reflexivity). destruct c as [cp|e|f x|q p|q f]; try exact IH.
  destruct Hl as [-> |[-> |[-> |[v ->]]]].
  - exact (std_state W IH).
  - refine (same_state _ _ _ IH); [reflexivity|reflexivity|]. now repeat split.
  - destruct Hw as [es ->]. pose proof (clear_new es) as Hn. unfold ev_after in *. rewrite run_app in Hn. exact Hn.
  - refine (same_state _ _ _ IH); [reflexivity|reflexivity|]. now repeat split.
Qed.
Lemma state_price on e a b : price_state on e -> getSubstituteError e a b = Ok (if on then standard_price a b else if a =? b then 0%Z else 100%Z).
Proof.
  destruct on; cbn [price_state]; [intros [H _]; apply H|]. intros H. rewrite (sub_equiv_get a b H). rewrite (get_val a b new_wf). f_equal. unfold ev_val.
  destruct ((a <? 512) && (b <? 512)) eqn:Hl; [rewrite lut_at_new by lia; reflexivity|]. unfold slow_val. destruct (a =? b); reflexivity.
Qed.
Section Prices.
Variables (E : env) (W : world).
Hypothesis HF : folds_shipped E.
Hypothesis HW : shipped W.
Lemma python_prices prog s n cs a b : Forall (fun x => py_text (fst x)) prog -> py_reached E W prog s -> py_history E W n prog py_start cs ->
  getSubstituteError (prices_after cs) a b = Ok (python_price cs a b) /\ getInsertionError (prices_after cs) = 100%Z /\ getDeletionError (prices_after cs) = 100%Z /\ getTransposeError (prices_after cs) = 100%Z.
Proof.
  intros HT [rs Hr] Hh. pose proof (history_like HF HW good_start (words_start E) HT Hr Hh) as HL. split; [exact (state_price a b (prices_state HL))|].
  rewrite prices_calls. destruct (getters_spec (price_calls cs) 0) as (-> & -> & _ & -> & _). unfold scalars_after.
  assert (Hp : Forall (fun e => e = AddStandardErrors latin_groups greek_groups \/ e = SetSubstringMode \/ e = ClearErrors \/ exists v, e = SetEndDeletionError v) (price_calls cs)).
  { unfold price_calls. rewrite Forall_forall in *. intros e He. apply in_flat_map in He as (c & Hc & He). specialize (HL c Hc). destruct c as [|e'| | |]; try (destruct He; fail). destruct He as [<-|[]]. exact HL. }
  assert (G : forall s0, s_ins s0 = 100%Z -> s_del s0 = 100%Z -> s_trans s0 = 100%Z -> let s1 := fold_left (fun s c => set_scalar c s) (price_calls cs) s0 in s_ins s1 = 100%Z /\ s_del s1 = 100%Z /\ s_trans s1 = 100%Z).
  { revert Hp. generalize (price_calls cs). clear. induction l as [|e l IH]; intros Hp s0 H1 H2 H3; [cbn; auto|]. inversion Hp as [|? ? He Hl]; subst. cbn [fold_left].
    apply (IH Hl); destruct He as [-> |[-> |[-> |[v ->]]]]; assumption. }
  apply G; reflexivity.
Qed.
End Prices.
