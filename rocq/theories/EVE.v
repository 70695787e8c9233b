(** ErrorValues objects with the same substitution prices and groups stay so. *)
From Verif Require Import Base ErrorValuesM Spec_EV EVP.
From Coq Require Import ZifyBool ZifyN ZifyNat.
Local Open Scope N_scope.

(** ** Two states with the same substitution prices and groups *)
Lemma sub_refl e : sub_equiv e e.
Proof. now repeat split. Qed.
Lemma sub_sym e e' : sub_equiv e e' -> sub_equiv e' e.
Proof. intros (A & B & C & D & F). repeat split; try congruence. intros a b Ha Hb. symmetry. now apply F. Qed.
Lemma sub_trans e e' e2 : sub_equiv e e' -> sub_equiv e' e2 -> sub_equiv e e2.
Proof. intros (A & B & C & D & F) (A' & B' & C' & D' & F'). repeat split; try congruence. intros a b Ha Hb. rewrite F by assumption. now apply F'. Qed.
Lemma add_equiv x y v e e' : sub_equiv e e' -> sub_equiv (addToLUT x y v e) (addToLUT x y v e').
Proof.
  intros (A & B & C & D & F). unfold addToLUT. destruct ((x <? LUT_LETTERS) && (y <? LUT_LETTERS)); [|now repeat split]. repeat split; cbn; try assumption.
  intros a b Ha Hb. unfold lut_at. cbn. unfold lut_set. specialize (F a b Ha Hb). unfold lut_at in F. now rewrite F.
Qed.
Lemma set_equiv x y v e e' : sub_equiv e e' -> sub_equiv (setError x y v e) (setError x y v e').
Proof. intros (A & B & C & D & F). unfold setError. apply add_equiv. repeat split; cbn; try congruence. exact F. Qed.
Lemma pairs_equiv ps : forall e e', sub_equiv e e' -> sub_equiv (set_pairs ps e) (set_pairs ps e').
Proof. induction ps as [|p ps IH]; intros e e' H; [exact H|]. cbn. apply IH. now apply set_equiv. Qed.
Lemma lpairs_equiv x ls v : forall e e', sub_equiv e e' -> sub_equiv (lut_pairs x ls v e) (lut_pairs x ls v e').
Proof. induction ls as [|y ls IH]; intros e e' H; [exact H|]. cbn. apply IH. destruct (x =? y); [exact H|now apply add_equiv]. Qed.
Lemma glut_equiv ls v : forall e e', sub_equiv e e' -> sub_equiv (addGroupErrorToLUT ls v e) (addGroupErrorToLUT ls v e').
Proof. induction ls as [|y ls IH]; intros e e' H; [exact H|]. cbn [addGroupErrorToLUT]. apply IH. now apply lpairs_equiv. Qed.
Definition both (r r' : errvals * outcome unit) : Prop := sub_equiv (fst r) (fst r') /\ snd r = snd r'.
Lemma loop_equiv id ls : forall e e', sub_equiv e e' -> both (group_loop id ls e) (group_loop id ls e').
Proof.
  induction ls as [|l ls IH]; intros e e' H; [now split|]. cbn [group_loop]. pose proof H as (A & B & C & D & F). rewrite B. destruct (find_group (ev_gmap e') l) as [g|].
  - destruct (Nat.eqb g id); [now apply IH|now split].
  - apply IH. repeat split; cbn; try congruence. exact F.
Qed.
Lemma group_equiv g v e e' : sub_equiv e e' -> both (setGroupError g v e) (setGroupError g v e').
Proof.
  intros H. pose proof H as (A & B & C & D & F). unfold setGroupError, mbind, reads. rewrite C. set (k := length (ev_gerr e')).
  assert (H1 : sub_equiv (with_gerr (ev_gerr e' ++ [v]) e) (with_gerr (ev_gerr e' ++ [v]) e')) by (repeat split; cbn; try congruence; exact F).
  pose proof (loop_equiv k g H1) as [L1 L2]. destruct (group_loop k g _) as [f o], (group_loop k g (with_gerr (ev_gerr e' ++ [v]) e')) as [f' o']. cbn [fst snd] in *. subst o'.
  destruct o; split; cbn; try exact L1; try reflexivity. now apply glut_equiv.
Qed.
Lemma accents_equiv gs : forall e e', sub_equiv e e' -> both (addAccents gs e) (addAccents gs e').
Proof.
  induction gs as [|g gs IH]; intros e e' H; [now split|]. cbn [addAccents]. unfold mbind.
  assert (G : both ((match g with [] => ret tt | _ => setGroupError g DEFAULT_GROUP_ERROR end) e) ((match g with [] => ret tt | _ => setGroupError g DEFAULT_GROUP_ERROR end) e')) by (destruct g; [now split|now apply group_equiv]).
  destruct ((match g with [] => ret tt | _ => setGroupError g DEFAULT_GROUP_ERROR end) e) as [f o], ((match g with [] => ret tt | _ => setGroupError g DEFAULT_GROUP_ERROR end) e') as [f' o'].
  destruct G as [G1 G2]. cbn [fst snd] in *. subst o'. destruct o; [now apply IH|now split|now split|now split|now split].
Qed.
Lemma keyboard_equiv e e' : sub_equiv e e' -> sub_equiv (addKeyboardErrors e) (addKeyboardErrors e').
Proof. intros H. rewrite (kb_pairs e), (kb_pairs e'). now apply pairs_equiv. Qed.
Lemma standard_equiv a b e e' : sub_equiv e e' -> both (addStandardErrors a b e) (addStandardErrors a b e').
Proof.
  intros H. unfold addStandardErrors, mbind. destruct (accents_equiv a H) as [G1 G2]. destruct (addAccents a e) as [f o], (addAccents a e') as [f' o']. cbn [fst snd] in *. subst o'.
  destruct o; [|now split|now split|now split|now split]. destruct (accents_equiv b G1) as [K1 K2]. destruct (addAccents b f) as [h p], (addAccents b f') as [h' p']. cbn [fst snd] in *. subst p'.
  destruct p; [unfold both; cbn [fst snd]; split; [exact (keyboard_equiv K1)|reflexivity]|now split|now split|now split|now split].
Qed.
Lemma pad_equiv e e' : sub_equiv e e' -> sub_equiv (addNumberpadErrors e) (addNumberpadErrors e').
Proof. intros H. rewrite (pad_pairs e), (pad_pairs e'). now apply pairs_equiv. Qed.
Lemma clear_equiv e e' : ev_sub e = ev_sub e' -> sub_equiv (clearErrors e) (clearErrors e').
Proof. intros H. unfold sub_equiv. split; [reflexivity|]. split; [reflexivity|]. split; [reflexivity|]. split; [exact H|]. intros a b Ha Hb. rewrite !lut_at_clear by assumption. now rewrite H. Qed.
Lemma do_equiv c e e' : sub_equiv e e' -> both (ev_do c e) (ev_do c e').
Proof.
  intros H. pose proof H as (A & B & C & D & F). destruct c as [a b v|g v|ls| | |lt gr| |v|v|v|v|v|v|]; cbn [ev_do]; unfold pure, both; cbn [fst snd].
  8-14: (split; [exact H|reflexivity]).
  - split; [now apply set_equiv|reflexivity].
  - now apply group_equiv.
  - now apply accents_equiv.
  - split; [exact (keyboard_equiv H)|reflexivity].
  - split; [exact (pad_equiv H)|reflexivity].
  - now apply standard_equiv.
  - split; [now apply clear_equiv|reflexivity].
Qed.
Lemma run_equiv cs : forall e e', sub_equiv e e' -> sub_equiv (ev_run cs e) (ev_run cs e').
Proof. induction cs as [|c cs IH]; intros e e' H; [exact H|]. cbn. apply IH. apply (do_equiv c H). Qed.
Lemma clear_new calls : sub_equiv (ev_after (calls ++ [ClearErrors])) ev_new.
Proof.
  unfold ev_after. rewrite run_app. pose proof (after_wf calls) as W. unfold ev_after in W. set (e := ev_run calls ev_new) in *.
  change (ev_run [ClearErrors] e) with (clearErrors e). unfold sub_equiv. split; [reflexivity|]. split; [reflexivity|]. split; [reflexivity|]. split; [exact (wf_sub W)|].
  intros a b Ha Hb. rewrite lut_at_clear, lut_at_new by assumption. now rewrite (wf_sub W).
Qed.
(** After clearErrors an object is like a new one in all that follows. *)
Lemma clear_ever_after calls more : let e := ev_after (calls ++ ClearErrors :: more) in
  (forall a b, getSubstituteError e a b = getSubstituteError (ev_after more) a b) /\ (forall l, isInGroup e l = isInGroup (ev_after more) l) /\
  forall c, snd (ev_do c e) = snd (ev_do c (ev_after more)).
Proof.
  cbv zeta. assert (H : sub_equiv (ev_after (calls ++ ClearErrors :: more)) (ev_after more)).
  { change (ClearErrors :: more) with ([ClearErrors] ++ more). rewrite app_assoc. unfold ev_after. rewrite run_app. apply run_equiv. apply clear_new. }
  split; [intros a b; exact (sub_equiv_get a b H)|]. split; [|intros c; exact (proj2 (do_equiv c H))]. intros l. unfold isInGroup. destruct H as (_ & -> & _). reflexivity.
Qed.
