(** More query words and greater weights never lower a relevancy. *)
From Verif Require Import Base TrieM TrieA TrieP TrieP2 TrieD WordStoreM Spec_Hist TrieH WordStoreP ErrorValuesM LevIndexM
  Spec_Edit Spec_EV Spec_Lev EVP EditP HitsP LevP WordM MapM DoubleM FloatP ContM MatcherM MapP Spec_Cont ContP Spec_Match MatchP MatchQ MatchR MatchS MatchT MatchU MatchV MatchW MatchZ QueryP.
From Coq Require Import Reals Lra.
From Flocq Require Import Core.Core IEEE754.BinarySingleNaN.
From Verif Require Import DoubleM FloatQ FloatR.
From Coq Require Import ZifyBool ZifyN ZifyNat.
Local Open Scope N_scope.
Local Open Scope m_scope.

(** A list inside another, with the elements related. *)
Inductive inside {A} (R : A -> A -> Prop) : list A -> list A -> Prop :=
| in_nil l : inside R [] l
| in_take x y l m : R x y -> inside R l m -> inside R (x :: l) (y :: m)
| in_skip y l m : inside R l m -> inside R l (y :: m).
Lemma fold_inside {A} (g h : A -> double) l m : inside (fun x y => ple (g x) (h y)) l m -> Forall (fun x => pos (h x)) m -> forall a b, ple a b ->
  ple (fold_left (fun s y => d_add s (g y)) l a) (fold_left (fun s y => d_add s (h y)) m b).
Proof.
  induction 1 as [m|x y l m Hr Hw IH|y l m Hw IH]; intros Hp a b Hab.
  - cbn. revert b Hab. induction Hp as [|x m Hx _ IH]; intros b Hab; [exact Hab|]. cbn. apply IH. apply (ple_trans Hab). now apply ple_more; [apply (ple_r Hab)|].
  - apply Forall_cons_iff in Hp as [Hx Hp]. cbn. apply IH; [exact Hp|]. now apply ple_add.
  - apply Forall_cons_iff in Hp as [Hx Hp]. cbn. apply IH; [exact Hp|]. apply (ple_trans Hab). now apply ple_more; [apply (ple_r Hab)|].
Qed.
Lemma start_inside {A} (g h : A -> double) m : forall x l b, inside (fun x y => ple (g x) (h y)) (x :: l) m -> Forall (fun x => pos (h x)) m -> pos b ->
  ple (fold_left (fun s y => d_add s (g y)) l (g x)) (fold_left (fun s y => d_add s (h y)) m b).
Proof.
  induction m as [|y m IH]; intros x l b Hw Hp Hb; [inversion Hw|]. apply Forall_cons_iff in Hp as [Hy Hp]. cbn.
  inversion Hw as [|x' y' l' m' Hr Hw'|y' l' m' Hw']; subst.
  - apply fold_inside; [exact Hw'|exact Hp|]. apply (ple_trans Hr). now apply ple_more.
  - apply IH; [exact Hw'|exact Hp|]. destruct (ple_more Hb Hy) as [Hq _]. exact (ple_r Hq).
Qed.
Lemma total_inside {A} (g h : A -> double) x l y m : inside (fun x y => ple (g x) (h y)) (x :: l) (y :: m) -> Forall (fun x => pos (h x)) (y :: m) ->
  ple (fold_left (fun s z => d_add s (g z)) l (g x)) (fold_left (fun s z => d_add s (h z)) m (h y)).
Proof.
  intros Hw Hp. apply Forall_cons_iff in Hp as [Hy Hp]. inversion Hw as [|x' y' l' m' Hr Hw'|y' l' m' Hw']; subst.
  - now apply fold_inside.
  - now apply start_inside.
Qed.
Lemma sorted_inside {A K} (key : A -> K) (R : K -> K -> Prop) (S : A -> A -> Prop) : (forall a, ~ R a a) -> (forall a b, R a b -> ~ R b a) ->
  forall m l, StronglySorted (fun a b => R (key a) (key b)) l -> StronglySorted (fun a b => R (key a) (key b)) m ->
  (forall x, In x l -> exists y, In y m /\ key y = key x /\ S x y) -> inside S l m.
Proof.
  intros Ir As m. induction m as [|y m IH]; intros l Hl Hm Hi.
  - destruct l as [|x l]; [constructor|]. destruct (Hi x (or_introl eq_refl)) as (y & [] & _).
  - destruct l as [|x l]; [constructor|]. apply StronglySorted_inv in Hm as [Hm Hy]. rewrite Forall_forall in Hy.
    pose proof Hl as Hl0. apply StronglySorted_inv in Hl as [Hl Hx]. rewrite Forall_forall in Hx.
    destruct (Hi x (or_introl eq_refl)) as (y' & [<-|Hym] & Hk & HS).
    + constructor; [exact HS|]. apply IH; try assumption. intros z Hz. destruct (Hi z (or_intror Hz)) as (y2 & [<-|Hzm] & Hk2 & HS2); [|now exists y2].
      exfalso. apply Hx in Hz. rewrite <- Hk, Hk2 in Hz. exact (Ir _ Hz).
    + apply in_skip. apply IH; try assumption. pose proof (Hy y' Hym) as Hyx. rewrite Hk in Hyx. intros z Hz. destruct (Hi z Hz) as (y2 & [<-|Hzm] & Hk2 & HS2); [|now exists y2]. exfalso.
      rewrite Hk2 in Hyx. destruct Hz as [->|Hz]; [exact (Ir _ Hyx)|]. exact (As _ _ Hyx (Hx _ Hz)).
Qed.
(** [earlier] looks at field and word only. *)
Definition earlier_key (order : list word) (x y : word * word) : Prop := earlier order (x, 0%Z) (y, 0%Z).
Lemma earlier_keys order x y : earlier order x y <-> earlier_key order (fst x) (fst y).
Proof. unfold earlier_key, earlier. cbn. tauto. Qed.
Lemma ss_iff {A} (R S : A -> A -> Prop) l : (forall a b, R a b -> S a b) -> StronglySorted R l -> StronglySorted S l.
Proof. intros H. induction 1 as [|a l Hs IH Hf]; constructor; [exact IH|]. eapply Forall_impl; [|exact Hf]. intros b. apply H. Qed.

Section Raise.
Variables (E : env) (calls : list m_call).
Hypothesis SS : sound_setup E calls.
Variables (wt1 wt2 : word -> double).
Hypothesis W1 : forall f, good_weight (wt1 f) /\ is_double (wt1 f).
Hypothesis W2 : forall f, good_weight (wt2 f) /\ is_double (wt2 f).
Hypothesis W12 : forall f, at_least (wt2 f) (wt1 f).
Let o := occ calls.
Lemma least_some p q w qw : forall n err, (Z.to_nat err < n)%nat -> In qw q -> hit (prices_after calls) p qw w err -> exists err', least (hit (prices_after calls) p) q w err'.
Proof.
  intros n. revert qw. induction n as [|n IH]; intros qw err Hn Hq Hh; [lia|].
  destruct (Classical_Prop.classic (exists qw' err', In qw' q /\ hit (prices_after calls) p qw' w err' /\ (err' < err)%Z)) as [(qw' & err' & A & B & C)|Hno].
  - apply (IH qw' err'); try assumption. pose proof (hit_range_calls SS B). lia.
  - exists err. split; [now exists qw|]. intros qw' err' A B. destruct (Z.leb_spec err err') as [Hle|Hlt]; [exact Hle|]. elim Hno. now exists qw', err'.
Qed.
Lemma scored_raise order q1 q2 p d x1 x2 : incl q1 q2 ->
  scored o order (hit (prices_after calls) p) q1 p wt1 d x1 -> scored o order (hit (prices_after calls) p) q2 p wt2 d x2 -> at_least x2 x1.
Proof.
  intros Hq (x & xs & [Sx Px] & ->) (y & ys & [Sy Py] & ->). apply ple_at_least. apply total_inside.
  - apply (@sorted_inside _ _ fst (earlier_key order)).
    + intros a. apply earlier_irr.
    + intros a b. apply earlier_asym.
    + eapply ss_iff; [|exact Sx]. intros a b. apply earlier_keys.
    + eapply ss_iff; [|exact Sy]. intros a b. apply earlier_keys.
    + intros [[f w] err] Hx. apply Px in Hx as (A & B & (qw & Hqw & Hh) & Hm).
      (* the least error over more words is not greater *)
      assert (Hl : exists err', least (hit (prices_after calls) p) q2 w err' /\ (err' <= err)%Z).
      { destruct (least_some (Nat.lt_succ_diag_r _) (Hq qw Hqw) Hh) as (err' & Hl). exists err'. split; [exact Hl|]. apply (proj2 Hl qw); [now apply Hq|exact Hh]. }
      destruct Hl as (err' & Hl & Hle). exists (f, w, err'). split; [apply Py; split; [exact A|now split]|]. split; [reflexivity|].
      pose proof (hit_range_calls SS Hh) as R1. pose proof Hl as [(qw' & _ & Hh') _]. pose proof (hit_range_calls SS Hh') as R2.
      destruct (W1 f), (W2 f). apply contribution_ple; try lia; [exact (max_small SS f)|now apply weights_ple|now apply good_finite].
  - rewrite Forall_forall. intros [[f w] err] Hy. apply Py in Hy as (H1 & H2 & (qw & _ & Hh) & _). destruct (W2 f) as [Hg Hd]. destruct (weight_val Hg Hd) as (r & Hv & Hr).
    destruct (contribution_val w (hit_range_calls SS Hh) (max_small SS f) Hv Hr) as [V B]. right. eexists. split; [exact V|lra].
Qed.
End Raise.

Lemma weights_ok E calls : sound_setup E calls -> real_weights calls -> forall f, good_weight (weight_after calls f) /\ is_double (weight_after calls f).
Proof. intros SS RW f. exact (weight_ok SS RW f). Qed.
Lemma at_least_same x : good_weight x -> is_double x -> at_least x x.
Proof. intros Hg Hd. apply ple_at_least, ple_refl. destruct (weight_val Hg Hd) as (r & Hv & Hr). right. now exists r. Qed.
Lemma more_words_higher E calls m q1 q2 p m1 m2 r1 r2 : sound_setup E calls -> real_weights calls -> sound_query calls q2 -> history E calls m -> incl q1 q2 ->
  clean (MMatch q1 p) -> mt_match E q1 p m = (m1, Ok r1) -> mt_match E q2 p m = (m2, Ok r2) ->
  exists v1 v2, shows r1 v1 /\ shows r2 v2 /\ (forall x1 d, In (x1, d) v1 -> exists x2, In (x2, d) v2) /\ forall x1 x2 d, In (x1, d) v1 -> In (x2, d) v2 -> at_least x2 x1.
Proof.
  intros SS RW SQ2 HH Hi Hc R1 R2. destruct (the_log SS HH) as [l H]. pose proof (sound_incl Hi SQ2) as SQ1.
  destruct (more_words SS SQ2 HH Hi Hc R1 R2) as (v1 & v2 & S1 & S2 & Hsub). exists v1, v2. split; [exact S1|]. split; [exact S2|]. split; [exact Hsub|]. intros x1 x2 d H1 H2.
  pose proof (match_answer H SS SQ1 Hc R1) as B1. pose proof (match_answer H SS SQ2 (Hc : clean (MMatch q2 p)) R2) as B2.
  destruct (answer_fine H SS B1 S1) as (_ & _ & M1), (answer_fine H SS B2 S2) as (_ & _ & M2). apply M1 in H1 as [H1 _]. apply M2 in H2 as [H2 _].
  pose proof (weights_ok SS RW) as W. refine (scored_raise SS W W _ Hi H1 H2). intros f. destruct (W f). now apply at_least_same.
Qed.
Lemma heavier_higher E c f x m1 m2 q p m1' m2' r1 r2 : sound_setup E c -> real_weights c -> good_weight x -> is_double x -> at_least x (weight_after c f) ->
  sound_query c q -> history E c m1 -> m_do E (MWeight f x) m1 = (m2, Ok tt) -> clean (MMatch q p) -> mt_match E q p m1 = (m1', Ok r1) -> mt_match E q p m2 = (m2', Ok r2) ->
  exists v1 v2, shows r1 v1 /\ shows r2 v2 /\ (forall d, (exists y, In (y, d) v1) <-> (exists y, In (y, d) v2)) /\ forall y1 y2 d, In (y1, d) v1 -> In (y2, d) v2 -> at_least y2 y1.
Proof.
  intros SS RW Hg Hd Hx SQ HH Hrun Hc R1 R2. destruct (weight_views SS Hg SQ HH Hrun Hc R1 R2) as (order & v1 & v2 & S1 & S2 & M1 & M2 & T1 & T2).
  exists v1, v2. split; [exact S1|]. split; [exact S2|]. split; [intros d; split; intros [y Hy]; [now apply T1 in Hy|now apply T2 in Hy]|].
  intros y1 y2 d H1 H2. apply M1 in H1 as [H1 _]. apply M2 in H2 as [H2 _]. pose proof (weights_ok SS RW) as W.
  refine (scored_raise SS W _ _ (incl_refl q) H1 H2); intros g; rewrite weight_set; destruct (weqb_spec f g) as [<-|Hn]; try apply W; try (now split); try exact Hx.
  destruct (W g). now apply at_least_same.
Qed.
