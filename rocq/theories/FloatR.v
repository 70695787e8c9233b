(** Relevancies compared: better, rarer and more matches never lower one. *)
From Verif Require Import Base TrieM TrieA TrieP TrieP2 TrieD WordStoreM Spec_Hist TrieH WordStoreP ErrorValuesM LevIndexM
  Spec_Edit Spec_EV Spec_Lev EVP EditP HitsP LevP WordM MapM DoubleM FloatP ContM MatcherM MapP Spec_Cont ContP Spec_Match MatchP MatchQ MatchR MatchS MatchT MatchU MatchZ.
From Coq Require Import Reals Lra.
From Flocq Require Import Core.Core IEEE754.BinarySingleNaN.
From Verif Require Import DoubleM FloatQ.
From Coq Require Import ZifyBool ZifyN ZifyNat.
Local Open Scope N_scope.

Lemma ple_at_least x y : ple x y -> at_least y x.
Proof.
  intros H. assert (Hn : forall z, pos z -> z <> S754_nan).
  { intros z [->|(r & (b & -> & Fb & _) & _)]; [discriminate|]. destruct b; discriminate. }
  split; [exact (Hn _ (ple_r H))|]. split; [exact (Hn _ (ple_l H))|]. now apply ple_lt.
Qed.
Lemma weight_val x : good_weight x -> is_double x -> exists r, val x r /\ (0 <= r)%R.
Proof.
  intros Hg Hd. exists (SF2R radix2 x). split; [apply val_of_valid; [exact Hd|destruct x; try contradiction; exact I]|].
  destruct x as [s|s| |s k e]; try contradiction; cbn; try lra. destruct s; [contradiction|]. apply F2R_ge_0. cbn. lia.
Qed.
Lemma val_finite x r : val x r -> finite x.
Proof. intros (b & -> & Fb & _). destruct b; try discriminate; exact I. Qed.
Lemma count_max_in o f w : count_in o f w <= max_in o f.
Proof.
  unfold max_in. destruct (in_dec (list_eq_dec N.eq_dec) w (field_words o f)) as [Hi|Hi].
  - assert (G : forall r, In w r -> count_in o f w <= fold_right (fun w n => N.max (count_in o f w) n) 0 r); [|now apply G].
    induction r as [|a r IH]; intros Hr; [destruct Hr|]. cbn. destruct Hr as [->|Hr]; [lia|]. specialize (IH Hr). lia.
  - unfold count_in at 1, occurrences. pose proof (proj1 (count_occ_not_In (list_eq_dec N.eq_dec) (field_words o f) w) Hi) as Hc. rewrite Hc. lia.
Qed.
Lemma contribution_val o wt f w err r : (0 <= err < 2147483648)%Z -> max_in o f < 9007199254740992 -> val (wt f) r -> (0 <= r)%R ->
  val (contribution o wt (f, w, err)) (contrib err (Z.of_N (count_in o f w)) (Z.of_N (max_in o f + 1)) r) /\
  (0 <= contrib err (Z.of_N (count_in o f w)) (Z.of_N (max_in o f + 1)) r <= r)%R.
Proof.
  intros He Hm Hv Hr. pose proof (@count_max_in o f w).
  apply contrib_val; try assumption; [change (2 ^ 52)%Z with 4503599627370496%Z; lia|lia|change (2 ^ 53)%Z with 9007199254740992%Z; lia].
Qed.
Lemma contribution_fine o wt f w err : (0 <= err < 2147483648)%Z -> max_in o f < 9007199254740992 -> good_weight (wt f) -> is_double (wt f) ->
  finite (contribution o wt (f, w, err)) /\ at_least (contribution o wt (f, w, err)) (S754_zero false) /\ at_least (wt f) (contribution o wt (f, w, err)).
Proof.
  intros He Hm Hg Hd. destruct (weight_val Hg Hd) as (r & Hv & Hr). destruct (contribution_val w He Hm Hv Hr) as [V B].
  split; [exact (val_finite V)|]. split; apply ple_at_least; right; eexists _, _; (split; [|split]); try eassumption; try apply zero_val. lra.
Qed.
Lemma contribution_ple o wt wt' f f' w w' err err' : (0 <= err <= err')%Z -> (err' < 2147483648)%Z -> max_in o f < 9007199254740992 ->
  max_in o f = max_in o f' -> count_in o f w <= count_in o f' w' -> ple (wt' f') (wt f) -> finite (wt f) ->
  ple (contribution o wt' (f', w', err')) (contribution o wt (f, w, err)).
Proof.
  intros He He' Hm Hmm Hc Hw Hf. destruct Hw as [[_ Hi]|(r & s & Hr & Hs & Hrs)]; [rewrite Hi in Hf; contradiction|].
  destruct (@contribution_val o wt f w err s) as [V1 B1]; [lia|assumption|assumption|lra|].
  destruct (@contribution_val o wt' f' w' err' r) as [V2 B2]; [lia|now rewrite <- Hmm|assumption|lra|].
  right. eexists _, _. split; [exact V2|]. split; [exact V1|]. split; [lra|]. rewrite <- Hmm. pose proof (@count_max_in o f' w').
  apply contrib_mono; try assumption; lia.
Qed.
Lemma weights_ple a b : good_weight a -> is_double a -> good_weight b -> is_double b -> at_least b a -> ple a b.
Proof.
  intros Ga Da Gb Db (_ & _ & Hl). destruct (weight_val Ga Da) as (r & Hr & H0). destruct (weight_val Gb Db) as (s & Hs & H1).
  right. exists r, s. split; [exact Hr|]. split; [exact Hs|]. rewrite (val_lt Hs Hr) in Hl. split; [exact H0|].
  destruct (Rlt_bool_spec s r); [discriminate|assumption].
Qed.
Lemma good_finite x : good_weight x -> finite x.
Proof. destruct x as [s|s| |s k e]; cbn; try tauto; destruct s; tauto. Qed.
Lemma contribution_mono o wt wt' f f' w w' err err' : (0 <= err <= err')%Z -> (err' < 2147483648)%Z -> max_in o f < 9007199254740992 ->
  max_in o f = max_in o f' -> count_in o f w <= count_in o f' w' -> good_weight (wt f) -> is_double (wt f) -> good_weight (wt' f') -> is_double (wt' f') ->
  at_least (wt f) (wt' f') -> at_least (contribution o wt (f, w, err)) (contribution o wt' (f', w', err')).
Proof. intros. apply ple_at_least. apply contribution_ple; try assumption; [now apply weights_ple|now apply good_finite]. Qed.

(** ** Sums *)
Inductive within {A} : list A -> list A -> Prop :=
| wi_nil l : within [] l
| wi_take x l m : within l m -> within (x :: l) (x :: m)
| wi_skip x l m : within l m -> within l (x :: m).
Lemma fold_within g l m : within l m -> Forall (fun x => pos (g x)) m -> forall a b, ple a b ->
  ple (fold_left (fun s (y : word * word * Z) => d_add s (g y)) l a) (fold_left (fun s y => d_add s (g y)) m b).
Proof.
  induction 1 as [m|x l m Hw IH|x l m Hw IH]; intros Hp a b Hab.
  - cbn. revert b Hab. induction Hp as [|x m Hx _ IH]; intros b Hab; [exact Hab|]. cbn. apply IH. apply (ple_trans Hab). now apply ple_more; [apply (ple_r Hab)|].
  - apply Forall_cons_iff in Hp as [Hx Hp]. cbn. apply IH; [exact Hp|]. apply ple_add; [exact Hab|now apply ple_refl].
  - apply Forall_cons_iff in Hp as [Hx Hp]. cbn. apply IH; [exact Hp|]. apply (ple_trans Hab). now apply ple_more; [apply (ple_r Hab)|].
Qed.
Lemma fold_start g m : forall x l b, within (x :: l) m -> Forall (fun x => pos (g x)) m -> pos b ->
  ple (fold_left (fun s (y : word * word * Z) => d_add s (g y)) l (g x)) (fold_left (fun s y => d_add s (g y)) m b).
Proof.
  induction m as [|y m IH]; intros x l b Hw Hp Hb; [inversion Hw|]. apply Forall_cons_iff in Hp as [Hy Hp]. cbn.
  inversion Hw as [|y' l' m' Hw'|y' l' m' Hw']; subst.
  - apply fold_within; [exact Hw'|exact Hp|]. now apply ple_more.
  - apply IH; [exact Hw'|exact Hp|]. destruct (ple_more Hb Hy) as [Hq _]. exact (ple_r Hq).
Qed.
Lemma total_within g x l y m : within (x :: l) (y :: m) -> Forall (fun x => pos (g x)) (y :: m) ->
  ple (fold_left (fun s (z : word * word * Z) => d_add s (g z)) l (g x)) (fold_left (fun s z => d_add s (g z)) m (g y)).
Proof.
  intros Hw Hp. apply Forall_cons_iff in Hp as [Hy Hp]. inversion Hw as [|y' l' m' Hw'|y' l' m' Hw']; subst.
  - apply fold_within; [exact Hw'|exact Hp|now apply ple_refl].
  - now apply fold_start.
Qed.
Lemma sorted_within {A} (R : A -> A -> Prop) : (forall a, ~ R a a) -> (forall a b, R a b -> ~ R b a) ->
  forall m l, StronglySorted R l -> StronglySorted R m -> incl l m -> within l m.
Proof.
  intros Ir As m. induction m as [|y m IH]; intros l Hl Hm Hi.
  - destruct l as [|x l]; [constructor|]. destruct (Hi x); now left.
  - destruct l as [|x l]; [constructor|]. apply StronglySorted_inv in Hm as [Hm Hy]. rewrite Forall_forall in Hy.
    pose proof Hl as Hl0. apply StronglySorted_inv in Hl as [Hl Hx]. rewrite Forall_forall in Hx.
    destruct (Hi x (or_introl eq_refl)) as [->|Hxm].
    + constructor. apply IH; try assumption. intros z Hz. destruct (Hi z (or_intror Hz)) as [->|Hzm]; [|exact Hzm]. now apply Hx, Ir in Hz.
    + constructor. apply IH; try assumption. pose proof (Hy x Hxm) as Hyx. intros z Hz. destruct (Hi z Hz) as [->|Hzm]; [|exact Hzm]. exfalso.
      destruct Hz as [->|Hz]; [exact (Ir _ Hyx)|]. exact (As _ _ Hyx (Hx _ Hz)).
Qed.
Lemma earlier_irr order x : ~ earlier order x x.
Proof. intros (i & i' & j & j' & A & B & C & D & F). rewrite A in B. rewrite C in D. injection B as <-. injection D as <-. lia. Qed.
Lemma earlier_asym order x y : earlier order x y -> ~ earlier order y x.
Proof.
  intros (i & i' & j & j' & A & B & C & D & F) (k & k' & n & n' & A' & B' & C' & D' & F').
  rewrite A in B'. rewrite B in A'. rewrite C in D'. rewrite D in C'. injection A' as <-. injection B' as <-. injection C' as <-. injection D' as <-. lia.
Qed.

Section Compare.
Variables (E : env) (calls : list m_call).
Hypothesis SS : sound_setup E calls.
Hypothesis RW : real_weights calls.
Let o := occ calls.
Let wt := weight_after calls.
Lemma weight_ok f : good_weight (wt f) /\ is_double (wt f).
Proof.
  unfold wt, weight_after. destruct (last_for _ f) as [x|] eqn:Hl; [|split; [exact I|reflexivity]]. apply last_for_in in Hl.
  split; [exact (ss_weights SS Hl)|exact (RW Hl)].
Qed.
Lemma max_small f : max_in o f < 9007199254740992.
Proof. pose proof (@max_le_length o f). pose proof (ss_counts SS) as Hc. fold o in Hc. lia. Qed.
Lemma contribution_pos f w err : (0 <= err < 2147483648)%Z -> pos (contribution o wt (f, w, err)).
Proof.
  intros He. destruct (weight_ok f) as [Hg Hd]. destruct (weight_val Hg Hd) as (r & Hv & Hr).
  destruct (contribution_val w He (max_small f) Hv Hr) as [V B]. right. eexists. split; [exact V|lra].
Qed.
Lemma hit_range_calls p qw w err : hit (prices_after calls) p qw w err -> (0 <= err < 2147483648)%Z.
Proof. intros Hh. pose proof (hit_range (e_wf calls) (ss_prices SS) Hh). lia. Qed.
Lemma scored_more order q p d1 d2 x1 x2 : scored o order (hit (prices_after calls) p) q p wt d1 x1 -> scored o order (hit (prices_after calls) p) q p wt d2 x2 ->
  (forall f w, searching p f -> In (d2, f, w) o -> In (d1, f, w) o) -> at_least x1 x2.
Proof.
  intros (y & ys & [Sy Py] & ->) (x & xs & [Sx Px] & ->) Hin. apply ple_at_least. apply total_within.
  - apply (sorted_within (@earlier_irr order) (@earlier_asym order) Sx Sy). intros [[f w] err] Hx. apply Px in Hx as (H1 & H2 & H3). apply Py. split; [now apply Hin|now split].
  - rewrite Forall_forall. intros [[f w] err] Hy. apply Py in Hy as (H1 & H2 & (qw & _ & Hh) & _). apply contribution_pos. exact (hit_range_calls Hh).
Qed.
Lemma match_more m q p m' r : sound_query calls q -> history E calls m -> clean (MMatch q p) -> mt_match E q p m = (m', Ok r) ->
  forall view x1 d1 x2 d2, shows r view -> In (x1, d1) view -> In (x2, d2) view ->
  (forall f w, searching p f -> In (d2, f, w) o -> In (d1, f, w) o) -> at_least x1 x2.
Proof.
  intros SQ HH Hc Hr view x1 d1 x2 d2 Hv H1 H2 Hin. destruct (history_HI (ss_env SS) (ss_clean SS) HH) as (l & H).
  destruct (answer_fine H SS (match_answer H SS SQ Hc Hr) Hv) as (_ & _ & M). apply M in H1, H2. exact (scored_more (proj1 H1) (proj1 H2) Hin).
Qed.
Lemma least_unique R q w e1 e2 : least R q w e1 -> least R q w e2 -> e1 = e2.
Proof. intros [(a & Ha & Ra) Ma] [(b & Hb & Rb) Mb]. pose proof (Ma _ _ Hb Rb). pose proof (Mb _ _ Ha Ra). lia. Qed.
Lemma only_scored order R q p d f w err x : scored o order R q p wt d x -> only_hit o R q p d f w err -> x = contribution o wt (f, w, err).
Proof.
  intros (y & ys & [Sy Py] & ->) (H1 & H2 & H3 & H4).
  assert (G : forall z, In z (y :: ys) -> z = (f, w, err)).
  { intros [[f' w'] e'] Hz. apply Py in Hz as (A & B & C). pose proof C as [(qw & Hq & HR) _]. destruct (H4 f' w' qw e' A B Hq HR) as [-> ->].
    now rewrite (least_unique C H3). }
  rewrite (G y (or_introl eq_refl)) in *. destruct ys as [|z ys]; [reflexivity|]. exfalso.
  pose proof (G z (or_intror (or_introl eq_refl))) as ->. apply StronglySorted_inv in Sy as [_ Sy]. apply Forall_inv in Sy. exact (earlier_irr Sy).
Qed.
Lemma match_better m q p m' r : sound_query calls q -> history E calls m -> (forall qw, In qw q -> swaps_not_cheap (prices_after calls) (length qw)) ->
  clean (MMatch q p) -> mt_match E q p m = (m', Ok r) ->
  forall view x1 d1 x2 d2 f w1 w2 e1 e2, shows r view -> In (x1, d1) view -> In (x2, d2) view ->
  only_hit o (near (prices_after calls) p) q p d1 f w1 e1 -> only_hit o (near (prices_after calls) p) q p d2 f w2 e2 ->
  (e1 <= e2)%Z -> count_in o f w1 <= count_in o f w2 -> at_least x1 x2.
Proof.
  intros SQ HH SW Hc Hr view x1 d1 x2 d2 f w1 w2 e1 e2 Hv H1 H2 O1 O2 He Hn.
  destruct (match_scores SS SQ HH SW Hc Hr) as (order & v' & _ & Hv' & _ & M & _). rewrite <- (shows_unique Hv Hv') in M.
  apply M in H1, H2. rewrite (only_scored (proj1 H1) O1), (only_scored (proj1 H2) O2).
  assert (Hrg : forall w err, least (near (prices_after calls) p) q w err -> (0 <= err < 2147483648)%Z).
  { intros w err [(qw & Hq & HR) _]. apply (@hit_range_calls p qw w). apply near_hit; try assumption; [apply e_wf|exact (ss_prices SS)|now apply SW]. }
  destruct O1 as (_ & _ & L1 & _), O2 as (_ & _ & L2 & _). apply Hrg in L1, L2. destruct (weight_ok f) as [Hg Hd].
  apply contribution_mono; try assumption; try lia; [apply max_small|]. apply ple_at_least, ple_refl.
  destruct (weight_val Hg Hd) as (rr & Hvv & Hrr). right. now exists rr.
Qed.
End Compare.
