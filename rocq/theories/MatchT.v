(** Matcher: the statements of Thm_Match about match. *)
From Verif Require Import Base TrieM TrieA TrieP TrieP2 TrieD WordStoreM Spec_Hist TrieH WordStoreP ErrorValuesM LevIndexM
  Spec_Edit Spec_EV Spec_Lev EVP EditP HitsP LevP WordM MapM DoubleM FloatP ContM MatcherM MapP Spec_Cont ContP Spec_Match MatchP MatchQ MatchR MatchS.
From Coq Require Import ZifyBool ZifyN ZifyNat.
Local Open Scope N_scope.
Local Open Scope m_scope.

(** ** Views *)
Definition before (a b : double * N) : Prop :=
  d_lt (fst b) (fst a) = true \/ (d_lt (fst a) (fst b) = false /\ d_lt (fst b) (fst a) = false /\ snd a < snd b).
Lemma irr a : fine a -> d_lt (fst a) (fst a) = false.
Proof. intros Ha. destruct (d_lt (fst a) (fst a)) eqn:Hx; [|reflexivity]. pose proof (fine_asym Ha Ha Hx). congruence. Qed.
Lemma fine_tr x y z : fine x -> fine y -> fine z -> d_lt (fst x) (fst y) = true -> d_lt (fst y) (fst z) = true -> d_lt (fst x) (fst z) = true.
Proof.
  intros Hx Hy Hz H1 H2. destruct (d_lt (fst x) (fst z)) eqn:H3; [reflexivity|]. exfalso.
  pose proof (fine_asym Hy Hz H2) as H4. pose proof (@fine_ntr x z y Hx Hz Hy H3 H4). congruence.
Qed.
Lemma before_tr a b c : fine a -> fine b -> fine c -> before a b -> before b c -> before a c.
Proof.
  intros Ha Hb Hc [H1|(H1 & H2 & H3)] [K1|(K1 & K2 & K3)].
  - left. now apply (@fine_tr c b a).
  - left. destruct (d_lt (fst c) (fst a)) eqn:Hx; [reflexivity|]. pose proof (@fine_ntr b c a Hb Hc Ha K1 Hx). congruence.
  - left. destruct (d_lt (fst c) (fst a)) eqn:Hx; [reflexivity|]. pose proof (@fine_ntr c a b Hc Ha Hb Hx H1). congruence.
  - right. split; [now apply (@fine_ntr a b c)|]. split; [now apply (@fine_ntr c b a)|]. lia.
Qed.
Lemma ss_strengthen {A} (R : A -> A -> Prop) (P : A -> Prop) l : StronglySorted R l -> Forall P l -> StronglySorted (fun a b => P a /\ P b /\ R a b) l.
Proof.
  induction 1 as [|a l Hs IH Hf]; intros Hp; [constructor|]. apply Forall_cons_iff in Hp as [Ha Hp]. constructor; [now apply IH|].
  rewrite Forall_forall in *. intros x Hx. auto.
Qed.
Lemma view_unique v1 v2 : Forall fine v1 -> Forall fine v2 -> ranked v1 -> ranked v2 -> (forall x, In x v1 <-> In x v2) -> v1 = v2.
Proof.
  intros F1 F2 R1 R2 He. apply (@ssorted_unique _ (fun a b => fine a /\ fine b /\ before a b)).
  - intros a (Ha & _ & [Hx|(_ & _ & Hx)]); [rewrite irr in Hx by exact Ha; discriminate|lia].
  - intros a b c (H1 & H2 & H3) (_ & K2 & K3). split; [exact H1|]. split; [exact K2|]. now apply (@before_tr a b c).
  - now apply ss_strengthen.
  - now apply ss_strengthen.
  - exact He.
Qed.
Lemma nth_ext_error {A} : forall l1 l2 : list A, (forall n, nth_error l1 n = nth_error l2 n) -> l1 = l2.
Proof.
  induction l1 as [|a l1 IH]; intros [|b l2] He; [reflexivity|specialize (He O); discriminate..|].
  pose proof (He O) as [= ->]. f_equal. apply IH. intros n. exact (He (S n)).
Qed.
Lemma shows_unique r v1 v2 : shows r v1 -> shows r v2 -> v1 = v2.
Proof.
  intros [S1 G1] [S2 G2]. rewrite S1 in S2. apply nth_ext_error. intros n.
  destruct (G1 (N.of_nat n)) as (r1 & A1 & B1), (G2 (N.of_nat n)) as (r2 & A2 & B2). rewrite Nat2N.id in *.
  rewrite A1 in A2. rewrite B1 in B2. injection A2 as _ A. injection B2 as _ B.
  destruct (nth_error v1 n) as [[x1 d1]|], (nth_error v2 n) as [[x2 d2]|]; cbn in *; congruence.
Qed.
Lemma parts_iff o order R R' q p d xs : (forall qw w err, In qw q -> (R qw w err <-> R' qw w err)) -> parts o order R q p d xs -> parts o order R' q p d xs.
Proof.
  intros Hr [P1 P2]. split; [exact P1|]. intros f w err. rewrite P2. apply and_iff_compat_l, and_iff_compat_l. unfold least.
  split; intros [(qw & Hq & Hh) Hm]; (split; [exists qw; split; [exact Hq|now apply Hr]|]); intros qw' err' Hq' Hh'; apply (Hm qw' err' Hq'); now apply Hr.
Qed.
Lemma scored_iff o order R R' q p wt d r : (forall qw w err, In qw q -> (R qw w err <-> R' qw w err)) -> (scored o order R q p wt d r <-> scored o order R' q p wt d r).
Proof.
  intros Hr. split; intros (x & xs & Hp & He); exists x, xs; (split; [|exact He]); eapply parts_iff; try exact Hp; [exact Hr|]. intros qw w err Hq. symmetry. now apply Hr.
Qed.

(** ** One match *)
Section Match.
Variables (E : env) (calls : list m_call) (m : matcher) (q : list word) (p : sparams).
Hypothesis SS : sound_setup E calls.
Hypothesis SQ : sound_query calls q.
Hypothesis HH : history E calls m.
Let e := prices_after calls.
Let o := occ calls.
Let wt := weight_after calls.
Lemma the_log : exists l, HI calls m l.
Proof. exact (history_HI (ss_env SS) (ss_clean SS) HH). Qed.
Lemma match_result m' r : clean (MMatch q p) -> mt_match E q p m = (m', Ok r) -> exists l, HI calls m l /\ answer calls l q p r.
Proof.
  intros Hc Hr. destruct the_log as [l H]. exists l. split; [exact H|].
  destruct (match_yield H SS SQ Hc) as (m1 & o1 & Hr1 & Ho). rewrite Hr in Hr1. injection Hr1 as <- <-. destruct Ho as [[Ho _]|[Ho _]]; [discriminate|exact Ho].
Qed.
Lemma match_outcome m' r : clean (MMatch q p) -> mt_match E q p m = (m', r) ->
  (exists v, r = Ok v) \/ r = Throw ERuntime \/ (r = Throw EOutOfRange /\ Exists (Exists empty_sub) (sp_filter p)).
Proof.
  intros Hc Hr. destruct the_log as [l H].
  destruct (match_yield H SS SQ Hc) as (m1 & o1 & Hr1 & Ho). rewrite Hr in Hr1. injection Hr1 as <- <-.
  destruct Ho as [[-> _]|[Ho _]]; [now right; left|]. destruct r as [v|[]| | |]; try contradiction; [left; now exists v|]. right. right. now split.
Qed.
(** Soundness needs no condition on swaps. *)
Lemma match_sound m' r view x d : clean (MMatch q p) -> mt_match E q p m = (m', Ok r) -> shows r view -> In (x, d) view ->
  exists f w qw err, In (d, f, w) o /\ searching p f /\ In qw q /\ near e p qw w err.
Proof.
  intros Hc Hr Hv Hin. destruct (match_result Hc Hr) as (l & H & view' & Hs & _ & Hm). rewrite (shows_unique Hv Hs) in Hin.
  apply Hm in Hin. destruct Hin as [Hsc _]. destruct Hsc as (y & ys & [_ Hp] & _). destruct y as [[f w] err]. destruct (proj1 (Hp f w err)) as (Hd & Hse & (qw & Hq & Hh) & _); [now left|].
  exists f, w, qw, err. split; [exact Hd|]. split; [exact Hse|]. split; [exact Hq|]. now apply hit_near.
Qed.
Lemma match_ranked m' r : clean (MMatch q p) -> mt_match E q p m = (m', Ok r) -> exists view, shows r view /\ ranked view /\ NoDup (map snd view) /\
  Forall (fun x => weakly_nonneg (fst x)) view.
Proof.
  intros Hc Hr. destruct (match_result Hc Hr) as (l & H & view & Hs & Hk & Hm). exists view. split; [exact Hs|]. split; [exact Hk|].
  assert (Hf : forall x d, In (x, d) view -> weakly_nonneg x) by (intros x d Hin; apply Hm in Hin; exact (scored_weak SS (proj1 Hin))).
  split; [|rewrite Forall_forall; intros [x d]; apply Hf].
  destruct (rel_spec H SS p SQ) as (docs & _ & Hd & Hds & _).
  assert (Huniq : forall x x' d, In (x, d) view -> In (x', d) view -> x = x').
  { intros x x' d H1 H2. apply Hm, proj1 in H1; apply Hm, proj1 in H2. apply Hds in H1, H2. apply (find_in nltb_order) in H1, H2; [congruence|exact Hd..]. }
  clear - Hk Huniq Hf. unfold ranked in Hk. induction Hk as [|a v Hs IH Ha]; [constructor|]. cbn. constructor.
  - intros Hin. apply in_map_iff in Hin as ([x' d'] & Hx & Hin). rewrite Forall_forall in Ha. pose proof (Ha _ Hin) as Hb. destruct a as [x d]. cbn in Hx. subst d'.
    assert (x' = x) by (apply (Huniq x' x d); [now right|now left]); subst x'. assert (Hfx : fine (x, d)) by (apply weak_nan; apply (Hf x d); now left).
    destruct Hb as [Hb|(_ & _ & Hb)]; [|cbn in Hb; lia]. pose proof (irr Hfx). cbn in *. congruence.
  - apply IH; [intros x d Hx; apply (Hf x d); now right|]. intros x x' d H1 H2. apply (Huniq x x' d); now right.
Qed.

(** For every prices. *)
Lemma match_exact m' r : clean (MMatch q p) -> mt_match E q p m = (m', Ok r) -> exists order view,
  NoDup order /\ shows r view /\ ranked view /\
  (forall x d, In (x, d) view <-> scored o order (reached e p) q p wt d x /\ filter_holds o (sp_filter p) d) /\
  (forall d, (exists x, In (x, d) view) <->
    (exists f w qw err, In (d, f, w) o /\ searching p f /\ In qw q /\ reached e p qw w err) /\ filter_holds o (sp_filter p) d) /\
  ((forall q' p', In (MMatch q' p') calls -> concat (sp_filter p') = []) -> order = distinct [] (map said (indexed calls))).
Proof.
  intros Hc Hr. destruct (match_result Hc Hr) as (l & H & view & Hs & Hk & Hm). exists (names l), view.
  split; [apply names_nodup|]. split; [exact Hs|]. split; [exact Hk|]. split; [|split].
  - intros x d. rewrite Hm. apply and_iff_compat_r. apply scored_iff. intros; apply hit_reached.
  - intros d. split.
    + intros [x Hin]. apply Hm in Hin as [(y & ys & [_ Hp] & _) Hf]. split; [|exact Hf]. destruct y as [[f w] err].
      destruct (proj1 (Hp f w err)) as (Hd & Hse & (qw & Hq & Hh) & _); [now left|]. exists f, w, qw, err. repeat split; try assumption; apply hit_reached in Hh; apply Hh.
    + intros [(f & w & qw & err & Hd & Hse & Hq & Hn) Hf]. destruct (rel_spec H SS p SQ) as (docs & _ & _ & _ & Hex).
      destruct (Hex d f w qw err Hd Hse Hq) as [x Hx]; [now apply hit_reached|]. exists x. apply Hm. now split.
  - intros Hp. rewrite (hi_plain H); [reflexivity|]. clear - Hp. induction calls as [|c r IH]; [reflexivity|]. cbn. rewrite IH; [|intros; apply (Hp q'); now right].
    rewrite app_nil_r. destruct c; try reflexivity. cbn. unfold filter_words. pose proof (Hp _ _ (or_introl eq_refl)) as Hx. clear - Hx.
    induction (sp_filter p) as [|t ts IH]; [reflexivity|]. cbn in Hx. apply app_eq_nil in Hx as [-> Hx]. cbn. now apply IH.
Qed.

Hypothesis SW : forall qw, In qw q -> swaps_not_cheap e (length qw).
Lemma near_iff qw w err : In qw q -> (hit e p qw w err <-> near e p qw w err).
Proof. intros Hq. split; [apply hit_near|]. apply near_hit; [apply after_wf|exact (ss_prices SS)|now apply SW]. Qed.
Lemma match_finds m' r : clean (MMatch q p) -> mt_match E q p m = (m', Ok r) -> exists view, shows r view /\
  forall d, (exists x, In (x, d) view) <->
    (exists f w qw err, In (d, f, w) o /\ searching p f /\ In qw q /\ near e p qw w err) /\ filter_holds o (sp_filter p) d.
Proof.
  intros Hc Hr. destruct (match_result Hc Hr) as (l & H & view & Hs & Hk & Hm). exists view. split; [exact Hs|]. intros d. split.
  - intros [x Hin]. split; [exact (match_sound Hc Hr Hs Hin)|]. apply Hm in Hin. exact (proj2 Hin).
  - intros [(f & w & qw & err & Hd & Hse & Hq & Hn) Hf]. destruct (rel_spec H SS p SQ) as (docs & _ & _ & _ & Hex).
    destruct (Hex d f w qw err Hd Hse Hq) as [x Hx]; [now apply near_iff|]. exists x. apply Hm. now split.
Qed.
Lemma match_scores m' r : clean (MMatch q p) -> mt_match E q p m = (m', Ok r) -> exists order view,
  NoDup order /\ shows r view /\ ranked view /\
  (forall x d, In (x, d) view <-> scored o order (near e p) q p wt d x /\ filter_holds o (sp_filter p) d) /\
  ((forall q' p', In (MMatch q' p') calls -> concat (sp_filter p') = []) -> order = distinct [] (map said (indexed calls))).
Proof.
  intros Hc Hr. destruct (match_result Hc Hr) as (l & H & view & Hs & Hk & Hm). exists (names l), view.
  split; [apply names_nodup|]. split; [exact Hs|]. split; [exact Hk|]. split.
  - intros x d. rewrite Hm. apply and_iff_compat_r. apply scored_iff. intros; now apply near_iff.
  - intros Hp. rewrite (hi_plain H); [reflexivity|]. clear - Hp. induction calls as [|c r IH]; [reflexivity|]. cbn. rewrite IH; [|intros; apply (Hp q'); now right].
    rewrite app_nil_r. destruct c; try reflexivity. cbn. unfold filter_words. pose proof (Hp _ _ (or_introl eq_refl)) as Hx. clear - Hx.
    induction (sp_filter p) as [|t ts IH]; [reflexivity|]. cbn in Hx. apply app_eq_nil in Hx as [-> Hx]. cbn. now apply IH.
Qed.
End Match.
