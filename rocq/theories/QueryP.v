(** Searches compared: other query words, more documents, other weights. *)
From Verif Require Import Base TrieM TrieA TrieP TrieP2 TrieD WordStoreM Spec_Hist TrieH WordStoreP ErrorValuesM LevIndexM
  Spec_Edit Spec_EV Spec_Lev EVP EditP HitsP LevP WordM MapM DoubleM FloatP ContM MatcherM MapP Spec_Cont ContP Spec_Match MatchP MatchQ MatchR MatchS MatchT MatchU MatchV MatchW MatchZ Spec_Query.
From Coq Require Import ZifyBool ZifyN ZifyNat.
Local Open Scope N_scope.
Local Open Scope m_scope.

(** ** The same words in another query *)
Lemma least_set R q1 q2 w err : (forall x, In x q1 <-> In x q2) -> least R q1 w err -> least R q2 w err.
Proof.
  intros He [(qw & Hq & Hr) Hm]. split; [exists qw; split; [now apply He|exact Hr]|]. intros qw' e' Hq'. apply Hm. now apply He.
Qed.
Lemma scored_set o order R q1 q2 p wt d x : (forall w, In w q1 <-> In w q2) -> scored o order R q1 p wt d x -> scored o order R q2 p wt d x.
Proof.
  intros He (y & ys & [P1 P2] & ->). exists y, ys. split; [|reflexivity]. split; [exact P1|]. intros f w err. rewrite P2.
  apply and_iff_compat_l, and_iff_compat_l. split; apply least_set; [exact He|intros z; symmetry; apply He].
Qed.
Lemma sound_incl calls q1 q2 : incl q1 q2 -> sound_query calls q2 -> sound_query calls q1.
Proof. intros Hi [A B]. rewrite Forall_forall in *. split; rewrite Forall_forall; intros w Hw; [apply A|apply B]; now apply Hi. Qed.
Lemma query_set E calls m q1 q2 p m1 m2 r1 r2 : sound_setup E calls -> sound_query calls q1 -> history E calls m -> (forall w, In w q1 <-> In w q2) ->
  clean (MMatch q1 p) -> mt_match E q1 p m = (m1, Ok r1) -> mt_match E q2 p m = (m2, Ok r2) -> exists view, shows r1 view /\ shows r2 view.
Proof.
  intros SS SQ HH He Hc R1 R2. destruct (the_log SS HH) as [l H].
  assert (SQ2 : sound_query calls q2) by (apply (@sound_incl calls q2 q1); [intros w; apply He|exact SQ]).
  pose proof (match_answer H SS SQ Hc R1) as B1. pose proof (match_answer H SS SQ2 (Hc : clean (MMatch q2 p)) R2) as B2.
  pose proof B1 as (v1 & S1 & _). pose proof B2 as (v2 & S2 & _).
  destruct (answer_fine H SS B1 S1) as (F1 & K1 & M1), (answer_fine H SS B2 S2) as (F2 & K2 & M2).
  exists v1. split; [exact S1|]. replace v1 with v2; [exact S2|]. apply view_unique; try assumption. intros [x d]. rewrite M1, M2. apply and_iff_compat_r.
  split; apply scored_set; [intros w; symmetry; apply He|exact He].
Qed.
(** onlineMatch counts the words it finds, so only their order is irrelevant. *)
Lemma exact_count_perm o f q1 q2 d : Permutation q1 q2 -> exact_count o f q1 d = exact_count o f q2 d.
Proof. intros Hp. unfold exact_count. now rewrite (Permutation_length (perm_filter _ Hp)). Qed.
Lemma online_perm calls order R q1 q2 f d x : Permutation q1 q2 -> online_scored calls order R q1 f d x -> online_scored calls order R q2 f d x.
Proof.
  intros Hp. assert (He : forall w, In w q1 <-> In w q2) by (intros w; split; apply Permutation_in; [exact Hp|now symmetry]).
  unfold online_scored. rewrite <- (exact_count_perm (occ calls) f d Hp), <- (Permutation_length Hp).
  intros [(y & Hy & ->)|(Hn & Hr)]; [left; exists y; split; [now apply (scored_set He)|reflexivity]|right; split; [|exact Hr]].
  intros y Hy. apply (Hn y). apply (scored_set (q1 := q2)); [intros w; symmetry; apply He|exact Hy].
Qed.
Lemma query_order_online E calls m q1 q2 f r1 m1 : sound_setup E calls -> sound_query calls q1 -> history E calls m -> Permutation q1 q2 -> Forall nonnul f ->
  mt_onlineMatch E q1 f m = (m1, Ok r1) -> exists r2 view, mt_onlineMatch E q2 f m = (m1, Ok r2) /\ shows r1 view /\ shows r2 view.
Proof.
  intros SS SQ HH Hp Hf R1. destruct (the_log SS HH) as [l H].
  assert (SQ2 : sound_query calls q2) by (apply (@sound_incl calls q2 q1); [intros w; apply Permutation_in; now symmetry|exact SQ]).
  destruct (in_dec (list_eq_dec N.eq_dec) f (names l)) as [Hi|Hi].
  2:{ rewrite (online_unknown E q1 (hi_mi H) Hf Hi) in R1. destruct (asUtf8 f); discriminate. }
  destruct (online_known H SS SQ Hi) as (r & Hr & v1 & S1 & K1 & W1 & M1). rewrite Hr in R1. injection R1 as <- ->.
  destruct (online_known H SS SQ2 Hi) as (r2 & Hr2 & v2 & S2 & K2 & W2 & M2).
  exists r2, v1. split; [exact Hr2|]. split; [exact S1|]. replace v1 with v2; [exact S2|].
  assert (G : forall v : list (double * N), Forall (fun x => weakly_nonneg (fst x)) v -> Forall fine v) by (intros v; apply Forall_impl; intros a; apply weak_nan).
  apply view_unique; auto. intros [x d]. rewrite M1, M2. split; apply online_perm; [now symmetry|exact Hp].
Qed.

(** ** More query words *)
Lemma scored_when E calls m l q p d f w qw err : HI calls m l -> sound_setup E calls -> sound_query calls q -> In (d, f, w) (occ calls) -> searching p f -> In qw q ->
  hit (prices_after calls) p qw w err -> exists x, scored (occ calls) (names l) (hit (prices_after calls) p) q p (weight_after calls) d x.
Proof. intros H SS SQ. destruct (rel_spec H SS p SQ) as (docs & _ & _ & _ & Hex). apply Hex. Qed.
Lemma scored_why calls order R q p wt d x : scored (occ calls) order R q p wt d x -> exists f w qw err, In (d, f, w) (occ calls) /\ searching p f /\ In qw q /\ R qw w err.
Proof.
  intros (y & ys & [_ Hp] & _). destruct y as [[f w] err]. destruct (proj1 (Hp f w err)) as (Hd & Hse & (qw & Hq & Hh) & _); [now left|].
  exists f, w, qw, err. now repeat split.
Qed.
Lemma more_words E calls m q1 q2 p m1 m2 r1 r2 : sound_setup E calls -> sound_query calls q2 -> history E calls m -> incl q1 q2 ->
  clean (MMatch q1 p) -> mt_match E q1 p m = (m1, Ok r1) -> mt_match E q2 p m = (m2, Ok r2) ->
  exists v1 v2, shows r1 v1 /\ shows r2 v2 /\ forall x1 d, In (x1, d) v1 -> exists x2, In (x2, d) v2.
Proof.
  intros SS SQ2 HH Hi Hc R1 R2. destruct (the_log SS HH) as [l H]. pose proof (sound_incl Hi SQ2) as SQ1.
  pose proof (match_answer H SS SQ1 Hc R1) as B1. pose proof (match_answer H SS SQ2 (Hc : clean (MMatch q2 p)) R2) as B2.
  pose proof B1 as (v1 & S1 & _). pose proof B2 as (v2 & S2 & _).
  destruct (answer_fine H SS B1 S1) as (F1 & K1 & M1), (answer_fine H SS B2 S2) as (F2 & K2 & M2).
  exists v1, v2. split; [exact S1|]. split; [exact S2|]. intros x1 d H1. apply M1 in H1 as [Hs Hf]. destruct (scored_why Hs) as (f & w & qw & err & A & B & C & D).
  destruct (scored_when H SS SQ2 A B (Hi qw C) D) as [x2 Hx]. exists x2. apply M2. now split.
Qed.

(** ** More documents *)
Lemma no_prices more : Forall not_price more -> price_calls more = [].
Proof. induction 1 as [|c r Hc _ IH]; [reflexivity|]. unfold price_calls in *. cbn [flat_map]. rewrite IH. destruct c; try reflexivity. destruct Hc. Qed.
Lemma occ_app a b : occ (a ++ b) = occ a ++ occ b.
Proof. unfold occ, occs. now rewrite indexed_app, flat_map_app. Qed.
Lemma prices_more c more : Forall not_price more -> prices_after (c ++ more) = prices_after c.
Proof. intros Hn. pose proof (no_prices Hn) as Hp. unfold prices_after, price_calls in *. now rewrite flat_map_app, Hp, app_nil_r. Qed.
Lemma setup_before E c more : Forall not_price more -> sound_setup E (c ++ more) -> sound_setup E c.
Proof.
  intros Hn [A B C D F G I]. rewrite (prices_more c Hn) in *. rewrite occ_app in *. apply Forall_app in B as [B _]. constructor; try assumption.
  - intros f x Hin. apply (F f). unfold weight_calls in *. rewrite flat_map_app. apply in_app_iff. now left.
  - intros d f w Hin. apply (G d f w). apply in_app_iff. now left.
  - rewrite app_length in I. lia.
Qed.
Lemma query_before c more q : Forall not_price more -> sound_query (c ++ more) q -> sound_query c q.
Proof.
  intros Hn [A B]. split; [exact A|]. rewrite (prices_more c Hn) in B. rewrite Forall_forall in *. intros w Hw. eapply fits_le; [|now apply B].
  apply longest_le. intros v i Hin. exists i. rewrite occ_app, map_app. apply in_app_iff. now left.
Qed.
Lemma holds_more (o1 o2 : list (N * word * word)) f d : incl o1 o2 -> filter_holds o1 f d -> filter_holds o2 f d.
Proof. intros Hi (t & Ht & Hh). exists t. split; [exact Ht|]. unfold term_holds in *. rewrite Forall_forall in *. intros s Hs. apply Hi. now apply Hh. Qed.
Lemma more_documents E c more m1 m2 q p m1' m2' r1 r2 : sound_setup E (c ++ more) -> sound_query (c ++ more) q -> Forall not_price more -> history E c m1 ->
  m_run E more m1 = (m2, Ok tt) -> clean (MMatch q p) -> mt_match E q p m1 = (m1', Ok r1) -> mt_match E q p m2 = (m2', Ok r2) ->
  exists v1 v2, shows r1 v1 /\ shows r2 v2 /\ forall x1 d, In (x1, d) v1 -> exists x2, In (x2, d) v2.
Proof.
  intros SS2 SQ2 Hn HH1 Hrun Hc R1 R2. pose proof (setup_before Hn SS2) as SS1. pose proof (query_before Hn SQ2) as SQ1. pose proof (history_app HH1 Hrun) as HH2.
  destruct (the_log SS1 HH1) as [l1 H1], (the_log SS2 HH2) as [l2 H2].
  pose proof (match_answer H1 SS1 SQ1 Hc R1) as B1. pose proof (match_answer H2 SS2 SQ2 Hc R2) as B2.
  pose proof B1 as (v1 & S1 & _). pose proof B2 as (v2 & S2 & _).
  destruct (answer_fine H1 SS1 B1 S1) as (F1 & K1 & M1), (answer_fine H2 SS2 B2 S2) as (F2 & K2 & M2).
  exists v1, v2. split; [exact S1|]. split; [exact S2|]. intros x1 d Hx. apply M1 in Hx as [Hs Hf]. destruct (scored_why Hs) as (f & w & qw & err & A & B & C & D).
  assert (Hi : incl (occ c) (occ (c ++ more))) by (rewrite occ_app; apply incl_appl, incl_refl).
  destruct (scored_when H2 SS2 SQ2 (Hi _ A) B C (err := err)) as [x2 Hx2]; [now rewrite (prices_more c Hn)|]. exists x2. apply M2. split; [exact Hx2|exact (holds_more Hi Hf)].
Qed.

(** ** Another weight *)
Lemma weight_set c f x g : weight_after (c ++ [MWeight f x]) g = if weqb f g then x else weight_after c g.
Proof.
  unfold weight_after, weight_calls, last_for. rewrite flat_map_app. cbn [flat_map app]. rewrite rev_app_distr. cbn [rev app]. unfold assoc. cbn [find fst]. destruct (weqb_spec g f), (weqb_spec f g); try congruence; reflexivity.
Qed.
Lemma setup_weight E c f x : sound_setup E c -> good_weight x -> sound_setup E (c ++ [MWeight f x]).
Proof.
  intros [A B C D F G I] Hx.
  assert (Ho : occ (c ++ [MWeight f x]) = occ c) by (rewrite occ_app; apply app_nil_r).
  assert (Hp : prices_after (c ++ [MWeight f x]) = prices_after c) by (apply prices_more; repeat constructor).
  constructor; rewrite ?Hp, ?Ho; try assumption.
  - apply Forall_app. split; [exact B|repeat constructor].
  - intros g y Hin. unfold weight_calls in Hin. rewrite flat_map_app in Hin. apply in_app_iff in Hin as [Hin|[[= <- <-]|[]]]; [exact (F g y Hin)|exact Hx].
Qed.
Lemma scored_weights o order R q p wt wt' d x : (forall f w, In (d, f, w) o -> searching p f -> wt f = wt' f) -> scored o order R q p wt d x -> scored o order R q p wt' d x.
Proof.
  intros Hw (y & ys & [P1 P2] & ->). exists y, ys. split; [now split|].
  assert (G : forall z, In z (y :: ys) -> contribution o wt z = contribution o wt' z).
  { intros [[f w] err] Hz. apply P2 in Hz as (A & B & _). unfold contribution. now rewrite (Hw f w A B). }
  rewrite (G y (or_introl eq_refl)). assert (G' : forall z, In z ys -> contribution o wt z = contribution o wt' z) by (intros z Hz; apply G; now right).
  clear - G'. generalize (contribution o wt' y). induction ys as [|z ys IH]; intros a; [reflexivity|]. cbn. rewrite (G' z (or_introl eq_refl)). apply IH. intros z' Hz. apply G'. now right.
Qed.
(** The views of the same search before and after a weight is set. *)
Lemma weight_views E c f x m1 m2 q p m1' m2' r1 r2 : sound_setup E c -> good_weight x -> sound_query c q -> history E c m1 -> m_do E (MWeight f x) m1 = (m2, Ok tt) ->
  clean (MMatch q p) -> mt_match E q p m1 = (m1', Ok r1) -> mt_match E q p m2 = (m2', Ok r2) ->
  exists order v1 v2, shows r1 v1 /\ shows r2 v2 /\
    (forall y d, In (y, d) v1 <-> scored (occ c) order (hit (prices_after c) p) q p (weight_after c) d y /\ filter_holds (occ c) (sp_filter p) d) /\
    (forall y d, In (y, d) v2 <-> scored (occ c) order (hit (prices_after c) p) q p (weight_after (c ++ [MWeight f x])) d y /\ filter_holds (occ c) (sp_filter p) d) /\
    (forall y d, In (y, d) v1 -> exists y', In (y', d) v2) /\ (forall y d, In (y, d) v2 -> exists y', In (y', d) v1).
Proof.
  intros SS1 Hx SQ1 HH1 Hrun Hc R1 R2. pose proof (setup_weight f SS1 Hx) as SS2. set (c2 := c ++ [MWeight f x]) in *.
  assert (Ho : occ c2 = occ c) by (unfold c2; rewrite occ_app; apply app_nil_r).
  assert (Hp : prices_after c2 = prices_after c) by (unfold c2; apply prices_more; repeat constructor).
  assert (SQ2 : sound_query c2 q) by (destruct SQ1 as [A B]; split; [exact A|now rewrite Hp, Ho]).
  assert (Hr : m_run E [MWeight f x] m1 = (m2, Ok tt)) by (cbn [m_run]; rewrite Hrun; reflexivity).
  destruct (the_log SS1 HH1) as [l H]. destruct (history_li HH1) as [li0 Hli].
  destruct (@hi_run E li0 (ss_env SS1) Hli [MWeight f x] c m1 l m2 ltac:(repeat constructor) H Hr) as (z & H2). fold c2 in H2.
  assert (Hpos : forall w, In w (names l) -> position w (names (l ++ z)) = position w (names l)).
  { intros w Hw. rewrite names_app. destruct (distinct_app (map said z) (names l)) as [y ->]. destruct (position_in Hw) as [i Hi]. now rewrite (position_app y Hi), Hi. }
  pose proof (match_answer H SS1 SQ1 Hc R1) as B1. pose proof (match_answer H2 SS2 SQ2 Hc R2) as B2.
  pose proof B1 as (v1 & S1 & _). pose proof B2 as (v2 & S2 & _).
  destruct (answer_fine H SS1 B1 S1) as (F1 & K1 & M1), (answer_fine H2 SS2 B2 S2) as (F2 & K2 & M2).
  exists (names l), v1, v2. split; [exact S1|]. split; [exact S2|]. split; [exact M1|]. split.
  { intros y d. rewrite M2, Ho, Hp. apply and_iff_compat_r. symmetry. apply scored_order; [exact Hpos|]. intros d' g w Hin. exact (occ_nm H Hin). }
  split; intros y d Hin.
  - apply M1 in Hin as [Hs Hf]. destruct (scored_why Hs) as (g & w & qw & err & A & B & C & D).
    rewrite <- Ho in A. rewrite <- Hp in D. destruct (scored_when H2 SS2 SQ2 A B C D) as [y' Hy]. exists y'. apply M2. split; [exact Hy|now rewrite Ho].
  - apply M2 in Hin as [Hs Hf]. destruct (scored_why Hs) as (g & w & qw & err & A & B & C & D). rewrite Ho, Hp in *.
    destruct (scored_when H SS1 SQ1 A B C D) as [y' Hy]. exists y'. apply M1. now split.
Qed.
(** Only documents with words in that field are affected. *)
Lemma weight_others E c f x m1 m2 q p m1' m2' r1 r2 : sound_setup E c -> good_weight x -> sound_query c q -> history E c m1 -> m_do E (MWeight f x) m1 = (m2, Ok tt) ->
  clean (MMatch q p) -> mt_match E q p m1 = (m1', Ok r1) -> mt_match E q p m2 = (m2', Ok r2) ->
  exists v1 v2, shows r1 v1 /\ shows r2 v2 /\ (forall d, (exists y, In (y, d) v1) <-> (exists y, In (y, d) v2)) /\
    forall d, (forall w, In (d, f, w) (occ c) -> ~ searching p f) -> forall y, In (y, d) v1 <-> In (y, d) v2.
Proof.
  intros SS1 Hx SQ1 HH1 Hrun Hc R1 R2. destruct (weight_views SS1 Hx SQ1 HH1 Hrun Hc R1 R2) as (order & v1 & v2 & S1 & S2 & M1 & M2 & T1 & T2).
  exists v1, v2. split; [exact S1|]. split; [exact S2|]. split.
  - intros d. split; intros [y Hy]; [now apply T1 in Hy|now apply T2 in Hy].
  - intros d Hd y. rewrite M1, M2. apply and_iff_compat_r.
    split; apply scored_weights; intros g w Hin Hs; rewrite weight_set; destruct (weqb_spec f g) as [->|Hn]; try reflexivity; exfalso; exact (Hd w Hin Hs).
Qed.
