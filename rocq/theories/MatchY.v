(** Matcher: other iteration orders, safety of whole histories, order of indexing calls. *)
From Verif Require Import Base TrieM TrieA TrieP TrieP2 TrieD WordStoreM Spec_Hist TrieH WordStoreP ErrorValuesM LevIndexM
  Spec_Edit Spec_EV Spec_Lev EVP EditP HitsP LevP WordM Spec_Word WordP MapM DoubleM FloatP ContM MatcherM MapP Spec_Cont ContP Spec_Match MatchP MatchQ MatchR MatchS MatchT MatchU MatchV MatchW EnvP.
From Coq Require Import ZifyBool ZifyN ZifyNat.
Local Open Scope N_scope.
Local Open Scope m_scope.

(** ** Other iteration orders *)
Section Reorder.
Variables (E : env) (sort : list (N * Z) -> list (N * Z)) (order : list N -> list N -> list N).
Let E' := reorder E sort order.
Hypothesis HE' : env_ok E'.
Lemma setup_reorder calls : sound_setup E calls -> sound_setup E' calls.
Proof. intros [A1 A2 A3 A4 A5 A6 A7]. constructor; [exact HE'|exact A2|exact A3|exact A4|exact A5| |exact A7].
  intros d f w Hin. apply constructible_same. exact (A6 d f w Hin). Qed.
Lemma relevancy_reorder calls m l q p : HI calls m l -> sound_setup E calls -> sound_query calls q ->
  relevancyMatch E m q p 0 mr_new = relevancyMatch E' m q p 0 mr_new.
Proof.
  intros H SS SQ. destruct (rel_spec H SS p SQ) as (docs & -> & Hs & Hd & _), (rel_spec H (setup_reorder SS) p SQ) as (docs' & -> & Hs' & Hd' & _).
  f_equal. f_equal. apply (map_unique nltb_order); [exact Hs|exact Hs'|]. intros d.
  destruct (mp_find N.ltb d docs) as [x|] eqn:Hx.
  - symmetry. apply (find_in nltb_order) in Hx; [|exact Hs]. apply (find_in nltb_order); [exact Hs'|]. now apply Hd', Hd.
  - destruct (mp_find N.ltb d docs') as [x|] eqn:Hx'; [|reflexivity]. apply (find_in nltb_order) in Hx'; [|exact Hs']. apply Hd', Hd in Hx'.
    apply (find_in nltb_order) in Hx'; [congruence|exact Hs].
Qed.
Lemma match_reorder calls m l q p : HI calls m l -> sound_setup E calls -> sound_query calls q -> mt_match E q p m = mt_match E' q p m.
Proof.
  intros H SS SQ. destruct (nil_or q) as [Hq|Hq]; [now rewrite !match_nil by exact Hq|]. rewrite !match_some by exact Hq.
  unfold mbind, reads. rewrite (relevancy_reorder p H SS SQ). destruct (relevancyMatch E' m q p 0 mr_new); try reflexivity. apply loop_same.
Qed.
Lemma online_reorder calls m l q f : HI calls m l -> sound_setup E calls -> sound_query calls q -> Forall nonnul f -> mt_onlineMatch E q f m = mt_onlineMatch E' q f m.
Proof.
  intros H SS SQ Hf. pose proof (hi_mi H) as HM. destruct (has_word HM Hf) as [[Hin _]|[Hn _]].
  - destruct (exact_phase (ss_env SS) HM Hin (sq_letters SQ)) as (acc & Hs & Ha & ->), (exact_phase HE' HM Hin (sq_letters SQ)) as (acc' & Hs' & Ha' & ->).
    assert (acc' = acc) as -> by (apply (map_unique nltb_order); [exact Hs'|exact Hs|]; intros d; now rewrite Ha, Ha').
    unfold mbind at 1 3, mt_match_list. now rewrite (match_reorder sp_new H SS SQ).
  - now rewrite !(online_unknown _ _ HM Hf Hn).
Qed.
Lemma do_reorder calls c m l : HI calls m l -> clean c -> match c with MMatch q _ | MOnline q _ => sound_setup E calls /\ sound_query calls q | _ => True end ->
  m_do E c m = m_do E' c m.
Proof.
  intros H Hc Hs. destruct c as [c|c|f x|q p|q f]; cbn [m_do]; try reflexivity.
  - apply index_same.
  - unfold mbind. now rewrite (match_reorder p H (proj1 Hs) (proj2 Hs)).
  - unfold mbind. now rewrite (online_reorder H (proj1 Hs) (proj2 Hs) (proj2 Hc)).
Qed.
Lemma sound_cons pre c calls : (forall a x b, calls = a ++ x :: b -> clean x /\ match x with MMatch q _ | MOnline q _ => sound_setup E (pre ++ a) /\ sound_query (pre ++ a) q | _ => True end) ->
  calls = c :: tl calls -> forall a x b, tl calls = a ++ x :: b -> clean x /\ match x with MMatch q _ | MOnline q _ => sound_setup E ((pre ++ [c]) ++ a) /\ sound_query ((pre ++ [c]) ++ a) q | _ => True end.
Proof. intros HS Hc a x b Hx. rewrite <- app_assoc. apply (HS (c :: a) x b). rewrite Hc, Hx. reflexivity. Qed.
Lemma run_reorder li0 : env_ok E -> li_new E = Ok li0 -> forall calls pre m l, HI pre m l ->
  (forall a x b, calls = a ++ x :: b -> clean x /\ match x with MMatch q _ | MOnline q _ => sound_setup E (pre ++ a) /\ sound_query (pre ++ a) q | _ => True end) ->
  m_run E calls m = m_run E' calls m.
Proof.
  intros HE Hli. induction calls as [|c calls IH]; intros pre m l H HS; [reflexivity|]. cbn [m_run].
  destruct (HS [] c calls eq_refl) as [Hc Hs]. rewrite app_nil_r in Hs. rewrite <- (do_reorder H Hc Hs).
  destruct (m_do E c m) as [m1 o] eqn:Hd. destruct (fatal c o) eqn:Hf; [reflexivity|]. destruct (hi_step HE Hli Hc H Hd Hf) as (x & H1).
  apply (IH _ _ _ H1). exact (@sound_cons pre c (c :: calls) HS eq_refl).
Qed.
Theorem history_reorder calls m : env_ok E -> sound_history E calls -> history E calls m <-> history E' calls m.
Proof.
  intros HE HS. unfold history. rewrite <- (mt_new_same E sort order : mt_new E = mt_new E').
  split; intros (m0 & H0 & Hr); exists m0; (split; [exact H0|]); destruct (hi_new H0) as [H [li0 Hli]]; [rewrite <- (run_reorder HE Hli H HS)|rewrite (run_reorder HE Hli H HS)]; exact Hr.
Qed.
End Reorder.

(** ** Whole histories are safe *)
Lemma ev_seq (x y : M errvals unit) : (forall e, snd (x e) = Ok tt \/ snd (x e) = Throw ERuntime) -> (forall e, snd (y e) = Ok tt \/ snd (y e) = Throw ERuntime) ->
  forall e, snd ((x ;;; y) e) = Ok tt \/ snd ((x ;;; y) e) = Throw ERuntime.
Proof. intros Hx Hy e. unfold mbind. specialize (Hx e). destruct (x e) as [e' o]. cbn in Hx. destruct Hx as [->| ->]; [apply Hy|now right]. Qed.
Lemma group_safe n g : forall e, snd (group_loop n g e) = Ok tt \/ snd (group_loop n g e) = Throw ERuntime.
Proof.
  induction g as [|l g IH]; intros e; [now left|]. cbn [group_loop]. destruct (find_group (ev_gmap e) l) as [k|]; [|apply IH]. destruct (Nat.eqb k n); [apply IH|now right].
Qed.
Lemma set_group_safe g v : forall e, snd (setGroupError g v e) = Ok tt \/ snd (setGroupError g v e) = Throw ERuntime.
Proof.
  intros e. unfold setGroupError, mbind at 1, reads. apply ev_seq; [now left|]. apply ev_seq; [apply group_safe|now left].
Qed.
Lemma accents_safe ls : forall e, snd (addAccents ls e) = Ok tt \/ snd (addAccents ls e) = Throw ERuntime.
Proof. induction ls as [|g ls IH]; [now left|]. cbn [addAccents]. apply ev_seq; [|exact IH]. destruct g; [now left|apply set_group_safe]. Qed.
Lemma ev_safe c e : snd (ev_do c e) = Ok tt \/ snd (ev_do c e) = Throw ERuntime.
Proof.
  destruct c; cbn [ev_do]; try (now left); [apply set_group_safe|apply accents_safe|]. revert e. apply ev_seq; [apply accents_safe|]. apply ev_seq; [apply accents_safe|now left].
Qed.
Lemma loop_none E log : forall rest n i all matched m, obj_ok log all -> skipn (N.to_nat i) (sd log) = rest -> n = length rest ->
  filter_loop E [] n i all matched m = (m, Ok matched).
Proof.
  induction rest as [|x rest IH]; intros n i all matched m Hok Hsk ->; [reflexivity|].
  pose proof Hsk as Hsk'. apply skipn_cons in Hsk' as [Hx Hsk']. cbn [length filter_loop].
  destruct (@get_sorted log all i Hok) as (all' & Hg & Hok' & Hs'); [apply nth_error_Some; congruence|].
  unfold mr_getDocumentID. unfold mbind at 1. rewrite Hg, Hx. cbn [ret]. erewrite mbind_ok by (apply reads_ok; reflexivity).
  cbn [rf_numTerms length N.of_nat N.to_nat termsMatch]. unfold mbind, ret. apply IH; [exact Hok'|now rewrite N.add_1_r, N2Nat.inj_succ|reflexivity].
Qed.
Lemma match_none E calls m l q p : HI calls m l -> sound_setup E calls -> sound_query calls q -> sp_filter p = [] -> mt_match E q p m = (m, Ok mr_new).
Proof.
  intros H SS SQ Hf. destruct (nil_or q) as [Hq|Hq]; [now rewrite match_nil by exact Hq|]. rewrite match_some by exact Hq.
  destruct (rel_spec H SS p SQ) as (docs & Hr & Hs & Hd & _).
  assert (Hfi : Forall (fun x => fine (snd x, fst x)) docs).
  { rewrite Forall_forall. intros [d x] Hin. apply Hd in Hin. apply weak_nan. exact (scored_weak SS Hin). }
  erewrite mbind_ok by (apply reads_ok; exact Hr). cbn [mr_addResults fst mr_new mr_results app]. rewrite add_all_results. cbn [mr_new mr_results app].
  set (log := map (fun x : N * double => (snd x, fst x)) docs). assert (Hlog : Forall fine log) by (unfold log; apply Forall_map; exact Hfi).
  rewrite Hf. apply (@loop_none E log (sd log)); [now apply raw_ok|reflexivity|].
  unfold mr_size. cbn [mr_results]. rewrite Nat2N.id. apply Permutation_length. symmetry. apply (sd_bf Hlog).
Qed.
Lemma call_safe E li0 pre c m l m' o : li_new E = Ok li0 -> HI pre m l -> clean c -> nameable c ->
  match c with MMatch q _ | MOnline q _ => sound_setup E pre /\ sound_query pre q | _ => True end -> m_do E c m = (m', o) -> expected c o.
Proof.
  intros Hli H Hc Hn Hs Hr. pose proof (hi_mi H) as HM. destruct c as [c|c|f x|q p|q f]; cbn [m_do expected] in *.
  - destruct Hc as [Hd Hu]. destruct (docs_do Hli HM Hd Hu) as (m1 & o1 & Hr1 & Ho). unfold mt_index in Hr. rewrite Hr in Hr1. injection Hr1 as <- <-.
    destruct Ho as [[-> _]|(_ & _ & [[-> _]|[-> Hst]])]; [now right; left|now left|]. right. right. split; [reflexivity|]. unfold stops in Hst.
    apply in_map_iff in Hst as (s & He & Hin). apply Exists_exists. now exists s.
  - unfold on_ev in Hr. pose proof (ev_safe c (mt_ev m)) as Hx. destruct (ev_do c (mt_ev m)). now injection Hr as <- <-.
  - now injection Hr as <- <-.
  - destruct Hs as [SS SQ]. unfold mbind in Hr. destruct (mt_match E q p m) as [m1 o1] eqn:Hm.
    destruct (match_yield H SS SQ Hc) as (m2 & o2 & Hr2 & Ho). rewrite Hm in Hr2. injection Hr2 as <- <-.
    destruct Ho as [[-> _]|[Ho _]].
    + injection Hr as <- <-. right. left. split; [reflexivity|].
      destruct (Exists_dec (fun t : list (word * word) => t <> []) (sp_filter p)) as [Hex|Hex]; [intros [|]; [right|left]; congruence|exact Hex|]. exfalso.
      destruct (sp_filter p) as [|t ts] eqn:Hf; [rewrite (match_none H SS SQ Hf) in Hm; discriminate|].
      assert (Hall : Forall (eq []) (sp_filter p)).
      { rewrite Forall_forall. intros t' Ht'. destruct t' as [|a b]; [reflexivity|]. exfalso. apply Hex. rewrite <- Hf. apply Exists_exists. exists (a :: b). now split. }
      destruct (match_plain H SS SQ Hall) as (r & Hr & _); [congruence|congruence].
    + destruct o1 as [r|[]| | |]; try contradiction; injection Hr as <- <-; [now left|]. right. right. now split.
  - destruct Hs as [SS SQ], Hc as [Hq Hf], Hn as [Hl Hsh]. unfold mbind in Hr. destruct (has_word HM Hf) as [[Hin _]|[Hno _]].
    + destruct (online_known H SS SQ Hin) as (r & Hx & _). rewrite Hx in Hr. injection Hr as <- <-. now left.
    + rewrite (online_unknown E q HM Hf Hno) in Hr. destruct (asUtf8_safe Hl Hsh) as [A1 A2].
      destruct (well_formed_dec Hl) as [Hw|Hw]; [destruct (A1 Hw) as [s Hx]|pose proof (A2 Hw) as Hx]; rewrite Hx in Hr; injection Hr as <- <-; [now right; left|]. right. right. now split.
Qed.
Lemma call_expected E calls c m m' o : env_ok E -> sound_history E (calls ++ [c]) -> nameable c -> history E calls m -> m_do E c m = (m', o) -> expected c o.
Proof.
  intros HE HS Hn HH Hr. assert (Hc : Forall clean calls).
  { rewrite Forall_forall. intros x Hx. apply in_split in Hx as (a & b & ->). destruct (HS a x (b ++ [c])) as [G _]; [now rewrite <- app_assoc|exact G]. }
  destruct (history_HI HE Hc HH) as [l H]. destruct (history_li HH) as [li0 Hli]. destruct (HS calls c [] eq_refl) as [G1 G2].
  exact (call_safe Hli H G1 Hn G2 Hr).
Qed.
Lemma run_expected E m0 : env_ok E -> mt_new E = Ok m0 -> forall calls, sound_history E calls -> Forall nameable calls -> 
  forall m o, m_run E calls m0 = (m, o) -> o = Ok tt \/ o = Throw ERuntime.
Proof.
  intros HE H0. induction calls as [|c calls IH] using rev_ind; intros HS Hn m o Hr; [injection Hr as <- <-; now left|].
  rewrite run_app in Hr. destruct (m_run E calls m0) as [m1 o1] eqn:Hr1. apply Forall_app in Hn as [Hn1 Hn].
  assert (HS1 : sound_history E calls) by (intros a x b Hx; apply (HS a x (b ++ [c])); now rewrite Hx, <- app_assoc).
  destruct (IH HS1 Hn1 m1 o1 eq_refl) as [->| ->]; [|injection Hr as <- <-; now right].
  assert (HH : history E calls m1) by (now exists m0). cbn [m_run] in Hr. destruct (m_do E c m1) as [m2 o2] eqn:Hd.
  apply Forall_inv in Hn. pose proof (call_expected HE HS Hn HH Hd) as Hx. destruct (fatal c o2) eqn:Hf; [|injection Hr as <- <-; now left].
  injection Hr as <- <-. destruct o2 as [[]|[]| | |]; try (now auto); try discriminate Hf; destruct c; cbn in Hx; decompose [and or] Hx; discriminate.
Qed.

(** ** Indexing in parts *)
Lemma index_app E c1 : forall c2 m, mt_index E (c1 ++ c2) m = (mt_index E c1 ;;; mt_index E c2) m.
Proof.
  unfold mt_index. induction c1 as [|d c1 IH]; intros c2 m; [reflexivity|]. cbn [app buildIndexes]. rewrite mbind_assoc. apply mbind_ext. intros _ s. apply IH.
Qed.
Lemma index_parts E cs : forall m, mt_index E (concat cs) m = fold_right (fun c k => mt_index E c ;;; k) (ret tt) cs m.
Proof.
  induction cs as [|c cs IH]; intros m; [reflexivity|]. cbn [concat fold_right]. rewrite index_app. apply mbind_ext. intros _ s. apply IH.
Qed.
