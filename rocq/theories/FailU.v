(** Matcher out of memory: what calls come to and what is found. *)
From Verif Require Import Base TrieM TrieA TrieP TrieP2 TrieD WordStoreM Spec_Hist TrieH WordStoreP ErrorValuesM LevIndexM
  Spec_Edit Spec_EV Spec_Lev EVP EditP HitsP LevP Spec_Word WordM WordP MapM DoubleM FloatP ContM MatcherM MapP Spec_Cont ContP Spec_Match MatchP MatchQ MatchR MatchS MatchT MatchW MatchY QueryP FailM FailP FailQ FailR FailS Spec_Fail FailT.
From Coq Require Import ZifyBool ZifyN ZifyNat.
Local Open Scope N_scope.
Local Open Scope f_scope.

Lemma apart_exists calls : exists x, Forall (apart x) calls.
Proof.
  assert (G : exists b, forall x, b <= x -> Forall (apart x) calls).
  { induction calls as [|c calls (b & IH)]; [exists 0; intros; constructor|].
    assert (Gc : exists b, forall x, b <= x -> apart x c).
    { destruct c as [c| | | |]; try (exists 0; intros; exact I). induction c as [|d c (b' & IHc)]; [exists 0; intros; constructor|].
      exists (N.max b' (doc_getID d + 1)). intros x Hx. constructor; [lia|apply IHc; lia]. }
    destruct Gc as (b' & Hb'). exists (N.max b b'). intros x Hx. constructor; [apply Hb'; lia|apply IH; lia]. }
  destruct G as (b & G). exists b. apply G. lia.
Qed.
Definition twin (x : N) (calls : list m_call) (outs : list (fres unit)) (l : list step) (bs : list blk) : list m_call :=
  pretend (price_calls calls) (weight_calls (heeded calls outs)) bs (map said (filter (fun s => negb (real_step s)) l)).
Section Twin.
Variables (E : env) (x : N) (calls : list m_call) (outs : list (fres unit)) (s : fst_) (mv : matcher) (l : list step) (bs : list blk) (done : list step).
Hypothesis R : RI x calls outs s mv l bs done.
Let tc := twin x calls outs l bs.
Lemma twin_prices : prices_after tc = prices_after calls.
Proof. unfold prices_after, tc, twin. change (ev_after (price_calls (pretend (price_calls calls) (weight_calls (heeded calls outs)) bs (map said (filter (fun s => negb (real_step s)) l)))) = ev_after (price_calls calls)). now rewrite p_prices. Qed.
Lemma twin_HI : HI tc mv l.
Proof. apply pretend_HI; [exact (ri_mi R)|exact (ri_told R)|exact (ri_bs R)|exact (ri_ev R)|exact (ri_w R)]. Qed.
Lemma twin_occ : occ tc = occs l.
Proof. symmetry. exact (hi_occ twin_HI). Qed.
Lemma twin_weight f : weight_after tc f = weight_after (heeded calls outs) f.
Proof. unfold weight_after, tc, twin. now rewrite p_weights. Qed.
Lemma twin_setup : sound_setup E calls -> sound_setup E tc.
Proof.
  intros [S1 S2 S3 S4 S5 S6 S7]. constructor; rewrite ?twin_prices; auto.
  - exact (pretend_clean _ _ (ri_mi R) (ri_told R) (ri_bs R)).
  - intros f z. unfold tc, twin. rewrite p_weights. intros Hin. apply (S5 f z). unfold weight_calls in *. apply in_flat_map in Hin as (c & Hc & Hin). apply in_flat_map. exists c. split; [exact (heeded_incl Hc)|exact Hin].
  - intros d f w. rewrite twin_occ. intros Hin. apply (ri_from R) in Hin as [d' Hin]. exact (S6 _ _ _ Hin).
  - rewrite twin_occ. pose proof (ri_len R). lia.
Qed.
Lemma twin_query q : sound_query calls q -> sound_query tc q.
Proof.
  intros [S1 S2]. split; [exact S1|]. rewrite twin_prices, twin_occ. eapply Forall_impl; [|exact S2]. intros w. apply fits_le. apply longest_le. intros v i Hin.
  apply in_map_iff in Hin as ([[d f] v'] & [= <- <-] & Hin). cbn [snd] in *. apply (ri_from R) in Hin as [d' Hin]. exists 0. apply in_map_iff. now exists (d', f, v').
Qed.
Lemma twin_in d f w : d <> x -> (In (d, f, w) (occs l) <-> In (d, f, w) (occs done)).
Proof. intros Hd. rewrite <- (ri_occ R), filter_In. unfold notx. cbn [fst]. destruct (N.eqb_spec d x); [contradiction|]. cbn. tauto. Qed.
Lemma twin_notx d f w : In (d, f, w) (occs done) -> d <> x.
Proof. rewrite <- (ri_occ R), filter_In. unfold notx. cbn [fst]. intros [_ Hn]. destruct (N.eqb_spec d x); [discriminate|exact n]. Qed.
Lemma twin_filter p d : d <> x -> (filter_holds (occs l) (sp_filter p) d <-> filter_holds (occs done) (sp_filter p) d).
Proof.
  intros Hd. unfold filter_holds, term_holds. split; intros (t & Ht & Hall); exists t; (split; [exact Ht|]); (eapply Forall_impl; [|exact Hall]); intros y; now apply twin_in.
Qed.
Lemma twin_found q p s' r : sound_setup E calls -> sound_query calls q -> clean (MMatch q p) -> f_match E q p s = (s', Val r) ->
  exists view, obj_ok view r /\ shows r view /\ ranked view /\
    forall y d, In (y, d) view <-> d <> x /\ scored (occs l) (names l) (hit (prices_after calls) p) q p (weight_after (heeded calls outs)) d y /\ filter_holds (occs done) (sp_filter p) d.
Proof.
  intros SS SQ Hc Hr. destruct (er_match E q p s) as (s1 & o & R1 & C). rewrite Hr in R1. injection R1 as <- <-. destruct C as [|(po & Hp & Ho)]; [discriminate|].
  destruct (@match_v E x tc (f_m s) mv l q p (ri_v R) twin_HI (twin_setup SS) (twin_query SQ) Hc) as (m' & o & Hm & C). rewrite Hp in Hm. injection Hm as <- <-.
  destruct po as [r'|e| | |]; try discriminate. injection Ho as <-. destruct C as [[? _]|(view & V1 & V2 & V3 & V4)]; [discriminate|].
  exists view. split; [exact V1|]. split; [exact V2|]. split; [exact V3|]. intros y d. rewrite V4, twin_occ, twin_prices. split; intros (D1 & D2 & D3); (split; [exact D1|]).
  - split; [|now apply twin_filter]. revert D2. apply scored_weights. intros f w _ _. apply twin_weight.
  - split; [|now apply twin_filter]. revert D2. apply scored_weights. intros f w _ _. symmetry. apply twin_weight.
Qed.
Lemma twin_docs q p s' r : sound_setup E calls -> sound_query calls q -> clean (MMatch q p) -> f_match E q p s = (s', Val r) ->
  exists view, shows r view /\ ranked view /\
    forall d, (exists y, In (y, d) view) <-> (exists f w qw err, In (d, f, w) (occs done) /\ searching p f /\ In qw q /\ reached (prices_after calls) p qw w err) /\ filter_holds (occs done) (sp_filter p) d.
Proof.
  intros SS SQ Hc Hr. destruct (twin_found SS SQ Hc Hr) as (view & _ & V2 & V3 & V4). exists view. split; [exact V2|]. split; [exact V3|]. intros d. split.
  - intros (y & Hy). apply V4 in Hy as (D1 & D2 & D3). split; [|exact D3]. rewrite <- twin_occ in D2. apply scored_why in D2 as (f & w & qw & err & A1 & A2 & A3 & A4).
    exists f, w, qw, err. rewrite twin_occ in A1. apply (twin_in _ _ D1) in A1. apply hit_reached in A4. auto.
  - intros ((f & w & qw & err & A1 & A2 & A3 & A4) & D3). pose proof (twin_notx A1) as D1. apply (twin_in _ _ D1) in A1. rewrite <- twin_occ in A1. apply hit_reached in A4. rewrite <- twin_prices in A4.
    destruct (scored_when twin_HI (twin_setup SS) (twin_query SQ) A1 A2 A3 A4) as [y Hy]. exists y. apply V4. split; [exact D1|]. split; [|exact D3]. rewrite twin_occ, twin_prices in Hy.
    revert Hy. apply scored_weights. intros f' w' _ _. apply twin_weight.
Qed.
End Twin.

(** ** What a call comes to *)
Lemma fuzzy_ok log : forall n i r acc, obj_ok log r -> (N.to_nat i + n <= length (sd log))%nat -> exists acc', add_fuzzy n i r acc = Ok acc'.
Proof.
  induction n as [|n IH]; intros i r acc Hok Hn; [now exists acc|]. cbn [add_fuzzy].
  destruct (nth_error (sd log) (N.to_nat i)) as [y|] eqn:Hx; [|apply nth_error_None in Hx; lia].
  destruct (get_ok i Hok) as (r1 & G1 & Hok1 & _). rewrite Hx in G1. unfold mr_getDocumentID at 1. unfold mbind. rewrite G1. cbn [ret obind].
  destruct (get_ok i Hok1) as (r2 & G2 & Hok2 & _). rewrite Hx in G2. unfold mr_getRelevancy at 1. unfold mbind. rewrite G2. cbn [ret obind].
  apply IH; [exact Hok2|lia].
Qed.
Lemma bind_tt {A} (c : F A) s s' o : (c ;;; val tt) s = (s', o) -> exists o', c s = (s', o') /\ o = match o' with Val _ => Val tt | Out => Out | Thrown e => Thrown e | Aborted => Aborted | Undefined => Undefined | NoFuel => NoFuel end.
Proof. unfold fbind. destruct (c s) as [s1 [a| |e| | |]]; intros [= <- <-]; eexists; split; reflexivity. Qed.
Lemma not_bad s : spared s -> ~ bad s.
Proof. intros [H1 H2] [H|H]; contradiction. Qed.
Definition fine_end (c : m_call) (o : fres unit) : Prop := o = Out \/ exists po, o = as_res po /\ expected c po.
Lemma fine_in c po : expected c po -> fine_end c (as_res po).
Proof. intros H. right. now exists po. Qed.
Section Safe.
Variables (E : env) (li0 : levindex) (x : N) (calls : list m_call) (outs : list (fres unit)) (s : fst_) (mv : matcher) (l : list step) (bs : list blk) (done : list step).
Hypothesis Hli : li_new E = Ok li0.
Hypothesis HE : env_ok E.
Hypothesis R : RI x calls outs s mv l bs done.
Lemma online_safe q f s' o : Forall (Forall nonnul) q -> Forall nonnul f -> Forall (fun c => c < 65536) f -> short f -> sound_setup E calls -> sound_query calls q ->
  (f_onlineMatch E q f ;;; val tt) s = (s', o) -> fine_end (MOnline q f) o.
Proof.
  intros Hq Hf Hl Hsh SS SQ Hr. apply bind_tt in Hr as (o1 & Hr & ->). unfold f_onlineMatch in Hr. pose proof (ri_v R) as HV. pose proof (ri_mi R) as H.
  destruct (need_cases AtLocal s) as [(s1 & R1 & M1 & _)|(s1 & R1 & M1 & _)]; [rewrite (fbind_val _ R1) in Hr|rewrite (fbind_out _ R1) in Hr; injection Hr as <- <-; now left].
  rewrite <- M1 in HV. destruct (has_word H Hf) as [[Hin Hh]|[Hin Hh]]; (erewrite fbind_reads in Hr by (rewrite <- (v_store HV); exact Hh)); cbn [negb] in Hr.
  - destruct (online_known_v HE HV H Hq Hin) as [acc Ha]. unfold online_rest in Ha at 1. rewrite Ha in Hr. clear Ha. unfold online_rest in Hr.
    destruct (er_match E q sp_new s1) as (s2 & o2 & R2 & C). destruct C as [->|(po & Hp & ->)]; [rewrite (fbind_out _ R2) in Hr; injection Hr as <- <-; now left|].
    destruct (@match_v E x (twin x calls outs l bs) (f_m s1) mv l q sp_new HV (twin_HI R) (twin_setup R SS) (twin_query R SQ)) as (m' & o & Hm & C); [repeat constructor|]. rewrite Hp in Hm. injection Hm as <- <-.
    destruct C as [[_ C]|C]; [exfalso; inversion C as [? ? C1|? ? C1]; subst; [now apply C1|inversion C1]|].
    destruct po as [r|[]| | |]; try contradiction; [|exfalso; inversion C as [? ? C1|? ? C1]; subst; inversion C1]. destruct C as (view & V1 & _). rewrite (fbind_val _ R2) in Hr.
    destruct (@fuzzy_ok view (N.to_nat (mr_size r)) 0 r acc V1) as [acc' Hfz].
    { cbn. unfold mr_size. rewrite Nat2N.id. apply Nat.eq_le_incl. transitivity (length view); [apply Permutation_length; exact (ok_perm V1)|]. symmetry. apply Permutation_length. exact (bf_perm (sd_bf (ok_fine V1))). }
    erewrite fbind_reads in Hr by exact Hfz. destruct (need_cases AtLocal s2) as [(s3 & R3 & M3 & _)|(s3 & R3 & M3 & _)]; [rewrite (fbind_val _ R3) in Hr|rewrite (fbind_out _ R3) in Hr]; injection Hr as <- <-; [|now left].
    apply (@fine_in (MOnline q f) (Ok tt)). now left.
  - destruct (asUtf8_safe Hl Hsh) as [A1 A2]. destruct (well_formed_dec Hl) as [Hw|Hw]; [destruct (A1 Hw) as [u Hx]|pose proof (A2 Hw) as Hx].
    + erewrite fbind_reads in Hr by exact Hx. unfold on_m in Hr. injection Hr as <- <-. apply (@fine_in (MOnline q f) (Throw EInvalidArg)). right. now left.
    + unfold fbind, on_m, reads in Hr. rewrite Hx in Hr. injection Hr as <- <-. apply (@fine_in (MOnline q f) (Throw ERuntime)). right. right. now split.
Qed.
Lemma call_fine c s' o : clean c -> apart x c -> nameable c -> match c with MMatch q _ | MOnline q _ => sound_setup E calls /\ sound_query calls q | _ => True end ->
  f_do E c s = (s', o) -> spared s' -> fine_end c o.
Proof.
  intros Hc Ha Hn Hs Hr Hsp. destruct c as [c|c|f z|q p|q f]; cbn [f_do] in Hr.
  - destruct Hc as [Hd Hu]. destruct (docs_fdo Hli Ha (ri_v R) (ri_mi R) Hd Hu) as (s1 & o1 & R1 & C). rewrite Hr in R1. injection R1 as <- <-.
    destruct C as [B|[->|(mv' & y & _ & _ & _ & P)]]; [destruct (not_bad Hsp B)|apply (@fine_in (MIndex c) (Throw ERuntime)); right; now left|].
    destruct P as [(-> & _)|[(-> & Hst & _)|(-> & _)]]; [apply (@fine_in (MIndex c) (Ok tt)); now left| |now left].
    apply (@fine_in (MIndex c) (Throw EOutOfRange)). right. right. split; [reflexivity|]. unfold stops in Hst. apply in_map_iff in Hst as (t & He & Hin). apply Exists_exists. now exists t.
  - unfold on_m, on_ev in Hr. pose proof (ev_safe c (mt_ev (f_m s))) as Hx. destruct (ev_do c (mt_ev (f_m s))) as [e r]. injection Hr as <- <-. apply (@fine_in (MErr c) r). exact Hx.
  - unfold f_setWeight in Hr. destruct (need_if_cases AtWeights (fun m => match mp_find wltb f (mt_w m) with Some _ => false | None => true end) s) as [(s1 & R1 & M1 & _)|(s1 & R1 & M1 & _)];
      [rewrite (fbind_val _ R1) in Hr|rewrite (fbind_out _ R1) in Hr]; injection Hr as <- <-; [|now left]. now apply (@fine_in (MWeight f z) (Ok tt)).
  - destruct Hs as [SS SQ]. apply bind_tt in Hr as (o1 & Hr & ->). destruct (er_match E q p s) as (s1 & o & R1 & C). rewrite Hr in R1. injection R1 as <- <-. destruct C as [->|(po & Hp & ->)]; [now left|].
    destruct (@match_v E x (twin x calls outs l bs) (f_m s) mv l q p (ri_v R) (twin_HI R) (twin_setup R SS) (twin_query R SQ) Hc) as (m' & o & Hm & C). rewrite Hp in Hm. injection Hm as <- <-.
    destruct C as [[-> C]|C]; [apply (@fine_in (MMatch q p) (Throw ERuntime)); right; left; now split|].
    destruct po as [r|[]| | |]; try contradiction; [apply (@fine_in (MMatch q p) (Ok tt)); now left|]. apply (@fine_in (MMatch q p) (Throw EOutOfRange)). right. right. now split.
  - destruct Hs as [SS SQ], Hc as [Hq Hf], Hn as [Hl Hsh]. now apply (@online_safe q f s').
Qed.
End Safe.
Lemma spared_back E c s s' o : f_do E c s = (s', o) -> spared s' -> spared s.
Proof. intros Hr H. destruct (@mono_do E c _ _ _ Hr) as [t Ht]. destruct H as [H1 H2]. rewrite Ht in *. split; intros Hi; [apply H1|apply H2]; apply in_app_iff; now left. Qed.
Lemma oom_safe E calls plan outs s c s' o : env_ok E -> Forall clean calls -> clean c -> nameable c ->
  match c with MMatch q _ | MOnline q _ => sound_setup E calls /\ sound_query calls q | _ => True end ->
  f_history E calls plan outs s -> f_do E c s = (s', o) -> spared s' -> o = Out \/ exists po, o = as_res po /\ expected c po.
Proof.
  intros HE Hc Hc1 Hn Hs HH Hr Hsp. destruct (apart_exists (calls ++ [c])) as [x Ha]. apply Forall_app in Ha as [Ha Ha1]. apply Forall_inv in Ha1.
  destruct (RI_history HE Hc Ha HH (spared_back Hr Hsp)) as (mv & l & bs & done & R). destruct HH as (m0 & H0 & _). destruct (hi_new H0) as [_ [li0 Hli]].
  exact (call_fine Hli HE R Hc1 Ha1 Hn Hs Hr Hsp).
Qed.
Lemma oom_found E calls plan outs s : sound_setup E calls -> f_history E calls plan outs s -> spared s ->
  exists done, remains calls outs done /\ forall q p s' r, sound_query calls q -> clean (MMatch q p) -> f_match E q p s = (s', Val r) ->
  exists view, shows r view /\ ranked view /\
    forall d, (exists y, In (y, d) view) <-> (exists f w qw err, In (d, f, w) (occs done) /\ searching p f /\ In qw q /\ reached (prices_after calls) p qw w err) /\ filter_holds (occs done) (sp_filter p) d.
Proof.
  intros SS HH Hsp. destruct (apart_exists calls) as [x Ha]. destruct (RI_history (ss_env SS) (ss_clean SS) Ha HH Hsp) as (mv & l & bs & done & R).
  exists done. split; [exact (ri_rem R)|]. intros q p s' r SQ Hc Hr. exact (twin_docs R SS SQ Hc Hr).
Qed.
Lemma oom_scores E calls plan outs s : sound_setup E calls -> f_history E calls plan outs s -> spared s ->
  exists done x all order, remains calls outs done /\ and_lost outs x (occs done) all /\ NoDup order /\ forall q p s' r, sound_query calls q -> clean (MMatch q p) -> f_match E q p s = (s', Val r) ->
  exists view, shows r view /\ ranked view /\
    forall y d, In (y, d) view <-> d <> x /\ scored all order (reached (prices_after calls) p) q p (weight_after (heeded calls outs)) d y /\ filter_holds (occs done) (sp_filter p) d.
Proof.
  intros SS HH Hsp. destruct (apart_exists calls) as [x Ha]. destruct (RI_history (ss_env SS) (ss_clean SS) Ha HH Hsp) as (mv & l & bs & done & R).
  exists done, x, (occs l), (names l). split; [exact (ri_rem R)|]. split; [split; [exact (ri_occ R)|exact (ri_lost R)]|]. split; [apply names_nodup|]. intros q p s' r SQ Hc Hr.
  destruct (twin_found R SS SQ Hc Hr) as (view & _ & V2 & V3 & V4). exists view. split; [exact V2|]. split; [exact V3|]. intros y d. rewrite V4.
  assert (Hi : scored (occs l) (names l) (hit (prices_after calls) p) q p (weight_after (heeded calls outs)) d y <-> scored (occs l) (names l) (reached (prices_after calls) p) q p (weight_after (heeded calls outs)) d y)
    by (apply scored_iff; intros qw w err _; apply hit_reached).
  tauto.
Qed.

(** ** With enough memory *)
Lemma er_addTo E w wi fi : er (f_addToIndex E w wi fi) (addToIndex E w wi fi).
Proof.
  intros s. destruct (Nat.eq_dec (length w) 0) as [Hw|Hw].
  - unfold f_addToIndex, addToIndex, f_insertWord, li_insertWord. rewrite Hw. cbn [Nat.eqb]. erewrite fbind_reads by reflexivity. destruct (mp_find N.ltb fi (mt_idx (f_m s))) as [li|] eqn:Hf.
    + exists s, (Val tt). split; [reflexivity|]. right. exists (Ok tt). split; [|reflexivity]. cbn. now rewrite (set_idx_id Hf).
    + destruct (need_cases AtNewIndex s) as [(s1 & E1 & M1 & _)|(s1 & E1 & M1 & _)].
      2:{ exists s1, Out. split; [unfold fbind; now rewrite E1|now left]. }
      assert (Hx : exists r, li_new E = r) by (eexists; reflexivity). destruct Hx as [[t|e| | |] Hn]; rewrite Hn.
      2-5: exists s1; eexists; (split; [unfold fbind at 1; rewrite (fbind_val _ E1); unfold fbind; rewrite on_m_reads; reflexivity|]); right; eexists; (split; [rewrite M1; reflexivity|reflexivity]).
      destruct (need_cases AtIndexes s1) as [(s2 & E2 & M2 & _)|(s2 & E2 & M2 & _)].
      2:{ exists s2, Out. split; [unfold fbind at 1; rewrite (fbind_val _ E1); erewrite fbind_reads by reflexivity; rewrite (fbind_out _ E2); reflexivity|now left]. }
      eexists _, _. split; [unfold fbind at 1; rewrite (fbind_val _ E1); erewrite fbind_reads by reflexivity; rewrite (fbind_val _ E2); reflexivity|]. right. exists (Ok tt). split; [|reflexivity]. cbn [f_m]. now rewrite M2, M1.
  - destruct (addTo_sim E wi fi s Hw) as [(s' & R & _)|(s' & o & R & P & _)]; eexists _, _; (split; [exact R|]); [now left|right]. now exists o.
Qed.
Lemma er_add wi fi d : er (f_add wi fi d) (set_rev (rev_add wi fi d)).
Proof.
  intros s. destruct (add_sim wi fi d s) as [(s' & R & _)|(s' & R & P & _)]; eexists _, _; (split; [exact R|]); [now left|right]. exists (Ok tt). split; [|reflexivity]. rewrite P. reflexivity.
Qed.
Ltac era := repeat first [apply er_need | apply er_need_if | apply er_bind; [|intros] | apply er_val | apply er_on | apply er_getID | apply er_addTo | apply er_add].
Lemma er_words E d f ws : er (f_words E d f ws) (index_words E d f ws).
Proof. induction ws as [|w ws IH]; cbn [f_words index_words]; era. exact IH. Qed.
Lemma er_fields E d fs : er (f_fields E d fs) (index_fields E d fs).
Proof. induction fs as [|f fs IH]; cbn [f_fields index_fields]; era; [apply er_words|exact IH]. Qed.
Lemma er_index E c : er (f_index E c) (mt_index E c).
Proof. unfold mt_index. induction c as [|d c IH]; cbn [f_index buildIndexes]; era; [apply er_fields|exact IH]. Qed.
Lemma er_do E c : er (f_do E c) (m_do E c).
Proof.
  destruct c; cbn [f_do m_do]; [apply er_index|apply er_on|apply er_need_if, er_on|apply er_bind; [apply er_match|intros; apply er_val]|apply er_bind; [apply er_online|intros; apply er_val]].
Qed.
Definition roomy (s : fst_) : Prop := Forall (eq true) (f_plan s).
Definition easy {A} (c : F A) : Prop := forall s s' o, roomy s -> c s = (s', o) -> roomy s' /\ f_failed s' = f_failed s /\ o <> Out.
Lemma easy_val {A} (a : A) : easy (val a).
Proof. intros s s' o Hs [= <- <-]. now repeat split. Qed.
Lemma easy_on {A} (x : M matcher A) : easy (on_m x).
Proof. intros s s' o Hs. unfold on_m. destruct (x (f_m s)) as [m r]. intros [= <- <-]. repeat split; [exact Hs|]. now destruct r. Qed.
Lemma easy_need p : easy (need p).
Proof. intros s s' o Hs. unfold need, roomy in *. destruct (f_plan s) as [|b r] eqn:Hp; [intros [= <- <-]; rewrite Hp; now repeat split|]. apply Forall_cons_iff in Hs as [<- Hs]. intros [= <- <-]. now repeat split. Qed.
Lemma easy_need_if p b : easy (need_if p b).
Proof. intros s s' o Hs. unfold need_if. destruct (b (f_m s)); [now apply easy_need|]. intros [= <- <-]. now repeat split. Qed.
Lemma easy_bind {A B} (c : F A) (k : A -> F B) : easy c -> (forall a, easy (k a)) -> easy (fbind c k).
Proof.
  intros Hc Hk s s' o Hs. unfold fbind. destruct (c s) as [s1 o1] eqn:H1. destruct (Hc _ _ _ Hs H1) as (R1 & F1 & N1).
  destruct o1 as [a| |e| | |]; try (intros [= <- <-]; repeat split; [exact R1|exact F1|discriminate]); [|congruence].
  intros H2. destruct (Hk a _ _ _ R1 H2) as (R2 & F2 & N2). split; [exact R2|]. split; [congruence|exact N2].
Qed.
Ltac ez := repeat first [apply easy_bind; [|intros] | apply easy_val | apply easy_on | apply easy_need | apply easy_need_if | progress cbv zeta | match goal with |- easy (if ?b then _ else _) => destruct b | |- easy (let (_, _) := ?p in _) => destruct p end].
Lemma easy_getID E w : easy (f_getID E w).
Proof. unfold f_getID. ez. Qed.
Lemma easy_words E d f ws : easy (f_words E d f ws).
Proof. induction ws as [|w ws IH]; cbn [f_words]; unfold f_addToIndex, f_insertWord, f_add; ez; exact IH. Qed.
Lemma easy_fields E d fs : easy (f_fields E d fs).
Proof. induction fs as [|f fs IH]; cbn [f_fields]; ez; [apply easy_words|exact IH]. Qed.
Lemma easy_index E c : easy (f_index E c).
Proof. induction c as [|d c IH]; cbn [f_index]; ez; [apply easy_fields|exact IH]. Qed.
Lemma easy_subs E fl t id n : forall sub, easy (f_subtermsMatch E fl t id n sub).
Proof. induction n as [|n IH]; intros sub; cbn [f_subtermsMatch]; unfold f_both_ids; ez; try apply easy_getID; apply IH. Qed.
Lemma easy_terms E fl id n : forall t, easy (f_termsMatch E fl id n t).
Proof. induction n as [|n IH]; intros t; cbn [f_termsMatch]; ez; [apply easy_subs|apply IH]. Qed.
Lemma easy_loop E fl n : forall i all mt, easy (f_filter_loop E fl n i all mt).
Proof. induction n as [|n IH]; intros i all mt; cbn [f_filter_loop]; ez; [apply easy_terms|apply IH..]. Qed.
Lemma easy_match E q p : easy (f_match E q p).
Proof. unfold f_match. apply easy_bind; [apply easy_need|]. intros _. destruct q; ez. apply easy_loop. Qed.
Lemma easy_counts E q i : forall c, easy (f_countExacts E q i c).
Proof. induction q as [|w q IH]; intros c; cbn [f_countExacts]; ez; try apply easy_getID; apply IH. Qed.
Lemma easy_scores qn k st : forall acc, easy (f_exact_scores qn k st acc).
Proof. induction st as [|[d n] st IH]; intros acc; cbn [f_exact_scores]; ez; apply IH. Qed.
Lemma easy_online E q f : easy (f_onlineMatch E q f).
Proof. unfold f_onlineMatch. ez; [apply easy_counts|apply easy_scores|apply easy_loop]. Qed.
Lemma easy_do E c : easy (f_do E c).
Proof.
  destruct c; cbn [f_do]; [apply easy_index|apply easy_on|unfold f_setWeight; ez|apply easy_bind; [apply easy_match|intros; apply easy_val]|apply easy_bind; [apply easy_online|intros; apply easy_val]].
Qed.
Lemma fatal_same c po : f_fatal c (as_res po) = fatal c po.
Proof. now destruct po as [|[]| | |], c. Qed.
Lemma enough_run E calls : forall s s' outs, f_run E calls s = Some (s', outs) -> Forall (fun o => o <> Out) outs -> m_run E calls (f_m s) = (f_m s', Ok tt).
Proof.
  induction calls as [|c calls IH]; intros s s' outs; cbn [f_run m_run]; [now intros [= <- _]|]. destruct (er_do E c s) as (s1 & o & R & C). rewrite R.
  destruct (f_fatal c o) eqn:Hf; [discriminate|]. destruct (f_run E calls s1) as [[s2 os]|] eqn:Hr; [|discriminate]. intros [= <- <-] Hn. apply Forall_cons_iff in Hn as [Hn1 Hn].
  destruct C as [->|(po & P & ->)]; [congruence|]. rewrite P. rewrite fatal_same in Hf. rewrite Hf. exact (IH _ _ _ Hr Hn).
Qed.
Lemma roomy_run E calls : forall s s' outs, f_run E calls s = Some (s', outs) -> roomy s -> Forall (fun o => o <> Out) outs /\ f_failed s' = f_failed s.
Proof.
  induction calls as [|c calls IH]; intros s s' outs; cbn [f_run]; [intros [= <- <-]; now repeat split|]. destruct (f_do E c s) as [s1 o] eqn:R.
  destruct (f_fatal c o) eqn:Hf; [discriminate|]. destruct (f_run E calls s1) as [[s2 os]|] eqn:Hr; [|discriminate]. intros [= <- <-] Hs.
  destruct (@easy_do E c _ _ _ Hs R) as (R1 & F1 & N1). destruct (IH _ _ _ Hr R1) as [A B]. split; [now constructor|congruence].
Qed.
Lemma oom_enough E calls plan outs s : f_history E calls plan outs s -> Forall (eq true) plan -> history E calls (f_m s) /\ f_failed s = [].
Proof. intros (m0 & H0 & Hr) Hp. destruct (roomy_run Hr Hp) as [A B]. split; [|exact B]. exists m0. split; [exact H0|]. exact (enough_run Hr A). Qed.
Lemma oom_caught E calls plan outs s : f_history E calls plan outs s -> Forall (fun o => o <> Out) outs -> history E calls (f_m s).
Proof. intros (m0 & H0 & Hr) Hp. exists m0. split; [exact H0|]. exact (enough_run Hr Hp). Qed.

(** ** Memory enough from now on *)
Lemma oom_recovers E calls plan outs s c s' o : env_ok E -> Forall clean calls -> clean c -> nameable c ->
  match c with MMatch q _ | MOnline q _ => sound_setup E calls /\ sound_query calls q | _ => True end ->
  f_history E calls plan outs s -> spared s -> Forall (eq true) (f_plan s) -> f_do E c s = (s', o) ->
  exists po, o = as_res po /\ expected c po.
Proof.
  intros HE Hcs Hc Hn Hq Hh Hs Hp Hr. destruct (@easy_do E c _ _ _ Hp Hr) as (_ & F & N).
  assert (Hs' : spared s') by (unfold spared; now rewrite F).
  destruct (oom_safe HE Hcs Hc Hn Hq Hh Hr Hs') as [->|H]; [congruence|exact H].
Qed.

(** ** Indexing again *)
Lemma remains_in calls outs done : remains calls outs done -> forall z, In z (occs done) -> In z (occ calls).
Proof.
  induction 1 as [|c calls outs a b done Hi _ IH|c calls o outs done Hn _ IH]; intros z; [intros []|..]; rewrite occs_app, in_app_iff; change (c :: calls) with ([c] ++ calls); rewrite occ_app, in_app_iff; (intros [Hz|Hz]; [left|right; now apply IH]).
  - unfold occ. rewrite Hi, occs_app, in_app_iff. now left.
  - exact Hz.
Qed.
Lemma remains_kept calls outs done : remains calls outs done -> forall j c o z, nth_error calls j = Some c -> nth_error outs j = Some o -> o <> Out -> In z (occ [c]) -> In z (occs done).
Proof.
  induction 1 as [|c calls outs a b done Hi _ IH|c calls o outs done Hn _ IH]; intros [|j] c' o' z; cbn [nth_error]; try discriminate; rewrite occs_app, in_app_iff.
  - now intros _ [= <-].
  - intros H1 H2 H3 H4. right. exact (IH _ _ _ _ H1 H2 H3 H4).
  - intros [= <-] _ _ H. now left.
  - intros H1 H2 H3 H4. right. exact (IH _ _ _ _ H1 H2 H3 H4).
Qed.
Lemma remains_all calls outs done : remains calls outs done -> retried calls outs -> forall z, In z (occs done) <-> In z (occ calls).
Proof.
  intros H Hr z. split; [exact (@remains_in _ _ _ H z)|]. intros Hz.
  assert (G : exists i c, nth_error calls i = Some c /\ In z (occ [c])).
  { clear - Hz. induction calls as [|c calls IH]; [destruct Hz|]. change (c :: calls) with ([c] ++ calls) in Hz. rewrite occ_app, in_app_iff in Hz. destruct Hz as [Hz|Hz]; [now exists 0%nat, c|].
    destruct (IH Hz) as (i & c' & H1 & H2). exists (S i), c'. now split. }
  destruct G as (i & c & Hi & Hin). destruct (nth_error outs i) as [o|] eqn:Ho.
  - assert (Hx : o = Out \/ o <> Out) by (destruct o; auto; right; discriminate). destruct Hx as [->|Hx]; [|exact (remains_kept H Hi Ho Hx Hin)].
    destruct (Hr i c Hi Ho) as (j & o & Hj & Hoj & Hn). exact (remains_kept H Hj Hoj Hn Hin).
  - exfalso. assert (Hl : length outs = length calls) by (clear - H; induction H; cbn; congruence). apply nth_error_None in Ho. assert (i < length calls)%nat by (apply nth_error_Some; congruence). lia.
Qed.
Lemma oom_retry E calls plan outs s q p s' r : sound_setup E calls -> f_history E calls plan outs s -> spared s -> retried calls outs ->
  sound_query calls q -> clean (MMatch q p) -> f_match E q p s = (s', Val r) ->
  exists view, shows r view /\ ranked view /\
    forall d, (exists y, In (y, d) view) <-> (exists f w qw err, In (d, f, w) (occ calls) /\ searching p f /\ In qw q /\ reached (prices_after calls) p qw w err) /\ filter_holds (occ calls) (sp_filter p) d.
Proof.
  intros SS HH Hsp Hret SQ Hc Hr. destruct (oom_found SS HH Hsp) as (done & Hrem & G). destruct (G q p s' r SQ Hc Hr) as (view & V1 & V2 & V3). exists view. split; [exact V1|]. split; [exact V2|]. intros d. rewrite V3.
  pose proof (remains_all Hrem Hret) as Ha.
  assert (F : filter_holds (occs done) (sp_filter p) d <-> filter_holds (occ calls) (sp_filter p) d).
  { unfold filter_holds, term_holds. split; intros (t & Ht & Hall); exists t; (split; [exact Ht|]); (eapply Forall_impl; [|exact Hall]); intros y; apply Ha. }
  rewrite F. split; (intros [(f & w & qw & err & A1 & A2) A3]; split; [|exact A3]); exists f, w, qw, err; (split; [now apply Ha|exact A2]).
Qed.
