(** Matcher out of memory: what a search finds afterwards. *)
From Verif Require Import Base TrieM TrieA TrieP TrieP2 TrieD WordStoreM Spec_Hist TrieH WordStoreP ErrorValuesM LevIndexM
  Spec_Edit Spec_EV Spec_Lev EVP EditP HitsP LevP WordM MapM DoubleM FloatP ContM MatcherM MapP Spec_Cont ContP Spec_Match MatchP MatchQ MatchR MatchS MatchT MatchW MatchY FailM FailP FailQ FailR.
From Coq Require Import ZifyBool ZifyN ZifyNat.
Local Open Scope N_scope.
Local Open Scope m_scope.

(** ** The matcher does what its twin does *)
Section Twin.
Variables (E : env) (x : N).
Definition vsim {A} (c : M matcher A) : Prop := forall m mv m' o, V x m mv -> c m = (m', o) -> exists mv', c mv = (mv', o) /\ V x m' mv'.
Lemma vsim_ret {A} (a : A) : vsim (ret a).
Proof. intros m mv m' o HV [= <- <-]. exists mv. now split. Qed.
Lemma vsim_reads {A} (f : matcher -> outcome A) : (forall m mv, V x m mv -> f m = f mv) -> vsim (reads f).
Proof. intros Hf m mv m' o HV [= <- <-]. exists mv. split; [unfold reads; now rewrite (Hf _ _ HV)|exact HV]. Qed.
Lemma vsim_bind {A B} (c : M matcher A) (k : A -> M matcher B) : vsim c -> (forall a, vsim (k a)) -> vsim (mbind c k).
Proof.
  intros Hc Hk m mv m' o HV Hr. unfold mbind in *. destruct (c m) as [m1 o1] eqn:H1. destruct (Hc _ _ _ _ HV H1) as (mv1 & R1 & V1). rewrite R1.
  destruct o1 as [a|e| | |]; [exact (Hk a _ _ _ _ V1 Hr)|injection Hr as <- <-; now exists mv1..].
Qed.
Lemma vsim_ok {A B} (a : A) (k : A -> M matcher B) : vsim (k a) -> vsim (mbind (reads (fun _ => Ok a)) k).
Proof. intros Hk m mv m' o HV Hr. exact (Hk m mv m' o HV Hr). Qed.
Lemma vsim_both v f : vsim (both_ids E v f).
Proof.
  unfold both_ids. destruct (e_rtl E); (apply vsim_bind; [intros m mv m' o; apply V_store|]); intros a; (apply vsim_bind; [intros m mv m' o; apply V_store|]); intros b; apply vsim_ret.
Qed.
Lemma has_v m mv wi fi d : V x m mv -> d <> x -> documentHasTerm (mt_rev m) wi fi d = documentHasTerm (mt_rev mv) wi fi d.
Proof. intros HV Hd. apply Bool.eq_true_iff_eq. rewrite (v_rev HV). tauto. Qed.
Lemma vsim_subs filter term id n : id <> x -> forall sub, vsim (subtermsMatch E filter term id n sub).
Proof.
  intros Hd. induction n as [|n IH]; intros sub; [apply vsim_ret|]. cbn [subtermsMatch]. apply vsim_bind; [now apply vsim_reads|]. intros fn. apply vsim_bind; [now apply vsim_reads|]. intros vn.
  apply vsim_bind; [apply vsim_both|]. intros ids. apply vsim_bind; [apply vsim_reads; intros m mv HV; f_equal; now apply has_v|]. intros []; [apply IH|apply vsim_ret].
Qed.
Lemma vsim_terms filter id n : id <> x -> forall t, vsim (termsMatch E filter id n t).
Proof.
  intros Hd. induction n as [|n IH]; intros t; [apply vsim_ret|]. cbn [termsMatch]. apply vsim_bind; [now apply vsim_reads|]. intros k. apply vsim_bind; [now apply vsim_subs|]. intros []; [apply vsim_ret|apply IH].
Qed.
Lemma vsim_loop filter log : Forall (fun r => snd r <> x) log -> forall n i all matched, obj_ok log all -> vsim (filter_loop E filter n i all matched).
Proof.
  intros Hlog. induction n as [|n IH]; intros i all matched Hok; [apply vsim_ret|]. cbn [filter_loop].
  destruct (get_ok i Hok) as (all' & Hg & Hok' & _). unfold mr_getDocumentID, mbind at 1. rewrite Hg.
  destruct (nth_error (sd log) (N.to_nat i)) as [y|] eqn:Hy; cbn [ret].
  2:{ intros m mv m' o HV. unfold mbind, reads. intros [= <- <-]. exists mv. now split. }
  assert (Hyx : snd y <> x).
  { apply nth_error_In in Hy. apply (Permutation_in _ (bf_perm (sd_bf (ok_fine Hok)))) in Hy. rewrite Forall_forall in Hlog. now apply Hlog. }
  apply vsim_ok.
  apply vsim_bind; [now apply vsim_terms|]. intros []; [|now apply IH]. destruct (mr_copyResult all' i matched) as [matched' o']. apply vsim_bind; [now apply vsim_reads|]. intros _. now apply IH.
Qed.

(** ** Gathering *)
Lemma keys_v m mv p w lim : V x m mv -> forall ks b, match_keys E m p w lim ks b = match_keys E mv p w lim ks b.
Proof.
  intros HV. induction ks as [|k ks IH]; intros b; [reflexivity|]. cbn [match_keys]. rewrite (v_store HV), (v_idx HV), (v_ev HV). destruct (ws_getWord E (mt_store m) k) as [nm|e| | |]; try reflexivity. cbn [obind].
  destruct (sp_isNonsearchingField p nm); [apply IH|]. destruct (mp_find N.ltb k (mt_idx m)) as [li|]; [|reflexivity]. destruct (findWords E li w (mt_ev m) lim []) as [ms [[]|e| | |]]; try reflexivity. cbn [obind]. apply IH.
Qed.
Lemma indexes_v m mv p q : V x m mv -> forall b, matchIndexes E m q p 0 b = matchIndexes E mv q p 0 b.
Proof.
  intros HV. induction q as [|w q IH]; intros b; [reflexivity|]. cbn [matchIndexes]. rewrite (keys_v _ _ _ HV), (v_idx HV). destruct (match_keys E mv p w _ _ b); try reflexivity. cbn [obind]. apply IH.
Qed.
Lemma rel_v m mv wi fi err : V x m mv -> calculateRelevancy E m wi fi err = calculateRelevancy E mv wi fi err.
Proof. intros HV. unfold calculateRelevancy. now rewrite (v_idx HV), (v_store HV), (v_w HV). Qed.
Definition less (a b : list (N * double)) : Prop := msorted N.ltb a /\ msorted N.ltb b /\ forall d, mp_find N.ltb d a = if N.eq_dec d x then None else mp_find N.ltb d b.
Lemma gdocs_v m mv wi fi err ds dsv a b b' : V x m mv -> NoDup ds -> NoDup dsv -> (forall d, In d ds <-> d <> x /\ In d dsv) -> less a b ->
  gather_docs E mv wi fi err dsv b = Ok b' -> exists a', gather_docs E m wi fi err ds a = Ok a' /\ less a' b'.
Proof.
  intros HV N1 N2 Hd (L1 & L2 & L3) Hr. destruct dsv as [|d0 dsv].
  { destruct ds as [|d ds]; [|exfalso; destruct (proj1 (Hd d)) as [_ []]; now left]. cbn in *. injection Hr as <-. exists a. split; [reflexivity|now split]. }
  assert (Hc : exists c, calculateRelevancy E mv wi fi err = Ok c) by (cbn [gather_docs] in Hr; destruct (calculateRelevancy E mv wi fi err) as [c|e| | |]; [now exists c|discriminate..]).
  destruct Hc as [c Hc]. destruct (gather_docs_spec Hc N2 L2) as (b2 & R2 & S2 & F2). rewrite Hr in R2. injection R2 as <-.
  rewrite <- (rel_v _ _ _ HV) in Hc. destruct (gather_docs_spec Hc N1 L1) as (a' & R1 & S1 & F1). exists a'. split; [exact R1|]. split; [exact S1|]. split; [exact S2|].
  intros d. rewrite F1, F2, L3. specialize (Hd d). destruct (in_dec N.eq_dec d ds) as [Hi|Hi], (in_dec N.eq_dec d (d0 :: dsv)) as [Hj|Hj], (N.eq_dec d x) as [Hx|Hx]; try reflexivity; exfalso; tauto.
Qed.
Lemma gwords_v m mv l k : V x m mv -> env_ok E -> MI mv l -> forall em a b b', less a b -> gather_words E mv k em b = Ok b' -> exists a', gather_words E m k em a = Ok a' /\ less a' b'.
Proof.
  intros HV HE H. induction em as [|[wi err] em IH]; intros a b b' L Hr; [cbn in *; injection Hr as <-; now exists a|]. cbn [gather_words] in *.
  destruct (gather_docs E mv wi k err (findDocuments E (mt_rev mv) wi k) b) as [b1|e| | |] eqn:H1; try discriminate. cbn [obind] in Hr.
  destruct (find_docs_v wi k HV HE) as [N1 D1], (find_docs wi k HE H) as [N2 D2].
  assert (Hd : forall d, In d (findDocuments E (mt_rev m) wi k) <-> d <> x /\ In d (findDocuments E (mt_rev mv) wi k)) by (intros d; now rewrite D1, D2, (v_rev HV)).
  destruct (gdocs_v HV N1 N2 Hd L H1) as (a1 & R1 & L1).
  rewrite R1. cbn [obind]. exact (IH _ _ _ L1 Hr).
Qed.
Lemma gather_v m mv l : V x m mv -> env_ok E -> MI mv l -> forall bs a b b', less a b -> gather E mv bs b = Ok b' -> exists a', gather E m bs a = Ok a' /\ less a' b'.
Proof.
  intros HV HE H. induction bs as [|[k em] bs IH]; intros a b b' L Hr; [cbn in *; injection Hr as <-; now exists a|]. cbn [gather] in *.
  destruct (gather_words E mv k em b) as [b1|e| | |] eqn:H1; try discriminate. cbn [obind] in Hr. destruct (gwords_v HV HE H L H1) as (a1 & R1 & L1). rewrite R1. cbn [obind]. exact (IH _ _ _ L1 Hr).
Qed.
Lemma relevancy_v m mv l q p docs : V x m mv -> env_ok E -> MI mv l -> relevancyMatch E mv q p 0 mr_new = Ok (add_all docs mr_new) -> msorted N.ltb docs -> exists docs',
  relevancyMatch E m q p 0 mr_new = Ok (add_all docs' mr_new) /\ less docs' docs.
Proof.
  intros HV HE H Hr Hs. unfold relevancyMatch in *. rewrite (indexes_v _ _ HV). destruct (matchIndexes E mv q p 0 []) as [b|e| | |]; try discriminate. cbn [obind] in *.
  destruct (gather E mv b []) as [dv|e| | |] eqn:Hg; try discriminate. cbn [obind] in Hr. injection Hr as Hr. apply (f_equal mr_results) in Hr. rewrite !add_all_results in Hr. cbn in Hr.
  assert (Hdv : dv = docs).
  { revert docs Hr Hs. clear. induction dv as [|[a b] dv IH]; intros [|[c d] docs] Hr Hs; try discriminate; [reflexivity|]. cbn in Hr. injection Hr as -> -> Hr. f_equal. apply IH; [exact Hr|]. now inversion Hs. }
  subst dv. assert (L0 : less [] []) by (split; [constructor|]; split; [constructor|]; intros d; now destruct (N.eq_dec d x)).
  destruct (gather_v HV HE H L0 Hg) as (a & Ra & La). rewrite Ra. cbn [obind]. exists a. now split.
Qed.
End Twin.

(** ** A search *)
Section Found.
Variables (E : env) (x : N) (calls : list m_call) (m mv : matcher) (l : list step) (q : list word) (p : sparams).
Hypothesis HV : V x m mv.
Hypothesis H : HI calls mv l.
Hypothesis SS : sound_setup E calls.
Hypothesis SQ : sound_query calls q.
Definition vanswer (r : mresults) : Prop := exists view, obj_ok view r /\ shows r view /\ ranked view /\
  forall y d, In (y, d) view <-> d <> x /\ scored (occ calls) (names l) (hit (prices_after calls) p) q p (weight_after calls) d y /\ filter_holds (occ calls) (sp_filter p) d.
Lemma match_v : filter_ok p -> exists m' o, mt_match E q p m = (m', o) /\
  ((o = Throw ERuntime /\ Exists (fun t => t <> []) (sp_filter p)) \/ match o with Ok r => vanswer r | Throw EOutOfRange => Exists (Exists empty_sub) (sp_filter p) | _ => False end).
Proof.
  intros Hp. pose proof (hi_mi H) as HM. destruct (nil_or q) as [Hq|Hq].
  { rewrite match_nil by exact Hq. exists m, (Ok mr_new). split; [reflexivity|]. right. exists []. split; [exact ok_new|]. split; [apply (sd_shows ok_new)|]. split; [constructor|]. intros y d. split; [intros []|].
    intros (_ & (z & zs & [_ Hx] & _) & _). destruct z as [[f v] err]. destruct (proj1 (Hx f v err)) as (_ & _ & (qw & Hin & _) & _); [now left|]. rewrite ?Hq in Hin. destruct Hin. }
  rewrite match_some by exact Hq. destruct (rel_spec H SS p SQ) as (docsv & Hrv & Hsv & Hdv & _).
  destruct (relevancy_v HV (ss_env SS) HM Hrv Hsv) as (docs & Hr & Hs & _ & Hd).
  erewrite mbind_ok by (apply reads_ok; exact Hr).
  assert (Hin : forall d y, In (d, y) docs <-> d <> x /\ scored (occ calls) (names l) (hit (prices_after calls) p) q p (weight_after calls) d y).
  { intros d y. rewrite <- Hdv. rewrite <- !(find_in nltb_order) by assumption. rewrite Hd. destruct (N.eq_dec d x) as [->|Hx]; [split; [discriminate|tauto]|tauto]. }
  assert (Hf : Forall (fun z => fine (snd z, fst z)) docs).
  { rewrite Forall_forall. intros [d y] Hi. apply Hin in Hi as [_ Hi]. apply weak_nan. exact (scored_weak SS Hi). }
  set (log := map (fun z : N * double => (snd z, fst z)) docs). assert (Hlog : Forall fine log) by (unfold log; apply Forall_map; exact Hf).
  assert (Hlx : Forall (fun r => snd r <> x) log).
  { unfold log. rewrite Forall_forall. intros [y d] Hi. apply in_map_iff in Hi as ([d' y'] & [= <- <-] & Hi). now apply Hin in Hi. }
  cbn [mr_addResults fst mr_new mr_results app]. rewrite add_all_results. cbn [mr_new mr_results app]. fold log.
  pose proof (raw_ok Hlog) as Hok. destruct (sd_bf Hlog) as [B1 B2 B3].
  set (n := N.to_nat (mr_size (mkMR log false))). assert (Hn : n = length (sd log)) by (unfold n, mr_size; cbn [mr_results]; rewrite Nat2N.id; apply Permutation_length; now symmetry).
  destruct (filter_loop E (sp_filter p) n 0 (mkMR log false) mr_new m) as [m' o] eqn:Hloop. exists m', o. split; [reflexivity|].
  destruct (@vsim_loop E x (sp_filter p) log Hlx n 0 (mkMR log false) mr_new Hok m mv m' o HV Hloop) as (mv' & Hlv & _).
  destruct (@loop_yield (filter_words p) E (sp_filter p) log (filter_subs Hp) (sd log) n 0 (mkMR log false) mr_new mv l Hok eq_refl Hn HM) as (mv2 & o2 & R2 & C2).
  rewrite Hlv in R2. injection R2 as <- <-. destruct C2 as [[-> _]|[C2 _]].
  - left. split; [reflexivity|].
    destruct (Exists_dec (fun t : list (word * word) => t <> []) (sp_filter p)) as [Hex|Hex]; [intros [|]; [right|left]; congruence|exact Hex|]. exfalso.
    destruct (sp_filter p) as [|t ts] eqn:Hfp; [rewrite (@loop_none E log (sd log) n 0 _ _ m Hok eq_refl Hn) in Hloop; discriminate|].
    destruct (@loop_plain E (t :: ts) log) with (rest := sd log) (n := n) (i := 0) (all := mkMR log false) (matched := mr_new) (m := m) as (r & Hx & _); [|discriminate|exact Hok|reflexivity|exact Hn|rewrite Hx in Hloop; discriminate].
    rewrite Forall_forall. intros t' Ht'. destruct t' as [|a b]; [reflexivity|]. exfalso. apply Hex. apply Exists_exists. exists (a :: b). now split.
  - right. destruct o as [r|[]| | |]; auto. destruct C2 as [K1 K2]. cbn [mr_new mr_results app] in K1.
    set (view := filter (fun z => filterb (occs l) (sp_filter p) (snd z)) (sd log)) in *.
    assert (Hfv : Forall fine view).
    { unfold view. rewrite Forall_forall in *. intros z Hz. apply filter_In in Hz as [Hz _]. apply Hlog. now apply (Permutation_in _ B1). }
    assert (Hr' : obj_ok view r).
    { destruct (mr_sorted r) eqn:Hms; [rewrite (K2 eq_refl) in *; cbn in K1; rewrite <- K1; exact ok_new|]. destruct r as [v s]. cbn in *. subst. now apply raw_ok. }
    exists view. split; [exact Hr'|]. rewrite <- (sd_sorted_id Hfv) at 1 by now apply ssorted_filter. split; [now apply sd_shows|]. split.
    + unfold ranked, view. apply ssorted_filter. apply ties_ranked; [exact Hlog|]. unfold log. eapply ssorted_map; [apply msorted_ss, Hs|]. cbn. auto.
    + intros y d. unfold view. rewrite filter_In. cbn [snd]. rewrite filterb_holds, (hi_occ H). rewrite <- and_assoc. apply and_iff_compat_r. rewrite <- Hin.
      split; intros Hi; [apply (Permutation_in _ B1) in Hi|apply (Permutation_in _ (Permutation_sym B1))]; unfold log in *.
      * apply in_map_iff in Hi as ([d' x'] & [= <- <-] & Hi). exact Hi.
      * apply in_map_iff. now exists (d, y).
Qed.
End Found.
