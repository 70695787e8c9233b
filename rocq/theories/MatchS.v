(** Matcher: the outcome of match. *)
From Verif Require Import Base TrieM TrieA TrieP TrieP2 TrieD WordStoreM Spec_Hist TrieH WordStoreP ErrorValuesM LevIndexM
  Spec_Edit Spec_EV Spec_Lev EVP EditP HitsP LevP WordM MapM DoubleM FloatP ContM MatcherM MapP Spec_Cont ContP Spec_Match MatchP MatchQ MatchR.
From Coq Require Import ZifyBool ZifyN ZifyNat.
Local Open Scope N_scope.
Local Open Scope m_scope.

Lemma last_for_in {A} (calls : list (word * A)) w x : last_for calls w = Some x -> In (w, x) calls.
Proof.
  unfold last_for. intros Hl. apply assoc_some_in in Hl. now apply in_rev.
Qed.
Lemma good_weak x : good_weight x -> weakly_nonneg x.
Proof. destruct x as [|[]| |[]]; cbn; tauto. Qed.
Lemma weak_or x : (nonneg_double x \/ exists s, x = S754_zero s) -> weakly_nonneg x.
Proof. destruct x as [[]|[]| |[]]; cbn; intros [Hx|[s Hx]]; try tauto; try discriminate. Qed.
Lemma fold_weak {A} (g : A -> double) xs : Forall (fun a => weakly_nonneg (g a)) xs -> forall x, weakly_nonneg x -> weakly_nonneg (fold_left (fun s y => d_add s (g y)) xs x).
Proof. induction 1 as [|a xs Ha _ IH]; intros x Hx; [exact Hx|]. cbn. apply IH. now apply add_weak. Qed.
Lemma count_le_length o f v : count_in o f v <= N.of_nat (length o).
Proof.
  unfold count_in, occurrences. pose proof (count_occ_bound (list_eq_dec N.eq_dec) v (field_words o f)) as H1.
  unfold field_words in *. rewrite map_length in H1.
  assert (length (filter (fun x : N * word * word => weqb (snd (fst x)) f) o) <= length o)%nat; [|lia].
  clear. induction o as [|x o IH]; [cbn; lia|]. cbn [filter]. destruct (weqb _ _); cbn [length]; lia.
Qed.
Lemma max_le_length o f : max_in o f <= N.of_nat (length o).
Proof.
  unfold max_in. induction (field_words o f) as [|x r IH]; cbn; [lia|]. pose proof (@count_le_length o f x). lia.
Qed.

(** ** Best first *)
Lemma desc_map (docs : list (N * double)) : map snd (map (fun x => (snd x, fst x)) docs) = map fst docs.
Proof. rewrite map_map. now apply map_ext. Qed.
Lemma ties_ranked (log : list (double * N)) : Forall fine log -> StronglySorted (fun a b => snd a < snd b) log -> ranked (sd log).
Proof.
  intros Hf Hs. destruct (sd_bf Hf) as [B1 B2 B3]. unfold ranked.
  assert (Hf2 : Forall fine (sd log)) by now rewrite B1.
  assert (Ht : forall x, fine x -> StronglySorted (fun a b => snd a < snd b) (filter (same_rel x) (sd log))).
  { intros x Hx. rewrite (B3 x Hx). now apply ssorted_filter. }
  clear B1 B3 Hs Hf. induction (sd log) as [|a r IH]; [constructor|]. apply StronglySorted_inv in B2 as [B2 Ba]. apply Forall_cons_iff in Hf2 as [Ha Hf2].
  constructor.
  - apply IH; [exact B2|exact Hf2|]. intros x Hx. specialize (Ht x Hx). cbn [filter] in Ht. destruct (same_rel x a); [now apply StronglySorted_inv in Ht as [Ht _]|exact Ht].
  - rewrite Forall_forall in *. intros y Hy. specialize (Ba y Hy). cbn in Ba. destruct (d_lt (fst y) (fst a)) eqn:Hl; [now left|right]. split; [exact Ba|]. split; [reflexivity|].
    specialize (Ht a Ha). cbn [filter] in Ht.
    assert (Haa : d_lt (fst a) (fst a) = false) by (destruct (d_lt (fst a) (fst a)) eqn:Hx; [|reflexivity]; pose proof (fine_asym Ha Ha Hx); congruence).
    assert (Saa : same_rel a a = true) by (unfold same_rel; now rewrite Haa). rewrite Saa in Ht. apply StronglySorted_inv in Ht as [_ Ht]. rewrite Forall_forall in Ht.
    apply Ht. apply filter_In. split; [exact Hy|]. unfold same_rel. now rewrite Ba, Hl.
Qed.
Lemma sd_shows log r : obj_ok log r -> shows r (sd log).
Proof.
  intros Hok. split.
  - unfold mr_size. f_equal. apply Permutation_length. rewrite (ok_perm Hok). symmetry. apply (sd_bf (ok_fine Hok)).
  - intros k. destruct (get_ok k Hok) as (r' & Hr & _). exists r'. unfold mr_getDocumentID, mr_getRelevancy.
    split; unfold mbind; rewrite Hr; destruct (nth_error (sd log) (N.to_nat k)); reflexivity.
Qed.
Lemma sd_sorted_id v : Forall fine v -> StronglySorted desc v -> sd v = v.
Proof.
  intros Hf Hs. destruct (sd_bf Hf) as [B1 B2 B3]. apply bf_unique; [now rewrite B1|exact B2|exact Hs|exact B1|exact B3].
Qed.
Lemma raw_ok v : Forall fine v -> obj_ok v (mkMR v false).
Proof. intros Hf. constructor; cbn; [exact Hf|reflexivity|reflexivity|discriminate]. Qed.
Lemma add_all_results docs : forall r, mr_results (add_all docs r) = mr_results r ++ map (fun x => (snd x, fst x)) docs.
Proof. induction docs as [|[d x] docs IH]; intros r; cbn; [now rewrite app_nil_r|]. rewrite IH. cbn. now rewrite <- app_assoc. Qed.
Lemma add_all_ok docs : Forall (fun x => fine (snd x, fst x)) docs -> obj_ok (map (fun x => (snd x, fst x)) docs) (add_all docs mr_new).
Proof.
  intros Hf. assert (G : forall docs r, Forall fine (mr_results r) -> mr_sorted r = false -> Forall (fun x : N * double => fine (snd x, fst x)) docs -> obj_ok (mr_results r ++ map (fun x => (snd x, fst x)) docs) (add_all docs r)).
  { clear. induction docs as [|[d x] docs IH]; intros r Hr Hs Hd.
    - rewrite app_nil_r. destruct r as [v s]. cbn in *. subst s. now apply raw_ok.
    - apply Forall_cons_iff in Hd as [Hx Hd]. cbn [map fst snd add_all mr_addResult]. specialize (IH (mkMR (mr_results r ++ [(x, d)]) false)). cbn [mr_results] in IH.
      rewrite <- app_assoc in IH. apply IH; [|reflexivity|exact Hd]. apply Forall_app. split; [exact Hr|]. now constructor. }
  destruct docs as [|[d x] docs]; [exact ok_new|]. apply Forall_cons_iff in Hf as [Hx Hd].
  exact (G docs (mkMR [(x, d)] false) (Forall_cons _ Hx (Forall_nil _)) eq_refl Hd).
Qed.

Lemma nil_or {A} (q : list A) : q = [] \/ q <> [].
Proof. destruct q; [now left|now right]. Qed.
Lemma match_nil E q p : q = [] -> mt_match E q p = ret mr_new.
Proof. now intros ->. Qed.
Lemma match_some E q p : q <> [] -> mt_match E q p =
  (matches <- reads (fun m => relevancyMatch E m q p 0 mr_new) ;;
   let allMatches := fst (mr_addResults matches mr_new) in
   filter_loop E (sp_filter p) (N.to_nat (mr_size allMatches)) 0 allMatches mr_new).
Proof. destruct q; [congruence|reflexivity]. Qed.

Section Match.
Variables (E : env) (calls : list m_call) (m : matcher) (l : list step).
Hypothesis H : HI calls m l.
Hypothesis SS : sound_setup E calls.
Variables (q : list word) (p : sparams).
Hypothesis SQ : sound_query calls q.
Let e := prices_after calls.
Let o := occ calls.
Let NM := names l.
Let wt := weight_after calls.
Lemma queries_ok : Forall (okq calls) q.
Proof.
  destruct SQ as [Q1 Q2]. rewrite Forall_forall in *. intros w Hw. split; [now apply Q1|now apply Q2].
Qed.
Lemma contribution_weak f v err qw : hit e p qw v err -> In v (field_words o f) -> weakly_nonneg (contribution o wt (f, v, err)).
Proof.
  intros Hh Hv. pose proof (hit_range (e_wf calls) (ss_prices SS) Hh) as Hr. unfold contribution. apply weak_or.
  apply mul_nonneg.
  - apply mul_unit; [apply (error_unit Hr)|]. apply one_minus_unit. apply div_unit.
    + pose proof (@max_in_ge calls f v Hv) as Hmx. fold o in Hmx. lia.
    + pose proof (@max_le_length o f). pose proof (ss_counts SS) as Hsc. fold o in Hsc. change (2 ^ 53)%Z with 9007199254740992%Z. lia.
  - change (good_weight (wt f)). unfold wt, weight_after. destruct (last_for _ f) as [x|] eqn:Hl; [|exact I]. apply last_for_in in Hl. now apply (ss_weights SS) in Hl.
Qed.
Lemma scored_weak d r : scored o NM (hit e p) q p wt d r -> weakly_nonneg r.
Proof.
  intros (x & xs & [_ Hp] & ->).
  assert (G : forall y, In y (x :: xs) -> weakly_nonneg (contribution o wt y)).
  { intros [[f v] err] Hy. apply Hp in Hy as (Hd & _ & (qw & _ & Hh) & _). apply (contribution_weak Hh). apply fw_in. now exists d. }
  apply fold_weak; [|apply G; now left]. rewrite Forall_forall. intros y Hy. apply G. now right.
Qed.
Lemma rel_spec : exists docs, relevancyMatch E m q p 0 mr_new = Ok (add_all docs mr_new) /\ msorted N.ltb docs /\
  (forall d r, In (d, r) docs <-> scored o NM (hit e p) q p wt d r) /\
  (forall d f v qw err, In (d, f, v) o -> searching p f -> In qw q -> hit e p qw v err -> exists r, scored o NM (hit e p) q p wt d r).
Proof.
  pose proof (ss_env SS) as HE. unfold relevancyMatch.
  destruct (indexes_spec HE H SS p queries_ok BI_nil) as (b & Hb & HB). rewrite Hb. cbn [obind].
  assert (HB' : BI b (found calls l p (fun w => In w q))) by (eapply BI_iff; [|exact HB]; intros; cbn; tauto).
  destruct (@gather_spec E calls m l HE H SS b [] []) as (docs & Hd & G); [exact (raw_known HB')|constructor; [constructor|reflexivity]|].
  rewrite Hd. cbn [obind]. exists docs. split; [reflexivity|]. split; [exact (gi_sorted G)|]. split; [|exact (scored_some H HB')]. intros d r.
  etransitivity; [|exact (docs_scored H HB' d r G)]. symmetry. apply (find_in nltb_order). exact (gi_sorted G).
Qed.
Definition answer (r : mresults) : Prop := exists view, shows r view /\ ranked view /\
  forall x d, In (x, d) view <-> scored o NM (hit e p) q p wt d x /\ filter_holds o (sp_filter p) d.
Lemma match_yield : filter_ok p -> yields E (filter_words p) (mt_match E q p)
  (fun o => match o with Ok r => answer r | Throw EOutOfRange => Exists (Exists empty_sub) (sp_filter p) | _ => False end) m l.
Proof.
  intros Hp. pose proof (hi_mi H) as HM. destruct (nil_or q) as [Hq|Hq].
  { rewrite match_nil by exact Hq. apply yields_ret; [exact HM|]. exists []. split; [apply (sd_shows ok_new)|]. split; [constructor|]. intros x d. split; [intros []|].
    intros [(y & ys & [_ Hx] & _) _]. destruct y as [[f v] err]. destruct (proj1 (Hx f v err)) as (_ & _ & (qw & Hin & _) & _); [now left|]. rewrite ?Hq in Hin. destruct Hin. }
  rewrite match_some by exact Hq. destruct rel_spec as (docs & Hr & Hs & Hd & _). apply (yields_bind_reads (a := add_all docs mr_new)); [exact Hr|].
  assert (Hf : Forall (fun x => fine (snd x, fst x)) docs).
  { rewrite Forall_forall. intros [d x] Hin. apply Hd in Hin. apply scored_weak in Hin. now apply weak_nan. }
  set (log := map (fun x : N * double => (snd x, fst x)) docs). assert (Hlog : Forall fine log) by (unfold log; apply Forall_map; exact Hf).
  cbn [mr_addResults fst mr_new mr_results app]. rewrite add_all_results. cbn [mr_new mr_results app]. fold log.
  pose proof (raw_ok Hlog) as Hok. destruct (sd_bf Hlog) as [B1 B2 B3].
  eapply yields_weak; [|eapply (@loop_yield (filter_words p) E (sp_filter p) log (filter_subs Hp) (sd log)); [exact Hok|reflexivity| |exact HM]].
  2:{ unfold mr_size. cbn [mr_results]. rewrite Nat2N.id. apply Permutation_length. now symmetry. }
  intros [r|[]| | |]; auto. intros [K1 K2]. cbn [mr_new mr_results app] in K1.
  set (view := filter (fun x => filterb (occs l) (sp_filter p) (snd x)) (sd log)) in *.
  assert (Hfv : Forall fine view).
  { unfold view. rewrite Forall_forall in *. intros x Hx. apply filter_In in Hx as [Hx _]. apply Hlog. now apply (Permutation_in _ B1). }
  assert (Hr' : obj_ok view r).
  { destruct (mr_sorted r) eqn:Hms; [rewrite (K2 eq_refl) in *; cbn in K1; rewrite <- K1; exact ok_new|]. destruct r as [v s]. cbn in *. subst. now apply raw_ok. }
  exists view. rewrite <- (sd_sorted_id Hfv) at 1 by now apply ssorted_filter. split; [now apply sd_shows|]. split.
  - unfold ranked, view. apply ssorted_filter. apply ties_ranked; [exact Hlog|]. unfold log. eapply ssorted_map; [apply msorted_ss, Hs|]. cbn. auto.
  - intros x d. unfold view. rewrite filter_In. cbn [snd]. rewrite filterb_holds, (hi_occ H). fold o. apply and_iff_compat_r. rewrite <- Hd.
    split; intros Hin; [apply (Permutation_in _ B1) in Hin|apply (Permutation_in _ (Permutation_sym B1))]; unfold log in *.
    + apply in_map_iff in Hin as ([d' x'] & [= <- <-] & Hin). exact Hin.
    + apply in_map_iff. now exists (d, x).
Qed.
End Match.
