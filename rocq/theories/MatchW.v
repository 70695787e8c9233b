(** Matcher: onlineMatch, and other iteration orders. *)
From Verif Require Import Base TrieM TrieA TrieP TrieP2 TrieD WordStoreM Spec_Hist TrieH WordStoreP ErrorValuesM LevIndexM
  Spec_Edit Spec_EV Spec_Lev EVP EditP HitsP LevP WordM MapM DoubleM FloatP ContM MatcherM MapP Spec_Cont ContP Spec_Match MatchP MatchQ MatchR MatchS MatchT MatchU MatchV.
From Coq Require Import ZifyBool ZifyN ZifyNat.
Local Open Scope N_scope.
Local Open Scope m_scope.

(** ** The default filter asks nothing *)
Lemma terms_plain E filter id : Forall (eq []) filter -> forall n term m, (N.to_nat term + n <= length filter)%nat -> termsMatch E filter id n term m = (m, Ok (Nat.ltb 0 n)).
Proof.
  intros Hf [|n] term m Hn; [reflexivity|]. cbn [termsMatch]. unfold rf_numSubTerms.
  destruct (nth_error filter (N.to_nat term)) as [t|] eqn:Ht; [|apply nth_error_None in Ht; lia].
  rewrite Forall_forall in Hf. pose proof (Hf t (nth_error_In _ _ Ht)) as <-.
  erewrite mbind_ok by (apply reads_ok; rewrite at_spec, Ht; reflexivity). reflexivity.
Qed.
Lemma loop_plain E filter log : Forall (eq []) filter -> filter <> [] -> forall rest n i all matched m,
  obj_ok log all -> skipn (N.to_nat i) (sd log) = rest -> n = length rest ->
  exists r, filter_loop E filter n i all matched m = (m, Ok r) /\ mr_results r = mr_results matched ++ rest /\ (mr_sorted r = true -> r = matched).
Proof.
  intros Hf Hne. induction rest as [|x rest IH]; intros n i all matched m Hok Hsk ->.
  { exists matched. split; [reflexivity|]. split; [now rewrite app_nil_r|reflexivity]. }
  pose proof Hsk as Hsk'. apply skipn_cons in Hsk' as [Hx Hsk']. cbn [length filter_loop].
  destruct (@get_sorted log all i Hok) as (all' & Hg & Hok' & Hs'); [apply nth_error_Some; congruence|].
  unfold mr_getDocumentID. unfold mbind at 1. rewrite Hg, Hx. cbn [ret]. erewrite mbind_ok by (apply reads_ok; reflexivity).
  erewrite mbind_ok by (apply terms_plain; [exact Hf|]; unfold rf_numTerms; cbn; lia).
  assert (Hlt : Nat.ltb 0 (N.to_nat (rf_numTerms filter)) = true).
  { unfold rf_numTerms. apply Nat.ltb_lt. assert (length filter <> O) by (intros Hx0; apply length_zero_iff_nil in Hx0; contradiction). lia. }
  rewrite Hlt. clear Hlt.
  rewrite (copy_exact matched i Hok' Hs'), Hx. erewrite mbind_ok by (apply reads_ok; reflexivity).
  destruct (IH (length rest) (i + 1) all' (mkMR (mr_results matched ++ [x]) false) m Hok') as (r & Hr & Hm & Hso); [now rewrite N.add_1_r, N2Nat.inj_succ|reflexivity|].
  exists r. split; [exact Hr|]. cbn [mr_results] in Hm. split; [now rewrite Hm, <- app_assoc|]. intros Hsr. rewrite (Hso Hsr) in Hsr. discriminate.
Qed.
Lemma match_plain E calls m l q p : HI calls m l -> sound_setup E calls -> sound_query calls q -> Forall (eq []) (sp_filter p) -> sp_filter p <> [] ->
  exists r, mt_match E q p m = (m, Ok r) /\ answer calls l q p r /\ exists log, obj_ok log r.
Proof.
  intros H SS SQ Hf Hne.
  assert (Hp : clean (MMatch q p)) by (cbn; rewrite Forall_forall in *; intros t Ht; rewrite <- (Hf t Ht); constructor).
  assert (G : exists r, mt_match E q p m = (m, Ok r) /\ exists log, obj_ok log r).
  { destruct (nil_or q) as [Hq|Hq]; [rewrite match_nil by exact Hq; exists mr_new; split; [reflexivity|exists []; exact ok_new]|]. rewrite match_some by exact Hq.
    destruct (rel_spec H SS p SQ) as (docs & Hr & Hs & Hd & _).
    assert (Hfi : Forall (fun x => fine (snd x, fst x)) docs).
    { rewrite Forall_forall. intros [d x] Hin. apply Hd in Hin. apply weak_nan. exact (scored_weak SS Hin). }
    erewrite mbind_ok by (apply reads_ok; exact Hr). cbn [mr_addResults fst mr_new mr_results app]. rewrite add_all_results. cbn [mr_new mr_results app].
    set (log := map (fun x : N * double => (snd x, fst x)) docs). assert (Hlog : Forall fine log) by (unfold log; apply Forall_map; exact Hfi).
    destruct (@loop_plain E (sp_filter p) log Hf Hne (sd log) (N.to_nat (mr_size (mkMR log false))) 0 (mkMR log false) mr_new m) as (r & Hx & K1 & K2); [now apply raw_ok|reflexivity| |].
    { unfold mr_size. cbn [mr_results]. rewrite Nat2N.id. apply Permutation_length. symmetry. apply (sd_bf Hlog). }
    exists r. split; [exact Hx|]. cbn [mr_new mr_results app] in K1. destruct (sd_bf Hlog) as [B1 _ _].
    assert (Hfv : Forall fine (sd log)) by (rewrite Forall_forall in *; intros x Hx0; apply Hlog; now apply (Permutation_in _ B1)).
    exists (sd log). destruct (mr_sorted r) eqn:Hms; [rewrite (K2 eq_refl) in *; cbn in K1; rewrite <- K1; exact ok_new|]. destruct r as [v s]. cbn in *. subst. now apply raw_ok. }
  destruct G as (r & Hr & G). exists r. split; [exact Hr|]. split; [exact (match_answer H SS SQ Hp Hr)|exact G].
Qed.

(** ** Reading the results of match *)
Definition fz (view : list (double * N)) (acc : list (N * double)) (d : N) : option double :=
  match find (fun x => snd x =? d) view with
  | Some x => Some (d_add (match mp_find N.ltb d acc with Some y => y | None => d_zero end) (fst x))
  | None => mp_find N.ltb d acc
  end.
Lemma fuzzy_spec log : forall rest n i r acc, obj_ok log r -> skipn (N.to_nat i) (sd log) = rest -> n = length rest -> msorted N.ltb acc -> NoDup (map snd rest) ->
  exists acc', add_fuzzy n i r acc = Ok acc' /\ msorted N.ltb acc' /\ forall d, mp_find N.ltb d acc' = fz rest acc d.
Proof.
  induction rest as [|x rest IH]; intros n i r acc Hok Hsk -> Hs Hnd; [exists acc; split; [reflexivity|]; split; [exact Hs|reflexivity]|].
  pose proof Hsk as Hsk'. apply skipn_cons in Hsk' as [Hx Hsk']. cbn [length add_fuzzy].
  destruct (get_ok i Hok) as (r1 & G1 & Hok1 & _). rewrite Hx in G1. unfold mr_getDocumentID at 1. unfold mbind. rewrite G1. cbn [ret obind].
  destruct (get_ok i Hok1) as (r2 & G2 & Hok2 & _). rewrite Hx in G2. unfold mr_getRelevancy at 1. unfold mbind. rewrite G2. cbn [ret obind].
  cbn [map] in Hnd. apply NoDup_cons_iff in Hnd as [Hno Hnd'].
  destruct (IH (length rest) (i + 1) r2 (mp_set N.ltb (snd x) (d_add (match mp_find N.ltb (snd x) acc with Some y => y | None => d_zero end) (fst x)) acc) Hok2)
    as (acc' & Hr & Hs' & Hf); [now rewrite N.add_1_r, N2Nat.inj_succ|reflexivity|now apply (set_sorted nltb_order)|exact Hnd'|].
  exists acc'. split; [exact Hr|]. split; [exact Hs'|]. intros d. rewrite Hf. unfold fz. cbn [find]. destruct (N.eqb_spec (snd x) d) as [<-|Hd].
  - destruct (find (fun y => snd y =? snd x) rest) as [y|] eqn:Hy; [|now apply (find_set_same nltb_order)].
    exfalso. apply find_some in Hy as [Hy Hey]. apply Hno. apply N.eqb_eq in Hey. rewrite <- Hey. now apply in_map.
  - rewrite !(find_set_other nltb_order) by (congruence || assumption). reflexivity.
Qed.

(** ** onlineMatch *)
Lemma cnt_spec c d : (forall d, mp_find N.ltb d c <> Some 0) -> mp_find N.ltb d c = if cnt c d =? 0 then None else Some (cnt c d).
Proof. intros Hz. unfold cnt. specialize (Hz d). destruct (mp_find N.ltb d c) as [n|]; [|reflexivity]. destruct (N.eqb_spec n 0); [congruence|reflexivity]. Qed.
Definition exact_acc (l : list step) (f : word) (q : list word) (d : N) : option double :=
  let n := exacts (occs l) f q d in if n =? 0 then None else Some (bonus (last_size l d f None) (N.of_nat (length q)) n).
Lemma exact_phase E m l q f : env_ok E -> MI m l -> In f (names l) -> Forall (Forall nonnul) q -> exists acc,
  msorted N.ltb acc /\ (forall d, mp_find N.ltb d acc = exact_acc l f q d) /\
  mt_onlineMatch E q f m = (fuzzy <- mt_match_list E q ;; acc' <- reads (fun _ => add_fuzzy (N.to_nat (mr_size fuzzy)) 0 fuzzy acc) ;; ret (add_all acc' mr_new)) m.
Proof.
  intros HE H Hf Hq. assert (Hnf : Forall nonnul f) by (destruct (known_insertable H Hf) as (_ & Hx & _); exact Hx).
  destruct (has_word H Hnf) as [[_ Hh]|[Hx _]]; [|contradiction].
  destruct (@counts_yield E f q HE [] m l H Hf Hq) as (c & Hc & Hcs & Hcz & Hcn); [constructor|discriminate|].
  assert (Hcnt : forall d, cnt c d = exacts (occs l) f q d) by (intros d; now rewrite Hcn).
  destruct (@scores_spec (wl_size q) f c [] m l H Hf) as (acc & Ha & Has & Hav); [constructor| |now apply (sorted_nodup nltb_order)|].
  { intros d n Hin. apply (find_in nltb_order) in Hin; [|exact Hcs]. rewrite cnt_spec in Hin by exact Hcz. rewrite Hcnt in Hin.
    destruct (N.eqb_spec (exacts (occs l) f q d) 0) as [|Hn]; [discriminate|]. unfold exacts in Hn.
    destruct (filter (fun w => occb (occs l) d f w) q) as [|w ws] eqn:Hw; [cbn in Hn; lia|].
    assert (Hin' : In w (filter (fun w => occb (occs l) d f w) q)) by (rewrite Hw; now left). apply filter_In in Hin' as [_ Hin']. apply occb_in in Hin'.
    apply occs_in in Hin'. exact (mi_sized H Hin'). }
  exists acc. split; [exact Has|]. split.
  - intros d. unfold exact_acc. destruct (mp_find N.ltb d acc) as [x|] eqn:Hx.
    + apply Hav in Hx as [(n & Hin & ->)|[_ Hx]]; [|discriminate]. apply (find_in nltb_order) in Hin; [|exact Hcs]. rewrite cnt_spec, Hcnt in Hin by exact Hcz.
      destruct (N.eqb_spec (exacts (occs l) f q d) 0); [discriminate|]. injection Hin as <-. reflexivity.
    + destruct (N.eqb_spec (exacts (occs l) f q d) 0) as [|Hn]; [reflexivity|]. exfalso.
      assert (Hd : mp_find N.ltb d c = Some (exacts (occs l) f q d)) by (rewrite cnt_spec, Hcnt by exact Hcz; destruct (N.eqb_spec (exacts (occs l) f q d) 0); [contradiction|reflexivity]).
      apply (find_in nltb_order) in Hd; [|exact Hcs].
      assert (Hy : mp_find N.ltb d acc = Some (bonus (last_size l d f None) (wl_size q) (exacts (occs l) f q d))) by (apply Hav; left; exists (exacts (occs l) f q d); split; [exact Hd|reflexivity]). congruence.
  - unfold mt_onlineMatch. erewrite mbind_ok by (apply reads_ok; exact Hh). cbn [negb]. erewrite mbind_ok by (exact (get_known E H Hf)).
    erewrite mbind_ok by exact Hc. erewrite mbind_ok by exact Ha. reflexivity.
Qed.

Lemma of_Z_weak z : (0 <= z)%Z -> weakly_nonneg (d_of_Z z).
Proof.
  intros Hz. unfold d_of_Z, binary_normalize. destruct z as [|k|k]; [exact I| |lia]. apply weak_or. left. apply bround_nonneg.
Qed.
Lemma part_weak size qsize n : weakly_nonneg (exact_part size qsize n).
Proof.
  unfold exact_part. destruct (n =? 0); [exact I|]. destruct (_ && _); [apply add_weak|]; apply of_Z_weak; lia.
Qed.
Lemma acc_part calls m l f q d : HI calls m l -> exact_acc l f q d =
  if exact_count (occ calls) f q d =? 0 then None else Some (exact_part (last_size (indexed calls) d f None) (N.of_nat (length q)) (exact_count (occ calls) f q d)).
Proof.
  intros H. unfold exact_acc. rewrite (hi_occ H), (hi_size d f H). change (exacts (occ calls) f q d) with (exact_count (occ calls) f q d).
  unfold exact_part, bonus. now destruct (exact_count (occ calls) f q d =? 0).
Qed.
Lemma answer_nodup E calls m l q p r view : HI calls m l -> sound_setup E calls -> sound_query calls q -> answer calls l q p r -> shows r view -> NoDup (map snd view).
Proof.
  intros H SS SQ A Hv. destruct (answer_fine H SS A Hv) as (F & K & M). destruct (rel_spec H SS p SQ) as (docs & _ & Hd & Hds & _).
  assert (Huniq : forall x x' d, In (x, d) view -> In (x', d) view -> x = x').
  { intros x x' d H1 H2. apply M, proj1 in H1; apply M, proj1 in H2. apply Hds in H1, H2. apply (find_in nltb_order) in H1, H2; [congruence|exact Hd..]. }
  clear - K Huniq F. unfold ranked in K. rewrite Forall_forall in F. induction K as [|a v Hs IH Ha]; [constructor|]. cbn. constructor.
  - intros Hin. apply in_map_iff in Hin as ([x' d'] & Hx & Hin). rewrite Forall_forall in Ha. pose proof (Ha _ Hin) as Hb. destruct a as [x d]. cbn in Hx. subst d'.
    assert (x' = x) by (apply (Huniq x' x d); [now right|now left]); subst x'. assert (Hfx : fine (x, d)) by (apply F; now left).
    destruct Hb as [Hb|(_ & _ & Hb)]; [|cbn in Hb; lia]. pose proof (irr Hfx). cbn in *. congruence.
  - apply IH; [intros x Hx; apply F; now right|]. intros x x' d H1 H2. apply (Huniq x x' d); now right.
Qed.
Definition online_answer (calls : list m_call) (l : list step) (q : list word) (f : word) (r : mresults) : Prop := exists view, shows r view /\ ranked view /\
  Forall (fun x => weakly_nonneg (fst x)) view /\
  forall x d, In (x, d) view <-> online_scored calls (names l) (hit (prices_after calls) sp_new) q f d x.
Lemma online_known E calls m l q f : HI calls m l -> sound_setup E calls -> sound_query calls q -> In f (names l) ->
  exists r, mt_onlineMatch E q f m = (m, Ok r) /\ online_answer calls l q f r.
Proof.
  intros H SS SQ Hf. pose proof (hi_mi H) as HM. destruct (exact_phase (ss_env SS) HM Hf (sq_letters SQ)) as (acc & Hs & Ha & ->).
  destruct (@match_plain E calls m l q sp_new H SS SQ) as (fr & Hfr & A & log & Hok); [repeat constructor|discriminate|].
  unfold mt_match_list. erewrite mbind_ok by exact Hfr. pose proof A as (view & Hsh & _). destruct (answer_fine H SS A Hsh) as (F & K & M).
  pose proof (answer_nodup H SS SQ A Hsh) as Hnd. assert (Hsd : sd log = view) by exact (shows_unique (sd_shows Hok) Hsh).
  destruct (@fuzzy_spec log view (N.to_nat (mr_size fr)) 0 fr acc Hok) as (acc' & Hx & Hs' & Hv'); [exact Hsd| |exact Hs|exact Hnd|].
  { rewrite (proj1 Hsh). apply Nat2N.id. }
  erewrite mbind_ok by (apply reads_ok; exact Hx). eexists. split; [reflexivity|].
  assert (Hgood : forall d x, mp_find N.ltb d acc' = Some x <-> online_scored calls (names l) (hit (prices_after calls) sp_new) q f d x).
  { intros d x. rewrite Hv'. unfold fz, online_scored. rewrite Ha, (acc_part f q d H).
    assert (Hsc : forall y, scored (occ calls) (names l) (hit (prices_after calls) sp_new) q sp_new (weight_after calls) d y <-> In (y, d) view).
    { intros y. rewrite M. split; [intros Hy; split; [exact Hy|]; exists []; split; [now left|constructor]|tauto]. }
    destruct (find (fun x => snd x =? d) view) as [[y d']|] eqn:Hfi.
    - apply find_some in Hfi as [Hin He]. cbn in He. apply N.eqb_eq in He. subst d'. cbn [fst].
      assert (Hy : forall y', In (y', d) view -> y' = y).
      { intros y' Hy'. clear - Hnd Hin Hy'. induction view as [|[a b] v IH]; [destruct Hin|]. cbn in Hnd. apply NoDup_cons_iff in Hnd as [Hn Hnd].
        destruct Hin as [Q|Hin], Hy' as [Q'|Hy']; try congruence.
        - exfalso. apply Hn. apply (in_map snd) in Hy'. cbn in Hy'. congruence.
        - exfalso. apply Hn. apply (in_map snd) in Hin. cbn in Hin. congruence.
        - now apply IH. }
      split.
      + intros [= <-]. left. exists y. split; [now apply Hsc|]. unfold exact_part. destruct (exact_count _ f q d =? 0); reflexivity.
      + intros [(y' & Hy' & ->)|(Hno & _)]; [|exfalso; apply (Hno y); now apply Hsc]. apply Hsc in Hy'. rewrite (Hy y' Hy'). f_equal.
        unfold exact_part. destruct (exact_count _ f q d =? 0); reflexivity.
    - assert (Hno : forall y, ~ In (y, d) view) by (intros y Hy; pose proof (List.find_none _ _ Hfi _ Hy) as Hx0; cbn in Hx0; rewrite N.eqb_refl in Hx0; discriminate).
      split.
      + destruct (N.eqb_spec (exact_count (occ calls) f q d) 0); [discriminate|]. intros [= <-]. right. split; [intros y Hy; apply (Hno y); now apply Hsc|]. now split.
      + intros [(y & Hy & _)|(_ & Hn & ->)]; [exfalso; apply (Hno y); now apply Hsc|]. destruct (N.eqb_spec (exact_count (occ calls) f q d) 0); [contradiction|reflexivity]. }
  assert (Hweak : forall d x, In (d, x) acc' -> weakly_nonneg x).
  { intros d x Hin. apply (find_in nltb_order) in Hin; [|exact Hs']. apply Hgood in Hin as [(y & Hy & ->)|(_ & _ & ->)]; [|apply part_weak].
    apply add_weak; [apply part_weak|exact (scored_weak SS Hy)]. }
  assert (Hfi : Forall (fun x : N * double => fine (snd x, fst x)) acc') by (rewrite Forall_forall; intros [d x] Hin; apply weak_nan; exact (Hweak d x Hin)).
  set (log' := map (fun x : N * double => (snd x, fst x)) acc').
  assert (Hfl : Forall fine log') by (unfold log'; apply Forall_map; exact Hfi).
  assert (Hin' : forall x d, In (x, d) (sd log') <-> In (d, x) acc').
  { intros x d. destruct (sd_bf Hfl) as [B1 _ _]. split; intros Hin; [apply (Permutation_in _ B1) in Hin|apply (Permutation_in _ (Permutation_sym B1))]; unfold log' in *.
    - apply in_map_iff in Hin as ([d' x'] & [= <- <-] & Hin). exact Hin.
    - apply in_map_iff. now exists (d, x). }
  exists (sd log'). split; [apply sd_shows, add_all_ok, Hfi|]. split; [|split].
  - apply ties_ranked; [exact Hfl|]. unfold log'. eapply ssorted_map; [apply msorted_ss, Hs'|]. cbn. auto.
  - rewrite Forall_forall. intros [x d] Hin. apply Hin' in Hin. exact (Hweak d x Hin).
  - intros x d. rewrite Hin', <- Hgood. symmetry. apply (find_in nltb_order). exact Hs'.
Qed.
Lemma online_unknown E m l q f : MI m l -> Forall nonnul f -> ~ In f (names l) ->
  mt_onlineMatch E q f m = (m, match asUtf8 f with Ok _ => Throw EInvalidArg | Throw e => Throw e | Abort => Abort | UB => UB | Fuel => Fuel end).
Proof.
  intros H Hf Hn. destruct (has_word H Hf) as [[Hx _]|[_ Hh]]; [contradiction|]. unfold mt_onlineMatch. erewrite mbind_ok by (apply reads_ok; exact Hh). cbn [negb].
  unfold mbind, reads. destruct (asUtf8 f); reflexivity.
Qed.
