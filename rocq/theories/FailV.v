(** Matcher out of memory: onlineMatch. *)
From Verif Require Import Base TrieM TrieA TrieP TrieP2 TrieD WordStoreM Spec_Hist TrieH WordStoreP ErrorValuesM LevIndexM
  Spec_Edit Spec_EV Spec_Lev EVP EditP HitsP LevP Spec_Word WordM WordP MapM DoubleM FloatP ContM MatcherM MapP Spec_Cont ContP Spec_Match MatchP MatchQ MatchR MatchS MatchT MatchW MatchY MatchZ QueryP FailM FailP FailQ FailR FailS Spec_Fail FailT FailU.
From Coq Require Import ZifyBool ZifyN ZifyNat.
Local Open Scope N_scope.
Local Open Scope m_scope.

(** ** The exact matches of a matcher that lost some words *)
Definition seen (x : N) (l : list step) (f : word) (q : list word) (d : N) : N := if d =? x then 0 else exacts (occs l) f q d.
Lemma vcounts E x f q : env_ok E -> forall c m mv l, V x m mv -> MI mv l -> In f (names l) -> Forall (Forall nonnul) q ->
  msorted N.ltb c -> (forall d, mp_find N.ltb d c <> Some 0) ->
  exists c', countExacts E q (wid (names l) f) c m = (m, Ok c') /\ msorted N.ltb c' /\ (forall d, mp_find N.ltb d c' <> Some 0) /\
    forall d, cnt c' d = cnt c d + seen x l f q d.
Proof.
  intros HE. induction q as [|w q IH]; intros c m mv l HV H Hf Hq Hs Hz.
  { exists c. split; [reflexivity|]. split; [exact Hs|]. split; [exact Hz|]. intros d. unfold seen, exacts. cbn. destruct (d =? x); lia. }
  apply Forall_cons_iff in Hq as [Hw Hq]. cbn [countExacts].
  assert (Hno : ~ In w (names l) -> forall d, seen x l f (w :: q) d = seen x l f q d).
  { intros Hn d. unfold seen. destruct (d =? x); [reflexivity|]. unfold exacts. cbn. destruct (occb (occs l) d f w) eqn:Ho; [|reflexivity]. apply occb_in in Ho. destruct (occ_names H Ho). contradiction. }
  destruct (Nat.eqb_spec (length w) 0) as [Hl|Hl].
  { destruct (IH c m mv l HV H Hf Hq Hs Hz) as (c' & Hr & A & B & C). exists c'. split; [exact Hr|]. split; [exact A|]. split; [exact B|].
    intros d. rewrite Hno; [apply C|]. destruct w; [|discriminate]. apply (names_nonempty H). }
  destruct (has_word H Hw) as [[Hin Hh]|[Hin Hh]]; rewrite (v_store HV) in Hh.
  - destruct (@find_docs_v E x m mv (wid (names l) w) (wid (names l) f) HV HE) as [D1 D2].
    destruct (count_docs_spec Hs Hz D1) as (A0 & B0 & C0).
    destruct (IH _ m mv l HV H Hf Hq A0 B0) as (c' & Hr & A & B & C). exists c'. split.
    + erewrite mbind_ok by (apply reads_ok; exact Hh). cbn [negb].
      assert (Hg : on_store (ws_getID E w) m = (m, Ok (wid (names l) w))).
      { pose proof (get_known E H Hin) as G. unfold on_store in *. rewrite (v_store HV) in G. destruct (ws_getID E w (mt_store m)) as [st r]. injection G as G ->.
        assert (Hst : st = mt_store m) by (rewrite <- (v_store HV), <- G; reflexivity). rewrite Hst. now destruct m. }
      erewrite mbind_ok by exact Hg. erewrite mbind_ok by reflexivity. exact Hr.
    + split; [exact A|]. split; [exact B|]. intros d. rewrite C, C0. unfold seen, exacts. cbn.
      destruct (in_dec N.eq_dec d _) as [Hd|Hd]; rewrite D2, (v_rev HV), (has_term d H Hf Hin), <- occb_in in Hd.
      * destruct Hd as [Hx Hd]. rewrite Hd. destruct (N.eqb_spec d x); [contradiction|]. cbn [length]. lia.
      * destruct (N.eqb_spec d x) as [|Hx]; [lia|]. destruct (occb (occs l) d f w); [destruct Hd; now split|]. lia.
  - destruct (IH c m mv l HV H Hf Hq Hs Hz) as (c' & Hr & A & B & C). exists c'. split.
    + erewrite mbind_ok by (apply reads_ok; exact Hh). cbn [negb]. exact Hr.
    + split; [exact A|]. split; [exact B|]. intros d. rewrite Hno by exact Hin. apply C.
Qed.
Lemma vscores x qsize f stats : forall acc m mv l, V x m mv -> MI mv l -> In f (names l) -> msorted N.ltb acc ->
  (forall d n, In (d, n) stats -> d <> x /\ last_size l d f None <> None) -> NoDup (map fst stats) ->
  exists acc', exact_scores qsize (wid (names l) f) stats acc m = (m, Ok acc') /\ msorted N.ltb acc' /\
    forall d y, mp_find N.ltb d acc' = Some y <-> (exists n, In (d, n) stats /\ y = bonus (last_size l d f None) qsize n) \/ (~ In d (map fst stats) /\ mp_find N.ltb d acc = Some y).
Proof.
  induction stats as [|[id n] stats IH]; intros acc m mv l HV H Hf Hs Hsz Hn.
  { exists acc. split; [reflexivity|]. split; [exact Hs|]. intros d y. cbn. split; [right; now split|]. intros [(n & [] & _)|[_ Hx]]; exact Hx. }
  cbn [map fst] in Hn. apply NoDup_cons_iff in Hn as [Hid Hn]. cbn [exact_scores].
  destruct (Hsz id n) as [Hix Hz]; [now left|].
  destruct (last_size l id f None) as [k|] eqn:Hk; [|congruence].
  pose proof (mi_sizes H id Hf) as Hms. rewrite Hk, <- (v_sizes HV _ Hix) in Hms.
  set (v := bonus (Some k) qsize n).
  assert (Hstep : forall (kk : bool -> M matcher (list (N * double))),
     mbind (if n =? qsize then (fun m => match mp_find pair_lt (id, wid (names l) f) (mt_sizes m) with
                            | Some k => (m, Ok (n =? k)) | None => let (m', _) := set_size id (wid (names l) f) 0 m in (m', Ok (n =? 0)) end)
            else ret false) kk m = kk ((n =? qsize) && (n =? k))%bool m).
  { intros kk. destruct (n =? qsize); cbn [andb]; [|reflexivity]. unfold mbind. now rewrite Hms. }
  rewrite Hstep.
  destruct (IH (mp_set N.ltb id v acc) m mv l HV H Hf) as (acc' & Hr & A & C); [now apply (set_sorted nltb_order)| |exact Hn|].
  { intros d n' Hin. apply (Hsz d n'). now right. }
  exists acc'. split; [|split; [exact A|]].
  - rewrite <- Hr. unfold v, bonus. now destruct (n =? qsize), (n =? k).
  - intros d y. rewrite C. destruct (N.eq_dec d id) as [->|Hd].
    + rewrite (find_set_same nltb_order) by exact Hs. split.
      * intros [(n' & Hin & ->)|[_ [= <-]]]; left; [exists n'; split; [now right|reflexivity]|]. exists n. split; [now left|]. now rewrite Hk.
      * intros [(n' & [[= <-]|Hin] & ->)|[Hx _]].
        -- right. rewrite Hk. now split.
        -- exfalso. apply Hid. now apply (in_map fst) in Hin.
        -- exfalso. apply Hx. now left.
    + rewrite (find_set_other nltb_order) by assumption. split.
      * intros [(n' & Hin & ->)|[Hx Hy]]; [left; exists n'; split; [now right|reflexivity]|right]. split; [|exact Hy]. intros [He|He]; [cbn in He; congruence|contradiction].
      * intros [(n' & [[= He _]|Hin] & ->)|[Hx Hy]]; [congruence|left; now exists n'|right]. split; [|exact Hy]. intros He. apply Hx. now right.
Qed.
Definition vacc (x : N) (l : list step) (f : word) (q : list word) (d : N) : option double := if d =? x then None else exact_acc l f q d.
Lemma vphase E x m mv l q f : env_ok E -> V x m mv -> MI mv l -> In f (names l) -> Forall (Forall nonnul) q -> exists acc,
  msorted N.ltb acc /\ (forall d, mp_find N.ltb d acc = vacc x l f q d) /\
  mt_onlineMatch E q f m = (fuzzy <- mt_match_list E q ;; acc' <- reads (fun _ => add_fuzzy (N.to_nat (mr_size fuzzy)) 0 fuzzy acc) ;; ret (add_all acc' mr_new)) m.
Proof.
  intros HE HV H Hf Hq. assert (Hnf : Forall nonnul f) by (destruct (known_insertable H Hf) as (_ & Hx & _); exact Hx).
  destruct (has_word H Hnf) as [[_ Hh]|[Hx _]]; [|contradiction]. rewrite (v_store HV) in Hh.
  destruct (@vcounts E x f q HE [] m mv l HV H Hf Hq) as (c & Hc & Hcs & Hcz & Hcn); [constructor|discriminate|].
  assert (Hcnt : forall d, cnt c d = seen x l f q d) by (intros d; now rewrite Hcn).
  destruct (@vscores x (wl_size q) f c [] m mv l HV H Hf) as (acc & Ha & Has & Hav); [constructor| |now apply (sorted_nodup nltb_order)|].
  { intros d n Hin. apply (find_in nltb_order) in Hin; [|exact Hcs]. rewrite cnt_spec in Hin by exact Hcz. rewrite Hcnt in Hin. unfold seen in Hin.
    destruct (N.eqb_spec d x) as [|Hd]; [discriminate|]. split; [exact Hd|].
    destruct (N.eqb_spec (exacts (occs l) f q d) 0) as [|Hn]; [discriminate|]. unfold exacts in Hn.
    destruct (filter (fun w => occb (occs l) d f w) q) as [|w ws] eqn:Hw; [cbn in Hn; lia|].
    assert (Hin' : In w (filter (fun w => occb (occs l) d f w) q)) by (rewrite Hw; now left). apply filter_In in Hin' as [_ Hin']. apply occb_in in Hin'.
    apply occs_in in Hin'. exact (mi_sized H Hin'). }
  exists acc. split; [exact Has|]. split.
  - intros d. unfold vacc, exact_acc. destruct (mp_find N.ltb d acc) as [y|] eqn:Hx.
    + apply Hav in Hx as [(n & Hin & ->)|[_ Hx]]; [|discriminate]. apply (find_in nltb_order) in Hin; [|exact Hcs]. rewrite cnt_spec, Hcnt in Hin by exact Hcz. unfold seen in Hin.
      destruct (N.eqb_spec d x); [discriminate|]. destruct (N.eqb_spec (exacts (occs l) f q d) 0); [discriminate|]. injection Hin as <-. reflexivity.
    + destruct (N.eqb_spec d x) as [|Hd]; [reflexivity|]. destruct (N.eqb_spec (exacts (occs l) f q d) 0) as [|Hn]; [reflexivity|]. exfalso.
      assert (Hc2 : mp_find N.ltb d c = Some (exacts (occs l) f q d)).
      { rewrite cnt_spec, Hcnt by exact Hcz. unfold seen. destruct (N.eqb_spec d x); [contradiction|]. destruct (N.eqb_spec (exacts (occs l) f q d) 0); [contradiction|reflexivity]. }
      apply (find_in nltb_order) in Hc2; [|exact Hcs].
      assert (Hy : mp_find N.ltb d acc = Some (bonus (last_size l d f None) (wl_size q) (exacts (occs l) f q d))) by (apply Hav; left; exists (exacts (occs l) f q d); split; [exact Hc2|reflexivity]). congruence.
  - unfold mt_onlineMatch. erewrite mbind_ok by (apply reads_ok; exact Hh). cbn [negb].
    assert (Hg : on_store (ws_getID E f) m = (m, Ok (wid (names l) f))).
    { pose proof (get_known E H Hf) as G. unfold on_store in *. rewrite (v_store HV) in G. destruct (ws_getID E f (mt_store m)) as [st r]. injection G as G ->.
      assert (Hst : st = mt_store m) by (rewrite <- (v_store HV), <- G; reflexivity). rewrite Hst. now destruct m. }
    erewrite mbind_ok by exact Hg. erewrite mbind_ok by exact Hc. erewrite mbind_ok by exact Ha. reflexivity.
Qed.
Section Online.
Variables (E : env) (x : N) (calls : list m_call) (m mv : matcher) (l : list step) (q : list word) (f : word).
Hypothesis HV : V x m mv.
Hypothesis H : HI calls mv l.
Hypothesis SS : sound_setup E calls.
Hypothesis SQ : sound_query calls q.
Let sc := scored (occ calls) (names l) (hit (prices_after calls) sp_new) q sp_new (weight_after calls).
Lemma v_nodup view : Forall fine view -> ranked view -> (forall y d, In (y, d) view -> sc d y) -> NoDup (map snd view).
Proof.
  intros F K M. destruct (rel_spec H SS sp_new SQ) as (docs & _ & Hd & Hds & _).
  assert (Huniq : forall y y' d, In (y, d) view -> In (y', d) view -> y = y').
  { intros y y' d H1 H2. apply M in H1; apply M in H2. apply Hds in H1, H2. apply (find_in nltb_order) in H1, H2; [congruence|exact Hd..]. }
  clear - K Huniq F. unfold ranked in K. rewrite Forall_forall in F. induction K as [|a v Hs IH Ha]; [constructor|]. cbn. constructor.
  - intros Hin. apply in_map_iff in Hin as ([x' d'] & Hx & Hin). rewrite Forall_forall in Ha. pose proof (Ha _ Hin) as Hb. destruct a as [y d]. cbn in Hx. subst d'.
    assert (x' = y) by (apply (Huniq x' y d); [now right|now left]); subst x'. assert (Hfx : fine (y, d)) by (apply F; now left).
    destruct Hb as [Hb|(_ & _ & Hb)]; [|cbn in Hb; lia]. pose proof (irr Hfx). cbn in *. congruence.
  - apply IH; [intros y Hy; apply F; now right|]. intros y y' d H1 H2. apply (Huniq y y' d); now right.
Qed.
Lemma online_v m' r : In f (names l) -> mt_onlineMatch E q f m = (m', Ok r) -> exists view, shows r view /\ ranked view /\
  forall y d, In (y, d) view <-> d <> x /\ online_scored calls (names l) (hit (prices_after calls) sp_new) q f d y.
Proof.
  intros Hf Hr. pose proof (hi_mi H) as HM. destruct (vphase (ss_env SS) HV HM Hf (sq_letters SQ)) as (acc & Hs & Ha & Heq). rewrite Heq in Hr. clear Heq.
  destruct (@match_v E x calls m mv l q sp_new HV H SS SQ) as (m1 & o & Hm & C); [repeat constructor|].
  unfold mt_match_list in Hr. unfold mbind at 1 in Hr. rewrite Hm in Hr.
  destruct o as [fr|[]| | |]; try discriminate. destruct C as [[? _]|(view & V1 & V2 & V3 & V4)]; [discriminate|].
  assert (M : forall y d, In (y, d) view <-> d <> x /\ sc d y).
  { intros y d. rewrite V4. split; [intros (D1 & D2 & _); now split|]. intros [D1 D2]. split; [exact D1|]. split; [exact D2|]. exists []. split; [now left|constructor]. }
  assert (Hnd : NoDup (map snd view)) by (apply (v_nodup (ok_fine V1) V3); intros y d Hy; now apply M in Hy).
  assert (Hsd : sd view = view) by exact (shows_unique (sd_shows V1) V2).
  destruct (@fuzzy_spec view view (N.to_nat (mr_size fr)) 0 fr acc V1) as (acc' & Hx & Hs' & Hv'); [exact Hsd| |exact Hs|exact Hnd|].
  { rewrite (proj1 V2). apply Nat2N.id. }
  erewrite mbind_ok in Hr by (apply reads_ok; exact Hx). injection Hr as <- <-.
  assert (Hgood : forall d y, mp_find N.ltb d acc' = Some y <-> d <> x /\ online_scored calls (names l) (hit (prices_after calls) sp_new) q f d y).
  { intros d y. rewrite Hv'. unfold fz, online_scored. fold (sc d). rewrite Ha. unfold vacc. rewrite (acc_part f q d H).
    assert (Hsc : forall y, d <> x -> (sc d y <-> In (y, d) view)) by (intros z Hd; rewrite M; tauto).
    destruct (N.eqb_spec d x) as [He|Hd].
    { subst d. destruct (find (fun z => snd z =? x) view) as [[z d']|] eqn:Hfi; [|split; [discriminate|tauto]].
      apply find_some in Hfi as [Hin He]. cbn in He. apply N.eqb_eq in He. subst d'. apply M in Hin. tauto. }
    specialize (fun z => Hsc z Hd).
    destruct (find (fun z => snd z =? d) view) as [[z d']|] eqn:Hfi.
    - apply find_some in Hfi as [Hin He]. cbn in He. apply N.eqb_eq in He. subst d'. cbn [fst].
      assert (Hy : forall y', In (y', d) view -> y' = z).
      { intros y' Hy'. clear - Hnd Hin Hy'. induction view as [|[a b] v IH]; [destruct Hin|]. cbn in Hnd. apply NoDup_cons_iff in Hnd as [Hn Hnd].
        destruct Hin as [Q|Hin], Hy' as [Q'|Hy']; try congruence.
        - exfalso. apply Hn. apply (in_map snd) in Hy'. cbn in Hy'. congruence.
        - exfalso. apply Hn. apply (in_map snd) in Hin. cbn in Hin. congruence.
        - now apply IH. }
      split.
      + intros [= <-]. split; [exact Hd|]. left. exists z. split; [now apply Hsc|]. unfold exact_part. destruct (exact_count _ f q d =? 0); reflexivity.
      + intros [_ [(y' & Hy' & ->)|(Hno & _)]]; [|exfalso; apply (Hno z); now apply Hsc]. apply Hsc in Hy'. rewrite (Hy y' Hy'). f_equal.
        unfold exact_part. destruct (exact_count _ f q d =? 0); reflexivity.
    - assert (Hno : forall z, ~ In (z, d) view) by (intros z Hz; pose proof (List.find_none _ _ Hfi _ Hz) as Hx0; cbn in Hx0; rewrite N.eqb_refl in Hx0; discriminate).
      split.
      + destruct (N.eqb_spec (exact_count (occ calls) f q d) 0); [discriminate|]. intros [= <-]. split; [exact Hd|]. right. split; [intros z Hz; apply (Hno z); now apply Hsc|]. now split.
      + intros [_ [(z & Hz & _)|(_ & Hn & ->)]]; [exfalso; apply (Hno z); now apply Hsc|]. destruct (N.eqb_spec (exact_count (occ calls) f q d) 0); [contradiction|reflexivity]. }
  assert (Hweak : forall d y, In (d, y) acc' -> weakly_nonneg y).
  { intros d y Hin. apply (find_in nltb_order) in Hin; [|exact Hs']. apply Hgood in Hin as [_ [(z & Hz & ->)|(_ & _ & ->)]]; [|apply part_weak].
    apply add_weak; [apply part_weak|exact (scored_weak SS Hz)]. }
  assert (Hfi : Forall (fun z : N * double => fine (snd z, fst z)) acc') by (rewrite Forall_forall; intros [d y] Hin; apply weak_nan; exact (Hweak d y Hin)).
  set (log' := map (fun z : N * double => (snd z, fst z)) acc').
  assert (Hfl : Forall fine log') by (unfold log'; apply Forall_map; exact Hfi).
  assert (Hin' : forall y d, In (y, d) (sd log') <-> In (d, y) acc').
  { intros y d. destruct (sd_bf Hfl) as [B1 _ _]. split; intros Hin; [apply (Permutation_in _ B1) in Hin|apply (Permutation_in _ (Permutation_sym B1))]; unfold log' in *.
    - apply in_map_iff in Hin as ([d' x'] & [= <- <-] & Hin). exact Hin.
    - apply in_map_iff. now exists (d, y). }
  exists (sd log'). split; [apply sd_shows, add_all_ok, Hfi|]. split.
  - apply ties_ranked; [exact Hfl|]. unfold log'. eapply ssorted_map; [apply msorted_ss, Hs'|]. cbn. auto.
  - intros y d. rewrite Hin', <- Hgood. symmetry. apply (find_in nltb_order). exact Hs'.
Qed.
End Online.

(** ** After calls that ran out of memory *)
Lemma online_name E m l q f m' r : MI m l -> Forall nonnul f -> mt_onlineMatch E q f m = (m', Ok r) -> In f (names l).
Proof.
  intros H Hf Hr. destruct (has_word H Hf) as [[Hin _]|[Hn _]]; [exact Hin|]. rewrite (online_unknown E q H Hf Hn) in Hr. now destruct (asUtf8 f).
Qed.
Lemma count_ext o o' f q d : (forall w, In (d, f, w) o <-> In (d, f, w) o') -> exact_count o f q d = exact_count o' f q d.
Proof.
  intros He. change (exacts o f q d = exacts o' f q d). unfold exacts. f_equal. f_equal. apply filter_ext. intros w.
  apply Bool.eq_iff_eq_true. rewrite !occb_in. apply He.
Qed.
Section After.
Variables (E : env) (x : N) (calls : list m_call) (outs : list (fres unit)) (s : fst_) (mv : matcher) (l : list step) (bs : list blk) (done : list step).
Hypothesis R : RI x calls outs s mv l bs done.
Hypothesis SS : sound_setup E calls.
Lemma after_online q f s' r : sound_query calls q -> Forall nonnul f -> f_onlineMatch E q f s = (s', Val r) -> exists view, shows r view /\ ranked view /\
  forall y d, In (y, d) view <-> d <> x /\ f_online_scored (occs l) done (names l) (reached (prices_after calls) sp_new) q (weight_after (heeded calls outs)) f d y.
Proof.
  intros SQ Hf Hr. destruct (er_online E q f s) as (s1 & o & R1 & C). rewrite Hr in R1. injection R1 as <- <-. destruct C as [|(po & Hp & Ho)]; [discriminate|].
  destruct po as [r'|e| | |]; try discriminate. injection Ho as <-. 
  assert (Hn : In f (names l)).
  { destruct (has_word (ri_mi R) Hf) as [[Hin _]|[_ Hh]]; [exact Hin|]. rewrite (v_store (ri_v R)) in Hh. unfold mt_onlineMatch in Hp. erewrite mbind_ok in Hp by (apply reads_ok; exact Hh). cbn [negb] in Hp.
    unfold mbind, reads in Hp. now destruct (asUtf8 f). }
  destruct (@online_v E x (twin x calls outs l bs) (f_m s) mv l q f (ri_v R) (twin_HI R) (twin_setup R SS) (twin_query R SQ) _ r Hn Hp) as (view & V1 & V2 & V3).
  exists view. split; [exact V1|]. split; [exact V2|]. intros y d. rewrite V3. 
  assert (Hsz : last_size (indexed (twin x calls outs l bs)) d f None = last_size l d f None) by (symmetry; exact (hi_size d f (twin_HI R))).
  assert (Hsc : forall z, scored (occ (twin x calls outs l bs)) (names l) (hit (prices_after (twin x calls outs l bs)) sp_new) q sp_new (weight_after (twin x calls outs l bs)) d z <->
     scored (occs l) (names l) (reached (prices_after calls) sp_new) q sp_new (weight_after (heeded calls outs)) d z).
  { intros z. rewrite (twin_occ R), twin_prices. etransitivity; [|apply scored_iff; intros qw w err _; apply hit_reached].
    split; apply scored_weights; intros g w _ _; [|symmetry]; apply twin_weight. }
  assert (Hd : d <> x -> (online_scored (twin x calls outs l bs) (names l) (hit (prices_after (twin x calls outs l bs)) sp_new) q f d y <->
     f_online_scored (occs l) done (names l) (reached (prices_after calls) sp_new) q (weight_after (heeded calls outs)) f d y)).
  { intros Hd. unfold online_scored, f_online_scored. rewrite Hsz, (ri_size R f None Hd).
    rewrite (@count_ext (occ (twin x calls outs l bs)) (occs done) f q d) by (intros w; rewrite (twin_occ R); apply (twin_in R); exact Hd).
    split; (intros [(z & Hz & ->)|(Hno & Hc & ->)]; [left; exists z; split; [now apply Hsc|reflexivity]|right; split; [intros z Hz; apply (Hno z); now apply Hsc|now split]]). }
  tauto.
Qed.
Lemma after_documents q f s' r : sound_query calls q -> Forall nonnul f -> f_onlineMatch E q f s = (s', Val r) -> exists view, shows r view /\ ranked view /\
  forall d, (exists y, In (y, d) view) <-> (exists g w qw err, In (d, g, w) (occs done) /\ In qw q /\ reached (prices_after calls) sp_new qw w err) \/ (exists w, In (d, f, w) (occs done) /\ In w q).
Proof.
  intros SQ Hf Hr. destruct (after_online SQ Hf Hr) as (view & V1 & V2 & V3). exists view. split; [exact V1|]. split; [exact V2|]. intros d.
  set (sco := scored (occs l) (names l) (reached (prices_after calls) sp_new) q sp_new (weight_after (heeded calls outs)) d) in *.
  assert (Hto : forall z, d <> x -> sco z -> exists g w qw err, In (d, g, w) (occs done) /\ In qw q /\ reached (prices_after calls) sp_new qw w err).
  { intros z Hd Hz. unfold sco in Hz. rewrite <- (twin_occ R) in Hz. apply scored_why in Hz as (g & w & qw & err & A1 & A2 & A3 & A4).
    exists g, w, qw, err. rewrite (twin_occ R) in A1. apply (twin_in R _ _ Hd) in A1. auto. }
  assert (Hfrom : forall g w qw err, In (d, g, w) (occs done) -> In qw q -> reached (prices_after calls) sp_new qw w err -> exists z, sco z).
  { intros g w qw err A1 A3 A4. pose proof (twin_notx R A1) as D1. apply (twin_in R _ _ D1) in A1. rewrite <- (twin_occ R) in A1. apply hit_reached in A4. rewrite <- (twin_prices x calls outs l bs) in A4.
    assert (A2 : searching sp_new g) by reflexivity. destruct (scored_when (twin_HI R) (twin_setup R SS) (twin_query R SQ) A1 A2 A3 A4) as [z Hz].
    exists z. rewrite (twin_occ R), twin_prices in Hz. unfold sco. eapply scored_iff; [intros qw' w' err' _; symmetry; apply hit_reached|].
    revert Hz. apply scored_weights. intros g' w' _ _. apply twin_weight. }
  split.
  - intros (y & Hy). apply V3 in Hy as (Hd & [(z & Hz & _)|(_ & Hn & _)]); [left; exact (Hto z Hd Hz)|].
    right. apply exact_count_pos in Hn as (w & Hq & Ho). now exists w.
  - intros [(g & w & qw & err & A1 & A3 & A4)|(w & A1 & A3)].
    + destruct (Hfrom g w qw err A1 A3 A4) as [z Hz]. eexists. apply V3. split; [exact (twin_notx R A1)|]. left. exists z. split; [exact Hz|reflexivity].
    + assert (Hn : exact_count (occs done) f q d <> 0).
      { change (exacts (occs done) f q d <> 0). unfold exacts. destruct (filter (fun w => occb (occs done) d f w) q) eqn:Hw; [|cbn; lia].
        assert (Hi : In w []) by (rewrite <- Hw; apply filter_In; split; [exact A3|now apply occb_in]). destruct Hi. }
      assert (Hx : d <> x) by exact (twin_notx R A1).
      destruct (rel_spec (twin_HI R) (twin_setup R SS) sp_new (twin_query R SQ)) as (docs & _ & Hsd & Hds & _).
      destruct (mp_find N.ltb d docs) as [z|] eqn:Hz.
      * assert (Hs : sco z).
        { unfold sco. eapply scored_iff; [intros qw' w' err' _; symmetry; apply hit_reached|]. apply (find_in nltb_order) in Hz; [|exact Hsd]. apply Hds in Hz. rewrite (twin_occ R), twin_prices in Hz.
          revert Hz. apply scored_weights. intros g' w' _ _. apply twin_weight. }
        eexists. apply V3. split; [exact Hx|]. left. exists z. split; [exact Hs|reflexivity].
      * eexists. apply V3. split; [exact Hx|]. right. split; [|split; [exact Hn|reflexivity]]. intros z Hs.
        assert (Hs' : In (d, z) docs).
        { apply Hds. rewrite (twin_occ R), twin_prices. eapply scored_weights; [intros g' w' _ _; symmetry; apply twin_weight|]. eapply scored_iff; [intros qw' w' err' _; apply hit_reached|]. exact Hs. }
        apply (find_in nltb_order) in Hs'; [|exact Hsd]. congruence.
Qed.
End After.
Lemma oom_online E calls plan outs s : sound_setup E calls -> f_history E calls plan outs s -> spared s ->
  exists done, remains calls outs done /\ forall q f s' r, sound_query calls q -> clean (MOnline q f) -> f_onlineMatch E q f s = (s', Val r) ->
  exists view, shows r view /\ ranked view /\
    forall d, (exists y, In (y, d) view) <->
      (exists g w qw err, In (d, g, w) (occs done) /\ In qw q /\ reached (prices_after calls) sp_new qw w err) \/ (exists w, In (d, f, w) (occs done) /\ In w q).
Proof.
  intros SS HH Hsp. destruct (apart_exists calls) as [x Ha]. destruct (RI_history (ss_env SS) (ss_clean SS) Ha HH Hsp) as (mv & l & bs & done & R).
  exists done. split; [exact (ri_rem R)|]. intros q f s' r SQ [_ Hf] Hr. exact (after_documents R SS SQ Hf Hr).
Qed.
Lemma oom_online_scores E calls plan outs s : sound_setup E calls -> f_history E calls plan outs s -> spared s ->
  exists done x all order, remains calls outs done /\ and_lost outs x (occs done) all /\ NoDup order /\ forall q f s' r, sound_query calls q -> clean (MOnline q f) -> f_onlineMatch E q f s = (s', Val r) ->
  exists view, shows r view /\ ranked view /\
    forall y d, In (y, d) view <-> d <> x /\ f_online_scored all done order (reached (prices_after calls) sp_new) q (weight_after (heeded calls outs)) f d y.
Proof.
  intros SS HH Hsp. destruct (apart_exists calls) as [x Ha]. destruct (RI_history (ss_env SS) (ss_clean SS) Ha HH Hsp) as (mv & l & bs & done & R).
  exists done, x, (occs l), (names l). split; [exact (ri_rem R)|]. split; [split; [exact (ri_occ R)|exact (ri_lost R)]|]. split; [apply names_nodup|].
  intros q f s' r SQ [_ Hf] Hr. exact (after_online R SS SQ Hf Hr).
Qed.
Lemma oom_online_retry E calls plan outs s q f s' r : sound_setup E calls -> f_history E calls plan outs s -> spared s -> retried calls outs ->
  sound_query calls q -> clean (MOnline q f) -> f_onlineMatch E q f s = (s', Val r) ->
  exists view, shows r view /\ ranked view /\
    forall d, (exists y, In (y, d) view) <->
      (exists g w qw err, In (d, g, w) (occ calls) /\ In qw q /\ reached (prices_after calls) sp_new qw w err) \/ (exists w, In (d, f, w) (occ calls) /\ In w q).
Proof.
  intros SS HH Hsp Hret SQ Hc Hr. destruct (oom_online SS HH Hsp) as (done & Hrem & G). destruct (G q f s' r SQ Hc Hr) as (view & V1 & V2 & V3). exists view. split; [exact V1|]. split; [exact V2|]. intros d. rewrite V3.
  pose proof (remains_all Hrem Hret) as Ha.
  split; (intros [(g & w & qw & err & A1 & A2)|(w & A1 & A2)]; [left; exists g, w, qw, err|right; exists w]; (split; [now apply Ha|exact A2])).
Qed.
