(** Matcher: onlineMatch, empty cases, failing index calls, typing errors. *)
From Verif Require Import Base TrieM TrieA TrieP TrieP2 TrieD WordStoreM Spec_Hist TrieH WordStoreP ErrorValuesM LevIndexM
  Spec_Edit Spec_EV Spec_Lev EVP EVK EVR ScalarP EditP HitsP LevP WordM Spec_Word WordP MapM DoubleM FloatP ContM MatcherM MapP Spec_Cont ContP Spec_Match MatchP MatchQ MatchR MatchS MatchT MatchU MatchV MatchW EnvP MatchY TypoP.
From Coq Require Import ZifyBool ZifyN ZifyNat.
Local Open Scope N_scope.
Local Open Scope m_scope.

(** ** Known names *)
Lemma known_said calls m l f : HI calls m l -> In f (map said (indexed calls)) -> In f (names l).
Proof.
  intros H Hin. rewrite <- (hi_told H) in Hin. apply in_map_iff in Hin as (s & <- & Hs). apply filter_In in Hs as [Hs _]. apply distinct_in. right. now apply in_map.
Qed.
Lemma known_why calls m l f : HI calls m l -> In f (names l) -> In f (map said (indexed calls)) \/ in_filter calls f.
Proof.
  intros H Hin. apply distinct_in in Hin as [[]|Hin]. apply in_map_iff in Hin as (s & <- & Hs). destruct (real_step s) eqn:Hr.
  - left. rewrite <- (hi_told H). apply in_map. apply filter_In. now split.
  - right. assert (Hn : In (said s) (flat_map call_words calls)).
    { apply (hi_names H). apply in_map. apply filter_In. split; [exact Hs|now rewrite Hr]. }
    apply in_flat_map in Hn as (c & Hc & Hn). destruct c as [ | | |q p| ]; try destruct Hn. cbn [call_words] in Hn. unfold filter_words in Hn.
    apply in_flat_map in Hn as (t & Ht & Hn). apply in_flat_map in Hn as (sb & Hsb & Hn). exists q, p, t, sb. split; [exact Hc|]. split; [exact Ht|]. split; [exact Hsb|].
    destruct Hn as [<-|[<-|[]]]; [now left|now right].
Qed.
Lemma no_filters calls : (forall w, ~ in_filter calls w) -> flat_map call_words calls = [].
Proof.
  intros H. assert (G : forall w, ~ In w (flat_map call_words calls)).
  { intros w Hn. apply in_flat_map in Hn as (c & Hc & Hn). destruct c as [ | | |q p| ]; try destruct Hn. cbn [call_words] in Hn. unfold filter_words in Hn.
    apply in_flat_map in Hn as (t & Ht & Hn). apply in_flat_map in Hn as (sb & Hsb & Hn). apply (H w). exists q, p, t, sb. split; [exact Hc|]. split; [exact Ht|]. split; [exact Hsb|].
    destruct Hn as [<-|[<-|[]]]; [now left|now right]. }
  destruct (flat_map call_words calls) as [|w r]; [reflexivity|]. destruct (G w). now left.
Qed.

(** ** onlineMatch *)
Section Online.
Variables (E : env) (calls : list m_call) (m : matcher) (q : list word) (f : word).
Hypothesis SS : sound_setup E calls.
Hypothesis SQ : sound_query calls q.
Hypothesis HH : history E calls m.
Let e := prices_after calls.
Lemma online_iff order R R' d x : (forall qw w err, In qw q -> (R qw w err <-> R' qw w err)) -> (online_scored calls order R q f d x <-> online_scored calls order R' q f d x).
Proof.
  intros HR. unfold online_scored. cbv zeta. assert (G : forall y, scored (occ calls) order R q sp_new (weight_after calls) d y <-> scored (occ calls) order R' q sp_new (weight_after calls) d y) by (intros; now apply scored_iff).
  split; (intros [(y & Hy & ->)|(Hn & A & ->)]; [left; exists y; split; [now apply G|reflexivity]|right; split; [intros y Hy; apply (Hn y); now apply G|now split]]).
Qed.
Lemma online_result : (forall qw, In qw q -> swaps_not_cheap e (length qw)) -> In f (map said (indexed calls)) ->
  exists r order view, mt_onlineMatch E q f m = (m, Ok r) /\ NoDup order /\ shows r view /\ ranked view /\
    (forall x d, In (x, d) view <-> online_scored calls order (near e sp_new) q f d x) /\
    ((forall w, ~ in_filter calls w) -> order = distinct [] (map said (indexed calls))).
Proof.
  intros SW Hf. destruct (the_log SS HH) as [l H]. destruct (online_known H SS SQ (known_said H Hf)) as (r & Hr & view & Hs & Hk & _ & Hm).
  exists r, (names l), view. split; [exact Hr|]. split; [apply names_nodup|]. split; [exact Hs|]. split; [exact Hk|]. split.
  - intros x d. rewrite Hm. apply online_iff. intros qw w err Hq. exact (@near_iff E calls q sp_new SS SW qw w err Hq).
  - intros Hn. now rewrite (hi_plain H (no_filters Hn)).
Qed.
Lemma online_exact : In f (map said (indexed calls)) ->
  exists r order view, mt_onlineMatch E q f m = (m, Ok r) /\ NoDup order /\ shows r view /\ ranked view /\
    (forall x d, In (x, d) view <-> online_scored calls order (reached e sp_new) q f d x) /\
    ((forall w, ~ in_filter calls w) -> order = distinct [] (map said (indexed calls))).
Proof.
  intros Hf. destruct (the_log SS HH) as [l H]. destruct (online_known H SS SQ (known_said H Hf)) as (r & Hr & view & Hs & Hk & _ & Hm).
  exists r, (names l), view. split; [exact Hr|]. split; [apply names_nodup|]. split; [exact Hs|]. split; [exact Hk|]. split.
  - intros x d. rewrite Hm. apply online_iff. intros qw w err Hq. apply hit_reached.
  - intros Hn. now rewrite (hi_plain H (no_filters Hn)).
Qed.
Lemma online_refused : ~ In f (map said (indexed calls)) -> ~ in_filter calls f -> Forall (fun l => 0 < l < 65536) f -> short f -> well_formed f ->
  mt_onlineMatch E q f m = (m, Throw EInvalidArg).
Proof.
  intros Hf Hn Hl Hs Hw. destruct (the_log SS HH) as [l H].
  assert (Hno : ~ In f (names l)) by (intros Hin; destruct (known_why H Hin); contradiction).
  assert (Hnn : Forall nonnul f) by (eapply Forall_impl; [|exact Hl]; unfold nonnul; lia).
  rewrite (online_unknown E q (hi_mi H) Hnn Hno).
  destruct (asUtf8_safe (w := f)) as [A _]; [eapply Forall_impl; [|exact Hl]; cbn; lia|exact Hs|]. destruct (A Hw) as [s ->]. reflexivity.
Qed.
Lemma hit_self p w : no_self_price (price_calls calls) -> hit e p w w (D (prices_of e (length w)) w (rev w) (length w)).
Proof.
  intros H. assert (Hs : forall a, In a w -> p_sub (prices_of e (length w)) a a = 0%Z) by (intros a Ha; cbn [prices_of p_sub]; unfold e; rewrite prices_calls, self_zero; [reflexivity|exact (H a)]).
  assert (Hl : (0 <= limit p w)%Z) by (clear; unfold limit; destruct (sp_dynamic p && Nat.ltb (length w) 2)%bool; discriminate).
  split; [reflexivity|split; [|now apply exact_not_cut]].
  eapply Z.le_trans; [exact (@D_exact (prices_of e (length w)) w Hs w [] ltac:(now rewrite app_nil_r))|exact Hl].
Qed.
Lemma exact_count_pos o d : exact_count o f q d <> 0 -> exists w, In w q /\ In (d, f, w) o.
Proof.
  intros Hn. change (exacts o f q d <> 0) in Hn. unfold exacts in Hn.
  destruct (filter (fun w => occb o d f w) q) as [|w ws] eqn:Hw; [now destruct Hn|].
  assert (Hin : In w (filter (fun w => occb o d f w) q)) by (rewrite Hw; now left). apply filter_In in Hin as [Hq Ho]. exists w. split; [exact Hq|]. now apply occb_in.
Qed.
Lemma online_documents mr r m' : no_self_price (price_calls calls) ->
  In f (map said (indexed calls)) -> mt_onlineMatch E q f m = (m', Ok r) -> mt_match E q sp_new m = (m', Ok mr) ->
  exists view views, shows r view /\ shows mr views /\ (forall d, (exists x, In (x, d) view) <-> (exists y, In (y, d) views)) /\
    forall d x y, In (x, d) view -> In (y, d) views ->
      x = d_add (exact_part (last_size (indexed calls) d f None) (N.of_nat (length q)) (exact_count (occ calls) f q d)) y.
Proof.
  intros Hself Hf Hr Hmr. destruct (the_log SS HH) as [l H]. destruct (online_known H SS SQ (known_said H Hf)) as (r' & Hr' & view & Hs & Hk & _ & Hm).
  rewrite Hr in Hr'. injection Hr' as -> <-. 
  assert (A : answer calls l q sp_new mr) by (apply (match_answer H SS SQ (p := sp_new) (m' := m)); [repeat constructor|exact Hmr]).
  pose proof A as (views & Hsv & _). destruct (answer_fine H SS A Hsv) as (_ & _ & M). exists view, views. split; [exact Hs|]. split; [exact Hsv|].
  assert (Hsc : forall d y, scored (occ calls) (names l) (hit e sp_new) q sp_new (weight_after calls) d y <-> In (y, d) views).
  { intros d y. rewrite M. split; [intros Hy; split; [exact Hy|]; exists []; split; [now left|constructor]|tauto]. }
  assert (Hone : forall d y y', In (y, d) views -> In (y', d) views -> y = y').
  { intros d y y' I1 I2. apply Hsc in I1, I2. destruct (rel_spec H SS sp_new SQ) as (docs & _ & Hsd & Hd & _). apply Hd in I1, I2.
    apply (find_in nltb_order) in I1, I2; [congruence|exact Hsd..]. }
  split.
  - intros d. split.
    + intros [x Hx]. apply Hm in Hx as [(y & Hy & _)|(_ & Hn & _)]; [exists y; now apply Hsc|].
      destruct (exact_count_pos Hn) as (w & Hq & Ho). destruct (rel_spec H SS sp_new SQ) as (docs & _ & _ & _ & Hex).
      edestruct (Hex d f w w) as [y Hy]; [exact Ho|reflexivity|exact Hq|apply hit_self; exact Hself|]. exists y. now apply Hsc.
    + intros [y Hy]. eexists. apply Hm. left. exists y. split; [now apply Hsc|reflexivity].
  - intros d x y Hx Hy. apply Hm in Hx as [(y' & Hy' & ->)|(Hno & _)]; [|exfalso; apply (Hno y); now apply Hsc].
    apply Hsc in Hy'. now rewrite (Hone d y y' Hy Hy').
Qed.
End Online.

(** ** The bonus *)
Lemma in_plan D d f w : In (SWord d f w) (plan_doc D) <-> d = doc_getID D /\ In f (map fst (d_texts D)) /\ exists t, doc_getText D f = Ok t /\ In w t.
Proof.
  unfold plan_doc, doc_getFieldNames. cbn [fst app]. rewrite in_flat_map. split.
  - intros (f' & Hf & Hin). destruct (doc_getText D f') as [t| | | |] eqn:Ht; try (destruct Hin; fail).
    destruct Hin as [Hin|Hin]; [discriminate|]. apply in_map_iff in Hin as (w' & [= <- <- <-] & Hw). repeat split; [exact Hf|]. now exists t.
  - intros (-> & Hf & t & Ht & Hw). exists f. split; [exact Hf|]. rewrite Ht. right. now apply in_map.
Qed.
Lemma doc_sorted D : doc_ok D -> msorted wltb (d_texts D).
Proof. intros (id & cs & ->). destruct (texts_build id cs) as [_ ->]. apply build_sorted. Qed.
Lemma text_named D f t : doc_ok D -> doc_getText D f = Ok t -> In f (map fst (d_texts D)).
Proof.
  intros Hd. unfold doc_getText. destruct (mp_find wltb f (d_texts D)) as [t'|] eqn:Hf; [|discriminate]. intros _.
  apply (find_in wltb_order) in Hf; [|now apply doc_sorted]. apply in_map_iff. now exists (f, t').
Qed.
Lemma last_size_other l d f acc : (forall n, ~ In (SField d f n) l) -> last_size l d f acc = acc.
Proof.
  revert acc. induction l as [|s l IH]; intros acc H; [reflexivity|]. assert (H' : forall n, ~ In (SField d f n) l) by (intros n Hn; apply (H n); now right).
  destruct s as [d' f' n|d' f' w|w]; cbn [last_size]; rewrite IH by exact H'; try reflexivity.
  destruct (N.eqb_spec d' d) as [->|]; [|reflexivity]. destruct (weqb_spec f' f) as [->|]; [|reflexivity]. destruct (H n). now left.
Qed.
Lemma plan_size D f t : doc_ok D -> doc_getText D f = Ok t -> last_size (plan_doc D) (doc_getID D) f None = Some (N.of_nat (length t)).
Proof.
  intros Hd Ht. pose proof (text_named Hd Ht) as Hf. pose proof (sorted_nodup wltb_order (doc_sorted Hd)) as Hnd.
  unfold plan_doc, doc_getFieldNames. cbn [fst app]. apply in_split in Hf as (a & b & Hab). rewrite Hab in *.
  apply NoDup_remove_2 in Hnd. rewrite flat_map_app. cbn [flat_map]. rewrite Ht.
  assert (G : forall l n, ~ In f l -> ~ In (SField (doc_getID D) f n) (flat_map (fun f0 => match doc_getText D f0 with Ok t0 => SField (doc_getID D) f0 (N.of_nat (length t0)) :: map (SWord (doc_getID D) f0) t0 | _ => [] end) l)).
  { intros l n Hl Hin. apply in_flat_map in Hin as (f' & Hf' & Hin). destruct (doc_getText D f'); try (destruct Hin; fail). destruct Hin as [Hin|Hin]; [congruence|].
    apply in_map_iff in Hin as (w & Hw & _). discriminate. }
  rewrite last_size_app.
  cbn [app last_size]. rewrite N.eqb_refl, weqb_refl. cbn [andb]. rewrite last_size_other; [reflexivity|].
  intros n Hn. apply in_app_iff in Hn as [Hn|Hn]; [apply in_map_iff in Hn as (w & Hw & _); discriminate|]. revert Hn. apply G. intros Hx. apply Hnd, in_app_iff. now right.
Qed.
Lemma plan_ids D s : In s (plan_doc D) -> match s with SField d _ _ => d = doc_getID D | SWord d _ _ => d = doc_getID D | _ => False end.
Proof.
  unfold plan_doc. rewrite in_flat_map. intros (f & _ & Hin). destruct (doc_getText D f); try (destruct Hin; fail). destruct Hin as [<-|Hin]; [reflexivity|].
  apply in_map_iff in Hin as (w & <- & _). reflexivity.
Qed.
Section Bonus.
Variables (calls : list m_call) (D : document) (f : word) (t : wordlist) (q : list word).
Hypothesis Hw : Forall whole calls.
Hypothesis Hc : Forall clean calls.
Hypothesis Hn : NoDup (map doc_getID (corpora calls)).
Hypothesis HD : In D (corpora calls).
Hypothesis Ht : doc_getText D f = Ok t.
Lemma corpus_ok : doc_ok D.
Proof.
  clear Hw Hn Ht. unfold corpora in HD. apply in_flat_map in HD as (c & Hin & Hd). rewrite Forall_forall in Hc. specialize (Hc c Hin). destruct c; try (destruct Hd; fail).
  destruct Hc as [Hc' _]. rewrite Forall_forall in Hc'. now apply Hc'.
Qed.
Lemma corpus_size : last_size (indexed calls) (doc_getID D) f None = Some (N.of_nat (length t)).
Proof.
  rewrite indexed_whole by exact Hw. pose proof corpus_ok as Hd. apply in_split in HD as (a & b & Hab). rewrite Hab in *. rewrite map_app in Hn. cbn [map] in Hn. apply NoDup_remove_2 in Hn.
  assert (G : forall l n, ~ In (doc_getID D) (map doc_getID l) -> ~ In (SField (doc_getID D) f n) (flat_map plan_doc l)).
  { intros l n Hl Hin. apply in_flat_map in Hin as (D' & HD' & Hin). apply plan_ids in Hin. apply Hl. rewrite Hin. now apply in_map. }
  rewrite flat_map_app. cbn [flat_map]. rewrite !last_size_app. rewrite (last_size_other (l := flat_map plan_doc a)) by (intros n; apply G; intros Hx; apply Hn, in_app_iff; now left).
  rewrite (plan_size Hd Ht). apply last_size_other. intros n. apply G. intros Hx. apply Hn, in_app_iff. now right.
Qed.
Lemma corpus_occ w : In (doc_getID D, f, w) (occ calls) <-> In w t.
Proof.
  unfold occ. rewrite indexed_whole by exact Hw. rewrite occs_in. rewrite in_flat_map. split.
  - intros (D' & HD' & Hin). assert (D' = D).
    { apply plan_ids in Hin. clear - Hin HD' HD Hn. induction (corpora calls) as [|x l IH]; [destruct HD|]. cbn [map] in Hn. apply NoDup_cons_iff in Hn as [Hx Hn'].
      destruct HD as [->|H1], HD' as [->|H2]; [reflexivity|destruct Hx; rewrite Hin; now apply in_map|destruct Hx; rewrite <- Hin; now apply in_map|now apply IH]. }
    subst D'. apply in_plan in Hin as (_ & _ & t' & Ht' & Hin). congruence.
  - intros Hin. exists D. split; [exact HD|]. apply in_plan. split; [reflexivity|]. split; [exact (text_named corpus_ok Ht)|]. now exists t.
Qed.
Lemma online_bonus_any : q <> [] ->
  given_bonus q t (exact_part (last_size (indexed calls) (doc_getID D) f None) (N.of_nat (length q)) (exact_count (occ calls) f q (doc_getID D))).
Proof.
  intros Hq. rewrite corpus_size.
  assert (Hcount : exact_count (occ calls) f q (doc_getID D) = N.of_nat (length (filter (fun w => existsb (weqb w) t) q))).
  { unfold exact_count. f_equal. f_equal. apply filter_ext. intros w. apply Bool.eq_iff_eq_true. change (occb (occ calls) (doc_getID D) f w = true <-> existsb (weqb w) t = true).
    rewrite occb_in, corpus_occ, existsb_exists. split; [intros Hin; exists w; split; [exact Hin|apply weqb_refl]|]. intros (w' & Hin & Hww). destruct (weqb_spec w w'); [now subst|discriminate]. }
  rewrite Hcount. set (k := filter (fun w => existsb (weqb w) t) q). unfold exact_part, given_bonus. fold k. cbv zeta.
  assert (H2 : Z.of_N (2 * N.of_nat (length k)) = (2 * Z.of_nat (length k))%Z) by lia. rewrite H2.
  assert (Hkq : forall w, In w k <-> In w q /\ In w t).
  { intros w. unfold k. rewrite filter_In, existsb_exists. split; intros [A B]; (split; [exact A|]).
    - destruct B as (w' & Hin & Hww). destruct (weqb_spec w w'); [now subst|discriminate].
    - exists w. split; [exact B|apply weqb_refl]. }
  assert (Hlen : length k = length q -> incl q t).
  { intros Hl w Hin. assert (G : forall (g : word -> bool) l, length (filter g l) = length l -> forall x, In x l -> g x = true).
    { clear. intros g. induction l as [|y l IH]; intros Hl x Hx; [destruct Hx|]. cbn in Hl. destruct (g y) eqn:Hy; cbn in Hl.
      - destruct Hx as [<-|Hx]; [exact Hy|]. apply IH; [lia|exact Hx].
      - assert (Hle : (length (filter g l) <= length l)%nat) by (clear; induction l as [|z l IH]; cbn; [lia|destruct (g z); cbn; lia]). lia. }
    pose proof (G _ _ Hl w Hin) as Hx. apply Hkq. unfold k. apply filter_In. now split. }
  destruct (N.eqb_spec (N.of_nat (length k)) (N.of_nat (length q))) as [Hkl|Hkl]; [|].
  - apply Nat2N.inj in Hkl. assert (Hi : incl q t) by (now apply Hlen). rewrite Hkl. destruct (N.eqb_spec (N.of_nat (length q)) (N.of_nat (length t))) as [Hkt|Hkt]; cbn [andb].
    + left. split; [split; [exact Hi|now apply Nat2N.inj in Hkt]|]. destruct (N.eqb_spec (N.of_nat (length q)) 0) as [Hz|]; [|reflexivity].
      destruct q; [contradiction|discriminate].
    + right. split; [intros [_ Hp]; apply Hkt; now rewrite Hp|]. destruct (N.eqb_spec (N.of_nat (length q)) 0) as [Hz|]; [|reflexivity]. now destruct q.
  - cbn [andb]. right. split.
    + intros [Hp _]. apply Hkl. f_equal. assert (Hkk : k = q).
      { unfold k. clear - Hp. assert (G : forall (g : word -> bool) l, (forall x, In x l -> g x = true) -> filter g l = l).
        { intros g. induction l as [|y l IH]; intros Hg; [reflexivity|]. cbn. rewrite (Hg y) by now left. f_equal. apply IH. intros x Hx. apply Hg. now right. }
        apply G. intros x Hx. apply existsb_exists. exists x. split; [now apply Hp|apply weqb_refl]. }
      now rewrite Hkk.
    + destruct (N.eqb_spec (N.of_nat (length k)) 0) as [Hz|]; [|reflexivity]. now destruct k.
Qed.
Lemma online_bonus : q <> [] -> NoDup q ->
  exact_bonus q t (exact_part (last_size (indexed calls) (doc_getID D) f None) (N.of_nat (length q)) (exact_count (occ calls) f q (doc_getID D))).
Proof.
  intros Hq Hnd. destruct (online_bonus_any Hq) as [[[Hi Hl] Hx]|[Hno Hx]]; [left|right]; (split; [|exact Hx]).
  - apply (NoDup_Permutation_bis Hnd); [now rewrite Hl|exact Hi].
  - intros Hp. apply Hno. split; [intros w; now apply Permutation_in|now apply Permutation_length].
Qed.
End Bonus.

(** ** Empty queries and empty matchers *)
Lemma match_nothing E p m : mt_match E [] p m = (m, Ok mr_new).
Proof. reflexivity. Qed.
Lemma match_unindexed E calls m q p : env_ok E -> Forall clean calls -> history E calls m -> occ calls = [] -> mt_match E q p m = (m, Ok mr_new).
Proof.
  intros HE Hc HH Ho. destruct (history_HI HE Hc HH) as [l H]. assert (Hi : mt_idx m = []).
  { destruct (mt_idx m) as [|[k li] r] eqn:Hm; [reflexivity|]. exfalso. destruct (mi_idx (hi_mi H) (k := k) (li := li)) as (f & _ & _ & _ & _ & _ & Hf & _).
    - apply (find_in nltb_order); [exact (mi_isorted (hi_mi H))|]. rewrite Hm. now left.
    - apply Hf. rewrite (hi_occ H), Ho. reflexivity. }
  assert (Hb : forall q b, matchIndexes E m q p 0 b = Ok b).
  { induction q0 as [|w q0 IH]; intros b; [reflexivity|]. cbn [matchIndexes]. rewrite Hi. cbn [map].
    rewrite (Permutation_nil (Permutation_sym (eo_order_perm HE [] []))). cbn [match_keys obind]. apply IH. }
  destruct q as [|w q]; [reflexivity|]. unfold mt_match, reads, mbind, relevancyMatch. rewrite Hb. reflexivity.
Qed.
Lemma online_nothing E calls m f r m' : sound_setup E calls -> history E calls m -> In f (map said (indexed calls)) ->
  mt_onlineMatch E [] f m = (m', Ok r) -> mr_size r = 0.
Proof.
  intros SS HH Hf Hr. destruct (the_log SS HH) as [l H]. assert (SQ : sound_query calls []) by (split; constructor).
  destruct (online_known H SS SQ (known_said H Hf)) as (r' & Hr' & view & Hs & _ & _ & Hm). rewrite Hr in Hr'. injection Hr' as -> <-.
  destruct Hs as [Hs _]. rewrite Hs. destruct view as [|[x d] v]; [reflexivity|]. exfalso. destruct (proj1 (Hm x d)) as [(y & (z & zs & [_ Hp] & _) & _)|(_ & Hn & _)]; [now left| |now destruct Hn].
  destruct z as [[f' w] err]. destruct (proj1 (Hp f' w err)) as (_ & _ & (qw & [] & _) & _). now left.
Qed.

(** ** The same documents found *)
Lemma holds_same o1 o2 f d : (forall g w, In (d, g, w) o1 <-> In (d, g, w) o2) -> filter_holds o1 f d -> filter_holds o2 f d.
Proof. intros Ho (t & Ht & Hh). exists t. split; [exact Ht|]. eapply Forall_impl; [|exact Hh]. intros s. apply Ho. Qed.
Lemma found_same E1 E2 c1 c2 m1 m2 q p m1' m2' r1 r2 v1 v2 d : sound_setup E1 c1 -> sound_setup E2 c2 -> sound_query c1 q -> sound_query c2 q ->
  history E1 c1 m1 -> history E2 c2 m2 -> prices_after c2 = prices_after c1 -> (forall f w, In (d, f, w) (occ c1) <-> In (d, f, w) (occ c2)) -> clean (MMatch q p) ->
  mt_match E1 q p m1 = (m1', Ok r1) -> mt_match E2 q p m2 = (m2', Ok r2) -> shows r1 v1 -> shows r2 v2 -> (exists x, In (x, d) v1) -> exists x, In (x, d) v2.
Proof.
  intros SS1 SS2 SQ1 SQ2 HH1 HH2 Hpr Ho Hc R1 R2 S1 S2 [x Hx]. destruct (the_log SS1 HH1) as [l1 H1], (the_log SS2 HH2) as [l2 H2].
  destruct (answer_fine H1 SS1 (match_answer H1 SS1 SQ1 Hc R1) S1) as (_ & _ & M1), (answer_fine H2 SS2 (match_answer H2 SS2 SQ2 Hc R2) S2) as (_ & _ & M2).
  apply M1 in Hx. destruct Hx as [(y & ys & [_ Hp] & _) Hf]. destruct y as [[f w] err]. destruct (proj1 (Hp f w err)) as (Hd & Hse & (qw & Hq & Hh) & _); [now left|].
  destruct (rel_spec H2 SS2 p SQ2) as (docs & _ & _ & _ & Hex). destruct (Hex d f w qw err) as [x' Hx']; [now apply Ho|exact Hse|exact Hq|now rewrite Hpr|].
  exists x'. apply M2. split; [exact Hx'|]. exact (holds_same Ho Hf).
Qed.

(** ** Indexing that stops *)
Section Failing.
Variables (E : env) (calls : list m_call) (m : matcher) (c1 c2 : corpus) (D : document).
Let c := c1 ++ D :: c2.
Hypothesis HE : env_ok E.
Hypothesis Hcl : Forall clean calls.
Hypothesis HH : history E calls m.
Hypothesis Hc : clean (MIndex c).
Hypothesis Hw : whole (MIndex c1).
Hypothesis Hbad : In [] (map said (plan_doc D)).
Lemma failing_log : indexed (calls ++ [MIndex c]) = indexed calls ++ flat_map plan_doc c1 ++ told (plan_doc D).
Proof.
  rewrite indexed_app. f_equal. unfold indexed. cbn [flat_map]. rewrite app_nil_r. unfold c. rewrite flat_map_app. cbn [flat_map].
  rewrite told_all; [f_equal; now apply told_stop|]. intros Hx. apply in_map_iff in Hx as (s & Hs & Hin). cbn [whole] in Hw. rewrite Forall_forall in Hw. exact (Hw s Hin Hs).
Qed.
Lemma failing_index m' o : mt_index E c m = (m', o) -> o = Throw ERuntime \/
  (o = Throw EOutOfRange /\ history E (calls ++ [MIndex c]) m' /\ exists m1, mt_index E c1 m = (m1, Ok tt) /\ history E (calls ++ [MIndex c1]) m1).
Proof.
  intros Hr. destruct (history_HI HE Hcl HH) as [l H]. destruct (history_li HH) as [li0 Hli].
  assert (Hc1 : clean (MIndex c1)).
  { destruct Hc as [A B]. unfold c in A, B. rewrite flat_map_app in B. apply Forall_app in A as [A _]. apply Forall_app in B as [B _]. now split. }
  destruct Hc as [Hd Hu]. destruct (docs_do Hli (hi_mi H) Hd Hu) as (m2 & o2 & Hx & C). unfold mt_index in Hr. rewrite Hr in Hx. injection Hx as <- <-.
  destruct C as [[-> _]|(_ & _ & [[-> Hn]|[-> _]])]; [now left| |].
  - exfalso. apply Hn. unfold stops, c. rewrite flat_map_app, map_app. cbn [flat_map]. rewrite map_app. apply in_app_iff. right. apply in_app_iff. now left.
  - right. split; [reflexivity|]. split; [apply (history_app HH); cbn [m_run m_do]; unfold mt_index; now rewrite Hr|].
    destruct Hc1 as [Hd1 Hu1]. destruct (docs_do Hli (hi_mi H) Hd1 Hu1) as (m1 & o1 & Hx1 & C1).
    assert (Hns : ~ stops (flat_map plan_doc c1)) by (intros Hx; apply in_map_iff in Hx as (s & Hs & Hin); cbn [whole] in Hw; rewrite Forall_forall in Hw; exact (Hw s Hin Hs)).
    destruct C1 as [[-> _]|(_ & _ & [[-> _]|[_ Hy]])]; [|exists m1; split; [exact Hx1|]; apply (history_app HH); cbn [m_run m_do]; unfold mt_index; now rewrite Hx1|contradiction].
    exfalso. pose proof (index_app E c1 (D :: c2) m) as Hi. unfold mt_index, mbind in Hi. fold c in Hi. rewrite Hr, Hx1 in Hi. discriminate.
Qed.
Lemma failing_occ d f w : d <> doc_getID D -> (In (d, f, w) (occ (calls ++ [MIndex c])) <-> In (d, f, w) (occ (calls ++ [MIndex c1]))).
Proof.
  intros Hd. unfold occ. rewrite !occs_in, failing_log, indexed_app. unfold indexed at 3. cbn [flat_map]. rewrite app_nil_r, (whole_told Hw), !in_app_iff.
  assert (Hno : ~ In (SWord d f w) (told (plan_doc D))).
  { intros Hin. assert (G : forall l s, In s (told l) -> In s l).
    { clear. induction l as [|x l IH]; intros s Hs; [destruct Hs|]. cbn in Hs. destruct (said x); [destruct Hs|]. destruct Hs as [<-|Hs]; [now left|right; now apply IH]. }
    apply G, plan_ids in Hin. contradiction. }
  tauto.
Qed.
Lemma failing_found m' m1 q p n' n1 r r1 d : sound_setup E (calls ++ [MIndex c]) -> sound_setup E (calls ++ [MIndex c1]) -> sound_query (calls ++ [MIndex c]) q -> sound_query (calls ++ [MIndex c1]) q ->
  history E (calls ++ [MIndex c]) m' -> history E (calls ++ [MIndex c1]) m1 -> clean (MMatch q p) -> mt_match E q p m' = (n', Ok r) -> mt_match E q p m1 = (n1, Ok r1) -> d <> doc_getID D ->
  exists v v1, shows r v /\ shows r1 v1 /\ ((exists x, In (x, d) v) <-> (exists x, In (x, d) v1)).
Proof.
  intros SS SS1 SQ SQ1 H2 H1 Hq R R1 Hd. destruct (match_ranked SS SQ H2 Hq R) as (v & Hv & _). destruct (match_ranked SS1 SQ1 H1 Hq R1) as (v1 & Hv1 & _).
  exists v, v1. split; [exact Hv|]. split; [exact Hv1|].
  assert (Hp : prices_after (calls ++ [MIndex c]) = prices_after (calls ++ [MIndex c1])) by (unfold prices_after; rewrite !flat_map_app; reflexivity).
  split; intros Hx; [eapply (found_same (c1 := calls ++ [MIndex c]) (c2 := calls ++ [MIndex c1]))|eapply (found_same (c2 := calls ++ [MIndex c]) (c1 := calls ++ [MIndex c1]))]; eauto.
  - intros f w. now apply failing_occ.
  - intros f w. symmetry. now apply failing_occ.
Qed.
End Failing.

(** ** Searches in between *)
Lemma setup_only calls : indexed (setup_calls calls) = indexed calls /\ price_calls (setup_calls calls) = price_calls calls /\ weight_calls (setup_calls calls) = weight_calls calls.
Proof.
  unfold setup_calls. induction calls as [|c calls (A & B & C)]; [now repeat split|]. destruct c; cbn [filter is_search negb]; unfold indexed, price_calls, weight_calls in *; cbn [flat_map app]; rewrite ?A, ?B, ?C; now split.
Qed.
Lemma searches_between E c1 c2 m1 m2 q p m1' m2' r1 r2 : setup_calls c1 = setup_calls c2 -> sound_setup E c1 -> Forall clean c2 -> sound_query c1 q ->
  history E c1 m1 -> history E c2 m2 -> clean (MMatch q p) -> mt_match E q p m1 = (m1', Ok r1) -> mt_match E q p m2 = (m2', Ok r2) ->
  exists v1 v2, shows r1 v1 /\ shows r2 v2 /\
    (forall d, (exists x, In (x, d) v1) <-> (exists x, In (x, d) v2)) /\
    (forall d x1 x2, In (x1, d) v1 -> In (x2, d) v2 -> exists a b, Permutation a b /\ x1 = total a /\ x2 = total b) /\
    ((forall w, ~ in_filter c1 w) -> (forall w, ~ in_filter c2 w) -> v1 = v2).
Proof.
  intros Hs SS1 Hc2 SQ1 HH1 HH2 Hc R1 R2.
  destruct (setup_only c1) as (A1 & B1 & C1), (setup_only c2) as (A2 & B2 & C2). rewrite Hs in A1, B1, C1.
  assert (Ei : indexed c2 = indexed c1) by congruence. assert (Ep : prices_after c2 = prices_after c1) by (rewrite !prices_calls; congruence). assert (Ew : weight_calls c2 = weight_calls c1) by congruence.
  assert (Eo : occ c2 = occ c1) by (unfold occ; now rewrite Ei).
  assert (SS2 : sound_setup E c2) by (destruct SS1; constructor; rewrite ?Eo, ?Ep, ?Ew; auto).
  assert (SQ2 : sound_query c2 q) by (destruct SQ1; constructor; rewrite ?Eo, ?Ep; auto).
  assert (Ewa : forall f, weight_after c1 f = weight_after c2 f) by (intros f; unfold weight_after; now rewrite Ew).
  destruct (the_log SS1 HH1) as [l1 H1], (the_log SS2 HH2) as [l2 H2].
  pose proof (match_answer H1 SS1 SQ1 Hc R1) as N1. pose proof (match_answer H2 SS2 SQ2 Hc R2) as N2. pose proof N1 as (v1 & S1 & _). pose proof N2 as (v2 & S2 & _).
  destruct (answer_fine H1 SS1 N1 S1) as (F1 & K1 & M1), (answer_fine H2 SS2 N2 S2) as (F2 & K2 & M2).
  exists v1, v2. split; [exact S1|]. split; [exact S2|]. split; [|split].
  - intros d. split; [eapply (found_same (c1 := c1) (c2 := c2))|eapply (found_same (c1 := c2) (c2 := c1))]; eauto; intros; now rewrite Eo.
  - intros d x1 x2 I1 I2. apply M1, proj1 in I1. apply M2, proj1 in I2. eapply (scored_same (c1 := c1) (c2 := c2)); eauto; intros; now rewrite ?Eo.
  - intros G1 G2. pose proof (hi_plain H1 (no_filters G1)) as L1. pose proof (hi_plain H2 (no_filters G2)) as L2. apply view_unique; auto. intros [x d]. rewrite M1, M2, L1, L2, Ei, Eo, Ep.
    replace (weight_after c2) with (weight_after c1); [reflexivity|]. unfold weight_after. now rewrite Ew.
Qed.

(** ** Typing errors *)
Section Typos.
Variables (E : env) (calls : list m_call) (m : matcher) (q : list word) (p : sparams).
Hypothesis SS : sound_setup E calls.
Hypothesis SQ : sound_query calls q.
Hypothesis HH : history E calls m.
Hypothesis Hc : clean (MMatch q p).
Lemma near_found m' r d f w qw err : unfiltered p -> (forall n, swaps_not_cheap (prices_after calls) n) -> In (d, f, w) (occ calls) -> searching p f -> In qw q -> near (prices_after calls) p qw w err ->
  mt_match E q p m = (m', Ok r) -> exists view x, shows r view /\ In (x, d) view.
Proof.
  intros Hu SW Ho Hs Hq Hn Hr. destruct (match_finds SS SQ HH (fun qw _ => SW (length qw)) Hc Hr) as (view & Hv & Hiff).
  destruct (proj2 (Hiff d)) as [x Hx]; [|now exists view, x]. split; [now exists f, w, qw, err|]. exists []. split; [exact Hu|constructor].
Qed.
Hypothesis Hdef : default_like (price_calls calls).
Hypothesis Hself : no_self_price (price_calls calls).
Lemma default_swaps n : swaps_not_cheap (prices_after calls) n.
Proof. rewrite prices_calls. apply (default_prices Hdef). Qed.
Lemma typo_found m' r d f w qw : unfiltered p -> In (d, f, w) (occ calls) -> searching p f -> In qw q ->
  (typo w qw \/ swapped w qw \/ ((2 <= length qw)%nat \/ sp_dynamic p = false) /\ exists w', typo w w' /\ typo w' qw) ->
  mt_match E q p m = (m', Ok r) -> exists view x, shows r view /\ In (x, d) view.
Proof.
  intros Hu Ho Hs Hq Ht Hr.
  assert (G : exists err, near (prices_after calls) p qw w err).
  { rewrite prices_calls. destruct Ht as [Ht|[Ht|[Hl (w' & T1 & T2)]]]; [apply near_typo; auto..|now apply (near_typo2 (w' := w'))]. }
  destruct G as [err Hn]. exact (near_found Hu default_swaps Ho Hs Hq Hn Hr).
Qed.
End Typos.

(** ** Other machines *)
Lemma same_on_reorder E sort order calls m : env_ok E -> env_ok (reorder E sort order) -> sound_history E calls -> history E calls m ->
  history (reorder E sort order) calls m /\ forall q, sound_setup E calls -> sound_query calls q ->
    (forall p, mt_match (reorder E sort order) q p m = mt_match E q p m) /\ (forall f, Forall nonnul f -> mt_onlineMatch (reorder E sort order) q f m = mt_onlineMatch E q f m).
Proof.
  intros HE HE' HS HH. split; [now apply history_reorder|]. intros q SS SQ. destruct (the_log SS HH) as [l H]. split.
  - intros p. symmetry. exact (match_reorder HE' p H SS SQ).
  - intros f Hf. symmetry. exact (online_reorder HE' H SS SQ Hf).
Qed.
(** ** Parts of words *)
Lemma substring_found E calls m q p m' r d f a qw b : sound_setup E calls -> sound_query calls q -> history E calls m -> clean (MMatch q p) ->
  default_like (price_calls calls) -> no_self_price (price_calls calls) ->
  s_sins (scalars_after (price_calls calls)) = 15%Z -> s_edel (scalars_after (price_calls calls)) = 15%Z -> s_limit (scalars_after (price_calls calls)) <= N.of_nat (length qw) -> qw <> [] ->
  (15 * Z.of_nat (length a) + 15 * Z.of_nat (length b) <= limit p qw)%Z ->
  unfiltered p -> In (d, f, a ++ qw ++ b) (occ calls) -> searching p f -> In qw q ->
  mt_match E q p m = (m', Ok r) -> exists view x, shows r view /\ In (x, d) view.
Proof.
  intros SS SQ HH Hc Hdef Hs H1 H2 H3 Hne Hl Hu Ho Hse Hq Hr. destruct (@substring_cost (price_calls calls) a qw b H1 H2 H3 Hne Hs) as (c & Hm & Hle).
  assert (SW : forall n, swaps_not_cheap (prices_after calls) n) by (intros n; rewrite prices_calls; apply (default_prices Hdef)).
  apply (@near_found E calls m q p SS SQ HH Hc m' r d f (a ++ qw ++ b) qw c Hu SW Ho Hse Hq); [|exact Hr]. split; [rewrite prices_calls; exact Hm|lia].
Qed.

(** ** Forms used by Thm_Match *)
Lemma match_finds_default E calls m q m' r : sound_setup E calls -> sound_query calls q -> history E calls m ->
  default_like (price_calls calls) -> mt_match E q sp_new m = (m', Ok r) ->
  exists view, shows r view /\ forall d, (exists x, In (x, d) view) <->
    exists f w qw err, In (d, f, w) (occ calls) /\ In qw q /\ near (prices_after calls) sp_new qw w err.
Proof.
  intros SS SQ HH Hd Hr. assert (SW : forall qw, In qw q -> swaps_not_cheap (prices_after calls) (length qw)) by (intros qw _; rewrite prices_calls; apply (default_prices Hd)).
  assert (Hc : clean (MMatch q sp_new)) by (repeat constructor).
  destruct (match_finds SS SQ HH SW Hc Hr) as (view & Hv & Hiff). exists view. split; [exact Hv|]. intros d. rewrite Hiff. split.
  - intros [(f & w & qw & err & A & _ & B & C) _]. now exists f, w, qw, err.
  - intros (f & w & qw & err & A & B & C). split; [exists f, w, qw, err; split; [exact A|split; [reflexivity|now split]]|]. exists []. split; [now left|constructor].
Qed.
Lemma history_safe E m0 : env_ok E -> mt_new E = Ok m0 -> forall calls, sound_history E calls -> Forall nameable calls ->
  (forall m o, m_run E calls m0 = (m, o) -> o = Ok tt \/ o = Throw ERuntime) /\
  (forall pre c m m' o, calls = pre ++ [c] -> history E pre m -> m_do E c m = (m', o) -> expected c o).
Proof.
  intros HE H0 calls HS Hn. split.
  - intros m o Hr. exact (run_expected HE H0 HS Hn Hr).
  - intros pre c m m' o -> HH Hd. apply Forall_app in Hn as [_ Hn]. apply Forall_inv in Hn. exact (call_expected HE HS Hn HH Hd).
Qed.
Lemma match_ranked_le E calls m q p m' r : sound_setup E calls -> sound_query calls q -> history E calls m -> clean (MMatch q p) -> mt_match E q p m = (m', Ok r) ->
  exists view, shows r view /\ ranked view /\ NoDup (map snd view) /\ Forall (fun x => d_lt (fst x) (S754_zero false) = false /\ fst x <> S754_nan) view.
Proof.
  intros SS SQ HH Hc Hr. destruct (match_ranked SS SQ HH Hc Hr) as (view & A & B & C & D). exists view. split; [exact A|]. split; [exact B|]. split; [exact C|].
  eapply Forall_impl; [|exact D]. intros [x d] Hx. cbn in *. destruct x as [s|s| |s k e]; try destruct s; try contradiction; split; try reflexivity; discriminate.
Qed.

Lemma online_has_bonus E calls m q f mr r m' D t : sound_setup E calls -> sound_query calls q -> history E calls m -> no_self_price (price_calls calls) ->
  Forall whole calls -> NoDup (map doc_getID (corpora calls)) -> In D (corpora calls) -> doc_getText D f = Ok t -> q <> [] -> NoDup q ->
  In f (map said (indexed calls)) -> mt_onlineMatch E q f m = (m', Ok r) -> mt_match E q sp_new m = (m', Ok mr) ->
  exists view views, shows r view /\ shows mr views /\
    forall x y, In (x, doc_getID D) view -> In (y, doc_getID D) views -> exists e, x = d_add e y /\ exact_bonus q t e.
Proof.
  intros SS SQ HH Hs Hw Hnd HD Ht Hq Hn Hf Hr Hmr.
  destruct (online_documents SS SQ HH Hs Hf Hr Hmr) as (view & views & H1 & H2 & _ & H3).
  exists view, views. split; [exact H1|]. split; [exact H2|]. intros x y Hx Hy. eexists. split; [exact (H3 _ _ _ Hx Hy)|].
  exact (online_bonus Hw (ss_clean SS) Hnd HD Ht Hq Hn).
Qed.
Lemma online_gives_bonus E calls m q f mr r m' D t : sound_setup E calls -> sound_query calls q -> history E calls m -> no_self_price (price_calls calls) ->
  Forall whole calls -> NoDup (map doc_getID (corpora calls)) -> In D (corpora calls) -> doc_getText D f = Ok t -> q <> [] ->
  In f (map said (indexed calls)) -> mt_onlineMatch E q f m = (m', Ok r) -> mt_match E q sp_new m = (m', Ok mr) ->
  exists view views, shows r view /\ shows mr views /\
    forall x y, In (x, doc_getID D) view -> In (y, doc_getID D) views -> exists e, x = d_add e y /\ given_bonus q t e.
Proof.
  intros SS SQ HH Hs Hw Hnd HD Ht Hq Hf Hr Hmr.
  destruct (online_documents SS SQ HH Hs Hf Hr Hmr) as (view & views & H1 & H2 & _ & H3).
  exists view, views. split; [exact H1|]. split; [exact H2|]. intros x y Hx Hy. eexists. split; [exact (H3 _ _ _ Hx Hy)|].
  exact (online_bonus_any Hw (ss_clean SS) Hnd HD Ht Hq).
Qed.
