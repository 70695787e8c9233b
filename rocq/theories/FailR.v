(** Matcher out of memory: what searches leave behind. *)
From Verif Require Import Base TrieM TrieA TrieP TrieP2 TrieD WordStoreM Spec_Hist TrieH WordStoreP ErrorValuesM LevIndexM
  Spec_Edit Spec_EV Spec_Lev EVP LevP WordM MapM DoubleM ContM MatcherM MapP Spec_Cont ContP Spec_Match MatchP MatchQ FailM FailP FailQ.
From Coq Require Import ZifyBool ZifyN ZifyNat.
Local Open Scope N_scope.
Local Open Scope f_scope.

Section Calm.
Variables (E : env) (x : N) (W : list word).
(** From a matcher with a good twin, the code ends with one, having learnt only names. *)
Definition calms {A} (c : F A) (s : fst_) (mv : matcher) (l : list step) : Prop :=
  exists s' o, c s = (s', o) /\ (bad s' \/ o = Thrown ERuntime \/
    exists mv' ns, V x (f_m s') mv' /\ same_conf mv mv' /\ MI mv' (l ++ map SName ns) /\ incl ns W).
Definition calm {A} (c : F A) : Prop := forall s mv l, V x (f_m s) mv -> MI mv l -> calms c s mv l.
Lemma calm_val {A} (a : A) : calm (val a).
Proof. intros s mv l HV H. exists s, (Val a). split; [reflexivity|]. right. right. exists mv, []. cbn [map]. rewrite app_nil_r. split; [exact HV|]. split; [now split|]. split; [exact H|apply incl_nil_l]. Qed.
Lemma calm_reads {A} (f : matcher -> outcome A) : calm (on_m (reads f)).
Proof.
  intros s mv l HV H. exists s, (as_res (f (f_m s))). split; [destruct s; reflexivity|]. right. right. exists mv, []. cbn [map]. rewrite app_nil_r. split; [exact HV|]. split; [now split|]. split; [exact H|apply incl_nil_l].
Qed.
Lemma calm_need p : calm (need p).
Proof.
  intros s mv l HV H. destruct (need_cases p s) as [(s1 & R1 & M1 & _)|(s1 & R1 & M1 & _)]; eexists _, _; (split; [exact R1|]); right; right; exists mv, []; cbn [map]; rewrite app_nil_r, M1; (split; [exact HV|]); (split; [now split|]); (split; [exact H|apply incl_nil_l]).
Qed.
Lemma calms_bind {A B} (c : F A) (k : A -> F B) s mv l : (forall a, mono (k a)) -> calms c s mv l ->
  (forall a s' mv' ns, V x (f_m s') mv' -> MI mv' (l ++ map SName ns) -> c s = (s', Val a) -> calms (k a) s' mv' (l ++ map SName ns)) -> calms (fbind c k) s mv l.
Proof.
  intros Hm (s1 & o & R & C) Hk. destruct C as [B1|[->|(mv1 & ns & V1 & S1 & H1 & I1)]].
  - destruct (fbind_bad R B1 Hm) as (s' & o' & R' & B'). exists s', o'. split; [exact R'|now left].
  - exists s1, (Thrown ERuntime). split; [exact (fbind_thrown _ R)|]. right. now left.
  - unfold calms, fbind. rewrite R. destruct o as [a| |e| | |]; [|eexists _, _; (split; [reflexivity|]); right; right; exists mv1, ns; auto..].
    destruct (Hk a s1 mv1 ns V1 H1 R) as (s2 & o2 & R2 & C2). exists s2, o2. split; [exact R2|]. destruct C2 as [B2|[->|(mv2 & n2 & V2 & S2 & H2 & I2)]]; [now left|right; now left|].
    right. right. exists mv2, (ns ++ n2). split; [exact V2|]. split; [exact (same_trans S1 S2)|]. rewrite map_app, app_assoc. split; [exact H2|]. now apply incl_app.
Qed.
Lemma calm_bind {A B} (c : F A) (k : A -> F B) : (forall a, mono (k a)) -> calm c -> (forall a, calm (k a)) -> calm (fbind c k).
Proof. intros Hm Hc Hk s mv l HV H. apply calms_bind; [exact Hm|now apply Hc|]. intros a s' mv' ns HV' H' _. now apply Hk. Qed.
Lemma calm_getID w : usable w -> In w W -> calm (f_getID E w).
Proof.
  intros [->|Hw] Hin s mv l HV H.
  - destruct (get_none E HV H) as (s' & [[R M]|[R B]]); eexists _, _; (split; [exact R|]); [|now left]. right. right. exists mv, []. cbn [map]. rewrite app_nil_r, M. split; [exact HV|]. split; [now split|]. split; [exact H|apply incl_nil_l].
  - destruct (get_step E HV H Hw) as (s1 & o1 & R1 & C1). exists s1, o1. split; [exact R1|]. destruct C1 as [B1|[->|(mv1 & -> & V1 & S1 & H1 & _)]]; [now left|right; now left|].
    right. right. exists mv1, [w]. split; [exact V1|]. split; [exact S1|]. split; [exact H1|]. intros v [<-|[]]. exact Hin.
Qed.
Lemma calm_both v f : usable v -> usable f -> In v W -> In f W -> calm (f_both_ids E v f).
Proof.
  intros Hv Hf Wv Wf. unfold f_both_ids. destruct (e_rtl E); (apply calm_bind; [intros a; mono|now apply calm_getID|]); intros a; (apply calm_bind; [intros b; mono|now apply calm_getID|]); intros b; apply calm_val.
Qed.
Lemma calm_subs filter term t id : nth_error filter (N.to_nat term) = Some t -> forall rest n sub, skipn (N.to_nat sub) t = rest -> n = length rest -> Forall (sub_ok W) rest ->
  calm (f_subtermsMatch E filter term id n sub).
Proof.
  intros Ht. induction rest as [|s rest IH]; intros n sub Hsk -> Hok; [apply calm_val|].
  apply skipn_cons in Hsk as [Hs Hsk]. apply Forall_cons_iff in Hok as [((Hs1 & Hs2) & HW1 & HW2) Hok]. cbn [length f_subtermsMatch].
  assert (Hg : rf_getField filter term sub = Ok (fst s) /\ rf_getWord filter term sub = Ok (snd s)).
  { unfold rf_getField, rf_getWord. rewrite !(proj2 (add_all_at _)), Ht. cbn [obind]. rewrite !(proj2 (add_all_at _)), Hs. now split. }
  destruct Hg as [-> ->]. intros s0 mv l HV H. unfold calms. do 2 erewrite fbind_reads by reflexivity. revert s0 mv l HV H.
  apply calm_bind; [intros a; mono; destruct a0; mono|now apply calm_both|]. intros ids. apply calm_bind; [intros []; mono|apply calm_reads|]. intros []; [|apply calm_val].
  apply IH; [rewrite <- Hsk; f_equal; lia|reflexivity|exact Hok].
Qed.
Lemma calm_terms filter id : Forall (Forall (sub_ok W)) filter -> forall rest n term, skipn (N.to_nat term) filter = rest -> n = length rest ->
  calm (f_termsMatch E filter id n term).
Proof.
  intros Hall. induction rest as [|t rest IH]; intros n term Hsk ->; [apply calm_val|]. apply skipn_cons in Hsk as [Ht Hsk]. cbn [length f_termsMatch].
  assert (Hok : Forall (sub_ok W) t) by (rewrite Forall_forall in Hall; apply Hall; now apply nth_error_In in Ht).
  assert (Hg : rf_numSubTerms filter term = Ok (N.of_nat (length t))) by (unfold rf_numSubTerms; now rewrite !(proj2 (add_all_at _)), Ht).
  rewrite Hg. intros s0 mv l HV H. unfold calms. erewrite fbind_reads by reflexivity. revert s0 mv l HV H.
  apply calm_bind; [intros a; mono|apply (@calm_subs filter term t id Ht t); [reflexivity|apply Nat2N.id|exact Hok]|]. intros []; [apply calm_val|].
  apply IH; [rewrite <- Hsk; f_equal; lia|reflexivity].
Qed.
Lemma calm_loop filter : Forall (Forall (sub_ok W)) filter -> forall n i all matched, calm (f_filter_loop E filter n i all matched).
Proof.
  intros Hall. induction n as [|n IH]; intros i all matched; [apply calm_val|]. cbn [f_filter_loop]. destruct (mr_getDocumentID i all) as [all' o].
  apply calm_bind; [intros a; mono|apply calm_reads|]. intros id. apply calm_bind; [intros a; mono|apply (@calm_terms filter id Hall filter); [reflexivity|apply Nat2N.id]|].
  intros []; [|apply IH]. apply calm_bind; [intros a; mono|apply calm_need|]. intros _. destruct (mr_copyResult all' i matched) as [matched' o'].
  apply calm_bind; [intros a; mono|apply calm_reads|]. intros _. apply IH.
Qed.
Lemma calm_match q p : Forall (Forall (sub_ok W)) (sp_filter p) -> calm (f_match E q p).
Proof.
  intros Hall. unfold f_match. apply calm_bind; [intros a; destruct q; mono|apply calm_need|]. intros _. destruct q as [|w q]; [apply calm_val|].
  apply calm_bind; [intros a; mono|apply calm_reads|]. intros r. now apply calm_loop.
Qed.

(** ** onlineMatch *)
Lemma fget_known w s mv l : V x (f_m s) mv -> MI mv l -> In w (names l) -> f_getID E w s = (s, Val (wid (names l) w)).
Proof.
  intros HV H Hw. unfold f_getID. destruct (known_insertable H Hw) as (_ & Hn & _).
  assert (Hh : ws_hasWord (mt_store (f_m s)) w = Ok true) by (rewrite <- (v_store HV); destruct (has_word H Hn) as [[_ Hh]|[Hc _]]; [exact Hh|contradiction]).
  erewrite fbind_reads by exact Hh. destruct (V_store HV (surjective_pairing (on_store (ws_getID E w) (f_m s)))) as (mv' & Pv & _).
  rewrite (get_known E H Hw) in Pv. injection Pv as Pm Po. unfold on_m. destruct (on_store (ws_getID E w) (f_m s)) as [m' o] eqn:Hr. cbn [snd] in Po. subst o.
  assert (Hm : m' = f_m s).
  { unfold on_store in Hr. pose proof (get_known E H Hw) as G. unfold on_store in G. rewrite (v_store HV) in G. destruct (ws_getID E w (mt_store (f_m s))) as [st q]. injection Hr as <- _. injection G as G _.
    assert (Hst : st = mt_store (f_m s)) by (rewrite <- (v_store HV), <- G; reflexivity). rewrite Hst. now destruct (f_m s). }
  subst m'. now destruct s.
Qed.
Definition sized (m : matcher) (k : N) (c : list (N * N)) : Prop := forall d n, In (d, n) c -> exists z, mp_find pair_lt (d, k) (mt_sizes m) = Some z.
Lemma set_in_keys {B} (k : N) (v : B) c a b : In (a, b) (mp_set N.ltb k v c) -> a = k \/ exists b', In (a, b') c.
Proof.
  induction c as [|[k' v'] c IH]; cbn [mp_set]; [intros [[= <- <-]|[]]; now left|]. destruct (N.ltb_spec k k') as [L1|L1].
  - intros [[= <- <-]|Hi]; [now left|right; now exists b].
  - destruct (N.ltb_spec k' k) as [L2|L2]; [intros [[= <- <-]|Hi]; [right; exists v'; now left|apply IH in Hi as [->|(b' & Hb)]; [now left|right; exists b'; now right]]|].
    intros [[= <- <-]|Hi]; [left; lia|]. right. exists b. now right.
Qed.
Lemma sized_docs m k ds : forall c, sized m k c -> (forall d, In d ds -> exists z, mp_find pair_lt (d, k) (mt_sizes m) = Some z) -> sized m k (count_docs ds c).
Proof.
  induction ds as [|d ds IH]; intros c Hc Hd; [exact Hc|]. cbn [count_docs]. apply IH; [|intros d' Hd'; apply Hd; now right].
  intros a b Hin. apply set_in_keys in Hin as [->|(b' & Hb)]; [apply Hd; now left|now apply (Hc a b')].
Qed.
Lemma find_docs_v m mv wi fi : V x m mv -> env_ok E -> NoDup (findDocuments E (mt_rev m) wi fi) /\
  forall d, In d (findDocuments E (mt_rev m) wi fi) <-> documentHasTerm (mt_rev m) wi fi d = true.
Proof.
  intros HV HE. unfold findDocuments, documentHasTerm. destruct (v_rs HV) as [R1 R2].
  destruct (mp_find pair_lt (fi, wi) (mt_rev m)) as [s|] eqn:Hf.
  - apply R2 in Hf. pose proof (eo_order_perm HE [fi; wi] (map fst s)) as Hp. split.
    + apply (Permutation_NoDup (Permutation_sym Hp)). now apply (sorted_nodup nltb_order).
    + intros d. assert (Hq : In d (e_order E [fi; wi] (map fst s)) <-> In d (map fst s)) by (split; apply Permutation_in; [exact Hp|now symmetry]).
      rewrite Hq. destruct (mp_find N.ltb d s) as [v|] eqn:Hd.
      * split; [trivial|]. intros _. apply (find_in nltb_order) in Hd; [|exact Hf]. now apply (in_map fst) in Hd.
      * apply (find_none nltb_order) in Hd; [|exact Hf]. split; [contradiction|discriminate].
  - split; [constructor|]. intros d. split; [intros []|discriminate].
Qed.
Lemma counts_v f q s mv l : env_ok E -> V x (f_m s) mv -> MI mv l -> In f (names l) -> Forall (Forall nonnul) q -> forall c, sized (f_m s) (wid (names l) f) c ->
  exists c', f_countExacts E q (wid (names l) f) c s = (s, Val c') /\ sized (f_m s) (wid (names l) f) c'.
Proof.
  intros HE HV H Hf. induction 1 as [|w q Hw Hq IH]; intros c Hc; [now exists c|]. cbn [f_countExacts].
  destruct (Nat.eqb (length w) 0); [now apply IH|].
  destruct (has_word H Hw) as [[Hin Hh]|[Hin Hh]]; (erewrite fbind_reads by (rewrite <- (v_store HV); exact Hh)); cbn [negb]; [|now apply IH].
  rewrite (fbind_val _ (fget_known HV H Hin)). erewrite fbind_reads by reflexivity. apply IH. apply sized_docs; [exact Hc|].
  intros d Hd. apply (find_docs_v _ _ HV HE) in Hd. apply (v_rev HV) in Hd as [Hx Hd]. apply (has_term d H Hf Hin) in Hd.
  rewrite (v_sizes HV) by exact Hx. rewrite (mi_sizes H d Hf). apply occs_in in Hd. apply (mi_sized H) in Hd. destruct (last_size l d f None) as [z|]; [now exists z|congruence].
Qed.
Lemma scores_v qn k s : forall c acc, sized (f_m s) k c -> exists acc', f_exact_scores qn k c acc s = (s, Val acc').
Proof.
  induction c as [|[d n] c IH]; intros acc Hc; [now exists acc|]. cbn [f_exact_scores]. destruct (Hc d n) as [z Hz]; [now left|].
  assert (Hc' : sized (f_m s) k c) by (intros a b Hin; apply (Hc a b); now right).
  destruct (n =? qn).
  - assert (Hn : need_if AtSizes (fun m => match mp_find pair_lt (d, k) (mt_sizes m) with Some _ => false | None => true end) s = (s, Val tt)) by (unfold need_if; now rewrite Hz).
    erewrite fbind_val; [now apply IH|]. rewrite (fbind_val _ Hn). unfold on_m. rewrite Hz. destruct s. reflexivity.
  - rewrite (fbind_val _ (eq_refl : val false s = (s, Val false))). now apply IH.
Qed.
Lemma calm_throw {A} e : calm (on_m (mthrow e) : F A).
Proof. intros s mv l HV H. exists s, (Thrown e). split; [destruct s; reflexivity|]. right. right. exists mv, []. cbn [map]. rewrite app_nil_r. split; [exact HV|]. split; [now split|]. split; [exact H|apply incl_nil_l]. Qed.
Definition online_rest (q : wordlist) (acc : list (N * double)) : F mresults :=
  fuzzy <- f_match E q sp_new ;;
  acc' <- on_m (reads (fun _ => add_fuzzy (N.to_nat (mr_size fuzzy)) 0 fuzzy acc)) ;;
  need AtLocal ;;;
  val (add_all acc' mr_new).
Lemma online_known_v q f s mv l : env_ok E -> V x (f_m s) mv -> MI mv l -> Forall (Forall nonnul) q -> In f (names l) -> exists acc,
  (indexID <- f_getID E f ;; stats <- f_countExacts E q indexID [] ;; acc <- f_exact_scores (wl_size q) indexID stats [] ;; online_rest q acc) s = online_rest q acc s.
Proof.
  intros HE HV H Hq Hf. assert (H0 : sized (f_m s) (wid (names l) f) []) by (intros d n []).
  destruct (counts_v HE HV H Hf Hq H0) as (c & Rc & Hc). destruct (@scores_v (wl_size q) (wid (names l) f) s c [] Hc) as (acc & Ra). exists acc.
  rewrite (fbind_val _ (fget_known HV H Hf)), (fbind_val _ Rc), (fbind_val _ Ra). reflexivity.
Qed.
Lemma calm_online q f : env_ok E -> Forall (Forall nonnul) q -> Forall nonnul f -> calm (f_onlineMatch E q f).
Proof.
  intros HE Hq Hf. unfold f_onlineMatch. apply calm_bind; [intros a; mono|apply calm_need|]. intros _ s mv l HV H. unfold calms.
  destruct (has_word H Hf) as [[Hin Hh]|[Hin Hh]]; (erewrite fbind_reads by (rewrite <- (v_store HV); exact Hh)); cbn [negb].
  - destruct (online_known_v HE HV H Hq Hin) as [acc Ha]. unfold online_rest in Ha at 1. rewrite Ha. revert s mv l HV H Hin Hh Ha. intros s mv l HV H _ _ _. revert s mv l HV H.
    unfold online_rest. apply calm_bind; [intros a; mono|apply calm_match; cbn; repeat constructor|]. intros r. apply calm_bind; [intros a; mono|apply calm_reads|]. intros a.
    apply calm_bind; [intros b; mono|apply calm_need|]. intros _. apply calm_val.
  - revert s mv l HV H Hin Hh. intros s mv l HV H _ _. revert s mv l HV H. apply calm_bind; [intros a; mono|apply calm_reads|]. intros a. apply calm_throw.
Qed.
End Calm.
