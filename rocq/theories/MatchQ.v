(** Matcher: filters and histories. *)
From Verif Require Import Base TrieM TrieA TrieP TrieP2 TrieD WordStoreM Spec_Hist TrieH WordStoreP ErrorValuesM LevIndexM
  Spec_Edit Spec_EV Spec_Lev EVP LevP WordM MapM DoubleM ContM MatcherM MapP Spec_Cont ContP Spec_Match MatchP.
From Coq Require Import ZifyBool ZifyN ZifyNat.
Local Open Scope N_scope.
Local Open Scope m_scope.

(** ** Calls that only learn names *)
Definition adds (m : matcher) (l : list step) (m' : matcher) (ns : list word) : Prop :=
  same_conf m m' /\ mt_idx m' = mt_idx m /\ mt_rev m' = mt_rev m /\ mt_sizes m' = mt_sizes m /\ MI m' (l ++ map SName ns).
Definition yields (E : env) (W : list word) {A} (x : M matcher A) (P : outcome A -> Prop) (m : matcher) (l : list step) : Prop :=
  exists m' o, x m = (m', o) /\ ((o = Throw ERuntime /\ refused E (asked (l ++ map SName W))) \/ (P o /\ exists ns, incl ns W /\ adds m l m' ns)).
Lemma adds_nil m l : MI m l -> adds m l m [].
Proof. intros H. unfold adds, same_conf. cbn. rewrite app_nil_r. auto 10. Qed.
Lemma adds_trans m l m1 n1 m2 n2 : adds m l m1 n1 -> adds m1 (l ++ map SName n1) m2 n2 -> adds m l m2 (n1 ++ n2).
Proof.
  intros ([A1 A2] & A3 & A4 & A5 & A6) ([B1 B2] & B3 & B4 & B5 & B6). unfold adds, same_conf. rewrite map_app, app_assoc.
  repeat (split; [congruence|]). split; [split; congruence|]. repeat (split; [congruence|]). exact B6.
Qed.
Lemma letters_incl a : forall b, NoDup a -> incl a b -> word_letters a <= word_letters b.
Proof.
  induction a as [|w a IH]; intros b Hn Hi; [change (word_letters []) with 0; lia|]. apply NoDup_cons_iff in Hn as [Hw Hn].
  destruct (in_split w b) as (b1 & b2 & ->); [apply Hi; now left|]. specialize (IH (b1 ++ b2) Hn).
  rewrite word_letters_app, !letters_cons in *.
  assert (incl a (b1 ++ b2)); [|specialize (IH H); lia]. intros x Hx. specialize (Hi x (or_intror Hx)). apply in_app_iff in Hi as [Hi|[<-|Hi]]; [| contradiction |]; apply in_app_iff; auto.
Qed.
Lemma occs_names l ns : occs (l ++ map SName ns) = occs l.
Proof. rewrite occs_app. induction ns as [|n ns IH]; cbn; [apply app_nil_r|exact IH]. Qed.
Lemma last_size_names l ns d f : last_size (l ++ map SName ns) d f None = last_size l d f None.
Proof. rewrite last_size_app. generalize (last_size l d f None). induction ns as [|n ns IH]; intros o; cbn; [reflexivity|apply IH]. Qed.
Lemma asked_names l ns W : incl ns W -> asked ((l ++ map SName ns) ++ map SName W) <= asked (l ++ map SName W).
Proof.
  intros Hi. unfold asked. rewrite !occs_names. assert (H : word_letters (names ((l ++ map SName ns) ++ map SName W)) <= word_letters (names (l ++ map SName W))); [|lia].
  apply letters_incl; [apply names_nodup|]. intros w Hw. apply names_in. apply names_in in Hw. rewrite !map_app, !map_map in *. cbn [said] in *. rewrite !map_id in *.
  rewrite !in_app_iff in *. destruct Hw as [[Hw|Hw]|Hw]; auto.
Qed.
Lemma asked_name l w W : In w W -> asked (l ++ [SName w]) <= asked (l ++ map SName W).
Proof.
  intros Hi. unfold asked. change [SName w] with (map SName [w]). rewrite !occs_names. assert (H : word_letters (names (l ++ map SName [w])) <= word_letters (names (l ++ map SName W))); [|lia].
  apply letters_incl; [apply names_nodup|]. intros v Hv. apply names_in. apply names_in in Hv. rewrite !map_app, !map_map in *. cbn [said map] in *. rewrite map_id.
  rewrite !in_app_iff in *. destruct Hv as [Hv|[<-|[]]]; auto.
Qed.
Lemma yields_ret E W {A} (a : A) (P : outcome A -> Prop) m l : MI m l -> P (Ok a) -> yields E W (ret a) P m l.
Proof. intros H Hp. exists m, (Ok a). split; [reflexivity|]. right. split; [exact Hp|]. exists []. split; [apply incl_nil_l|]. now apply adds_nil. Qed.
Lemma yields_bind E W {A B} (x : M matcher A) (k : A -> M matcher B) (P : outcome A -> Prop) (Q : outcome B -> Prop) m l :
  yields E W x P m l ->
  (forall a m' ns, P (Ok a) -> incl ns W -> adds m l m' ns -> yields E W (k a) Q m' (l ++ map SName ns)) ->
  (forall e, P (Throw e) -> Q (Throw e)) -> (P Abort -> Q Abort) -> (P UB -> Q UB) -> (P Fuel -> Q Fuel) ->
  yields E W (mbind x k) Q m l.
Proof.
  intros (m1 & o & Hr & C) Hk Ht Ha Hu Hf. destruct C as [[-> Z]|(HP & ns & I1 & A1)].
  - exists m1, (Throw ERuntime). split; [unfold mbind; now rewrite Hr|left; now split].
  - destruct o as [a|e| | |].
    + destruct (Hk a m1 ns HP I1 A1) as (m2 & o2 & Hr2 & C2). exists m2, o2. split; [unfold mbind; now rewrite Hr|].
      destruct C2 as [[-> Z]|(HQ & n2 & I2 & A2)]; [left; split; [reflexivity|]; exact (refused_mono (@asked_names _ _ _ I1) Z)|]. right. split; [exact HQ|]. exists (ns ++ n2). split; [now apply incl_app|]. exact (adds_trans A1 A2).
    + exists m1, (Throw e). split; [unfold mbind; now rewrite Hr|]. right. split; [now apply Ht|]. now exists ns.
    + exists m1, Abort. split; [unfold mbind; now rewrite Hr|]. right. split; [now apply Ha|]. now exists ns.
    + exists m1, UB. split; [unfold mbind; now rewrite Hr|]. right. split; [now apply Hu|]. now exists ns.
    + exists m1, Fuel. split; [unfold mbind; now rewrite Hr|]. right. split; [now apply Hf|]. now exists ns.
Qed.
Lemma yields_reads E W {A} (f : matcher -> outcome A) (P : outcome A -> Prop) m l : MI m l -> P (f m) -> yields E W (reads f) P m l.
Proof. intros H Hp. exists m, (f m). split; [reflexivity|]. right. split; [exact Hp|]. exists []. split; [apply incl_nil_l|]. now apply adds_nil. Qed.
Lemma yields_bind_reads E W {A B} (f : matcher -> outcome A) (k : A -> M matcher B) Q m l a : f m = Ok a -> yields E W (k a) Q m l ->
  yields E W (mbind (reads f) k) Q m l.
Proof. intros H (m' & o & Hr & C). exists m', o. split; [|exact C]. erewrite mbind_ok by (apply reads_ok; exact H). exact Hr. Qed.

Lemma get_yields W E w m l : MI m l -> usable w -> In w W ->
  yields E W (on_store (ws_getID E w)) (fun o => match o with Ok i => insertable w | Throw EOutOfRange => w = [] | _ => False end) m l.
Proof.
  intros H [->|Hw] Hin.
  - exists m, (Throw EOutOfRange). split; [now apply (@name_empty E m l)|]. right. split; [reflexivity|]. exists []. split; [apply incl_nil_l|]. now apply adds_nil.
  - destruct (name_step E H Hw) as [(m1 & Hr & S1 & H1 & A & B & C)|(m1 & Hr & Z)]; [|exists m1, (Throw ERuntime); split; [exact Hr|left; split; [reflexivity|exact (refused_mono (@asked_name _ _ _ Hin) Z)]]].
    eexists m1, _. split; [exact Hr|]. right. split; [exact Hw|]. exists [w]. split; [intros x [<-|[]]; exact Hin|]. unfold adds. auto.
Qed.

(** ** One subterm *)
Definition empty_sub (s : word * word) : Prop := fst s = [] \/ snd s = [].
Lemma has_term m l d f w : MI m l -> In f (names l) -> In w (names l) ->
  documentHasTerm (mt_rev m) (wid (names l) w) (wid (names l) f) d = true <-> In (d, f, w) (occs l).
Proof.
  intros H Hf Hw. rewrite (mi_rev H). split.
  - intros (f' & w' & Hin & H1 & H2). destruct (occ_names H Hin) as [Hf' Hw']. apply wid_inj in H1, H2; auto. congruence.
  - intros Hin. now exists f, w.
Qed.
Lemma name_new l w : In w (names (l ++ [SName w])).
Proof. apply names_in. rewrite map_app. apply in_app_iff. right. now left. Qed.
Definition idp (m0 : matcher) (l : list step) (f v : word) (d : N) (o : outcome (N * N)) : Prop :=
  match o with
  | Ok ids => insertable f /\ insertable v /\ (documentHasTerm (mt_rev m0) (fst ids) (snd ids) d = true <-> In (d, f, v) (occs l))
  | Throw EOutOfRange => f = [] \/ v = []
  | _ => False
  end.
Lemma ids_yield W E f v d m l : MI m l -> usable f -> usable v -> In f W -> In v W -> yields E W (both_ids E v f) (idp m l f v d) m l.
Proof.
  intros H Hf Hv HWf HWv.
  assert (G : forall a b (k : N -> N -> N * N), usable a -> usable b -> In a W -> In b W ->
     (insertable a -> insertable b -> forall m2 l2, MI m2 (l ++ l2) -> occs (l ++ l2) = occs l -> In a (names (l ++ l2)) -> In b (names (l ++ l2)) ->
        mt_rev m2 = mt_rev m -> idp m l f v d (Ok (k (wid (names (l ++ l2)) a) (wid (names (l ++ l2)) b)))) ->
     (a = [] \/ b = [] -> f = [] \/ v = []) ->
     yields E W (x <- on_store (ws_getID E a) ;; y <- on_store (ws_getID E b) ;; ret (k x y)) (idp m l f v d) m l).
  { intros a b k Ha Hb HWa HWb Hk Hemp. destruct Ha as [->|Ha].
    { exists m, (Throw EOutOfRange). split; [erewrite mbind_throw by (exact (name_empty E H)); reflexivity|]. right.
      split; [cbn; apply Hemp; now left|]. exists []. split; [apply incl_nil_l|]. now apply adds_nil. }
    destruct (name_step E H Ha) as [(m1 & Hr1 & S1 & H1 & X1 & Y1 & Z1)|(m1 & Hr1 & Z)].
    2:{ exists m1, (Throw ERuntime). split; [erewrite mbind_throw by exact Hr1; reflexivity|left; split; [reflexivity|exact (refused_mono (@asked_name _ _ _ HWa) Z)]]. }
    destruct Hb as [->|Hb].
    { exists m1, (Throw EOutOfRange). split; [erewrite mbind_ok by exact Hr1; erewrite mbind_throw by (exact (name_empty E H1)); reflexivity|]. right.
      split; [cbn; apply Hemp; now right|]. exists [a]. split; [intros x [<-|[]]; exact HWa|]. unfold adds. auto. }
    destruct (name_step E H1 Hb) as [(m2 & Hr2 & S2 & H2 & X2 & Y2 & Z2)|(m2 & Hr2 & Z)].
    2:{ exists m2, (Throw ERuntime). split; [erewrite mbind_ok by exact Hr1; erewrite mbind_throw by exact Hr2; reflexivity|left; split; [reflexivity|]].
        refine (refused_mono _ (refused_mono (@asked_name _ _ _ HWb) Z)). apply (@asked_names l [a] W). intros x [<-|[]]; exact HWa. }
    eexists m2, _. split; [erewrite mbind_ok by exact Hr1; erewrite mbind_ok by exact Hr2; reflexivity|]. right.
    rewrite <- (wid_keep [SName b] (name_new l a)). rewrite <- app_assoc in H2. rewrite <- app_assoc. cbn [app] in *. split.
    - apply (Hk Ha Hb m2); [exact H2|now rewrite occs_app, app_nil_r| | |congruence].
      + change ([SName a; SName b]) with ([SName a] ++ [SName b]). rewrite app_assoc. apply names_keep, name_new.
      + change ([SName a; SName b]) with ([SName a] ++ [SName b]). rewrite app_assoc. apply name_new.
    - exists [a; b]. split; [intros x [<-|[<-|[]]]; assumption|]. unfold adds. destruct S1, S2. unfold same_conf. split; [split; congruence|]. split; [congruence|]. split; [congruence|]. split; [congruence|]. exact H2. }
  unfold both_ids. destruct (e_rtl E).
  - apply (G f v (fun x y => (y, x))); auto. intros Hf1 Hv1 m2 l2 H2 Ho Ha Hb Hrv. cbn. split; [exact Hf1|]. split; [exact Hv1|].
    rewrite <- Ho, <- Hrv. now apply has_term.
  - apply (G v f (fun x y => (x, y))); auto; [|tauto]. intros Hv1 Hf1 m2 l2 H2 Ho Ha Hb Hrv. cbn. split; [exact Hf1|]. split; [exact Hv1|].
    rewrite <- Ho, <- Hrv. now apply has_term.
Qed.

(** ** Terms and filters *)
Definition occb (o : list (N * word * word)) (d : N) (f w : word) : bool :=
  existsb (fun x => (fst (fst x) =? d) && weqb (snd (fst x)) f && weqb (snd x) w) o.
Lemma occb_in o d f w : occb o d f w = true <-> In (d, f, w) o.
Proof.
  unfold occb. rewrite existsb_exists. split.
  - intros ([[d' f'] w'] & Hin & H). cbn in H. destruct (N.eqb_spec d' d), (weqb_spec f' f), (weqb_spec w' w); try discriminate. now subst.
  - intros Hin. exists (d, f, w). split; [exact Hin|]. cbn. now rewrite N.eqb_refl, !weqb_refl.
Qed.
Definition termb (o : list (N * word * word)) (d : N) (t : list (word * word)) : bool := forallb (fun s => occb o d (fst s) (snd s)) t.
Definition filterb (o : list (N * word * word)) (f : rfilter) (d : N) : bool := existsb (termb o d) f.
Lemma termb_holds o d t : termb o d t = true <-> term_holds o d t.
Proof.
  unfold termb, term_holds. rewrite forallb_forall, Forall_forall. split; intros H x Hx; [now apply occb_in, H|]. now apply occb_in, H.
Qed.
Lemma filterb_holds o f d : filterb o f d = true <-> filter_holds o f d.
Proof.
  unfold filterb, filter_holds. rewrite existsb_exists. split; intros (t & Hin & H); exists t; (split; [exact Hin|now apply termb_holds]).
Qed.

Definition sub_ok (W : list word) (s : word * word) : Prop := (usable (fst s) /\ usable (snd s)) /\ In (fst s) W /\ In (snd s) W.
Definition answers (v : bool) (bad : Prop) (o : outcome bool) : Prop :=
  match o with Ok b => b = v | Throw EOutOfRange => bad | _ => False end.
Lemma skipn_cons {A} (l : list A) n x r : skipn n l = x :: r -> nth_error l n = Some x /\ skipn (S n) l = r.
Proof. revert n. induction l as [|a l IH]; intros [|n] H; cbn in *; try discriminate; [injection H as -> ->; now split|]. now apply IH. Qed.
Lemma skipn_all_nil {A} (l : list A) n r : skipn n l = r -> length r = (length l - n)%nat.
Proof. intros <-. apply skipn_length. Qed.

Lemma subs_yield W E filter term t id : nth_error filter (N.to_nat term) = Some t ->
  forall rest n sub m l, skipn (N.to_nat sub) t = rest -> n = length rest -> MI m l -> Forall (sub_ok W) rest ->
  yields E W (subtermsMatch E filter term id n sub) (answers (termb (occs l) id rest) (Exists empty_sub rest)) m l.
Proof.
  intros Ht. induction rest as [|s rest IH]; intros n sub m l Hsk -> H Hok; [apply yields_ret; [exact H|reflexivity]|].
  apply skipn_cons in Hsk as [Hs Hsk]. apply Forall_cons_iff in Hok as [((Hs1 & Hs2) & HW1 & HW2) Hok]. cbn [length subtermsMatch].
  assert (Hg : rf_getField filter term sub = Ok (fst s) /\ rf_getWord filter term sub = Ok (snd s)).
  { unfold rf_getField, rf_getWord. rewrite !(proj2 (add_all_at _)), Ht. cbn [obind]. rewrite !(proj2 (add_all_at _)), Hs. now split. }
  apply (yields_bind_reads (proj1 Hg)), (yields_bind_reads (proj2 Hg)).
  eapply yields_bind; [apply (ids_yield E id H Hs1 Hs2 HW1 HW2)| | |intros []|intros []|intros []].
  2:{ intros [] He; cbn in *; try contradiction. constructor. exact He. }
  intros ids m' ns (Hi1 & Hi2 & Hd) _ A. pose proof A as (_ & _ & Hrev & _ & H').
  eapply yields_bind_reads; [reflexivity|]. rewrite Hrev.
  assert (Hb : documentHasTerm (mt_rev m) (fst ids) (snd ids) id = occb (occs l) id (fst s) (snd s)).
  { apply Bool.eq_true_iff_eq. rewrite Hd. symmetry. apply occb_in. }
  rewrite Hb. destruct (occb (occs l) id (fst s) (snd s)) eqn:Ho.
  - assert (Hsk' : skipn (N.to_nat (sub + 1)) t = rest) by (rewrite <- Hsk; f_equal; lia).
    destruct (IH (length rest) (sub + 1) m' _ Hsk' eq_refl H' Hok) as (m2 & o & Hr & C). exists m2, o. split; [exact Hr|].
    destruct C as [[-> Z]|(C & D)]; [left; now split|]. right. split; [|exact D]. rewrite occs_names in C. change (termb (occs l) id (s :: rest)) with (occb (occs l) id (fst s) (snd s) && termb (occs l) id rest). rewrite Ho. destruct o as [b|[]| | |]; try contradiction; [exact C|].
    now constructor 2.
  - apply yields_ret; [exact H'|]. cbn [answers]. change (termb (occs l) id (s :: rest)) with (occb (occs l) id (fst s) (snd s) && termb (occs l) id rest). now rewrite Ho.
Qed.
Lemma terms_yield W E filter id : Forall (Forall (sub_ok W)) filter -> forall rest n term m l, skipn (N.to_nat term) filter = rest -> n = length rest -> MI m l ->
  yields E W (termsMatch E filter id n term) (answers (filterb (occs l) rest id) (Exists (Exists empty_sub) rest)) m l.
Proof.
  intros Hall. induction rest as [|t rest IH]; intros n term m l Hsk -> H; [apply yields_ret; [exact H|reflexivity]|].
  apply skipn_cons in Hsk as [Ht Hsk]. cbn [length termsMatch].
  assert (Hok : Forall (sub_ok W) t) by (rewrite Forall_forall in Hall; apply Hall; now apply nth_error_In in Ht).
  assert (Hg : rf_numSubTerms filter term = Ok (N.of_nat (length t))).
  { unfold rf_numSubTerms. now rewrite !(proj2 (add_all_at _)), Ht. }
  apply (yields_bind_reads Hg). eapply yields_bind; [apply (@subs_yield W E filter term t id Ht t); [reflexivity|apply Nat2N.id|exact H|exact Hok]| | |intros []|intros []|intros []].
  2:{ intros [] He; cbn in *; try contradiction. now constructor. }
  intros b m' ns Hb _ A. pose proof A as (_ & _ & Hrev & _ & H'). cbn [answers] in Hb. subst b. destruct (termb (occs l) id t) eqn:Ho.
  - apply yields_ret; [exact H'|]. cbn [answers]. unfold filterb. cbn [existsb]. now rewrite Ho.
  - assert (Hsk' : skipn (N.to_nat (term + 1)) filter = rest) by (rewrite <- Hsk; f_equal; lia).
    destruct (IH (length rest) (term + 1) m' _ Hsk' eq_refl H') as (m2 & o & Hr & C). exists m2, o. split; [exact Hr|].
    destruct C as [[-> Z]|(C & D)]; [left; now split|]. right. split; [|exact D]. rewrite occs_names in C. unfold filterb in *. cbn [existsb]. rewrite Ho. destruct o as [b|[]| | |]; try contradiction.
    + exact C.
    + now constructor 2.
Qed.

(** ** The loop over the results *)
Lemma yields_weak E W {A} (x : M matcher A) (P Q : outcome A -> Prop) m l : (forall o, P o -> Q o) -> yields E W x P m l -> yields E W x Q m l.
Proof. intros H (m' & o & Hr & [C|(C & D)]); exists m', o; (split; [exact Hr|]); [now left|right]. split; [now apply H|exact D]. Qed.
Lemma loop_keeps W E filter : Forall (Forall (sub_ok W)) filter -> forall n i all matched m l, MI m l ->
  yields E W (filter_loop E filter n i all matched) (fun _ => True) m l.
Proof.
  intros Hall. induction n as [|n IH]; intros i all matched m l H; [now apply yields_ret|]. cbn [filter_loop].
  destruct (mr_getDocumentID i all) as [all' o]. eapply yields_bind; [apply yields_reads with (P := fun _ => True); trivial| |trivial..].
  intros id m1 n1 _ _ A1. pose proof A1 as (_ & _ & _ & _ & H1).
  eapply yields_bind; [eapply yields_weak; [|apply (@terms_yield W E filter id Hall filter); [reflexivity|apply Nat2N.id|exact H1]]; intros ? _; exact I| |trivial..].
  intros b m2 n2 _ _ A2. pose proof A2 as (_ & _ & _ & _ & H2). destruct b; [|now apply IH].
  destruct (mr_copyResult all' i matched) as [matched' o']. eapply yields_bind; [apply yields_reads with (P := fun _ => True); trivial| |trivial..].
  intros [] m3 n3 _ _ A3. pose proof A3 as (_ & _ & _ & _ & H3). now apply IH.
Qed.
Definition kept (o : list (N * word * word)) (filter : rfilter) (matched : mresults) (rest : list (double * N)) (r : mresults) : Prop :=
  mr_results r = mr_results matched ++ List.filter (fun x => filterb o filter (snd x)) rest /\ (mr_sorted r = true -> r = matched).
Lemma get_sorted log r k : obj_ok log r -> (N.to_nat k < length (sd log))%nat -> exists r',
  mr_get k r = (r', match nth_error (sd log) (N.to_nat k) with Some x => Ok x | None => Throw EOutOfRange end) /\ obj_ok log r' /\ mr_sorted r' = true.
Proof.
  intros H Hk. destruct (get_ok k H) as (r' & Hr & Hok & _). exists r'. split; [exact Hr|]. split; [exact Hok|].
  assert (Hl : length (sd log) = length (mr_results r)).
  { apply Permutation_length. rewrite (ok_perm H). apply (sd_bf (ok_fine H)). }
  unfold mr_get in Hr. destruct (N.leb_spec (N.of_nat (length (mr_results r))) k) as [Hx|Hx]; [lia|].
  destruct (sort_ok H) as (r2 & Hr2 & _ & Hs & _). unfold mbind in Hr. rewrite Hr2 in Hr. unfold reads in Hr. injection Hr as <- _. exact Hs.
Qed.
Lemma loop_yield W E filter log : Forall (Forall (sub_ok W)) filter -> forall rest n i all matched m l,
  obj_ok log all -> skipn (N.to_nat i) (sd log) = rest -> n = length rest -> MI m l ->
  yields E W (filter_loop E filter n i all matched)
    (fun o => match o with Ok r => kept (occs l) filter matched rest r | Throw EOutOfRange => Exists (Exists empty_sub) filter | _ => False end) m l.
Proof.
  intros Hall. induction rest as [|x rest IH]; intros n i all matched m l Hobj Hsk -> H.
  { apply yields_ret; [exact H|]. split; [now rewrite app_nil_r|trivial]. }
  apply skipn_cons in Hsk as [Hx Hsk]. cbn [length filter_loop].
  assert (Hlt : (N.to_nat i < length (sd log))%nat) by (apply nth_error_Some; congruence).
  destruct (get_sorted Hobj Hlt) as (all' & Hg & Hobj' & Hs). rewrite Hx in Hg.
  assert (Hid : mr_getDocumentID i all = (all', Ok (snd x))) by (unfold mr_getDocumentID; erewrite mbind_ok by exact Hg; reflexivity).
  rewrite Hid. eapply yields_bind_reads; [reflexivity|].
  eapply yields_bind; [apply (@terms_yield W E filter (snd x) Hall filter); [reflexivity|apply Nat2N.id|exact H]| | |intros []|intros []|intros []].
  2:{ intros [] He; cbn in *; try contradiction. exact He. }
  intros b m' ns Hb _ A. pose proof A as (_ & _ & Hrev & _ & H'). cbn [answers] in Hb.
  assert (Hsk' : skipn (N.to_nat (i + 1)) (sd log) = rest) by (rewrite <- Hsk; f_equal; lia).
  assert (G : forall matched', (forall r, kept (occs l) filter matched' rest r -> kept (occs l) filter matched (x :: rest) r) ->
     yields E W (filter_loop E filter (length rest) (i + 1) all' matched')
       (fun o => match o with Ok r => kept (occs l) filter matched (x :: rest) r | Throw EOutOfRange => Exists (Exists empty_sub) filter | _ => False end)
       m' (l ++ map SName ns)).
  { intros matched' Hm. eapply yields_weak; [|apply (IH (length rest) (i + 1) all' matched' m' _ Hobj' Hsk' eq_refl H')].
    intros o. rewrite occs_names. destruct o as [r|[]| | |]; try tauto. apply Hm. }
  destruct b.
  - rewrite (copy_exact _ _ Hobj' Hs), Hx. eapply yields_bind_reads; [reflexivity|]. apply G. intros r [Hk1 Hk2]. cbn [mr_results] in Hk1. split.
    + rewrite Hk1, <- app_assoc. cbn [List.filter]. now rewrite <- Hb.
    + intros Hsr. rewrite (Hk2 Hsr) in Hsr. discriminate.
  - apply G. intros r [Hk1 Hk2]. split; [cbn [List.filter]; now rewrite <- Hb|exact Hk2].
Qed.

(** ** Known words *)
Lemma has_word m l w : MI m l -> Forall nonnul w ->
  (In w (names l) /\ ws_hasWord (mt_store m) w = Ok true) \/ (~ In w (names l) /\ ws_hasWord (mt_store m) w = Ok false).
Proof.
  intros H Hw. destruct (mi_store H) as (es & ids & S). rewrite (WS_hasWord S Hw).
  destruct (position w (names l)) as [i|] eqn:Hp; [left|right]; split; try reflexivity.
  - apply position_some in Hp. now apply nth_error_In in Hp.
  - now apply position_none.
Qed.
Lemma known_insertable m l w : MI m l -> In w (names l) -> insertable w.
Proof. intros H Hw. apply names_in in Hw. pose proof (mi_ins H) as Hi. rewrite Forall_forall in Hi. now apply Hi. Qed.
Lemma distinct_known ws w : In w ws -> distinct ws [w] = ws.
Proof. intros H. cbn. destruct (position_in H) as [i ->]. reflexivity. Qed.
Lemma get_known E m l w : MI m l -> In w (names l) -> on_store (ws_getID E w) m = (m, Ok (wid (names l) w)).
Proof.
  intros H Hw. destruct (mi_store H) as (es & ids & S). unfold on_store. destruct (position_in Hw) as [i Hi].
  rewrite (WS_getID_old E S (proj1 (proj2 (known_insertable H Hw))) Hi). unfold wid. rewrite Hi. now destruct m.
Qed.

(** ** Exact matches *)
Definition exacts (o : list (N * word * word)) (f : word) (q : list word) (d : N) : N :=
  N.of_nat (length (filter (fun w => occb o d f w) q)).
Definition cnt (c : list (N * N)) (d : N) : N := match mp_find N.ltb d c with Some n => n | None => 0 end.
Lemma count_docs_spec ds : forall c, msorted N.ltb c -> (forall d, mp_find N.ltb d c <> Some 0) -> NoDup ds ->
  msorted N.ltb (count_docs ds c) /\ (forall d, mp_find N.ltb d (count_docs ds c) <> Some 0) /\
  forall d, cnt (count_docs ds c) d = cnt c d + (if in_dec N.eq_dec d ds then 1 else 0).
Proof.
  induction ds as [|x ds IH]; intros c Hs Hz Hn; [cbn; split; [exact Hs|]; split; [exact Hz|]; intros; lia|].
  apply NoDup_cons_iff in Hn as [Hx Hn]. cbn [count_docs].
  set (v := match mp_find N.ltb x c with Some n => n + 1 | None => 1 end).
  assert (Hv : v = cnt c x + 1) by (unfold v, cnt; destruct (mp_find N.ltb x c); lia).
  assert (Hf : forall d, mp_find N.ltb d (mp_set N.ltb x v c) = if N.eq_dec d x then Some v else mp_find N.ltb d c).
  { intros d. destruct (N.eq_dec d x) as [->|Hd]; [now apply (find_set_same nltb_order)|now apply (find_set_other nltb_order)]. }
  destruct (IH (mp_set N.ltb x v c)) as (A & B & C); [now apply (set_sorted nltb_order)| |exact Hn|].
  { intros d. rewrite Hf. destruct (N.eq_dec d x); [intros [= He]; lia|apply Hz]. }
  split; [exact A|]. split; [exact B|]. intros d. rewrite C. unfold cnt at 1. rewrite Hf. fold (cnt c d).
  destruct (N.eq_dec d x) as [->|Hd].
  - destruct (in_dec N.eq_dec x ds); [contradiction|]. destruct (in_dec N.eq_dec x (x :: ds)) as [_|Hx']; [lia|]. exfalso. apply Hx'. now left.
  - fold (cnt c d). destruct (in_dec N.eq_dec d ds) as [Hi|Hi], (in_dec N.eq_dec d (x :: ds)) as [Hj|Hj]; try reflexivity.
    + exfalso. apply Hj. now right.
    + destruct Hj as [Hj|Hj]; [congruence|contradiction].
Qed.
Lemma find_docs E m l wi fi : env_ok E -> MI m l ->
  NoDup (findDocuments E (mt_rev m) wi fi) /\ forall d, In d (findDocuments E (mt_rev m) wi fi) <-> documentHasTerm (mt_rev m) wi fi d = true.
Proof.
  intros HE H. unfold findDocuments, documentHasTerm. destruct (mi_rsorted H) as [R1 R2].
  destruct (mp_find pair_lt (fi, wi) (mt_rev m)) as [s|] eqn:Hf.
  - apply R2 in Hf. pose proof (eo_order_perm HE [fi; wi] (map fst s)) as Hp. split.
    + apply (Permutation_NoDup (Permutation_sym Hp)). now apply (sorted_nodup nltb_order).
    + intros d. assert (Hq : In d (e_order E [fi; wi] (map fst s)) <-> In d (map fst s)).
      { split; apply Permutation_in; [exact Hp|now symmetry]. }
      rewrite Hq. destruct (mp_find N.ltb d s) as [v|] eqn:Hd.
      * split; [trivial|]. intros _. apply (find_in nltb_order) in Hd; [|exact Hf]. now apply (in_map fst) in Hd.
      * apply (find_none nltb_order) in Hd; [|exact Hf]. split; [contradiction|discriminate].
  - split; [constructor|]. intros d. split; [intros []|discriminate].
Qed.
Lemma counts_yield E f q : env_ok E -> forall c m l, MI m l -> In f (names l) -> Forall (Forall nonnul) q ->
  msorted N.ltb c -> (forall d, mp_find N.ltb d c <> Some 0) ->
  exists c', countExacts E q (wid (names l) f) c m = (m, Ok c') /\ msorted N.ltb c' /\ (forall d, mp_find N.ltb d c' <> Some 0) /\
    forall d, cnt c' d = cnt c d + exacts (occs l) f q d.
Proof.
  intros HE. induction q as [|w q IH]; intros c m l H Hf Hq Hs Hz.
  { exists c. split; [reflexivity|]. split; [exact Hs|]. split; [exact Hz|]. intros d. unfold exacts. cbn. lia. }
  apply Forall_cons_iff in Hq as [Hw Hq]. cbn [countExacts].
  assert (Hno : ~ In w (names l) -> forall d, exacts (occs l) f (w :: q) d = exacts (occs l) f q d).
  { intros Hn d. unfold exacts. cbn. destruct (occb (occs l) d f w) eqn:Ho; [|reflexivity]. apply occb_in in Ho. destruct (occ_names H Ho). contradiction. }
  destruct (Nat.eqb_spec (length w) 0) as [Hl|Hl].
  { destruct (IH c m l H Hf Hq Hs Hz) as (c' & Hr & A & B & C). exists c'. split; [exact Hr|]. split; [exact A|]. split; [exact B|].
    intros d. rewrite Hno; [apply C|]. destruct w; [|discriminate]. apply (names_nonempty H). }
  destruct (has_word H Hw) as [[Hin Hh]|[Hin Hh]].
  - destruct (find_docs (wid (names l) w) (wid (names l) f) HE H) as [D1 D2].
    destruct (count_docs_spec Hs Hz D1) as (A0 & B0 & C0).
    destruct (IH _ m l H Hf Hq A0 B0) as (c' & Hr & A & B & C). exists c'. split.
    + erewrite mbind_ok by (apply reads_ok; exact Hh). cbn [negb]. erewrite mbind_ok by (exact (get_known E H Hin)).
      erewrite mbind_ok by reflexivity. exact Hr.
    + split; [exact A|]. split; [exact B|]. intros d. rewrite C, C0. unfold exacts. cbn.
      destruct (in_dec N.eq_dec d _) as [Hd|Hd]; rewrite D2, (has_term d H Hf Hin), <- occb_in in Hd.
      * rewrite Hd. cbn [length]. lia.
      * apply Bool.not_true_iff_false in Hd. rewrite Hd. lia.
  - destruct (IH c m l H Hf Hq Hs Hz) as (c' & Hr & A & B & C). exists c'. split.
    + erewrite mbind_ok by (apply reads_ok; exact Hh). cbn [negb]. exact Hr.
    + split; [exact A|]. split; [exact B|]. intros d. rewrite Hno by exact Hin. apply C.
Qed.
Definition bonus (size : option N) (qsize n : N) : double :=
  if (n =? qsize) && (match size with Some k => n =? k | None => false end) then d_add (d_of_Z (Z.of_N (2 * n))) (d_of_Z 100) else d_of_Z (Z.of_N (2 * n)).
Lemma scores_spec qsize f stats : forall acc m l, MI m l -> In f (names l) -> msorted N.ltb acc ->
  (forall d n, In (d, n) stats -> last_size l d f None <> None) -> NoDup (map fst stats) ->
  exists acc', exact_scores qsize (wid (names l) f) stats acc m = (m, Ok acc') /\ msorted N.ltb acc' /\
    forall d x, mp_find N.ltb d acc' = Some x <-> (exists n, In (d, n) stats /\ x = bonus (last_size l d f None) qsize n) \/ (~ In d (map fst stats) /\ mp_find N.ltb d acc = Some x).
Proof.
  induction stats as [|[id n] stats IH]; intros acc m l H Hf Hs Hsz Hn.
  { exists acc. split; [reflexivity|]. split; [exact Hs|]. intros d x. cbn. split; [right; now split|]. intros [(n & [] & _)|[_ Hx]]; exact Hx. }
  cbn [map fst] in Hn. apply NoDup_cons_iff in Hn as [Hid Hn]. cbn [exact_scores].
  assert (Hz : last_size l id f None <> None) by (apply (Hsz id n); now left).
  destruct (last_size l id f None) as [k|] eqn:Hk; [|congruence].
  pose proof (mi_sizes H id Hf) as Hms. rewrite Hk in Hms.
  set (v := bonus (Some k) qsize n).
  assert (Hstep : forall (kk : bool -> M matcher (list (N * double))),
     mbind (if n =? qsize then (fun m => match mp_find pair_lt (id, wid (names l) f) (mt_sizes m) with
                            | Some k => (m, Ok (n =? k)) | None => let (m', _) := set_size id (wid (names l) f) 0 m in (m', Ok (n =? 0)) end)
            else ret false) kk m = kk ((n =? qsize) && (n =? k)) m).
  { intros kk. destruct (n =? qsize); cbn [andb]; [|reflexivity]. unfold mbind. now rewrite Hms. }
  rewrite Hstep.
  destruct (IH (mp_set N.ltb id v acc) m l H Hf) as (acc' & Hr & A & C); [now apply (set_sorted nltb_order)| |exact Hn|].
  { intros d n' Hin. apply (Hsz d n'). now right. }
  exists acc'. split; [|split; [exact A|]].
  - rewrite <- Hr. unfold v, bonus. now destruct (n =? qsize), (n =? k).
  - intros d x. rewrite C. destruct (N.eq_dec d id) as [->|Hd].
    + rewrite (find_set_same nltb_order) by exact Hs. split.
      * intros [(n' & Hin & ->)|[_ [= <-]]]; left; [exists n'; split; [now right|reflexivity]|]. exists n. split; [now left|]. now rewrite Hk.
      * intros [(n' & [[= <-]|Hin] & ->)|[Hx _]].
        -- right. rewrite Hk. now split.
        -- exfalso. apply Hid. now apply (in_map fst) in Hin.
        -- exfalso. apply Hx. now left.
    + rewrite (find_set_other nltb_order) by assumption. split.
      * intros [(n' & Hin & ->)|[Hx Hy]]; [left; exists n'; split; [now right|reflexivity]|right]. split; [|exact Hy]. intros [He|He]; [cbn in He; congruence|contradiction].
      * intros [(n' & [[= He _]|Hin] & ->)|[Hx Hy]]; [congruence|left; now exists n'|right]. split; [|exact Hy]. intros He. apply Hx. now right.
Qed.

(** ** Matching learns only names *)
Definition filter_words (p : sparams) : list word := flat_map (flat_map (fun s => [fst s; snd s])) (sp_filter p).
Definition filter_ok (p : sparams) : Prop := Forall (Forall (fun s => usable (fst s) /\ usable (snd s))) (sp_filter p).
Lemma filter_subs p : filter_ok p -> Forall (Forall (sub_ok (filter_words p))) (sp_filter p).
Proof.
  unfold filter_ok, filter_words. rewrite !Forall_forall. intros H t Ht. specialize (H t Ht). rewrite Forall_forall in *. intros s Hs.
  split; [now apply H|]. split; apply in_flat_map; exists t; (split; [exact Ht|]); apply in_flat_map; exists s; (split; [exact Hs|]); cbn; auto.
Qed.
Lemma match_keeps E q p m l : MI m l -> filter_ok p -> yields E (filter_words p) (mt_match E q p) (fun _ => True) m l.
Proof.
  intros H Hp. unfold mt_match. destruct q as [|w q]; [now apply yields_ret|].
  eapply yields_bind; [apply yields_reads with (P := fun _ => True); trivial| |trivial..].
  intros r m1 n1 _ _ A1. pose proof A1 as (_ & _ & _ & _ & H1). apply loop_keeps; [now apply filter_subs|exact H1].
Qed.
Lemma online_keeps E q f m l : env_ok E -> MI m l -> Forall (Forall nonnul) q -> Forall nonnul f -> yields E [] (mt_onlineMatch E q f) (fun _ => True) m l.
Proof.
  intros HE H Hq Hf. unfold mt_onlineMatch. destruct (has_word H Hf) as [[Hin Hh]|[Hin Hh]]; apply (yields_bind_reads Hh); cbn [negb].
  2:{ eapply yields_bind; [apply yields_reads with (P := fun _ => True); trivial| |trivial..]. intros b m1 n1 _ _ (_ & _ & _ & _ & H1).
      exists m1, (Throw EInvalidArg). split; [reflexivity|]. right. split; [trivial|]. exists []. split; [apply incl_nil_l|]. now apply adds_nil. }
  assert (Hc0 : forall d, mp_find N.ltb d (@nil (N * N)) <> Some 0) by discriminate.
  destruct (counts_yield HE H Hin Hq (@ms_nil _ _ _) Hc0) as (c & Hc & C1 & C2 & C3).
  destruct (@scores_spec (wl_size q) f c [] m l H Hin (@ms_nil _ _ _)) as (acc & Ha & A1 & A2).
  { intros d n Hdn. assert (Hx : cnt c d = n) by (unfold cnt; apply (find_in nltb_order) in Hdn; [now rewrite Hdn|exact C1]).
    rewrite C3 in Hx. unfold cnt in Hx. cbn in Hx.
    assert (He : exacts (occs l) f q d <> 0).
    { apply (find_in nltb_order) in Hdn; [|exact C1]. specialize (C2 d). rewrite Hdn in C2. intros Hz. apply C2. f_equal. lia. }
    unfold exacts in He. destruct (filter (fun w => occb (occs l) d f w) q) as [|w r] eqn:Hw; [now destruct He|].
    assert (Hwi : In w (filter (fun w => occb (occs l) d f w) q)) by (rewrite Hw; now left).
    apply filter_In in Hwi as [_ Hwi]. apply occb_in, occs_in in Hwi. now apply (mi_sized H) in Hwi. }
  { now apply (sorted_nodup nltb_order). }
  assert (G : yields E [] (fuzzy <- mt_match_list E q ;; acc' <- reads (fun _ => add_fuzzy (N.to_nat (mr_size fuzzy)) 0 fuzzy acc) ;; ret (add_all acc' mr_new)) (fun _ => True) m l).
  { eapply yields_bind; [apply (@match_keeps E q sp_new); [exact H|]| |trivial..].
    - unfold filter_ok. cbn. repeat constructor.
    - intros r m1 n1 _ _ (_ & _ & _ & _ & H1). eapply yields_bind; [apply yields_reads with (P := fun _ => True); trivial| |trivial..].
      intros a m2 n2 _ _ (_ & _ & _ & _ & H2). now apply yields_ret. }
  destruct G as (m' & o & Hr & C). exists m', o. split; [|exact C].
  erewrite mbind_ok by (exact (get_known E H Hin)). erewrite mbind_ok by exact Hc. erewrite mbind_ok by exact Ha. exact Hr.
Qed.

(** ** Histories *)
Definition real_step (s : step) : bool := match s with SName _ => false | _ => true end.
Definition told_only (l : list step) : list step := filter real_step l.
Lemma told_only_names ns : told_only (map SName ns) = [].
Proof. induction ns as [|n ns IH]; [reflexivity|exact IH]. Qed.
Lemma occs_only l : occs (told_only l) = occs l.
Proof. induction l as [|s l IH]; [reflexivity|]. unfold occs, told_only in *. destruct s; cbn; now rewrite IH. Qed.
Lemma size_only l d f : forall acc, last_size (told_only l) d f acc = last_size l d f acc.
Proof. induction l as [|s l IH]; intros acc; [reflexivity|]. destruct s; cbn; apply IH. Qed.
Lemma plan_real d : Forall (fun s => real_step s = true) (plan_doc d).
Proof.
  unfold plan_doc. rewrite Forall_forall. intros s Hs. apply in_flat_map in Hs as (f & _ & Hs). destruct (doc_getText d f); [|contradiction..].
  destruct Hs as [<-|Hs]; [reflexivity|]. apply in_map_iff in Hs as (w & <- & _). reflexivity.
Qed.
Lemma told_real l : Forall (fun s => real_step s = true) l -> told_only (told l) = told l.
Proof.
  induction l as [|s l IH]; intros H; [reflexivity|]. apply Forall_cons_iff in H as [H1 H]. cbn. destruct (said s); [reflexivity|]. cbn. rewrite H1. f_equal. now apply IH.
Qed.
Definition call_words (c : m_call) : list word := match c with MMatch _ p => filter_words p | _ => [] end.
Lemma err_state c e : exists e' o, ev_do c e = (e', o).
Proof. destruct (ev_do c e) as [e' o]. now exists e', o. Qed.
(** The state after one call that does not end the run. *)
Lemma call_step E li0 c m l m' o : env_ok E -> li_new E = Ok li0 -> clean c -> MI m l -> m_do E c m = (m', o) -> fatal c o = false ->
  exists x, MI m' (l ++ x) /\ told_only x = indexed [c] /\ incl (map said (filter (fun s => negb (real_step s)) x)) (call_words c) /\
    mt_ev m' = (match c with MErr c => fst (ev_do c (mt_ev m)) | _ => mt_ev m end) /\
    mt_w m' = (match c with MWeight f x => iw_setWeight f x (mt_w m) | _ => mt_w m end).
Proof.
  intros HE Hli Hc H Hr Hf. destruct c as [c|c|f x|q p|q f]; cbn [m_do call_words indexed flat_map] in *.
  - destruct Hc as [Hd Hu]. destruct (docs_do Hli H Hd Hu) as (m1 & o1 & Hr1 & C). unfold mt_index in Hr. rewrite Hr in Hr1. injection Hr1 as <- <-.
    destruct C as [[-> _]|(S & H1 & _)]; [discriminate|]. exists (told (flat_map plan_doc c)). rewrite app_nil_r. split; [exact H1|].
    assert (Hre : Forall (fun s => real_step s = true) (flat_map plan_doc c)).
    { clear. induction c as [|d c IH]; [constructor|]. cbn. apply Forall_app. split; [apply plan_real|exact IH]. }
    split; [now apply told_real|]. split; [|destruct S; split; assumption].
    assert (Hn : filter (fun s => negb (real_step s)) (told (flat_map plan_doc c)) = []).
    { revert Hre. generalize (flat_map plan_doc c). clear. intros l H. induction l as [|s l IH]; [reflexivity|]. apply Forall_cons_iff in H as [H1 H]. cbn.
      destruct (said s); [reflexivity|]. cbn. rewrite H1. cbn. now apply IH. }
    rewrite Hn. apply incl_nil_l.
  - unfold on_ev in Hr. destruct (ev_do c (mt_ev m)) as [e' o'] eqn:He. injection Hr as <- <-. exists []. rewrite app_nil_r. split; [now apply MI_conf|].
    split; [reflexivity|]. split; [apply incl_nil_l|]. now split.
  - injection Hr as <- <-. exists []. rewrite app_nil_r. split; [now apply MI_conf|]. split; [reflexivity|]. split; [apply incl_nil_l|]. now split.
  - destruct (match_keeps E q H Hc) as (m1 & o1 & Hr1 & C). unfold mbind in Hr. rewrite Hr1 in Hr.
    assert (Hx : m' = m1 /\ (o1 = Throw ERuntime -> o = Throw ERuntime)) by (destruct o1 as [r|e| | |]; injection Hr as <- <-; split; try reflexivity; intros [=]; congruence).
    destruct Hx as [-> Hx]. destruct C as [[-> _]|(_ & ns & I1 & A)]; [rewrite Hx in Hf by reflexivity; discriminate|].
    destruct A as ([S1 S2] & _ & _ & _ & H1). exists (map SName ns). split; [exact H1|]. split; [apply told_only_names|]. split; [|now split].
    intros w Hw. apply I1. apply in_map_iff in Hw as (s & <- & Hs). apply filter_In in Hs as [Hs _]. apply in_map_iff in Hs as (n & <- & Hn). exact Hn.
  - destruct Hc as [Hq Hf']. destruct (online_keeps HE H Hq Hf') as (m1 & o1 & Hr1 & C). unfold mbind in Hr. rewrite Hr1 in Hr.
    assert (Hx : m' = m1 /\ (o1 = Throw ERuntime -> o = Throw ERuntime)) by (destruct o1 as [r|e| | |]; injection Hr as <- <-; split; try reflexivity; intros [=]; congruence).
    destruct Hx as [-> Hx]. destruct C as [[-> _]|(_ & ns & I1 & A)]; [rewrite Hx in Hf by reflexivity; discriminate|].
    destruct A as ([S1 S2] & _ & _ & _ & H1). exists (map SName ns). split; [exact H1|]. split; [apply told_only_names|]. split; [|now split].
    intros w Hw. apply I1. apply in_map_iff in Hw as (s & <- & Hs). apply filter_In in Hs as [Hs _]. apply in_map_iff in Hs as (n & <- & Hn). exact Hn.
Qed.
Record HI (calls : list m_call) (m : matcher) (l : list step) : Prop := {
  hi_mi : MI m l;
  hi_told : told_only l = indexed calls;
  hi_ev : mt_ev m = prices_after calls;
  hi_w : mt_w m = set_weights (weight_calls calls);
  hi_names : incl (map said (filter (fun s => negb (real_step s)) l)) (flat_map call_words calls)
}.
Lemma indexed_app a b : indexed (a ++ b) = indexed a ++ indexed b.
Proof. unfold indexed. apply flat_map_app. Qed.
Lemma ev_run_app a : forall b e, ev_run (a ++ b) e = ev_run b (ev_run a e).
Proof. induction a as [|c a IH]; intros b e; cbn; [reflexivity|apply IH]. Qed.
Lemma prices_snoc calls c : prices_after (calls ++ [c]) = match c with MErr c => fst (ev_do c (prices_after calls)) | _ => prices_after calls end.
Proof. unfold prices_after, ev_after. rewrite flat_map_app, ev_run_app. now destruct c. Qed.
Lemma weights_snoc calls c : set_weights (weight_calls (calls ++ [c])) = match c with MWeight f x => iw_setWeight f x (set_weights (weight_calls calls)) | _ => set_weights (weight_calls calls) end.
Proof. unfold weight_calls, set_weights. rewrite flat_map_app, fold_left_app. now destruct c. Qed.
Lemma hi_step E li0 pre c m l m' o : env_ok E -> li_new E = Ok li0 -> clean c -> HI pre m l -> m_do E c m = (m', o) -> fatal c o = false ->
  exists x, HI (pre ++ [c]) m' (l ++ x).
Proof.
  intros HE Hli Hc [H1 H2 H3 H4 H5] Hr Hf. destruct (call_step HE Hli Hc H1 Hr Hf) as (x & A & B & C & D & F). exists x. constructor.
  - exact A.
  - unfold told_only in *. rewrite filter_app, indexed_app. congruence.
  - rewrite prices_snoc, D. destruct c; congruence.
  - rewrite weights_snoc, F. destruct c; congruence.
  - rewrite filter_app, map_app, flat_map_app. apply incl_app; [now apply incl_appl|]. apply incl_appr. cbn. now rewrite app_nil_r.
Qed.
Lemma hi_run E li0 : env_ok E -> li_new E = Ok li0 -> forall calls pre m l m', Forall clean calls -> HI pre m l -> m_run E calls m = (m', Ok tt) ->
  exists x, HI (pre ++ calls) m' (l ++ x).
Proof.
  intros HE Hli. induction calls as [|c calls IH]; intros pre m l m' Hc H Hr.
  { injection Hr as <-. exists []. now rewrite !app_nil_r. }
  apply Forall_cons_iff in Hc as [Hc1 Hc]. cbn [m_run] in Hr. destruct (m_do E c m) as [m1 o] eqn:Hd. destruct (fatal c o) eqn:Hf.
  { injection Hr as <- ->. discriminate. }
  destruct (hi_step HE Hli Hc1 H Hd Hf) as (x & H1). destruct (IH _ _ _ _ Hc H1 Hr) as (y & Hl). exists (x ++ y). now rewrite <- !app_assoc in Hl.
Qed.
Lemma hi_new E m0 : mt_new E = Ok m0 -> HI [] m0 [] /\ exists li0, li_new E = Ok li0.
Proof.
  unfold mt_new. destruct (ws_new E) as [s| | | |] eqn:Hs; cbn [obind]; try discriminate. intros [= <-]. split.
  - constructor; try reflexivity; [|apply incl_nil_l]. destruct (WS_new Hs) as [ids S].
    constructor; cbn; try discriminate; try (now constructor); try (now intros; contradiction).
    + now exists [], ids.
    + split; [constructor|discriminate].
    + intros wi fi d. split; [discriminate|intros (f & w & [] & _)].
  - unfold ws_new in Hs. unfold li_new. destruct (trie_new E) as [t| | | |]; cbn [obind] in *; try discriminate. now eexists.
Qed.
Lemma history_HI E calls m : env_ok E -> Forall clean calls -> history E calls m -> exists l, HI calls m l.
Proof.
  intros HE Hc (m0 & H0 & Hr). destruct (hi_new H0) as [H [li0 Hli]]. apply (hi_run HE Hli Hc H) in Hr as [x Hx]. now exists x.
Qed.
Lemma hi_occ calls m l : HI calls m l -> occs l = occ calls.
Proof. intros H. unfold occ. now rewrite <- (hi_told H), occs_only. Qed.
Lemma hi_size calls m l d f : HI calls m l -> last_size l d f None = last_size (indexed calls) d f None.
Proof. intros H. now rewrite <- (hi_told H), size_only. Qed.
Lemma hi_plain calls m l : HI calls m l -> flat_map call_words calls = [] -> l = indexed calls.
Proof.
  intros H Hp. rewrite <- (hi_told H). pose proof (hi_names H) as Hn. rewrite Hp in Hn. clear - Hn. unfold told_only.
  induction l as [|s l IH]; [reflexivity|]. cbn in *. destruct (real_step s); cbn in *; [f_equal; now apply IH|]. exfalso. apply (Hn (said s)). now left.
Qed.
