(** Matcher out of memory: the code that may run out of memory against MatcherM. *)
From Verif Require Import Base TrieM WordStoreM ErrorValuesM LevIndexM WordM MapM DoubleM ContM MatcherM MapP Spec_Match MatchP FailM.
Local Open Scope N_scope.
Local Open Scope f_scope.

(** ** Maps *)
Lemma set_set {K V} (lt : K -> K -> bool) (Ho : order_ok lt) k (a b : V) m : mp_set lt k a (mp_set lt k b m) = mp_set lt k a m.
Proof.
  assert (Hk : lt k k = false) by (destruct (lt_cases Ho k k) as [[H1 H2]|[[H1 H2]|(_ & H1 & _)]]; congruence).
  induction m as [|[j v] m IH]; cbn.
  - now rewrite Hk.
  - destruct (lt k j) eqn:H1; cbn; [now rewrite Hk|]. destruct (lt j k) eqn:H2; cbn; rewrite ?H1, ?H2; [now rewrite IH|reflexivity].
Qed.
Lemma set_id {K V} (lt : K -> K -> bool) (Ho : order_ok lt) k (v : V) m : mp_find lt k m = Some v -> mp_set lt k v m = m.
Proof.
  induction m as [|[j u] m IH]; cbn; [discriminate|]. destruct (lt k j) eqn:H1; [discriminate|]. destruct (lt j k) eqn:H2; intros H; [now rewrite IH|].
  destruct (lt_cases Ho k j) as [[H3 _]|[[_ H3]|(-> & _)]]; congruence.
Qed.

(** ** Reading *)
Lemma val_eq {A} (a : A) s : val a s = (s, Val a). Proof. reflexivity. Qed.
Lemma fbind_val {A B} (x : F A) (k : A -> F B) s s1 a : x s = (s1, Val a) -> fbind x k s = k a s1.
Proof. intros H. unfold fbind. now rewrite H. Qed.
Lemma fbind_out {A B} (x : F A) (k : A -> F B) s s1 : x s = (s1, Out) -> fbind x k s = (s1, Out).
Proof. intros H. unfold fbind. now rewrite H. Qed.
Lemma fbind_thrown {A B} (x : F A) (k : A -> F B) s s1 e : x s = (s1, Thrown e) -> fbind x k s = (s1, Thrown e).
Proof. intros H. unfold fbind. now rewrite H. Qed.
Lemma on_m_eq {A} (x : M matcher A) s m' o : x (f_m s) = (m', o) -> on_m x s = (mkF m' (f_plan s) (f_failed s), as_res o).
Proof. intros H. unfold on_m. now rewrite H. Qed.
Lemma on_m_ok {A} (x : M matcher A) s m' a : x (f_m s) = (m', Ok a) -> on_m x s = (mkF m' (f_plan s) (f_failed s), Val a).
Proof. intros H. unfold on_m. now rewrite H. Qed.
Lemma on_m_reads {A} (f : matcher -> outcome A) s : on_m (reads f) s = (s, as_res (f (f_m s))).
Proof. unfold on_m, reads. now destruct s. Qed.
Lemma fbind_reads {A B} (f : matcher -> outcome A) (k : A -> F B) s a : f (f_m s) = Ok a -> fbind (on_m (reads f)) k s = k a s.
Proof. intros H. erewrite fbind_val; [reflexivity|]. rewrite on_m_reads, H. reflexivity. Qed.
Lemma need_cases p s : (exists s', need p s = (s', Val tt) /\ f_m s' = f_m s /\ f_failed s' = f_failed s) \/
  (exists s', need p s = (s', Out) /\ f_m s' = f_m s /\ f_failed s' = f_failed s ++ [p]).
Proof. unfold need. destruct (f_plan s) as [|[] r]; [left|left|right]; eexists; (split; [reflexivity|now split]). Qed.
Lemma need_if_cases p b s : (exists s', need_if p b s = (s', Val tt) /\ f_m s' = f_m s /\ f_failed s' = f_failed s) \/
  (exists s', need_if p b s = (s', Out) /\ f_m s' = f_m s /\ f_failed s' = f_failed s ++ [p]).
Proof. unfold need_if. destruct (b (f_m s)); [apply need_cases|]. left. exists s. now split. Qed.

(** ** Failures are never forgotten *)
Definition mono {A} (x : F A) : Prop := forall s s' o, x s = (s', o) -> exists t, f_failed s' = f_failed s ++ t.
Lemma mono_val {A} (a : A) : mono (val a).
Proof. intros s s' o [= <- <-]. exists []. now rewrite app_nil_r. Qed.
Lemma mono_on {A} (x : M matcher A) : mono (on_m x).
Proof. intros s s' o H. unfold on_m in H. destruct (x (f_m s)) as [m' q]. injection H as <- <-. exists []. cbn. now rewrite app_nil_r. Qed.
Lemma mono_need p : mono (need p).
Proof. intros s s' o H. destruct (need_cases p s) as [(s1 & E & _ & F1)|(s1 & E & _ & F1)]; rewrite E in H; injection H as <- <-; rewrite F1; [exists []; now rewrite app_nil_r|now exists [p]]. Qed.
Lemma mono_need_if p b : mono (need_if p b).
Proof. intros s s' o H. destruct (need_if_cases p b s) as [(s1 & E & _ & F1)|(s1 & E & _ & F1)]; rewrite E in H; injection H as <- <-; rewrite F1; [exists []; now rewrite app_nil_r|now exists [p]]. Qed.
Lemma mono_bind {A B} (x : F A) (k : A -> F B) : mono x -> (forall a, mono (k a)) -> mono (fbind x k).
Proof.
  intros Hx Hk s s' o H. unfold fbind in H. destruct (x s) as [s1 r] eqn:E. destruct (Hx _ _ _ E) as [t Ht].
  destruct r as [a| |e| | |]; [|injection H as <- <-; now exists t..]. destruct (Hk _ _ _ _ H) as [u Hu]. exists (t ++ u). now rewrite Hu, Ht, app_assoc.
Qed.
Create HintDb mono.
Ltac mono := repeat first [apply mono_bind; [|intros] | apply mono_val | apply mono_on | apply mono_need | apply mono_need_if | progress cbv zeta | match goal with |- mono (if ?b then _ else _) => destruct b | |- mono (let (_, _) := ?p in _) => destruct p end | solve [auto with mono]].
Lemma mono_getID E w : mono (f_getID E w).
Proof. unfold f_getID. mono. Qed.
#[global] Hint Resolve mono_getID : mono.
Lemma mono_insert E w i j : mono (f_insertWord E w i j).
Proof. unfold f_insertWord. mono. Qed.
#[global] Hint Resolve mono_insert : mono.
Lemma mono_addTo E w i j : mono (f_addToIndex E w i j).
Proof. unfold f_addToIndex. mono. Qed.
#[global] Hint Resolve mono_addTo : mono.
Lemma mono_add w i d : mono (f_add w i d).
Proof. unfold f_add. mono. Qed.
#[global] Hint Resolve mono_add : mono.
Lemma mono_words E d f ws : mono (f_words E d f ws).
Proof. induction ws as [|w ws IH]; cbn [f_words]; mono. Qed.
#[global] Hint Resolve mono_words : mono.
Lemma mono_fields E d fs : mono (f_fields E d fs).
Proof. induction fs as [|f fs IH]; cbn [f_fields]; mono. Qed.
#[global] Hint Resolve mono_fields : mono.
Lemma mono_index E c : mono (f_index E c).
Proof. induction c as [|d c IH]; cbn [f_index]; mono. Qed.
#[global] Hint Resolve mono_index : mono.
Lemma mono_both E v f : mono (f_both_ids E v f).
Proof. unfold f_both_ids. mono. Qed.
#[global] Hint Resolve mono_both : mono.
Lemma mono_subs E fl t id n : forall sub, mono (f_subtermsMatch E fl t id n sub).
Proof. induction n as [|n IH]; intros sub; cbn [f_subtermsMatch]; mono. Qed.
#[global] Hint Resolve mono_subs : mono.
Lemma mono_terms E fl id n : forall t, mono (f_termsMatch E fl id n t).
Proof. induction n as [|n IH]; intros t; cbn [f_termsMatch]; mono. Qed.
#[global] Hint Resolve mono_terms : mono.
Lemma mono_loop E fl n : forall i all mt, mono (f_filter_loop E fl n i all mt).
Proof. induction n as [|n IH]; intros i all mt; cbn [f_filter_loop]; mono. Qed.
#[global] Hint Resolve mono_loop : mono.
Lemma mono_match E q p : mono (f_match E q p).
Proof. unfold f_match. apply mono_bind; [mono|intros]. destruct q; mono. Qed.
#[global] Hint Resolve mono_match : mono.
Lemma mono_counts E q i : forall c, mono (f_countExacts E q i c).
Proof. induction q as [|w q IH]; intros c; cbn [f_countExacts]; mono. Qed.
#[global] Hint Resolve mono_counts : mono.
Lemma mono_scores n i st : forall acc, mono (f_exact_scores n i st acc).
Proof. induction st as [|[d k] st IH]; intros acc; cbn [f_exact_scores]; mono. Qed.
#[global] Hint Resolve mono_scores : mono.
Lemma mono_online E q f : mono (f_onlineMatch E q f).
Proof. unfold f_onlineMatch. mono. Qed.
#[global] Hint Resolve mono_online : mono.
Lemma mono_weight w x : mono (f_setWeight w x).
Proof. unfold f_setWeight. mono. Qed.
#[global] Hint Resolve mono_weight : mono.

(** ** Without a failure all is as in MatcherM *)
Definition er {A} (c : F A) (p : M matcher A) : Prop :=
  forall s, exists s' o, c s = (s', o) /\ (o = Out \/ exists po, p (f_m s) = (f_m s', po) /\ o = as_res po).
Lemma er_val {A} (a : A) : er (val a) (ret a).
Proof. intros s. exists s, (Val a). split; [reflexivity|]. right. now exists (Ok a). Qed.
Lemma er_on {A} (x : M matcher A) : er (on_m x) x.
Proof. intros s. unfold on_m. destruct (x (f_m s)) as [m' o] eqn:E. eexists _, _. split; [reflexivity|]. right. now exists o. Qed.
Lemma er_bind {A B} (c : F A) (p : M matcher A) (k : A -> F B) (h : A -> M matcher B) : er c p -> (forall a, er (k a) (h a)) -> er (fbind c k) (mbind p h).
Proof.
  intros Hc Hk s. destruct (Hc s) as (s1 & o & E & C). unfold fbind, mbind. rewrite E. destruct C as [->|(po & P & ->)].
  { exists s1, Out. split; [reflexivity|now left]. }
  rewrite P. destruct po as [a|e| | |]; cbn [as_res]; [apply Hk|eexists _, _; (split; [reflexivity|]); right; eexists; split; reflexivity..].
Qed.
Lemma er_need {B} p (k : F B) (h : M matcher B) : er k h -> er (need p ;;; k) h.
Proof.
  intros Hk s. destruct (need_cases p s) as [(s1 & E & Em & _)|(s1 & E & _ & _)].
  - rewrite (fbind_val _ E). rewrite <- Em. apply Hk.
  - rewrite (fbind_out _ E). exists s1, Out. split; [reflexivity|now left].
Qed.
Lemma er_need_if {B} p b (k : F B) (h : M matcher B) : er k h -> er (need_if p b ;;; k) h.
Proof.
  intros Hk s. destruct (need_if_cases p b s) as [(s1 & E & Em & _)|(s1 & E & _ & _)].
  - rewrite (fbind_val _ E). rewrite <- Em. apply Hk.
  - rewrite (fbind_out _ E). exists s1, Out. split; [reflexivity|now left].
Qed.

(** getID: either memory ran out where it hurts, or all is as before. *)
Lemma getID_sim E w s : (exists s', f_getID E w s = (s', Out) /\ In AtWordIndex (f_failed s')) \/
  (exists s' o, f_getID E w s = (s', as_res o) /\ on_store (ws_getID E w) (f_m s) = (f_m s', o) /\ f_failed s' = f_failed s).
Proof.
  unfold f_getID. destruct (ws_hasWord (mt_store (f_m s)) w) as [b|e| | |] eqn:Hh.
  2-5: right; eexists s, _; unfold fbind; rewrite on_m_reads, Hh; cbn [as_res]; (split; [match goal with |- (_, ?x) = (_, as_res ?o) => instantiate (1 := ltac:(match x with Thrown ?e => exact (Throw e) | Aborted => exact Abort | Undefined => exact UB | NoFuel => exact Fuel end)) end; reflexivity|]);
    (split; [|reflexivity]); unfold on_store, ws_getID, mbind, reads; unfold ws_hasWord in Hh; rewrite Hh; now destruct (f_m s) as [? ? ? ? ? [? ?] ?].
  erewrite fbind_reads by exact Hh. destruct b.
  - right. destruct (on_store (ws_getID E w) (f_m s)) as [m' o] eqn:Hs. exists (mkF m' (f_plan s) (f_failed s)), o. rewrite (on_m_eq Hs). now repeat split.
  - erewrite fbind_reads by reflexivity.
    set (n := u32 _). destruct (on_store (on_trie (insertWord E w n)) (f_m s)) as [m1 o] eqn:Hi.
    assert (Hw : ws_getID E w (mt_store (f_m s)) = mbind (on_trie (insertWord E w n)) (fun node => mbind (fun s0 => (mkWS (ws_trie s0) (ws_index s0 ++ [node]), Ok tt)) (fun _ => reads (fun s0 => Ok (u32 (N.of_nat (length (ws_index s0)) - 1))))) (mt_store (f_m s))).
    { unfold ws_getID. unfold ws_hasWord in Hh. unfold mbind at 1, reads at 1. rewrite Hh. reflexivity. }
    unfold on_store in Hi. destruct (on_trie (insertWord E w n) (mt_store (f_m s))) as [st1 o1] eqn:Ht. injection Hi as <- <-.
    destruct o1 as [node|e| | |].
    2:{ right. eexists _, (Throw e). unfold fbind, on_m, on_store. rewrite Ht. split; [reflexivity|]. split; [|reflexivity]. rewrite Hw. unfold mbind. rewrite Ht. reflexivity. }
    2:{ right. eexists _, Abort. unfold fbind, on_m, on_store. rewrite Ht. split; [reflexivity|]. split; [|reflexivity]. rewrite Hw. unfold mbind. rewrite Ht. reflexivity. }
    2:{ right. eexists _, UB. unfold fbind, on_m, on_store. rewrite Ht. split; [reflexivity|]. split; [|reflexivity]. rewrite Hw. unfold mbind. rewrite Ht. reflexivity. }
    2:{ right. eexists _, Fuel. unfold fbind, on_m, on_store. rewrite Ht. split; [reflexivity|]. split; [|reflexivity]. rewrite Hw. unfold mbind. rewrite Ht. reflexivity. }
    erewrite fbind_val by (apply on_m_ok; unfold on_store; rewrite Ht; reflexivity).
    match goal with |- context [fbind (need AtWordIndex) _ ?s0] => destruct (need_cases AtWordIndex s0) as [(s2 & E2 & Em & Ef)|(s2 & E2 & _ & Ef)] end.
    + right. rewrite (fbind_val _ E2). cbn [f_m f_failed] in *. eexists _, (Ok _). split; [|split].
      * erewrite fbind_val by (apply on_m_ok; reflexivity). rewrite on_m_reads. cbn [as_res f_m]. reflexivity.
      * unfold on_store. rewrite Hw. unfold mbind at 1. rewrite Ht. cbn [f_m]. rewrite Em. cbn. reflexivity.
      * cbn. exact Ef.
    + left. rewrite (fbind_out _ E2). exists s2. split; [reflexivity|]. rewrite Ef. apply in_app_iff. right. now left.
Qed.
Lemma er_getID E w : er (f_getID E w) (on_store (ws_getID E w)).
Proof.
  intros s. destruct (getID_sim E w s) as [(s' & R & _)|(s' & o & R & P & _)]; eexists _, _; (split; [exact R|]); [now left|right]. now exists o.
Qed.
Lemma set_idx_id m fi li : mp_find N.ltb fi (mt_idx m) = Some li -> set_idx fi li m = m.
Proof. intros H. unfold set_idx. rewrite (set_id nltb_order H). now destruct m. Qed.
Lemma set_idx_set m fi a b : set_idx fi a (set_idx fi b m) = set_idx fi a m.
Proof. unfold set_idx. cbn. now rewrite (set_set nltb_order). Qed.
Lemma find_set_any {A} k (v : A) m : mp_find N.ltb k (mp_set N.ltb k v m) = Some v.
Proof.
  induction m as [|[j u] m IH]; cbn; [now rewrite N.ltb_irrefl|]. destruct (k <? j) eqn:H1; cbn; [now rewrite N.ltb_irrefl|].
  destruct (j <? k) eqn:H2; cbn; rewrite H1, H2; [exact IH|reflexivity].
Qed.
Lemma find_idx m fi a : mp_find N.ltb fi (mt_idx (set_idx fi a m)) = Some a.
Proof. apply find_set_any. Qed.
Lemma insert_sim E w wi fi s li : length w <> 0%nat -> mp_find N.ltb fi (mt_idx (f_m s)) = Some li ->
  (exists s', f_insertWord E w wi fi s = (s', Out) /\ In AtCounts (f_failed s')) \/
  (exists s' o, f_insertWord E w wi fi s = (s', as_res o) /\ (let (li', o') := li_insertWord E w wi li in (set_idx fi li' (f_m s), o')) = (f_m s', o) /\ f_failed s' = f_failed s).
Proof.
  intros Hw Hf. unfold f_insertWord, li_insertWord. destruct (Nat.eqb_spec (length w) 0) as [|_]; [contradiction|].
  erewrite fbind_val.
  2:{ apply on_m_ok. unfold on_index. rewrite Hf. unfold reads. rewrite (set_idx_id Hf). reflexivity. }
  set (nc := match counts_find (li_counts li) wi with Some c => c + 1 | None => 1 end).
  unfold mbind at 1, reads at 1. fold nc. destruct s as [m pl fl]. cbn [f_m f_plan f_failed] in *.
  destruct (on_li_trie (insertWord E w wi) li) as [li1 o1] eqn:Hi.
  assert (Ht : on_index fi (on_li_trie (insertWord E w wi)) m = (set_idx fi li1 m, o1)) by (unfold on_index; now rewrite Hf, Hi).
  destruct o1 as [node|e| | |].
  2:{ right. eexists _, (Throw e). unfold fbind, on_m, mbind. cbn [f_m]. rewrite Ht, Hi. split; [reflexivity|]. now split. }
  2:{ right. eexists _, Abort. unfold fbind, on_m, mbind. cbn [f_m]. rewrite Ht, Hi. split; [reflexivity|]. now split. }
  2:{ right. eexists _, UB. unfold fbind, on_m, mbind. cbn [f_m]. rewrite Ht, Hi. split; [reflexivity|]. now split. }
  2:{ right. eexists _, Fuel. unfold fbind, on_m, mbind. cbn [f_m]. rewrite Ht, Hi. split; [reflexivity|]. now split. }
  erewrite fbind_val by (apply on_m_ok; exact Ht). cbn [f_plan f_failed].
  match goal with |- context [fbind (need_if AtCounts ?b) _ ?s0] => destruct (need_if_cases AtCounts b s0) as [(s2 & E2 & Em & Ef)|(s2 & E2 & _ & Ef)] end.
  - right. cbn [f_m f_failed] in *. rewrite (fbind_val _ E2). eexists _, (Ok tt). split; [apply on_m_ok; unfold on_index; rewrite Em; cbn; rewrite find_set_any; reflexivity|].
    unfold mbind. rewrite Hi. cbn [f_m f_failed]. change (mkMt (mp_set N.ltb fi li1 (mt_idx m)) (mt_rev m) (mt_ev m) (mt_w m) (mt_stats m) (mt_store m) (mt_sizes m)) with (set_idx fi li1 m). rewrite set_idx_set. now split.
  - left. rewrite (fbind_out _ E2). exists s2. split; [reflexivity|]. rewrite Ef. apply in_app_iff. right. now left.
Qed.
Lemma addTo_sim E w wi fi s : length w <> 0%nat ->
  (exists s', f_addToIndex E w wi fi s = (s', Out) /\ (In AtCounts (f_failed s') \/ f_m s' = f_m s)) \/
  (exists s' o, f_addToIndex E w wi fi s = (s', as_res o) /\ addToIndex E w wi fi (f_m s) = (f_m s', o) /\ f_failed s' = f_failed s).
Proof.
  intros Hw. unfold f_addToIndex, addToIndex. erewrite fbind_reads by reflexivity.
  destruct (mp_find N.ltb fi (mt_idx (f_m s))) as [li|] eqn:Hf.
  - rewrite (fbind_val _ (val_eq tt s)). destruct (@insert_sim E w wi fi s li Hw Hf) as [(s' & R & B)|(s' & o & R & P & Q)]; [left; exists s'; split; [exact R|now left]|right].
    exists s', o. split; [exact R|]. split; [exact P|exact Q].
  - destruct (need_cases AtNewIndex s) as [(s1 & E1 & M1 & F1)|(s1 & E1 & M1 & F1)].
    2:{ left. exists s1. split; [unfold fbind; now rewrite E1|]. now right. }
    assert (Hx : exists r, li_new E = r) by (eexists; reflexivity). destruct Hx as [[t|e| | |] Hn].
    2:{ right. exists s1, (Throw e). split; [unfold fbind at 1; rewrite (fbind_val _ E1); unfold fbind; rewrite on_m_reads, Hn; reflexivity|]. now rewrite Hn, M1, F1. }
    2:{ right. exists s1, Abort. split; [unfold fbind at 1; rewrite (fbind_val _ E1); unfold fbind; rewrite on_m_reads, Hn; reflexivity|]. now rewrite Hn, M1, F1. }
    2:{ right. exists s1, UB. split; [unfold fbind at 1; rewrite (fbind_val _ E1); unfold fbind; rewrite on_m_reads, Hn; reflexivity|]. now rewrite Hn, M1, F1. }
    2:{ right. exists s1, Fuel. split; [unfold fbind at 1; rewrite (fbind_val _ E1); unfold fbind; rewrite on_m_reads, Hn; reflexivity|]. now rewrite Hn, M1, F1. }
    destruct (need_cases AtIndexes s1) as [(s2 & E2 & M2 & F2)|(s2 & E2 & M2 & F2)].
    2:{ left. exists s2. split; [unfold fbind at 1; rewrite (fbind_val _ E1); erewrite fbind_reads by exact Hn; rewrite (fbind_out _ E2); reflexivity|]. right. congruence. }
    set (s3 := mkF (set_idx fi t (f_m s2)) (f_plan s2) (f_failed s2)).
    assert (E3 : (need AtNewIndex ;;; target <- on_m (reads (fun _ => li_new E)) ;; need AtIndexes ;;; on_m (fun m => (set_idx fi target m, Ok tt))) s = (s3, Val tt)).
    { rewrite (fbind_val _ E1). erewrite fbind_reads by exact Hn. rewrite (fbind_val _ E2). reflexivity. }
    rewrite (fbind_val _ E3).
    destruct (@insert_sim E w wi fi s3 t Hw) as [(s' & R & B)|(s' & o & R & P & Q)].
    { apply find_idx. }
    + left. exists s'. split; [exact R|now left].
    + right. exists s', o. split; [exact R|]. split; [|rewrite Q; cbn; congruence]. rewrite Hn, <- P. cbn [s3 f_m]. destruct (li_insertWord E w wi t) as [li' o']. rewrite set_idx_set. now rewrite M2, M1.
Qed.
(** ReverseIndex::add *)
Definition emptied (wi fi : N) (m m' : matcher) : Prop := m' = m \/ (mp_find pair_lt (fi, wi) (mt_rev m) = None /\ m' = fst (set_rev (mp_set pair_lt (fi, wi) []) m)).
Lemma add_sim wi fi d s : (exists s', f_add wi fi d s = (s', Out) /\ emptied wi fi (f_m s) (f_m s')) \/
  (exists s', f_add wi fi d s = (s', Val tt) /\ f_m s' = fst (set_rev (rev_add wi fi d) (f_m s)) /\ f_failed s' = f_failed s).
Proof.
  unfold f_add. erewrite fbind_reads by reflexivity. destruct (need_cases AtReverse s) as [(s1 & E1 & M1 & F1)|(s1 & E1 & M1 & F1)].
  2:{ left. rewrite (fbind_out _ E1). exists s1. split; [reflexivity|now left]. }
  rewrite (fbind_val _ E1). destruct (mp_find pair_lt (fi, wi) (mt_rev (f_m s))) as [ds|] eqn:Hf.
  - right. rewrite (fbind_val _ (val_eq tt s1)). eexists. split; [reflexivity|]. cbn. now rewrite M1.
  - set (s2 := mkF (fst (set_rev (mp_set pair_lt (fi, wi) []) (f_m s1))) (f_plan s1) (f_failed s1)).
    destruct (need_cases AtReverse s2) as [(s3 & E3 & M3 & F3)|(s3 & E3 & M3 & F3)].
    + right. erewrite fbind_val by (erewrite fbind_val by reflexivity; exact E3). eexists. split; [reflexivity|]. cbn [f_m f_failed]. rewrite M3, F3. cbn [s2 f_m f_failed set_rev fst mt_idx mt_rev mt_ev mt_w mt_stats mt_store mt_sizes]. rewrite M1. split; [|exact F1].
      f_equal. unfold rev_add. rewrite Hf.
      assert (Hg : mp_find (V := docset) pair_lt (fi, wi) (mp_set (V := docset) pair_lt (fi, wi) [] (mt_rev (f_m s))) = Some []).
      { generalize (mt_rev (f_m s)). intros r. induction r as [|[j v] r IH]; cbn.
        - destruct (lt_cases pair_order (fi, wi) (fi, wi)) as [[H1 H2]|[[H1 H2]|(_ & H1 & _)]]; [congruence|congruence|now rewrite H1].
        - destruct (pair_lt (fi, wi) j) eqn:H1; cbn; [destruct (lt_cases pair_order (fi, wi) (fi, wi)) as [[H3 H4]|[[H3 H4]|(_ & H3 & _)]]; [congruence|congruence|now rewrite H3]|].
          destruct (pair_lt j (fi, wi)) eqn:H2; cbn; rewrite H1, H2; [exact IH|reflexivity]. }
      match goal with |- match ?x with _ => _ end = _ => assert (Hg' : x = Some []) by exact Hg; rewrite Hg' end. apply (set_set pair_order).
    + left. erewrite fbind_out by (erewrite fbind_val by reflexivity; exact E3). exists s3. split; [reflexivity|]. right. rewrite <- M1. split; [now rewrite M1|exact M3].
Qed.

(** Searches *)
Ltac ers := repeat first [apply er_need | apply er_need_if | apply er_bind; [|intros] | apply er_val | apply er_on | apply er_getID | match goal with |- er (if ?b then _ else _) _ => destruct b | |- er (let (_, _) := ?p in _) _ => destruct p end].
Lemma er_both E v f : er (f_both_ids E v f) (both_ids E v f).
Proof. unfold f_both_ids, both_ids. ers. Qed.
Lemma er_subs E fl t id n : forall sub, er (f_subtermsMatch E fl t id n sub) (subtermsMatch E fl t id n sub).
Proof. induction n as [|n IH]; intros sub; cbn [f_subtermsMatch subtermsMatch]; ers; [apply er_both|apply IH]. Qed.
Lemma er_terms E fl id n : forall t, er (f_termsMatch E fl id n t) (termsMatch E fl id n t).
Proof. induction n as [|n IH]; intros t; cbn [f_termsMatch termsMatch]; ers; [apply er_subs|apply IH]. Qed.
Lemma er_loop E fl n : forall i all mt, er (f_filter_loop E fl n i all mt) (filter_loop E fl n i all mt).
Proof.
  induction n as [|n IH]; intros i all mt; cbn [f_filter_loop filter_loop]; [ers|]. destruct (mr_getDocumentID i all) as [all' o]. ers; [apply er_terms| |apply IH].
  destruct (mr_copyResult all' i mt) as [mt' o']. ers. apply IH.
Qed.
Lemma er_match E q p : er (f_match E q p) (mt_match E q p).
Proof. unfold f_match, mt_match. apply er_need. destruct q; ers. apply er_loop. Qed.
Lemma er_counts E q i : forall c, er (f_countExacts E q i c) (countExacts E q i c).
Proof. induction q as [|w q IH]; intros c; cbn [f_countExacts countExacts]; ers; apply IH. Qed.
Lemma er_scores n i st : forall acc, er (f_exact_scores n i st acc) (exact_scores n i st acc).
Proof. induction st as [|[d k] st IH]; intros acc; cbn [f_exact_scores exact_scores]; ers. apply IH. Qed.
Lemma er_online E q f : er (f_onlineMatch E q f) (mt_onlineMatch E q f).
Proof. unfold f_onlineMatch, mt_onlineMatch. ers; first [apply er_counts|apply er_scores|apply er_loop]. Qed.
