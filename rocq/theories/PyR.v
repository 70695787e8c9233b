(** What a Python statement may change, and what holds in every program. *)
From Verif Require Import Base TrieM WordStoreM ErrorValuesM LevIndexM WordM MapM DoubleM ContM MatcherM DataFileM PyM
  Spec_Hist Spec_EV Spec_Word Spec_Cont Spec_Match Spec_File Spec_Py MapP DataP PyP PyQ.
From Coq Require Import ZifyBool ZifyN ZifyNat.
Local Open Scope N_scope.
Local Open Scope m_scope.

(** ** Functions of the state *)
Lemma holds_eq s n o o' : holds s n o -> holds s n o' -> o = o'.
Proof. unfold holds. congruence. Qed.
Lemma holds_refers s n o p w : holds s n o -> refers s n p w -> False.
Proof. unfold holds, refers. congruence. Qed.
Lemma word_eq s k a b : word_var s k a -> word_var s k b -> a = b.
Proof. intros Ha Hb. apply word_ok in Ha, Hb. congruence. Qed.
Lemma calls_eq E c s n a b : py_calls E c s n a -> py_calls E c s n b -> a = b.
Proof.
  destruct c; cbn [py_calls]; try contradiction.
  - intros (m1 & c1 & _ & _ & [_ H1] & ->) (m2 & c2 & _ & _ & [_ H2] & ->). pose proof (holds_eq H1 H2). congruence.
  - destruct s0; try contradiction. intros (m1 & r1 & q1 & _ & _ & H1 & Hq1 & ->) (m2 & r2 & q2 & _ & _ & H2 & Hq2 & ->). apply nul_unique in H1, H2. congruence.
  - intros (? & ? & _ & _ & _ & ->) (? & ? & _ & _ & _ & ->). reflexivity.
  - intros (? & ? & _ & _ & _ & ->) (? & ? & _ & _ & _ & ->). reflexivity.
  - intros (? & ? & _ & _ & _ & _ & ->) (? & ? & _ & _ & _ & _ & ->). reflexivity.
  - intros (? & ? & _ & _ & _ & ->) (? & ? & _ & _ & _ & ->). reflexivity.
  - intros (? & ? & f1 & _ & _ & _ & H1 & ->) (? & ? & f2 & _ & _ & _ & H2 & ->). pose proof (word_eq H1 H2). congruence.
Qed.

(** ** Effects *)
(** No document or list changes. *)
Definition plain (o o' : obj) : Prop :=
  match o, o' with
  | OCorpus _, OCorpus _ | OResults _, OResults _ | OErrors _, OErrors _ | OWeights _, OWeights _ => True
  | _, _ => o' = o
  end.
(** Only the list [l] of the object changes. *)
Inductive edits (n : nat) : l_place -> obj -> obj -> Prop :=
| edit_list ws ws' : edits n (LVal n) (OList ws) (OList ws')
| edit_doc d d' f ws : (forall g, g <> f -> doc_getText d' g = doc_getText d g) -> doc_getText d' f = Ok ws -> edits n (LText n f) (ODoc d) (ODoc d').
(** A new object is all right. *)
Inductive list_obj (s : py_state) (w : nat) : l_place -> Prop :=
| lo_own ws : holds s w (OList ws) -> list_obj s w (LVal w)
| lo_text n f v : refers s w (AtText n f) v -> list_obj s w (LText n f).
Definition points_well (s : py_state) (p : place) (w : nat) : Prop :=
  match p with
  | AtWord l i v => list_obj s w l
  | AtText n f => w = n /\ exists d t, holds s n (ODoc d) /\ doc_getText d f = Ok t
  | AtErrors n | AtWeights n => w = n /\ exists m, holds s n (OMatcher m)
  end.
Definition obj_fine (o : obj) : Prop :=
  match o with ODoc d => doc_ok d | OCorpus c => Forall doc_ok c | _ => True end.
Definition all_fine (s : py_state) : Prop := forall n o, holds s n o -> obj_fine o.
Definition fits (E : env) (s : py_state) (x : py_obj) : Prop :=
  match x with
  | Holds (OMatcher m) => mt_new E = Ok m
  | Holds o => obj_fine o
  | Points p w => (w < length (py_objs s))%nat /\ points_well s p w
  end.
Inductive eff (E : env) (c : py_call) (s : py_state) : py_state -> Prop :=
| eff_same : (forall n mc, ~ py_calls E c s n mc) -> eff E c s s
| eff_plus x : (forall n mc, ~ py_calls E c s n mc) -> fits E s x -> eff E c s (plus s x)
| eff_set n o o' : (forall n mc, ~ py_calls E c s n mc) -> holds s n o -> plain o o' -> obj_fine o' -> eff E c s (now_holds n o' s)
| eff_list l n o o' b : (forall n mc, ~ py_calls E c s n mc) -> changes_list s c l -> holds s n o -> edits n l o o' -> obj_fine o' -> eff E c s (moved_if b l (now_holds n o' s))
| eff_matcher n m mc : holds s n (OMatcher m) -> py_calls E c s n mc -> (forall k mc', py_calls E c s k mc' -> k = n) ->
    eff E c s (now_holds n (OMatcher (fst (m_do E mc m))) s)
| eff_match n m mc r : holds s n (OMatcher m) -> py_calls E c s n mc -> (forall k mc', py_calls E c s k mc' -> k = n) ->
    eff E c s (plus (now_holds n (OMatcher (fst (m_do E mc m))) s) (Holds (OResults r)))
| eff_del k : c = del k -> bound s k -> eff E c s (release (S k) k (mkPy (py_objs s) (upd k false (py_bound s)) (py_moves s))).

(** ** Every statement has one of these effects *)
Lemma reading_inv A s (m : P A) g b u s' r : reading s m g b u -> m s = (s', Ok r) -> s' = s /\ match r with inl a => g a | inr x => b x end.
Proof.
  intros (o & Hm & H) Hr. rewrite Hr in Hm. injection Hm as -> <-. split; [reflexivity|]. destruct H as [(a & [= ->] & Ha)|[(x & [= ->] & Hx)|[H _]]]; [exact Ha|exact Hx|discriminate H].
Qed.
Lemma str_reading s t : reading s (str_arg t) (fun r => exists x, t = Utf8 x /\ before_nul x r) (fun _ => forall x, t <> Utf8 x) False.
Proof.
  destruct t as [x| |]; cbn [str_arg]; [apply reading_ret; exists x; split; [reflexivity|apply c_str_nul]|apply reading_raise; discriminate|apply reading_raise; discriminate].
Qed.
Lemma cstr_reading s t : reading s (cstr_arg t) (fun r => exists x, t = Utf8 x /\ before_nul x r) (fun _ => forall x, t <> Utf8 x) (t = PyNone).
Proof.
  destruct t as [x| |]; cbn [cstr_arg]; [apply reading_ret; exists x; split; [reflexivity|apply c_str_nul]|apply reading_raise; discriminate|apply reading_pub; reflexivity].
Qed.
Lemma u64_reading s i : reading s (u64_arg i) (fun j => size_ok i /\ j = Z.to_N i) (fun _ => ~ size_ok i) False.
Proof.
  unfold u64_arg. destruct ((0 <=? i) && (i <=? 18446744073709551615))%Z eqn:H; [apply reading_ret|apply reading_raise]; unfold size_ok; [split; [lia|reflexivity]|lia].
Qed.
Lemma int_reading s i : reading s (int_arg i) (fun j => in_i32 i = true /\ j = i) (fun _ => in_i32 i = false) False.
Proof. unfold int_arg. destruct (in_i32 i) eqn:H; [apply reading_ret|apply reading_raise]; auto. Qed.
Lemma cpp_inv A (o : outcome A) s s' r : cpp o s = (s', Ok r) -> s' = s /\ match r with inl a => o = Ok a | inr x => exists e, o = Throw e /\ x = py_of e end.
Proof. unfold cpp. destruct o as [a|e| | |]; intros [= <- <-]; (split; [reflexivity|]); [reflexivity|]. now exists e. Qed.
Lemma cpp_reading A (o : outcome A) s : reading s (cpp o) (fun a => o = Ok a) (fun x => exists e, o = Throw e /\ x = py_of e) (o = UB) \/ o = Abort \/ o = Fuel.
Proof.
  destruct o as [a|e| | |]; auto; left; unfold reading, cpp; eexists; (split; [reflexivity|]); [left; eauto|right; left; eauto|right; right; auto].
Qed.
Lemma method_inv S A n (x : S) put (f : M S A) s s' r : py_method n x put f s = (s', Ok r) ->
  exists x' o, f x = (x', o) /\ s' = now_holds n (put x') s /\ match r with inl a => o = Ok a | inr e => exists e', o = Throw e' /\ e = py_of e' end.
Proof.
  unfold py_method. destruct (f x) as [x' o]. unfold mbind, store. intros H. exists x', o. split; [reflexivity|]. apply cpp_inv in H. exact H.
Qed.

Ltac rd := match goal with
  | H : pbind _ _ _ = (_, Ok _) |- _ => apply pbind_inv in H; let H1 := fresh "A" in destruct H as [(? & H & ->)|(? & ? & H1 & H)]
  | H : create _ _ = (_, Ok _) |- _ => injection H; clear H; intros; subst
  | H : pret _ _ = (_, Ok _) |- _ => injection H; clear H; intros; subst
  | H : raise _ _ = (_, Ok _) |- _ => injection H; clear H; intros; subst
  | H : pub _ = (_, Ok _) |- _ => discriminate H
  | H : word_arg _ _ = _ |- _ => apply (reading_inv (@word_reading _ _)) in H; destruct H as [-> H]
  | H : list_arg _ _ = _ |- _ => apply (reading_inv (@list_arg_reading _ _)) in H; destruct H as [-> H]
  | H : list_at _ _ = _ |- _ => apply (reading_inv (@list_reading _ _)) in H; destruct H as [-> H]
  | H : doc_arg _ _ = _ |- _ => apply (reading_inv (@doc_reading _ _)) in H; destruct H as [-> H]
  | H : corpus_arg _ _ = _ |- _ => apply (reading_inv (@corpus_reading _ _)) in H; destruct H as [-> H]
  | H : results_arg _ _ = _ |- _ => apply (reading_inv (@results_reading _ _)) in H; destruct H as [-> H]
  | H : matcher_arg _ _ = _ |- _ => apply (reading_inv (@matcher_reading _ _)) in H; destruct H as [-> H]
  | H : errors_arg _ _ = _ |- _ => apply (reading_inv (@errors_reading _ _)) in H; destruct H as [-> H]
  | H : weights_arg _ _ = _ |- _ => apply (reading_inv (@weights_reading _ _)) in H; destruct H as [-> H]
  | H : str_arg _ _ = _ |- _ => apply (reading_inv (@str_reading _ _)) in H; destruct H as [-> H]
  | H : cstr_arg _ _ = _ |- _ => apply (reading_inv (@cstr_reading _ _)) in H; destruct H as [-> H]
  | H : u64_arg _ _ = _ |- _ => apply (reading_inv (@u64_reading _ _)) in H; destruct H as [-> H]
  | H : int_arg _ _ = _ |- _ => apply (reading_inv (@int_reading _ _)) in H; destruct H as [-> H]
  | H : look _ _ = _ |- _ => apply (reading_inv (@look_reading _ _ CErrors)) in H; destruct H as [-> H]
  | H : held _ _ = _ |- _ => apply (reading_inv (@held_reading _ _)) in H; destruct H as [-> H]
  | H : cpp _ _ = _ |- _ => apply cpp_inv in H; destruct H as [-> H]
  | H : py_method _ _ _ _ _ = (_, Ok _) |- _ => apply method_inv in H; let H1 := fresh "F" in destruct H as (? & ? & H1 & -> & H)
  | H : mbind (reads _) _ _ = _ |- _ => unfold mbind at 1, reads in H
  | H : mbind (store _ _) _ _ = _ |- _ => unfold mbind at 1, store in H
  | H : mbind (note_move _ _) _ _ = _ |- _ => unfold mbind at 1, note_move in H
  | H : mbind (put_list _ _) _ _ = _ |- _ => unfold mbind at 1 in H
  end; cbn beta iota in *.

Lemma now_same n o s : holds s n o -> now_holds n o s = s.
Proof.
  unfold holds, now_holds. destruct s as [os bs ms]. cbn [py_objs py_bound py_moves]. intros H. f_equal. revert n H. induction os as [|x os IH]; intros [|n] H; cbn in *; try discriminate; [congruence|]. now rewrite IH.
Qed.
Ltac quiet := let H := fresh in intros ? ? H; cbn [py_calls] in H; first [exact H | decompose record H; match goal with H1 : holds ?s ?n _, H2 : refers ?s ?n _ _ |- _ => exact (holds_refers H1 H2) end].
Section Step.
Variables (E : env) (W : world).
Hypothesis HF : folds_shipped E.
Hypothesis HW : shipped W.
Lemma wrong_no s k c x : wrong s k c x -> ~ has_class s k c.
Proof. clear. now intros [H _]. Qed.
Lemma holds_class s k o : bound s k -> holds s k o -> has_class s k (class_of (Holds o)).
Proof. clear. intros Hb Ho. split; [exact Hb|]. now exists (Holds o). Qed.
Lemma refers_class s k p w : bound s k -> refers s k p w -> has_class s k (class_of (Points p w)).
Proof. clear. intros Hb Ho. split; [exact Hb|]. now exists (Points p w). Qed.
Lemma word_class s k w : word_var s k w -> has_class s k CWord.
Proof. clear. intros [Hb H|l i v n ws Hb H _ _ _]; [exact (holds_class Hb H)|exact (refers_class Hb H)]. Qed.
Lemma refers_eq s k p w p' w' : refers s k p w -> refers s k p' w' -> p = p' /\ w = w'.
Proof. clear. unfold refers. intros H H'. rewrite H in H'. injection H' as <- <-. auto. Qed.
Lemma errors_eff s c k n e put ec : errors_var s k n e put ->
  (forall n mc, py_calls E c s n mc <-> exists m w, bound s k /\ refers s k (AtErrors n) w /\ holds s n (OMatcher m) /\ mc = MErr ec) ->
  eff E c s (now_holds n (put (fst (ev_do ec e))) s).
Proof.
  clear. intros He Hc. destruct He as [e Hb Hh|n m w Hb Hr Hh].
  - apply (eff_set (o := OErrors e)); [|exact Hh|exact I|exact I]. intros n mc H. apply Hc in H as (m & w & _ & Hr & _). exact (holds_refers Hh Hr).
  - replace (OMatcher (fst (on_ev (fun _ => (fst (ev_do ec (mt_ev m)), Ok tt)) m))) with (OMatcher (fst (m_do E (MErr ec) m))) by (cbn [m_do]; unfold on_ev; now destruct (ev_do ec (mt_ev m))).
    apply eff_matcher; [exact Hh|apply Hc; eauto 7|]. intros k' mc' H. apply Hc in H as (m' & w' & _ & Hr' & _). destruct (refers_eq Hr Hr') as [[= ->] _]. reflexivity.
Qed.
Lemma weights_eff s c k n x put f v : weights_var s k n x put ->
  (forall n mc, py_calls E c s n mc <-> exists m w, bound s k /\ refers s k (AtWeights n) w /\ holds s n (OMatcher m) /\ mc = MWeight f v) ->
  eff E c s (now_holds n (put (iw_setWeight f v x)) s).
Proof.
  clear. intros He Hc. destruct He as [e Hb Hh|n m w Hb Hr Hh].
  - apply (eff_set (o := OWeights e)); [|exact Hh|exact I|exact I]. intros n mc H. apply Hc in H as (m & w & _ & Hr & _). exact (holds_refers Hh Hr).
  - change (OMatcher (fst (set_w (fun _ => iw_setWeight f v (mt_w m)) m))) with (OMatcher (fst (m_do E (MWeight f v) m))).
    apply eff_matcher; [exact Hh|apply Hc; eauto 7|]. intros k' mc' H. apply Hc in H as (m' & w' & _ & Hr' & _). destruct (refers_eq Hr Hr') as [[= ->] _]. reflexivity.
Qed.
Lemma errors_wrong s c k x : wrong s k CErrors x -> (forall n mc, py_calls E c s n mc -> exists w, bound s k /\ refers s k (AtErrors n) w) -> eff E c s s.
Proof. clear. intros [Hw _] Hc. apply eff_same. intros n mc H. destruct (Hc _ _ H) as (w & Hb & Hr). apply Hw. exact (refers_class Hb Hr). Qed.
Lemma lt_len s k x : nth_error (py_objs s) k = Some x -> (k < length (py_objs s))%nat.
Proof. clear. intros H. apply nth_error_Some. congruence. Qed.
Lemma doc_sorted d : doc_ok d -> msorted wltb (d_texts d).
Proof.
  clear. intros (id & cs & ->). unfold add_texts. assert (H : forall cs d, msorted wltb (d_texts d) -> msorted wltb (d_texts (fold_left (fun d c => fst (doc_addText (fst c) (snd c) d)) cs d))).
  { induction cs0 as [|c cs0 IH]; intros d Hd; [exact Hd|]. cbn [fold_left]. apply IH. cbn. apply (set_sorted wltb_order). exact Hd. }
  apply H. constructor.
Qed.
Lemma doc_ok_set d f t : doc_ok d -> doc_ok (mkDoc (d_id d) (mp_set wltb f t (d_texts d))).
Proof. clear. intros (id & cs & ->). exists id, (cs ++ [(f, t)]). unfold add_texts. now rewrite fold_left_app. Qed.
Lemma get_same f t (d : document) : doc_ok d -> doc_getText (mkDoc (d_id d) (mp_set wltb f t (d_texts d))) f = Ok t.
Proof. clear. intros Hd. apply find_text. cbn. apply (find_set_same wltb_order). now apply doc_sorted. Qed.
Lemma get_other f g t (d : document) : doc_ok d -> g <> f -> doc_getText (mkDoc (d_id d) (mp_set wltb f t (d_texts d))) g = doc_getText d g.
Proof. clear. intros Hd Hg. unfold doc_getText. cbn. rewrite (find_set_other wltb_order); [reflexivity|now apply doc_sorted|exact Hg]. Qed.

Ltac fine := first [exact I | match goal with
  | HD : all_fine _, A : corpus_var _ _ ?c, B : doc_var _ _ ?d, F : co_addDocument ?d ?c = _ |- _ =>
      injection F as <- _; apply Forall_app; split; [exact (HD _ _ (proj2 A))|constructor; [exact (HD _ _ (proj2 B))|constructor]] end].
Lemma call_eff b c s s' r : all_fine s -> py_do' E W b c s = (s', Ok r) -> eff E c s s'.
Proof.
  intros HD H. destruct c; cbn [py_do'] in H; repeat rd.
  all: try (apply eff_same; quiet).
  all: try (apply eff_plus; [quiet|]; try first [exact I|exact (HD _ _ (proj2 A))|exact (ex_intro _ _ (ex_intro _ [] eq_refl))|exact (Forall_nil _)]).
  all: try (match goal with A : corpus_var ?s ?k _ |- eff _ _ ?s (now_holds ?k _ ?s) => eapply eff_set; [quiet|exact (proj2 A)|exact I|fine] end).
  all: try (match goal with A : results_var ?s ?k _ |- eff _ _ ?s (now_holds ?k _ ?s) => eapply eff_set; [quiet|exact (proj2 A)|exact I|fine] end).
  - split; [|cbn [points_well]; destruct A as [(-> & _ & ws & Hws)|(n & f & w & -> & _ & Hr)]; econstructor; eassumption].
    destruct A as [(-> & _ & ws & Hws)|(n & f & w & -> & _ & Hr)]; eapply lt_len; eassumption.
  - destruct A as [(-> & Hb & ws & Hws)|(n & f & v & -> & Hb & Hr)]; cbn [put_list] in H.
    + unfold store in H. repeat rd. inversion A1; subst. cbn [py_objs py_bound py_moves].
      apply (eff_list (l := LVal l) (n := l) (o := OList ws) (o' := OList (fst (wl_addWord x2 x4))) b); [quiet|exists ws; now constructor|exact Hws|constructor|exact I].
    + inversion A1; subst. unfold mbind in H. rewrite (pbind_inl _ (held_ok H2)) in H. unfold store in H. injection H as <- <-.
      apply (eff_list (l := LText n f) (n := n) (o := ODoc d) (o' := ODoc (mkDoc (d_id d) (mp_set wltb f (fst (wl_addWord x2 x4)) (d_texts d)))) b); [quiet|exists x4; econstructor; eassumption|exact H2| |].
      * econstructor; [intros g Hg; exact (get_other _ (HD _ _ H2) Hg)|exact (get_same _ _ (HD _ _ H2))].
      * exact (doc_ok_set _ _ (HD _ _ H2)).
  - destruct A as [Hb Hd]. split; [exact (lt_len Hd)|]. split; [reflexivity|]. eauto.
  - destruct H as (e & -> & _). destruct A as [Hb Hd]. unfold doc_addText_utf8, mbind, reads in F. destruct (splitToWords E x4) as [ws|y| | |]; try discriminate F. injection F as <- _.
    rewrite (now_same Hd). apply eff_same. quiet.
  - destruct A as [Hb Hd]. unfold doc_addText_utf8, mbind, reads in F. destruct (splitToWords E x4) as [ws|y| | |]; try discriminate F. injection F as <- _.
    apply (eff_list (l := LText d x2) (n := d) (o := ODoc x0) (o' := ODoc (mkDoc (d_id x0) (mp_set wltb x2 ws (d_texts x0)))) b); [quiet|exists x2; auto|exact Hd| |].
    + econstructor; [intros g Hg; exact (get_other _ (HD _ _ Hd) Hg)|exact (get_same _ _ (HD _ _ Hd))].
    + exact (doc_ok_set _ _ (HD _ _ Hd)).
  - destruct (Nat.eqb r0 other); [discriminate H|]; repeat rd; (eapply eff_set; [quiet|exact (proj2 A)|exact I|fine]).
  - exact A.
  - apply eff_same. intros n mc (mm & cp & -> & [Hb Hm] & _). exact (wrong_no H (holds_class Hb Hm)).
  - apply eff_same. intros n mc (mm & cp & -> & _ & [Hb Hm] & _). exact (wrong_no H (holds_class Hb Hm)).
  - replace x with (fst (m_do E (MIndex x2) x0)) by (cbn [m_do]; now rewrite F). apply eff_matcher; [exact (proj2 A)|exists x0, x2; auto|]. intros k mc (_ & _ & -> & _). reflexivity.
  - replace x with (fst (m_do E (MIndex x2) x0)) by (cbn [m_do]; now rewrite F). apply eff_matcher; [exact (proj2 A)|exists x0, x2; auto|]. intros k mc (_ & _ & -> & _). reflexivity.
  - apply eff_same. intros n mc Hc. destruct s0; try contradiction. destruct Hc as (mm & rr & q & -> & [Hb Hm] & _). exact (wrong_no H (holds_class Hb Hm)).
  - apply eff_same. intros n mc Hc. destruct s0; try contradiction. exact (H _ eq_refl).
  - destruct A0 as (t & -> & Ht). unfold mt_match_utf8, mbind at 1, reads in F. destruct (splitToWords E x2) as [q|y| | |] eqn:Hq.
    + replace x with (fst (m_do E (MMatch q sp_new) x0)) by (cbn [m_do]; unfold mbind; rewrite F; now destruct x1). apply eff_matcher; [exact (proj2 A)|exists x0, x2, q; auto|]. intros k mc (? & ? & ? & -> & _). reflexivity.
    + injection F as <- <-. rewrite (now_same (proj2 A)). apply eff_same. intros n mc (mm & rr & q & _ & _ & Hr & Hq' & _). apply nul_unique in Hr, Ht. congruence.
    + injection F as <- <-. destruct H as (? & [=] & _).
    + injection F as <- <-. destruct H as (? & [=] & _).
    + injection F as <- <-. destruct H as (? & [=] & _).
  - destruct A0 as (t & -> & Ht). subst x1. unfold mt_match_utf8, mbind at 1, reads in F. destruct (splitToWords E x2) as [q|y| | |] eqn:Hq; try discriminate F.
    replace x with (fst (m_do E (MMatch q sp_new) x0)) by (cbn [m_do]; unfold mbind; now rewrite F). apply (eff_match (mc := MMatch q sp_new) x4); [exact (proj2 A)|exists x0, x2, q; auto|]. intros k mc (? & ? & ? & -> & _). reflexivity.
  - destruct A as [Hb Hm]. split; [exact (lt_len Hm)|]. split; [reflexivity|]. eauto.
  - destruct A as [Hb Hm]. split; [exact (lt_len Hm)|]. split; [reflexivity|]. eauto.
  - apply (errors_wrong H). intros n mc (mm & w & Hb & Hr & _). eauto.
  - replace x with (fst (ev_do (AddStandardErrors latin_groups greek_groups) (snd (fst x0)))) by (rewrite <- (shipped_standard (snd (fst x0)) HF HW); now rewrite F). apply (errors_eff A). intros; reflexivity.
  - replace x with (fst (ev_do (AddStandardErrors latin_groups greek_groups) (snd (fst x0)))) by (rewrite <- (shipped_standard (snd (fst x0)) HF HW); now rewrite F). apply (errors_eff A). intros; reflexivity.
  - apply (errors_wrong H). intros n mc (mm & w & Hb & Hr & _). eauto.
  - apply (errors_eff (ec := SetSubstringMode) A). intros; reflexivity.
  - apply (errors_wrong H). intros n mc (mm & w & Hb & Hr & _). eauto.
  - apply eff_same. intros n mc (? & ? & _ & _ & _ & Hv & _). congruence.
  - destruct A0 as [Hv ->]. apply (errors_eff (ec := SetEndDeletionError v) A). intros n mc. cbn [py_calls]. split; intros (mm & w & H); exists mm, w; tauto.
  - apply (errors_wrong H). intros n mc (mm & w & Hb & Hr & _). eauto.
  - apply (errors_eff (ec := ClearErrors) A). intros; reflexivity.
  - apply eff_same. intros n mc (mm & v & ff & Hb & Hr & _). exact (wrong_no H (refers_class Hb Hr)).
  - apply eff_same. intros n mc (mm & v & ff & _ & _ & _ & Hw & _). exact (wrong_no H (word_class Hw)).
  - apply (weights_eff A). intros n mc. cbn [py_calls]. split.
    + intros (mm & v & ff & Hb & Hr & Hh & Hw & ->). exists mm, v. rewrite (word_eq Hw A0). auto.
    + intros (mm & v & Hb & Hr & Hh & ->). match goal with A0 : word_var _ _ ?y |- _ => exists mm, v, y end. auto.
  - destruct (nth k (py_bound s) false) eqn:Hb; injection H as <- <-; [|apply eff_same; quiet]. apply eff_del; [reflexivity|]. now apply bound_nth.
Qed.
End Step.
