(** Lifetimes, views, iteration: the statements about programs. *)
From Verif Require Import Base TrieM WordStoreM ErrorValuesM LevIndexM WordM MapM DoubleM ContM MatcherM DataFileM CApiM PyM
  Spec_Hist Spec_EV Spec_Word Spec_Cont Spec_Match Spec_File Spec_CApi Spec_Py PyP PyQ PyR PyS PyT PyU.
From Coq Require Import ZifyBool ZifyN ZifyNat.
Local Open Scope N_scope.
Local Open Scope m_scope.

(** ** What is in use *)
Lemma ward_there s p w : points_well s p w -> exists x, at_ s w x.
Proof.
  destruct p as [l i v|n f|n|n]; cbn [points_well].
  - intros [ws H|n f u H]; eexists; exact H.
  - intros (-> & d & t & H & _). eexists. exact H.
  - intros (-> & m & H). eexists. exact H.
  - intros (-> & m & H). eexists. exact H.
Qed.
Lemma in_use_iff s k : good s -> (exists_ s k <-> in_use s k).
Proof.
  intros HG. split.
  - remember (length (py_objs s) - k)%nat as n. revert k Heqn. induction n as [n IH] using (well_founded_induction Wf_nat.lt_wf). intros k -> [x Hx].
    destruct (g_alive HG (k := k) (x := x) ltac:(discriminate) Hx) as [Hb|(j & p & Hj)]; [now apply use_var|].
    apply (use_ref Hj). destruct (g_ref HG Hj) as [Hk _]. pose proof (lt_len Hj). apply (IH (length (py_objs s) - j)%nat); [lia|reflexivity|]. eexists. exact Hj.
  - intros [Hb|j p Hj _]; [destruct (g_bound HG Hb) as [x Hx]; now exists x|]. destruct (g_ref HG Hj) as [_ Hp]. apply ward_there in Hp as [x Hx]. now exists x.
Qed.

Section Stm.
Variables (E : env) (W : world).
Hypothesis HF : folds_shipped E.
Hypothesis HW : shipped W.
Lemma alive prog s k : py_reached E W prog s -> (exists_ s k <-> in_use s k).
Proof. intros HR. exact (in_use_iff k (reached_good HF HW HR)). Qed.
Lemma all_freed prog s : py_reached E W prog s -> (forall k, ~ bound s k) -> forall k, ~ exists_ s k.
Proof.
  intros HR Hb k Hk. apply (alive k HR) in Hk. induction Hk as [k Hk|k j p _ _ IH]; [exact (Hb k Hk)|exact IH].
Qed.
Lemma del_unbound b s k : ~ bound s k -> fails E W b s (del k) PyNameError.
Proof.
  clear. intros Hb. apply do_raises. cbn [py_do']. destruct (nth k (py_bound s) false) eqn:Hk; [|reflexivity]. apply bound_nth in Hk. contradiction.
Qed.
Lemma del_call b s k : bound s k -> py_do E W b (del k) s = (release (S k) k (unbound k s), Ok (Returns VNone)).
Proof. clear. intros Hb. apply do_gives. cbn [py_do']. apply bound_nth in Hb. now rewrite Hb. Qed.
Lemma del_others b prog s k : py_reached E W prog s -> bound s k -> exists s', py_do E W b (del k) s = (s', Ok (Returns VNone)) /\ (forall j, bound s' j <-> j <> k /\ bound s j) /\
  forall j, j <> k ->
    (forall w, word_var s j w -> word_var s' j w) /\ (forall l ws, list_var s j l ws -> list_var s' j l ws) /\ (forall d, doc_var s j d -> doc_var s' j d) /\
    (forall c, corpus_var s j c -> corpus_var s' j c) /\ (forall r, results_var s j r -> results_var s' j r) /\ (forall m, matcher_var s j m -> matcher_var s' j m) /\
    (forall n e put, errors_var s j n e put -> errors_var s' j n e put) /\ (forall n x put, weights_var s j n x put -> weights_var s' j n x put).
Proof.
  intros HR Hb. pose proof (reached_good HF HW HR) as HG. exists (release (S k) k (unbound k s)). split; [exact (del_call b Hb)|].
  destruct (del_good k HG) as (HG' & Hbs & Hm & Hat & _). split; [exact Hbs|]. intros j Hj.
  assert (Hs : forall o, bound s j /\ holds s j o -> bound (release (S k) k (unbound k s)) j /\ holds (release (S k) k (unbound k s)) j o).
  { intros o [H1 H2]. split; [apply Hbs; auto|]. exact (still HG' Hbs Hat Hj H1 H2). }
  split; [intros w; exact (word_del HG' Hbs Hm Hat Hj)|]. split; [intros l ws; exact (list_del HG' Hbs Hat Hj)|]. repeat (split; [intros ?; apply Hs|]).
  split; [intros n e put; exact (errors_del HG' Hbs Hat Hj)|intros n x put; exact (weights_del HG' Hbs Hat Hj)].
Qed.

(** ** Other objects *)
Lemma now_other n o s k x : at_ s k x -> k <> n -> at_ (now_holds n o s) k x.
Proof. clear. intros H Hk. unfold at_, now_holds in *. cbn. now rewrite upd_nth_other. Qed.
Lemma others_call b c s s' r k x : good s -> py_do E W b c s = (s', Ok r) -> bound s k -> c <> del k -> ~ target s c k -> at_ s k x -> bound s' k /\ at_ s' k x.
Proof.
  clear HF HW. intros HG H Hb Hd Ht Hx. apply do_inv in H as (v & H & _). destruct c; cbn [py_do' target] in *; repeat rd.
  all: try (split; [exact Hb|exact Hx]).
  all: try (split; [exact (bound_plus_keep _ Hb)|apply at_plus; left; first [exact Hx|apply (now_other _ Hx); congruence]]).
  all: try (split; [exact Hb|apply (now_other _ Hx); congruence]).
  all: try (match goal with A : errors_var ?s ?e ?n _ ?put |- _ => split; [exact Hb|]; refine (@now_other n _ s k x Hx _); intros ->; apply Ht; do 2 eexists; exact A end).
  - destruct A as [(-> & Hb1 & ws & Hl)|(n & f & u & -> & Hb1 & Hr)]; cbn [put_list] in H.
    + unfold store in H. repeat rd. split; [exact Hb|]. refine (@now_other l _ s k x Hx _). intros ->. apply Ht. exists ws. left. now constructor.
    + inversion A1 as [|? d ? ws H2 H3]; subst. unfold mbind in H. rewrite (pbind_inl _ (held_ok H2)) in H. unfold store in H. injection H as <- <-.
      split; [exact Hb|]. refine (@now_other n _ s k x Hx _). intros ->. apply Ht. eexists. right. exists f. eapply doc_list; [eassumption|eassumption|]. econstructor; eassumption.
  - destruct (Nat.eqb r0 other); [discriminate H|]; repeat rd; (split; [exact Hb|apply (now_other _ Hx); congruence]).
  - split; [refine (@bound_plus_keep (now_holds m _ s) _ k _); exact Hb|]. refine (proj2 (at_plus (now_holds m _ s) _ k x) (or_introl _)). apply (now_other _ Hx). congruence.
  - match goal with A : weights_var ?s ?e ?n _ ?put |- _ => split; [exact Hb|]; refine (@now_other n _ s k x Hx _); intros ->; apply Ht; do 2 eexists; exact A end.
  - destruct (nth k0 (py_bound s) false) eqn:Hk; injection H as <- <-; [|split; [exact Hb|exact Hx]]. destruct (del_good k0 HG) as (HG' & Hbs & _ & Hat & _). assert (Hne : k <> k0) by congruence.
    split; [apply Hbs; auto|exact (still HG' Hbs Hat Hne Hb Hx)].
Qed.
Lemma others_kept b prog s c s' r k o : py_reached E W prog s -> py_do E W b c s = (s', Ok r) -> bound s k -> holds s k o -> c <> del k -> ~ target s c k -> bound s' k /\ holds s' k o.
Proof. intros HR H Hb Ho Hd Ht. exact (others_call (reached_good HF HW HR) H Hb Hd Ht Ho). Qed.

(** ** Views *)
Lemma word_stays b prog s c s' r k w : py_reached E W prog s -> py_do E W b c s = (s', Ok r) -> word_var s k w ->
  (forall l i v n, refers s k (AtWord l i v) n -> ~ changes_list s c l) -> c <> del k -> word_var s' k w.
Proof. intros HR. exact (kept_word HF HW (reached_good HF HW HR)). Qed.
Lemma list_stays b prog s c s' r k l ws : py_reached E W prog s -> py_do E W b c s = (s', Ok r) -> list_var s k l ws -> ~ changes_list s c l -> c <> del k -> list_var s' k l ws.
Proof. intros HR. exact (kept_list HF HW (reached_good HF HW HR)). Qed.
Lemma view_now b l n d f ws s j ws0 : holds s n (ODoc d) -> doc_ok d -> list_var s j (LText n f) ws0 ->
  list_var (moved_if b l (now_holds n (ODoc (fst (doc_addText f ws d))) s)) j (LText n f) ws.
Proof.
  clear. intros Hn Hd Hj. inversion Hj as [|? ? ? w Hb Hr Hc]; subst. apply (@doc_list _ j n f ws w); [exact Hb| |].
  - change (at_ (now_holds n (ODoc (fst (doc_addText f ws d))) s) j (Points (AtText n f) w)). apply (now_other _ Hr). intros ->. exact (holds_refers Hn Hr).
  - apply (@contents_text _ n (fst (doc_addText f ws d))); [|exact (get_same f ws Hd)].
    change (at_ (now_holds n (ODoc (fst (doc_addText f ws d))) s) n (Holds (ODoc (fst (doc_addText f ws d))))). apply (at_now _ _ _ Hn). now right.
Qed.
Lemma doc_now b l n d f ws s : holds s n (ODoc d) -> doc_ok d -> let d' := fst (doc_addText f ws d) in
  holds (moved_if b l (now_holds n (ODoc d') s)) n (ODoc d') /\ doc_getID d' = doc_getID d /\ doc_getText d' f = Ok ws /\ forall g, g <> f -> doc_getText d' g = doc_getText d g.
Proof.
  clear. intros Hn Hd d'. split; [|split; [reflexivity|split; [exact (get_same f ws Hd)|intros g Hg; exact (get_other ws Hd Hg)]]].
  change (at_ (now_holds n (ODoc d') s) n (Holds (ODoc d'))). apply (at_now _ _ _ Hn). now right.
Qed.
(** A word appended through a view is in the document and in every other view. *)
Lemma view_append b prog s k n f d ws j w : py_reached E W prog s -> list_var s k (LText n f) ws -> holds s n (ODoc d) -> word_var s j w ->
  exists s' d', py_do E W b (add_word k j) s = (s', Ok (Returns VNone)) /\ holds s' n (ODoc d') /\ doc_getID d' = doc_getID d /\ doc_getText d' f = Ok (ws ++ [w]) /\
    (forall g, g <> f -> doc_getText d' g = doc_getText d g) /\ forall i ws0, list_var s i (LText n f) ws0 -> ws0 = ws /\ list_var s' i (LText n f) (ws ++ [w]).
Proof.
  intros HR Hk Hd Hw. pose proof (g_fine (reached_good HF HW HR) Hd) as Hok. cbn [obj_fine] in Hok. pose proof (doc_now b (LText n f) f (ws ++ [w]) Hd Hok) as (H1 & H2 & H3 & H4).
  eexists _, _. split; [exact (add_text_view E W b Hk Hd Hw)|]. split; [exact H1|]. split; [exact H2|]. split; [exact H3|]. split; [exact H4|]. intros i ws0 Hi. split.
  - clear - Hk Hd Hi. inversion Hk as [|? ? ? ? _ _ Hc]; subst. inversion Hi as [|? ? ? ? _ _ Hc']; subst. inversion Hc; subst. inversion Hc'; subst. match goal with A : holds s n _, B : holds s n (ODoc ?x), C : holds s n (ODoc ?y) |- _ => pose proof (holds_eq B C) end. congruence.
  - exact (view_now b (LText n f) (ws ++ [w]) Hd Hok Hi).
Qed.
(** New text is in every view of the field. *)
Lemma view_text b prog s n d j f t r q : py_reached E W prog s -> doc_var s n d -> word_var s j f -> before_nul t r -> splitToWords E r = Ok q ->
  exists s' d', py_do E W b (add_text n j (Utf8 t)) s = (s', Ok (Returns VNone)) /\ doc_var s' n d' /\ doc_getID d' = doc_getID d /\ doc_getText d' f = Ok q /\
    (forall g, g <> f -> doc_getText d' g = doc_getText d g) /\ forall i ws0, list_var s i (LText n f) ws0 -> list_var s' i (LText n f) q.
Proof.
  intros HR Hd Hw Ht Hq. pose proof (g_fine (reached_good HF HW HR) (proj2 Hd)) as Hok. cbn [obj_fine] in Hok. pose proof (doc_now b (LText n f) f q (proj2 Hd) Hok) as (H1 & H2 & H3 & H4).
  pose proof (doc_add E W b Hd Hw Ht) as H. cbv zeta in H. unfold doc_addText_utf8, mbind, reads in H. rewrite Hq in H. cbn [snd fst] in H.
  eexists _, _. split; [exact H|]. split; [split; [exact (proj1 Hd)|exact H1]|]. split; [exact H2|]. split; [exact H3|]. split; [exact H4|].
  intros i ws0 Hi. exact (view_now b (LText n f) q (proj2 Hd) Hok Hi).
Qed.

(** ** Iterating *)
Lemma iterate b prog s k l ws : py_reached E W prog s -> list_var s k l ws -> N.of_nat (length ws) < 2 ^ 64 ->
  exists s', py_run E W (map (fun i => (getitem k (Z.of_nat i), b)) (seq 0 (length ws))) s = (s', Ok (map (fun i => Returns (VObj i)) (seq (fresh s) (length ws)))) /\
    (forall i w, nth_error ws i = Some w -> word_var s' (fresh s + i) w) /\
    (forall b', fails E W b' s' (getitem k (Z.of_nat (length ws))) PyIndexError) /\ list_var s' k l ws.
Proof.
  intros HR Hk Hl. destruct (@loop_words E W HF HW k l ws Hl b (length ws) 0%nat s) as (s' & Hs & _ & Hk' & _ & Hw); [lia|exact (reached_good HF HW HR)|exact Hk|].
  exists s'. split; [exact Hs|]. split; [intros i w Hi; apply Hw; [apply nth_error_Some; congruence|exact Hi]|]. split; [|exact Hk'].
  intros b'. apply (list_item_none E W b' Hk'); lia.
Qed.
Lemma wrong_classes b prog s c k cl : py_reached E W prog s -> (forall k, In (k, CWord) (wants c) -> ~ stale s k) -> In (k, cl) (wants c) -> ~ has_class s k cl ->
  exists x, fails E W b s c x /\ (x = PyTypeError \/ x = PyNameError).
Proof. intros HR. exact (wrong_class E W b (reached_good HF HW HR)). Qed.
End Stm.
