(** References, lifetimes, arguments and defined behaviour of Python programs. *)
From Verif Require Import Base TrieM WordStoreM ErrorValuesM LevIndexM WordM MapM DoubleM ContM MatcherM DataFileM CApiM PyM
  Spec_Hist Spec_EV Spec_Word Spec_Cont Spec_Match Spec_File Spec_CApi Spec_Py MapP ContP DataP MatchY CApiS PyP PyQ PyR PyS.
From Coq Require Import ZifyBool ZifyN ZifyNat.
Local Open Scope N_scope.
Local Open Scope m_scope.

Lemma at_eq s k x y : at_ s k x -> at_ s k y -> x = y.
Proof. unfold at_. congruence. Qed.

(** ** del *)
Section Del.
Variables (s s' : py_state) (k : nat).
Hypothesis (HG : good s) (HG' : good s') (Hbound : forall j, bound s' j <-> j <> k /\ bound s j)
  (Hmoves : py_moves s' = py_moves s) (Hback : forall j x, at_ s' j x -> at_ s j x).
Lemma still j x : j <> k -> bound s j -> at_ s j x -> at_ s' j x.
Proof.
  clear HG. intros Hj Hb Hx. assert (Hb' : bound s' j) by (apply Hbound; auto). destruct (g_bound HG' Hb') as [y Hy]. now rewrite (at_eq Hx (Hback Hy)).
Qed.
Lemma still_ward j p w : refers s' j p w -> points_well s' p w.
Proof. clear HG Hbound Hback. intros H. exact (proj2 (g_ref HG' H)). Qed.
Lemma same_holds n o o' : holds s' n o' -> holds s n o -> holds s' n o.
Proof. clear HG Hbound. intros H' H. assert (H1 := Hback H'). assert (H2 := at_eq H1 H). injection H2 as ->. exact H'. Qed.
Lemma text_del n f ws w j : refers s' j (AtText n f) w -> contents s (LText n f) ws -> contents s' (LText n f) ws.
Proof.
  clear HG Hbound. intros H Hc. destruct (still_ward H) as (-> & d & t & Hd & Ht). inversion Hc as [|? d' ? ? Hd' Hws]; subst. econstructor; [|exact Hws]. exact (same_holds Hd Hd').
Qed.
Lemma word_del j w : j <> k -> word_var s j w -> word_var s' j w.
Proof.
  intros Hj [Hb H|l i v n ws Hb H Hc Hn Hv].
  - apply own_word; [apply Hbound; auto|exact (still Hj Hb H)].
  - assert (H' := still Hj Hb H). apply (@list_word s' j w l i v n ws); [apply Hbound; auto|exact H'| |exact Hn|unfold moves_of in *; now rewrite Hmoves].
    pose proof (still_ward H') as Hp. cbn [points_well] in Hp. destruct Hp as [ws0 Hw|n0 f u Hr].
    + inversion Hc; subst. constructor. eapply same_holds; eassumption.
    + exact (text_del Hr Hc).
Qed.
Lemma list_del j l ws : j <> k -> list_var s j l ws -> list_var s' j l ws.
Proof.
  intros Hj [ws0 Hb H|n f ws0 w Hb H Hc].
  - constructor; [apply Hbound; auto|exact (still Hj Hb H)].
  - assert (H' := still Hj Hb H). apply (@doc_list s' j n f ws0 w); [apply Hbound; auto|exact H'|exact (text_del H' Hc)].
Qed.
Lemma errors_del j n e put : j <> k -> errors_var s j n e put -> errors_var s' j n e put.
Proof.
  intros Hj [e0 Hb H|n0 m w Hb H Hm].
  - constructor; [apply Hbound; auto|exact (still Hj Hb H)].
  - assert (H' := still Hj Hb H). destruct (still_ward H') as (_ & m' & Hm'). apply (@matcher_errors s' j n0 m w); [apply Hbound; auto|exact H'|exact (same_holds Hm' Hm)].
Qed.
Lemma weights_del j n e put : j <> k -> weights_var s j n e put -> weights_var s' j n e put.
Proof.
  intros Hj [e0 Hb H|n0 m w Hb H Hm].
  - constructor; [apply Hbound; auto|exact (still Hj Hb H)].
  - assert (H' := still Hj Hb H). destruct (still_ward H') as (_ & m' & Hm'). apply (@matcher_weights s' j n0 m w); [apply Hbound; auto|exact H'|exact (same_holds Hm' Hm)].
Qed.
End Del.

(** ** Other statements *)
Lemma contents_keep s s' l ws : contents s l ws -> (forall n o, holds s n o -> match l, o with LVal k, OList _ => n = k | LText k _, ODoc _ => n = k | _, _ => False end -> holds s' n o) -> contents s' l ws.
Proof. intros [n ws0 H|n d f ws0 H Ht] Hk; econstructor; eauto. Qed.
Lemma contents_plus s x l ws : contents s l ws -> contents (plus s x) l ws.
Proof. intros H. apply (contents_keep H). intros n o Hn _. apply at_plus. now left. Qed.
Lemma bound_plus_keep s x k : bound s k -> bound (plus s x) k.
Proof. unfold bound, plus. cbn. intros H. rewrite nth_error_app1; [exact H|]. apply nth_error_Some. congruence. Qed.
Lemma contents_now s n o o' l ws : contents s l ws -> holds s n o -> (forall ws, o <> OList ws) -> (forall d, o <> ODoc d) -> contents (now_holds n o' s) l ws.
Proof.
  intros H Hn H1 H2. apply (contents_keep H). intros j u Hj Hm. apply (at_now _ _ _ Hn). left. split; [|exact Hj]. intros ->.
  rewrite (holds_eq Hj Hn) in Hm. destruct l, o; try contradiction; [exact (H1 _ eq_refl)|exact (H2 _ eq_refl)].
Qed.
Lemma contents_edit s n l0 o o' l ws b : contents s l ws -> holds s n o -> edits n l0 o o' -> l <> l0 -> contents (moved_if b l0 (now_holds n o' s)) l ws.
Proof.
  intros H Hn He Hl. destruct H as [n1 ws1 H1|n1 d1 f1 ws1 H1 Ht].
  - constructor. change (at_ (now_holds n o' s) n1 (Holds (OList ws1))). apply (at_now _ _ _ Hn). left. split; [|exact H1]. intros ->. rewrite (holds_eq Hn H1) in He. inversion He; subst. contradiction.
  - destruct (Nat.eq_dec n1 n) as [-> |Hne].
    + rewrite (holds_eq Hn H1) in He. inversion He as [|d d' f ws0 Ho Hs]; subst. apply (@contents_text _ n d'); [|rewrite Ho; [exact Ht|congruence]].
      change (at_ (now_holds n (ODoc d') s) n (Holds (ODoc d'))). apply (at_now _ _ _ Hn). now right.
    + apply (@contents_text _ n1 d1); [|exact Ht]. change (at_ (now_holds n o' s) n1 (Holds (ODoc d1))). apply (at_now _ _ _ Hn). now left.
Qed.
Lemma moves_edit b l0 l s0 : l <> l0 -> moves_of l (moved_if b l0 s0) = moves_of l s0.
Proof.
  intros H. unfold moves_of, moved_if. cbn. destruct b; [|reflexivity]. cbn.
  match goal with |- context [if ?x then _ else _] => destruct x eqn:Hx end; [|reflexivity]. exfalso.
  destruct l as [a|a f], l0 as [c|c g]; cbn in Hx; try discriminate.
  - apply Nat.eqb_eq in Hx. congruence.
  - apply andb_true_iff in Hx as [H1 H2]. apply Nat.eqb_eq in H1. destruct (weqb_spec f g); congruence.
Qed.
Section Keep.
Variables (E : env) (W : world).
Hypothesis HF : folds_shipped E.
Hypothesis HW : shipped W.
Lemma kept_word b c s s' r k w : good s -> py_do E W b c s = (s', Ok r) -> word_var s k w ->
  (forall l i v n, refers s k (AtWord l i v) n -> ~ changes_list s c l) -> c <> del k -> word_var s' k w.
Proof.
  intros HG H Hw Hl Hd. pose proof (do_eff HF HW HG H) as He. clear H. destruct He as [Hq|x Hq Hx|n o o' Hq Hn Hp Hf|l n o o' b0 Hq Hc Hn He Hf|n m mc Hn Hc _|n m mc r0 Hn Hc _|j Hj Hb].
  - exact Hw.
  - destruct Hw as [Hb H|l i v n ws Hb H Hc Hi Hv].
    + apply own_word; [now apply bound_plus_keep|apply at_plus; now left].
    + apply (@list_word (plus s x) k w l i v n ws); [now apply bound_plus_keep|apply at_plus; now left|now apply contents_plus|exact Hi|exact Hv].
  - destruct Hw as [Hb H|l i v u ws Hb H Hc Hi Hv].
    + apply own_word; [exact Hb|]. apply (at_now _ _ _ Hn). destruct (Nat.eq_dec k n) as [-> |Hk]; [|now left]. right. split; [reflexivity|]. f_equal. rewrite (holds_eq Hn H) in Hp. symmetry. exact Hp.
    + apply (@list_word (now_holds n o' s) k w l i v u ws); [exact Hb| | |exact Hi|exact Hv].
      * apply (at_now _ _ _ Hn). left. split; [|exact H]. intros ->. exact (holds_refers Hn H).
      * destruct o; try (eapply contents_now; [exact Hc|exact Hn|discriminate|discriminate]); cbn [plain] in Hp; subst o'; rewrite (now_same Hn); exact Hc.
  - destruct Hw as [Hb H|l1 i v u ws Hb H Hc1 Hi Hv].
    + apply own_word; [exact Hb|]. change (at_ (now_holds n o' s) k (Holds (OWord w))). apply (at_now _ _ _ Hn). left. split; [|exact H]. intros ->. rewrite (holds_eq Hn H) in He. inversion He.
    + assert (Hne : l1 <> l) by (intros ->; exact (Hl _ _ _ _ H Hc)).
      apply (@list_word (moved_if b0 l (now_holds n o' s)) k w l1 i v u ws); [exact Hb| |exact (contents_edit b0 Hc1 Hn He Hne)|exact Hi|now rewrite (moves_edit b0 _ Hne)].
      change (at_ (now_holds n o' s) k (Points (AtWord l1 i v) u)). apply (at_now _ _ _ Hn). left. split; [|exact H]. intros ->. exact (holds_refers Hn H).
  - destruct Hw as [Hb H|l i v u ws Hb H Hc1 Hi Hv].
    + apply own_word; [exact Hb|]. apply (at_now _ _ _ Hn). left. split; [|exact H]. intros ->. pose proof (holds_eq Hn H). discriminate.
    + apply (@list_word (now_holds n (OMatcher (fst (m_do E mc m))) s) k w l i v u ws); [exact Hb| |eapply contents_now; [exact Hc1|exact Hn|discriminate|discriminate]|exact Hi|exact Hv].
      apply (at_now _ _ _ Hn). left. split; [|exact H]. intros ->. exact (holds_refers Hn H).
  - destruct Hw as [Hb H|l i v u ws Hb H Hc1 Hi Hv].
    + apply own_word; [now apply bound_plus_keep|]. apply at_plus. left. apply (at_now _ _ _ Hn). left. split; [|exact H]. intros ->. pose proof (holds_eq Hn H). discriminate.
    + apply (@list_word (plus (now_holds n (OMatcher (fst (m_do E mc m))) s) (Holds (OResults r0))) k w l i v u ws); [now apply bound_plus_keep| |apply contents_plus; eapply contents_now; [exact Hc1|exact Hn|discriminate|discriminate]|exact Hi|exact Hv].
      apply at_plus. left. apply (at_now _ _ _ Hn). left. split; [|exact H]. intros ->. exact (holds_refers Hn H).
  - destruct (del_good j HG) as (I1 & I2 & I3 & I4 & _). apply (@word_del s _ j I1 I2 I3 I4); [congruence|exact Hw].
Qed.
Lemma kept_list b c s s' r k l ws : good s -> py_do E W b c s = (s', Ok r) -> list_var s k l ws -> ~ changes_list s c l -> c <> del k -> list_var s' k l ws.
Proof.
  intros HG H Hw Hl Hd. pose proof (do_eff HF HW HG H) as He. clear H. destruct He as [Hq|x Hq Hx|n o o' Hq Hn Hp Hf|l1 n o o' b0 Hq Hc Hn He Hf|n m mc Hn Hc _|n m mc r0 Hn Hc _|j Hj Hb].
  - exact Hw.
  - destruct Hw as [ws Hb H|n f ws w Hb H Hc].
    + constructor; [now apply bound_plus_keep|apply at_plus; now left].
    + apply (@doc_list (plus s x) k n f ws w); [now apply bound_plus_keep|apply at_plus; now left|now apply contents_plus].
  - destruct Hw as [ws Hb H|u f ws w Hb H Hc].
    + constructor; [exact Hb|]. apply (at_now _ _ _ Hn). destruct (Nat.eq_dec k n) as [-> |Hk]; [|now left]. right. split; [reflexivity|]. f_equal. rewrite (holds_eq Hn H) in Hp. symmetry. exact Hp.
    + apply (@doc_list (now_holds n o' s) k u f ws w); [exact Hb| |].
      * apply (at_now _ _ _ Hn). left. split; [|exact H]. intros ->. exact (holds_refers Hn H).
      * destruct o; try (eapply contents_now; [exact Hc|exact Hn|discriminate|discriminate]); cbn [plain] in Hp; subst o'; rewrite (now_same Hn); exact Hc.
  - destruct Hw as [ws Hb H|u f ws w Hb H Hc1].
    + constructor; [exact Hb|]. change (at_ (now_holds n o' s) k (Holds (OList ws))). apply (at_now _ _ _ Hn). left. split; [|exact H]. intros ->. rewrite (holds_eq Hn H) in He. inversion He; subst. contradiction.
    + assert (Hne : LText u f <> l1) by (intros <-; exact (Hl Hc)).
      apply (@doc_list (moved_if b0 l1 (now_holds n o' s)) k u f ws w); [exact Hb| |exact (contents_edit b0 Hc1 Hn He Hne)].
      change (at_ (now_holds n o' s) k (Points (AtText u f) w)). apply (at_now _ _ _ Hn). left. split; [|exact H]. intros ->. exact (holds_refers Hn H).
  - destruct Hw as [ws Hb H|u f ws w Hb H Hc1].
    + constructor; [exact Hb|]. apply (at_now _ _ _ Hn). left. split; [|exact H]. intros ->. pose proof (holds_eq Hn H). discriminate.
    + apply (@doc_list (now_holds n (OMatcher (fst (m_do E mc m))) s) k u f ws w); [exact Hb| |eapply contents_now; [exact Hc1|exact Hn|discriminate|discriminate]].
      apply (at_now _ _ _ Hn). left. split; [|exact H]. intros ->. exact (holds_refers Hn H).
  - destruct Hw as [ws Hb H|u f ws w Hb H Hc1].
    + constructor; [now apply bound_plus_keep|]. apply at_plus. left. apply (at_now _ _ _ Hn). left. split; [|exact H]. intros ->. pose proof (holds_eq Hn H). discriminate.
    + apply (@doc_list (plus (now_holds n (OMatcher (fst (m_do E mc m))) s) (Holds (OResults r0))) k u f ws w); [now apply bound_plus_keep| |apply contents_plus; eapply contents_now; [exact Hc1|exact Hn|discriminate|discriminate]].
      apply at_plus. left. apply (at_now _ _ _ Hn). left. split; [|exact H]. intros ->. exact (holds_refers Hn H).
  - destruct (del_good j HG) as (I1 & I2 & I3 & I4 & _). apply (@list_del s _ j I1 I2 I4); [congruence|exact Hw].
Qed.

(** ** for w in l *)
Lemma bound_lt s k : good s -> bound s k -> (k < fresh s)%nat.
Proof. clear. intros HG Hb. destruct (g_bound HG Hb) as [x Hx]. exact (lt_len Hx). Qed.
Lemma item_word b s k l ws i w : good s -> list_var s k l ws -> (N.of_nat i < 2 ^ 64) -> nth_error ws i = Some w ->
  exists s', py_do E W b (getitem k (Z.of_nat i)) s = (s', Ok (Returns (VObj (fresh s)))) /\ fresh s' = S (fresh s) /\ word_var s' (fresh s) w /\ list_var s' k l ws /\ good s' /\
    forall j v, word_var s j v -> word_var s' j v.
Proof.
  intros HG Hk Hi Hw. assert (Hz : (0 <= Z.of_nat i < 2 ^ 64)%Z) by lia. assert (Hn : nth_error ws (Z.to_nat (Z.of_nat i)) = Some w) by (now rewrite Nat2Z.id).
  pose proof (list_item E W b Hk Hz Hn) as H. unfold makes in H. eexists. split; [exact H|]. split; [unfold fresh, plus; cbn; rewrite app_length; cbn; lia|].
  assert (Hg := good_eff HG (do_eff HF HW HG H)). split; [|split; [|split; [exact Hg|]]].
  - assert (Hc := proj2 (list_arg_ok Hk)). eapply list_word.
    + apply (bound_plus _ _ (g_len HG)). now right.
    + apply at_plus. right. split; reflexivity.
    + apply contents_plus. exact Hc.
    + rewrite Z_N_nat, Nat2Z.id. exact Hw.
    + reflexivity.
  - apply (kept_list HG H Hk); [intros []|discriminate].
  - intros j v Hv. apply (kept_word HG H Hv); [intros ? ? ? ? _ []|discriminate].
Qed.
Lemma loop_words k l ws : N.of_nat (length ws) < 2 ^ 64 -> forall b n i s, (i + n = length ws)%nat -> good s -> list_var s k l ws ->
  exists s', py_run E W (map (fun j => (getitem k (Z.of_nat j), b)) (seq i n)) s = (s', Ok (map (fun j => Returns (VObj j)) (seq (fresh s) n))) /\ good s' /\ list_var s' k l ws /\
    (forall j v, word_var s j v -> word_var s' j v) /\ forall j w, (j < n)%nat -> nth_error ws (i + j) = Some w -> word_var s' (fresh s + j)%nat w.
Proof.
  intros Hlen b. induction n as [|n IH]; intros i s Hin HG Hk.
  - exists s. split; [reflexivity|]. split; [exact HG|]. split; [exact Hk|]. split; [auto|]. intros j w Hj. lia.
  - destruct (nth_error ws i) as [w|] eqn:Hw; [|apply nth_error_None in Hw; lia].
    destruct (item_word b HG Hk (i := i) ltac:(lia) Hw) as (s1 & H1 & Hf & Hw1 & Hk1 & HG1 & Hkeep).
    destruct (IH (S i) s1 ltac:(lia) HG1 Hk1) as (s2 & H2 & HG2 & Hk2 & Hkeep2 & Hws2). exists s2. split.
    { cbn [seq map py_run fst snd]. unfold mbind at 1. rewrite H1. unfold mbind at 1. rewrite H2. rewrite Hf. reflexivity. }
    split; [exact HG2|]. split; [exact Hk2|]. split; [auto|]. intros [|j] v Hj Hv.
    + rewrite Nat.add_0_r in *. apply Hkeep2. congruence.
    + replace (fresh s + S j)%nat with (fresh s1 + j)%nat by lia. apply Hws2; [lia|]. replace (S i + j)%nat with (i + S j)%nat by lia. exact Hv.
Qed.

(** ** Arguments *)
Definition raises_ {A} (m : P A) (s : py_state) : Prop := exists x, m s = (s, Ok (inr x)) /\ (x = PyTypeError \/ x = PyNameError).
Definition runs {A} (m : P A) (s : py_state) : Prop := exists s' r, m s = (s', Ok r).
Lemma raises_bind A B (m : P A) (k : A -> P B) s g j c u : reading s m g (wrong s j c) u -> ~ u -> (forall a, g a -> raises_ (k a) s) -> raises_ (pbind m k) s.
Proof.
  clear. intros (o & Hm & H) Hu Hk. destruct H as [(a & -> & Ha)|[(x & -> & Hx)|[-> Hx]]]; [|exists x; split; [exact (pbind_inr _ Hm)|exact (proj2 Hx)]|contradiction].
  destruct (Hk a Ha) as (x & Hx & He). exists x. now rewrite (pbind_inl _ Hm).
Qed.
Lemma runs_bind A B (m : P A) (k : A -> P B) s g b u : reading s m g b u -> ~ u -> (forall a, g a -> runs (k a) s) -> runs (pbind m k) s.
Proof.
  clear. intros (o & Hm & H) Hu Hk. destruct H as [(a & -> & Ha)|[(x & -> & Hx)|[-> Hx]]]; [|exists s, (inr x); exact (pbind_inr _ Hm)|contradiction].
  destruct (Hk a Ha) as (s' & r & Hr). exists s', r. now rewrite (pbind_inl _ Hm).
Qed.
Lemma not_gone s k : good s -> ~ gone s k.
Proof. clear. intros HG [Hb Hn]. destruct (g_bound HG Hb) as [x Hx]. apply get_some in Hx. congruence. Qed.
Lemma not_lost s k : good s -> ~ lost s k.
Proof.
  clear. intros HG [H|(n & w & H & Hm)]; [exact (not_gone HG H)|]. destruct H as [H|H]; destruct (g_ref HG H) as (_ & _ & m & Hh); exact (Hm _ Hh).
Qed.
Lemma not_nowords s k l : good s -> ((l = LVal k /\ bound s k /\ exists ws, holds s k (OList ws)) \/ exists n f w, l = LText n f /\ bound s k /\ refers s k (AtText n f) w) -> ~ forall ws, ~ contents s l ws.
Proof.
  clear. intros HG [(-> & _ & ws & H)|(n & f & w & -> & _ & H)] Hno; [exact (Hno ws (contents_list H))|]. destruct (g_ref HG H) as (_ & _ & d & t & Hd & Ht). exact (Hno t (contents_text Hd Ht)).
Qed.
Ltac hide := match goal with
  | HG : good ?s |- ~ (gone ?s _ \/ stale _ _) => let H := fresh in intros [H|H]; [exact (not_gone HG H)|]; match goal with HS : forall k, _ -> ~ stale _ k |- _ => apply HS in H; [exact H|cbn; auto] end
  | HG : good ?s |- ~ gone ?s _ => exact (not_gone HG (k := _))
  | HG : good ?s |- ~ lost ?s _ => exact (not_lost HG (k := _))
  | HG : good ?s, A : _ \/ _ |- ~ (forall ws, ~ contents ?s _ ws) => exact (not_nowords HG A)
  | |- ~ False => intros []
  end.
Ltac rs bind := let a := fresh "a" in let A := fresh "A" in
  first [ eapply bind; [apply word_reading|hide|intros a A; cbn beta in A]
        | eapply bind; [apply list_arg_reading|hide|intros a A; cbn beta in A]
        | eapply bind; [apply list_reading|hide|intros a A; cbn beta in A]
        | eapply bind; [apply doc_reading|hide|intros a A; cbn beta in A]
        | eapply bind; [apply corpus_reading|hide|intros a A; cbn beta in A]
        | eapply bind; [apply results_reading|hide|intros a A; cbn beta in A]
        | eapply bind; [apply matcher_reading|hide|intros a A; cbn beta in A]
        | eapply bind; [apply errors_reading|hide|intros a A; cbn beta in A]
        | eapply bind; [apply weights_reading|hide|intros a A; cbn beta in A]
        | eapply bind; [apply str_reading|hide|intros a A; cbn beta in A]
        | eapply bind; [apply u64_reading|hide|intros a A; cbn beta in A]
        | eapply bind; [apply int_reading|hide|intros a A; cbn beta in A] ].
Lemma list_class s k l : ((l = LVal k /\ bound s k /\ exists ws, holds s k (OList ws)) \/ exists n f w, l = LText n f /\ bound s k /\ refers s k (AtText n f) w) -> has_class s k CList.
Proof. clear. intros [(-> & Hb & ws & H)|(n & f & w & -> & Hb & H)]; [exact (holds_class Hb H)|exact (refers_class Hb H)]. Qed.
Lemma errors_class s k n e put : errors_var s k n e put -> has_class s k CErrors.
Proof. clear. intros [e0 Hb H|n0 m w Hb H _]; [exact (holds_class Hb H)|exact (refers_class Hb H)]. Qed.
Lemma weights_class s k n e put : weights_var s k n e put -> has_class s k CWeights.
Proof. clear. intros [e0 Hb H|n0 m w Hb H _]; [exact (holds_class Hb H)|exact (refers_class Hb H)]. Qed.
Ltac clash := match goal with
  | Hno : ~ has_class ?s ?k ?c |- _ => exfalso; apply Hno; first
      [ eapply word_class; eassumption | eapply list_class; eassumption | eapply errors_class; eassumption | eapply weights_class; eassumption
      | match goal with A : doc_var s k _ |- _ => exact (holds_class (proj1 A) (proj2 A)) | A : corpus_var s k _ |- _ => exact (holds_class (proj1 A) (proj2 A))
        | A : results_var s k _ |- _ => exact (holds_class (proj1 A) (proj2 A)) | A : matcher_var s k _ |- _ => exact (holds_class (proj1 A) (proj2 A)) end ]
  end.
Lemma wrong_class b c s k cl : good s -> (forall k, In (k, CWord) (wants c) -> ~ stale s k) -> In (k, cl) (wants c) -> ~ has_class s k cl -> exists x, fails E W b s c x /\ (x = PyTypeError \/ x = PyNameError).
Proof.
  clear HF HW. intros HG HS Hin Hno. cut (raises_ (py_do' E W b c) s); [intros (x & Hx & He); exists x; split; [exact (do_raises Hx)|exact He]|].
  destruct c; cbn [wants] in Hin; try contradiction;
    cbn [py_do']; repeat match goal with H : _ \/ _ |- _ => destruct H as [H|H] | H : (_, _) = (_, _) |- _ => injection H as <- <- | H : In _ _ |- _ => cbn in H | H : False |- _ => destruct H end.
  all: try (repeat (rs raises_bind; try (clash; fail)); fail).
  all: eapply raises_bind; [apply (@look_reading _ _ CErrors)|hide|]; intros x _; exists PyTypeError; split; [reflexivity|now left].
Qed.

(** ** Nothing undefined *)
Lemma runs_cpp A B (o : outcome A) (k : A -> P B) s : defined o -> (forall a, o = Ok a -> runs (k a) s) -> runs (pbind (cpp o) k) s.
Proof.
  clear. intros Hd Hk. destruct o as [a|e| | |]; try contradiction; [|exists s, (inr (py_of e)); reflexivity]. destruct (Hk a eq_refl) as (s' & r & H). exists s', r. now rewrite (@pbind_inl _ _ (cpp (Ok a)) k s s a eq_refl).
Qed.
Lemma runs_method S A B n (x : S) put (f : M S A) (k : A -> P B) s : defined (snd (f x)) -> (forall a s', runs (k a) s') -> runs (pbind (py_method n x put f) k) s.
Proof.
  clear. intros Hd Hk. destruct (f x) as [x' o] eqn:Hf. cbn in Hd. assert (Hm : py_method n x put f s = cpp o (now_holds n (put x') s)) by (unfold py_method; rewrite Hf; reflexivity).
  destruct o as [a|e| | |]; try contradiction; [destruct (Hk a (now_holds n (put x') s)) as (s' & r & H); exists s', r; now rewrite (pbind_inl _ Hm)|].
  exists (now_holds n (put x') s), (inr (py_of e)). exact (pbind_inr _ Hm).
Qed.
Lemma safe_defined A (o : outcome A) : (exists a, o = Ok a) \/ (exists x, o = Throw x) -> defined o.
Proof. clear. intros [[a ->]|[x ->]]; exact I. Qed.
Lemma put_runs s l ws ws' b : contents s l ws -> runs (put_list l ws' ;;; note_move b l ;;; pret VNone) s.
Proof.
  clear. intros [n ws0 H|n d f ws0 H Ht]; cbn [put_list].
  - eexists _, _. reflexivity.
  - unfold runs, mbind at 1. rewrite (pbind_inl _ (held_ok H)). eexists _, _. reflexivity.
Qed.
Lemma safe_call b c s : lower_ok E -> good s -> (forall k, In (k, CWord) (wants c) -> ~ stale s k) -> c <> split_to_words PyNone -> (forall k, c <> add_results k k) -> method_defined E s c ->
  exists s' r, py_do E W b c s = (s', Ok r).
Proof.
  intros HL HG HS HN HA HM. cut (runs (py_do' E W b c) s).
  { intros (s' & [v|x] & H); [exists s', (Returns v); exact (do_gives H)|exists s', (Raises x); exact (do_raises H)]. }
  destruct c; cbn [py_do' method_defined] in *; repeat rs runs_bind; try (eexists _, _; reflexivity).
  - apply runs_cpp; [exact (safe_defined (word_safe _ HL))|]. intros ? _. eexists _, _. reflexivity.
  - apply runs_cpp; [exact (HM _ A)|]. intros ? _. eexists _, _. reflexivity.
  - apply runs_cpp; [unfold wl_at; rewrite at_spec; match goal with |- context [match ?x with _ => _ end] => destruct x end; exact I|]. intros ? _. eexists _, _. reflexivity.
  - exact (put_runs _ _ A1).
  - eapply runs_bind; [apply cstr_reading|congruence|]. intros t _. apply runs_cpp; [exact (safe_defined (split_safe _ HL))|]. intros ? _. eexists _, _. reflexivity.
  - apply runs_cpp; [unfold doc_getText; match goal with |- context [match ?x with _ => _ end] => destruct x end; exact I|]. intros ? _. eexists _, _. reflexivity.
  - apply runs_method; [|intros; eexists _, _; reflexivity]. unfold doc_addText_utf8, mbind, reads. destruct (split_safe a1 HL) as [[q ->]|[x ->]]; exact I.
  - destruct (Nat.eqb_spec r other) as [-> |Hne]; [destruct (HA _ eq_refl)|]. apply runs_method; [exact (HM _ _ A A0)|intros; eexists _, _; reflexivity].
  - destruct A0 as [Hi ->]. apply runs_method; [exact (HM _ A Hi)|intros; eexists _, _; reflexivity].
  - destruct A0 as [Hi ->]. apply runs_method; [exact (HM _ A Hi)|intros; eexists _, _; reflexivity].
  - apply runs_cpp; [exact (safe_defined (new_safe E))|]. intros ? _. eexists _, _. reflexivity.
  - apply runs_method; [exact (HM _ _ A A0)|intros; eexists _, _; reflexivity].
  - destruct A0 as (t & -> & Ht). apply runs_method; [exact (HM _ _ A Ht)|intros; eexists _, _; reflexivity].
  - apply runs_method; [|intros; eexists _, _; reflexivity]. rewrite (shipped_standard _ HF HW). destruct (ev_safe (AddStandardErrors latin_groups greek_groups) (snd (fst a))) as [-> | ->]; exact I.
  - eapply runs_bind; [apply (@look_reading _ _ CErrors)|hide|]. intros ? _. eexists _, _. reflexivity.
  - eapply runs_bind; [apply (@look_reading _ _ CErrors)|hide|]. intros ? _. eexists _, _. reflexivity.
  - unfold runs. destruct (nth k (py_bound s) false); eexists _, _; reflexivity.
Qed.
End Keep.
