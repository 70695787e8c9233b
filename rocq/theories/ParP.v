(** Proofs about ParM: what each function does whichever allocations fail. *)
From Verif Require Import Base TrieM WordM WordP WordQ MapM DoubleM ContM OwnM OwnP OwnQ Spec_Own OomM Spec_Oom OomP OomQ OomR ParM Spec_Par.
Local Open Scope Z_scope.

(** [f] makes a whole object of value [v], and holds [fp] more; or it runs out of memory
    and loses at most [leak]. *)
Definition does {A V} (f : T A) (v : V) (whole : A -> Prop) (the : A -> V) (fp : A -> Z) (leak : Z) : Prop := forall m, sp f m
  (fun m' a => whole a /\ the a = v /\ live m' = live m + fp a /\ quiet m m')
  (fun m' p => p = OutOfMemory /\ plan m <> [] /\ lost leak m m')
  (fun _ => False).
Lemma sp_does A V (f : T A) (v : V) whole the fp leak m (Q : memory -> A -> Prop) (P : memory -> stop -> Prop) B : does f v whole the fp leak ->
  (forall m' a, whole a -> the a = v -> live m' = live m + fp a -> quiet m m' -> Q m' a) ->
  (forall m', plan m <> [] -> lost leak m m' -> P m' OutOfMemory) -> sp f m Q P B.
Proof.
  intros H HQ HP. eapply sp_mono; [apply H| | |]; cbn beta.
  - intros m' a (X1 & X2 & X3 & X4). auto.
  - intros m' p (-> & X1 & X2). auto.
  - easy.
Qed.
Lemma copy_does o : whole_w o -> does (o_copy o) (the_word o) whole_w the_word fp_w 0.
Proof. intros Ho m. apply copy_made; [exact Ho|auto|]. intros m' L P. split; [reflexivity|]. split; [exact P|unfold lost; lia]. Qed.

Section Elem.
Variables (A V : Type) (copy : A -> T A) (destroy : A -> T unit) (whole : A -> Prop) (the : A -> V) (fp : A -> Z).
Hypothesis Hcopy : forall x, whole x -> does (copy x) (the x) whole the fp 0.
Hypothesis Hdes : forall x, whole x -> frees (destroy x) (fp x).
Lemma all_does l : Forall whole l -> does (copy_all copy destroy l) (map the l) (Forall whole) (map the) (sum fp) 0.
Proof.
  induction 1 as [|x l Hx Hl IH]; intros m; cbn [copy_all].
  - apply sp_val. rewrite sum_nil. split; [constructor|]. split; [reflexivity|]. split; [lia|red; auto].
  - apply sp_bind. eapply sp_does; [apply (Hcopy Hx)| |].
    + intros m1 c Wc Vc Lc Qc. apply sp_bind, sp_cleanup. eapply sp_does; [apply IH| |].
      * intros m2 cs Ws Vs Ls Qs. apply sp_val. rewrite sum_cons. cbn [map]. split; [auto|]. split; [congruence|]. split; [lia|unfold quiet in *; auto].
      * intros m2 P2 L2. eapply sp_frees; [apply Hdes, Wc|]. intros m3 L3 P3. split; [reflexivity|]. unfold lost, quiet in *. split; [auto|lia].
    + intros m1 P1 L1. auto.
Qed.
Lemma push_does v x : Forall whole (v_elems v) -> whole x ->
  does (v_push copy destroy v x) (map the (v_elems v) ++ [the x]) (fun r => Forall whole (v_elems r)) (fun r => map the (v_elems r)) (fun r => fp_vec fp r - fp_vec fp v) 0.
Proof.
  intros Hv Hx m. unfold v_push. destruct (Nat.ltb (length (v_elems v)) (v_cap v)).
  - apply sp_bind. eapply sp_does; [apply (Hcopy Hx)| |].
    + intros m1 c Wc Vc Lc Qc. apply sp_val. cbn [v_elems]. split; [apply Forall_app; auto|]. split; [rewrite map_app; cbn; congruence|].
      split; [|exact Qc]. unfold fp_vec, fp_st. cbn [v_elems v_cap]. rewrite sum_app, sum_cons, sum_nil. lia.
    + intros m1 P1 L1. auto.
  - apply sp_bind, sp_alloc; intros m1 L1 P1; [|split; [reflexivity|]; split; [exact P1|unfold lost; lia]].
    apply sp_bind, sp_cleanup. eapply sp_does; [apply (Hcopy Hx)| |].
    + intros m2 c Wc Vc Lc Qc. apply sp_bind, sp_cleanup. eapply sp_does; [apply (all_does Hv)| |].
      * intros m3 cs W Vs L Q. apply sp_bind. eapply sp_frees; [apply (all_frees Hdes Hv)|]. intros m4 L4 P4.
        apply sp_bind. eapply sp_frees; [apply st_frees|]. intros m5 L5 P5. apply sp_val. cbn [v_elems v_cap].
        split; [apply Forall_app; auto|]. split; [rewrite map_app; cbn; congruence|].
        split; [|unfold quiet in *; intros H; rewrite P5, P4; auto]. unfold fp_vec, fp_st at 1. cbn [v_elems v_cap]. rewrite sum_app, sum_cons, sum_nil.
        replace (Nat.eqb (Nat.max 1 (2 * length (v_elems v))) 0) with false by (symmetry; apply Nat.eqb_neq; lia). lia.
      * intros m3 P3 L3. eapply sp_frees; [apply frees_bind; [apply Hdes, Wc|apply frees_free]|]. intros m4 L4 P4.
        split; [reflexivity|]. unfold lost, quiet in *. split; [auto|lia].
    + intros m2 P2 L2. apply sp_free. intros m3 L3 P3. split; [reflexivity|]. unfold lost in *. split; [auto|lia].
Qed.
End Elem.
(** Elements that are moved, or hold nothing. *)
Lemma copy_val A (l : list A) : forall m, copy_all val (fun _ => val tt) l m = (m, Val l).
Proof. induction l as [|x l IH]; intros m; [reflexivity|]. cbn [copy_all]. unfold cleanup, try, tbind, val at 1. rewrite IH. reflexivity. Qed.
Lemma all_val A (l : list A) : forall m, t_all (fun _ => val tt) l m = (m, Val tt).
Proof. induction l as [|x l IH]; intros m; [reflexivity|]. cbn [t_all]. unfold tbind, val at 1. apply IH. Qed.
Lemma append_does A (v : vec A) x : does (v_append v x) (v_elems v ++ [x]) (fun _ => True) (@v_elems A) (fun r => fp_st r - fp_st v) 0.
Proof.
  intros m. unfold v_append, v_push. destruct (Nat.ltb (length (v_elems v)) (v_cap v)).
  - apply sp_bind, sp_val, sp_val. cbn [v_elems]. split; [exact I|]. split; [reflexivity|]. unfold fp_st. cbn [v_cap]. split; [lia|red; auto].
  - apply sp_bind, sp_alloc; intros m1 L1 P1; [|split; [reflexivity|]; split; [exact P1|unfold lost; lia]].
    apply sp_bind, sp_cleanup, sp_val, sp_bind, sp_cleanup. unfold sp at 1. rewrite copy_val. apply sp_bind. unfold sp at 1. rewrite all_val.
    apply sp_bind. eapply sp_frees; [apply st_frees|]. intros m5 L5 P5. apply sp_val. cbn [v_elems].
    split; [exact I|]. split; [reflexivity|]. split; [|unfold quiet; intros H; rewrite P5; auto]. unfold fp_st at 1. cbn [v_cap].
    replace (Nat.eqb (Nat.max 1 (2 * length (v_elems v))) 0) with false by (symmetry; apply Nat.eqb_neq; lia). lia.
Qed.

(** ** MatchResults *)
Definition fp_res (r : ores) : Z := fp_st (or_vec r) + 1.
Definition the_res (r : ores) : mresults := mkMR (v_elems (or_vec r)) (or_sorted r).
Definition any {A} (_ : A) : Prop := True.
Lemma res_frees r : frees (r_destroy r) (fp_res r).
Proof. apply frees_bind; [apply st_frees|apply frees_free]. Qed.
Ltac oom := split; [reflexivity|]; unfold lost, quiet in *; split; [solve [auto]|lia].
Lemma new_does : does r_new mr_new any the_res fp_res 0.
Proof.
  intros m. apply sp_bind, sp_alloc; intros m1 L1 P1; [|oom]. apply sp_val. split; [exact I|]. split; [reflexivity|]. split; [exact L1|exact P1].
Qed.
Lemma store_does v from : does (r_store v from) from any (@v_elems _) (fun r => fp_st r - fp_st v) 0.
Proof.
  intros m. unfold r_store. destruct (Nat.ltb_spec (v_cap v) (length from)).
  - apply sp_bind, sp_alloc; intros m1 L1 P1; [|oom]. apply sp_bind. eapply sp_frees; [apply st_frees|]. intros m2 L2 P2. apply sp_val. cbn [v_elems].
    split; [exact I|]. split; [reflexivity|]. split; [|unfold quiet; intros X; rewrite P2; auto]. unfold fp_st at 1. cbn [v_cap].
    replace (Nat.eqb (length from) 0) with false by (symmetry; apply Nat.eqb_neq; lia). lia.
  - apply sp_val. split; [exact I|]. split; [reflexivity|]. unfold fp_st. cbn [v_cap]. split; [lia|red; auto].
Qed.
Lemma rcopy_does o : does (r_copy o) (the_res o) any the_res fp_res 1.
Proof.
  intros m. apply sp_bind, sp_alloc; intros m1 L1 P1; [|oom]. apply sp_bind. eapply sp_does; [apply store_does| |].
  - intros m2 v _ Vv Lv Qv. cbn beta in Lv. apply sp_val. unfold the_res, fp_res. cbn [or_vec or_sorted]. rewrite Vv. split; [exact I|]. split; [reflexivity|].
    change (fp_st v_new) with 0 in Lv. unfold quiet in *. split; [lia|auto].
  - intros m2 P2 L2. oom.
Qed.
Lemma assign_does x o : does (r_assign x o) (the_res o) any the_res (fun r => fp_res r - fp_res x) 0.
Proof.
  intros m. apply sp_bind. eapply sp_does; [apply store_does| |].
  - intros m2 v _ Vv Lv Qv. cbn beta in Lv. apply sp_val. unfold the_res, fp_res. cbn [or_vec or_sorted]. rewrite Vv. split; [exact I|]. split; [reflexivity|]. split; [lia|exact Qv].
  - intros m2 P2 L2. oom.
Qed.
Lemma radd_does x id d : does (r_add x id d) (fst (mr_addResult id d (the_res x))) any the_res (fun r => fp_res r - fp_res x) 0.
Proof.
  intros m. apply sp_bind. eapply sp_does; [apply append_does| |].
  - intros m2 v _ Vv Lv Qv. cbn beta in Lv. apply sp_val. unfold the_res, fp_res. cbn. rewrite Vv. split; [exact I|]. split; [reflexivity|]. split; [lia|exact Qv].
  - intros m2 P2 L2. oom.
Qed.
Lemma raddAll_does x o : does (r_addAll x o) (fst (mr_addResults (the_res o) (the_res x))) any the_res (fun r => fp_res r - fp_res x) 0.
Proof.
  intros m. unfold r_addAll. cbv zeta. destruct (Nat.leb_spec (length (v_elems (or_vec x)) + length (v_elems (or_vec o))) (v_cap (or_vec x))) as [H|H].
  - apply sp_val. split; [exact I|]. split; [reflexivity|]. unfold fp_res, fp_st. cbn [or_vec v_cap]. split; [lia|red; auto].
  - apply sp_bind, sp_alloc; intros m1 L1 P1; [|oom]. apply sp_bind. eapply sp_frees; [apply st_frees|]. intros m2 L2 P2. apply sp_val.
    split; [exact I|]. split; [reflexivity|]. split; [|unfold quiet; intros X; rewrite P2; auto]. unfold fp_res. unfold fp_st at 1. cbn [or_vec v_cap].
    match goal with |- context [Nat.eqb ?n 0] => replace (Nat.eqb n 0) with false by (symmetry; apply Nat.eqb_neq; lia) end. lia.
Qed.
Lemma rtake_does x o i : match at_or_throw (v_elems (or_vec o)) i with
  | Ok e => does (r_take x o i) (mkMR (mr_results (the_res x) ++ [e]) false) any the_res (fun r => fp_res r - fp_res x) 0
  | Throw e => forall m, r_take x o i m = (m, Fail (Thrown e))
  | _ => False end.
Proof.
  unfold r_take. destruct (at_or_throw (v_elems (or_vec o)) i) as [e|e| | |] eqn:He; try (unfold at_or_throw in He; destruct (N.leb_spec (N.of_nat (length (v_elems (or_vec o)))) i); [discriminate He|];
    destruct (nth_error (v_elems (or_vec o)) (N.to_nat i)) eqn:Hn; [discriminate He|]; apply nth_error_None in Hn; lia); [|reflexivity].
  intros m. apply sp_bind. unfold pure. unfold sp at 1. apply sp_bind. eapply sp_does; [apply append_does| |].
  - intros m2 v _ Vv Lv Qv. cbn beta in Lv. apply sp_val. unfold the_res, fp_res. cbn. rewrite Vv. split; [exact I|]. split; [reflexivity|]. split; [lia|exact Qv].
  - intros m2 P2 L2. oom.
Qed.

(** ** ResultFilter *)
Definition the_pair (p : oword * oword) : word * word := (the_word (fst p), the_word (snd p)).
Definition fp_pair (p : oword * oword) : Z := fp_w (snd p) + fp_w (fst p).
Definition whole_pair (p : oword * oword) : Prop := whole_w (fst p) /\ whole_w (snd p).
Definition whole_term (t : oterm) : Prop := Forall whole_pair (v_elems t).
Definition the_term (t : oterm) : list (word * word) := map the_pair (v_elems t).
Definition fp_term (t : oterm) : Z := fp_vec fp_pair t.
Definition whole_f (f : ofilter) : Prop := Forall whole_term (v_elems f).
Definition fp_filter (f : ofilter) : Z := fp_vec fp_term f + 1.
Lemma pair_frees p : whole_pair p -> frees (pair_destroy p) (fp_pair p).
Proof. intros [H1 H2]. apply frees_bind; now apply word_frees. Qed.
Lemma term_frees t : whole_term t -> frees (v_destroy pair_destroy t) (fp_term t).
Proof. intros H. exact (vec_frees pair_frees H). Qed.
Lemma filter_frees f : whole_f f -> frees (f_destroy f) (fp_filter f).
Proof. intros H. apply frees_bind; [exact (vec_frees term_frees H)|apply frees_free]. Qed.
Lemma pair_does p : whole_pair p -> does (pair_copy p) (the_pair p) whole_pair the_pair fp_pair 0.
Proof.
  intros [H1 H2] m. apply sp_bind. eapply sp_does; [apply (copy_does H1)| |].
  - intros m1 a Wa Va La Qa. apply sp_bind, sp_cleanup. eapply sp_does; [apply (copy_does H2)| |].
    + intros m2 b Wb Vb Lb Qb. apply sp_val. unfold the_pair, fp_pair. cbn [fst snd]. split; [now split|]. split; [congruence|]. split; [lia|unfold quiet in *; auto].
    + intros m2 P2 L2. eapply sp_frees; [apply (word_frees Wa)|]. intros m3 L3 P3. oom.
  - intros m1 P1 L1. oom.
Qed.
Lemma temp_does v x : whole_term v -> whole_pair x ->
  does (v_push_temp v x) (the_term v ++ [the_pair x]) whole_term the_term (fun r => fp_term r - fp_term v - fp_pair x) 0.
Proof.
  intros Hv Hx m. unfold v_push_temp. destruct (Nat.ltb (length (v_elems v)) (v_cap v)).
  - apply sp_val. split; [apply Forall_app; auto|]. split; [unfold the_term; cbn [v_elems]; now rewrite map_app|].
    split; [|red; auto]. unfold fp_term, fp_vec, fp_st. cbn [v_elems v_cap]. rewrite sum_app, sum_cons, sum_nil. lia.
  - apply sp_bind, sp_alloc; intros m1 L1 P1; [|oom]. apply sp_bind, sp_cleanup. eapply sp_does; [apply (all_does pair_does pair_frees Hv)| |].
    + intros m2 cs Wc Vc Lc Qc. apply sp_bind. eapply sp_frees; [apply (all_frees pair_frees Hv)|]. intros m3 L3 P3.
      apply sp_bind. eapply sp_frees; [apply st_frees|]. intros m4 L4 P4. apply sp_val.
      split; [apply Forall_app; auto|]. split; [unfold the_term; cbn [v_elems]; rewrite map_app; cbn; congruence|].
      split; [|unfold quiet in *; intros H; rewrite P4, P3; auto]. unfold fp_term, fp_vec. unfold fp_st at 1. cbn [v_elems v_cap]. rewrite sum_app, sum_cons, sum_nil.
      replace (Nat.eqb (Nat.max 1 (2 * length (v_elems v))) 0) with false by (symmetry; apply Nat.eqb_neq; lia). lia.
    + intros m2 P2 L2. apply sp_free. intros m3 L3 P3. oom.
Qed.
Lemma addTerm_does f : whole_f f -> does (f_addTerm f) (fst (rf_addNewTerm (the_filter f))) whole_f the_filter (fun r => fp_filter r - fp_filter f) 0.
Proof.
  intros Hf m. unfold f_addTerm. eapply sp_does; [apply append_does| |].
  - intros m1 r _ Vr Lr Qr. cbn beta in Lr. unfold whole_f, the_filter, fp_filter, fp_vec. rewrite Vr. split; [apply Forall_app; split; [exact Hf|repeat constructor]|].
    split; [now rewrite map_app|]. split; [|exact Qr]. rewrite sum_app, sum_cons, sum_nil. change (fp_term v_new) with 0. lia.
  - intros m1 P1 L1. oom.
Qed.
Lemma fnew_does : does f_new rf_new whole_f the_filter fp_filter 1.
Proof.
  intros m. apply sp_bind, sp_alloc; intros m1 L1 P1; [|oom]. eapply sp_does; [apply (@addTerm_does v_new); constructor| |].
  - intros m2 r Wr Vr Lr Qr. cbn beta in Lr. change (fp_filter v_new) with 1 in Lr. split; [exact Wr|]. split; [exact Vr|]. split; [lia|unfold quiet in *; auto].
  - intros m2 P2 L2. oom.
Qed.
Lemma addSub_does f k w : whole_f f -> v_elems f <> [] -> whole_w k -> whole_w w ->
  does (f_addSub f k w) (fst (rf_addNewSubTerm (the_word k) (the_word w) (the_filter f))) (fun r => whole_f r /\ v_elems r <> []) the_filter (fun r => fp_filter r - fp_filter f) 0 /\
  snd (rf_addNewSubTerm (the_word k) (the_word w) (the_filter f)) = Ok tt.
Proof.
  intros Hf Hne Hk Hw. destruct (rev (v_elems f)) as [|last front] eqn:Hr.
  { exfalso. apply Hne. rewrite <- (rev_involutive (v_elems f)), Hr. reflexivity. }
  assert (He : v_elems f = rev front ++ [last]) by (rewrite <- (rev_involutive (v_elems f)), Hr; reflexivity).
  assert (Hrv : rev (the_filter f) = the_term last :: map the_term front) by (transitivity (map the_term (rev (v_elems f))); [exact (eq_sym (map_rev the_term (v_elems f)))|rewrite Hr; reflexivity]).
  unfold rf_addNewSubTerm. rewrite Hrv. split; [|reflexivity]. cbn [fst].
  unfold whole_f in Hf. rewrite He in Hf. apply Forall_app in Hf. destruct Hf as [Hfr Hl]. inversion Hl as [|? ? Hla _]; subst.
  intros m. unfold f_addSub. apply sp_bind. eapply sp_does; [apply (@pair_does (k, w)); now split| |].
  - intros m1 p Wp Vp Lp Qp. rewrite Hr. apply sp_bind, sp_cleanup. eapply sp_does; [apply (temp_does Hla Wp)| |].
    + intros m2 t Wt Vt Lt Qt. cbn beta in Lt. apply sp_val. unfold whole_f, the_filter, fp_filter, fp_vec, fp_st. cbn [v_elems v_cap]. rewrite He.
      split; [split; [apply Forall_app; auto|intros X; now apply app_eq_nil in X]|].
      split; [rewrite map_app, <- map_rev; cbn [map]; change (map (fun p0 => _) (v_elems t)) with (the_term t); rewrite Vt, Vp; reflexivity|].
      split; [|unfold quiet in *; auto]. rewrite !sum_app, !sum_cons, !sum_nil. lia.
    + intros m2 P2 L2. eapply sp_frees; [apply (pair_frees Wp)|]. intros m3 L3 P3. oom.
  - intros m1 P1 L1. oom.
Qed.
