(** Proofs about OomM: containers. *)
From Verif Require Import Base TrieM WordM WordP WordQ MapM DoubleM ContM OwnM OwnP OwnQ Spec_Own OomM Spec_Oom OomP.
Local Open Scope Z_scope.

Ltac nd := intros [?|?]; auto.
Section Cont.
Variable E : env.
Section Elem.
Variables (A V : Type) (copy : A -> T A) (destroy : A -> T unit) (whole : A -> Prop) (the : A -> V) (fp : A -> Z) (lk : Z).
Hypothesis Hlk : 0 <= lk.
Hypothesis Hcopy : forall x, whole x -> ref E (copy x) (Ok (the x)) whole the fp lk.
Hypothesis Hdes : forall x, whole x -> frees (destroy x) (fp x).
Lemma copy_all_ref l : Forall whole l -> ref E (copy_all copy destroy l) (Ok (map the l)) (Forall whole) (map the) (sum fp) lk.
Proof.
  induction 1 as [|x l Hx Hl IH]; intros m; cbn [copy_all].
  - apply sp_val. repeat split; auto; [|red; auto]. rewrite sum_nil. lia.
  - apply sp_bind. eapply sp_mono; [apply (Hcopy Hx)| | |]; cbn beta.
    + intros m1 c (Wc & Vc & Lc & Qc). apply sp_bind, sp_cleanup. eapply sp_mono; [apply IH| | |]; cbn beta.
      * intros m2 cs (W & Vs & L & Q). apply sp_val. split; [constructor; auto|]. split; [|split; [rewrite sum_cons; lia|unfold quiet in *; auto]].
        intros H. assert (H1 : e_ndebug E = false \/ plan m1 = []) by (destruct H; auto). specialize (Vc H). specialize (Vs H1). cbn. congruence.
      * intros m2 p (L & Q). eapply sp_frees; [apply Hdes, Wc|]. intros m3 L3 P3. split.
        -- unfold lost in *. lia.
        -- intros H0. destruct (Q (Qc H0)) as [_ (e & _ & He)]. discriminate.
      * intros []; cbn; intros H; try easy. destruct H as [H H']. split; [exact H|]. intros H0. now specialize (H' (Qc H0)).
    + intros m1 p (L & Q). split; [exact L|]. intros H0. destruct (Q H0) as [_ (e & _ & He)]. discriminate.
    + intros []; cbn; intros H; try easy. destruct H as [H H']. split; [exact H|]. intros H0. now specialize (H' H0).
Qed.
Lemma push_ref v x : Forall whole (v_elems v) -> whole x ->
  ref E (v_push copy destroy v x) (Ok (map the (v_elems v) ++ [the x])) (fun r => Forall whole (v_elems r)) (fun r => map the (v_elems r)) (fun r => fp_vec fp r - fp_vec fp v) lk.
Proof.
  intros Hv Hx m. unfold v_push. destruct (Nat.ltb_spec (length (v_elems v)) (v_cap v)) as [Hlt|Hge].
  - apply sp_bind. eapply sp_mono; [apply (Hcopy Hx)| | |]; cbn beta.
    + intros m1 c (Wc & Vc & Lc & Qc). apply sp_val. cbn [v_elems v_cap]. split; [apply Forall_app; auto|]. split.
      * intros H. specialize (Vc H). rewrite map_app. cbn. congruence.
      * split; [|exact Qc]. unfold fp_vec, fp_st. cbn [v_elems v_cap]. rewrite sum_app, sum_cons, sum_nil. lia.
    + intros m1 p (L & Q). split; [exact L|]. intros H0. destruct (Q H0) as [_ (e & _ & He)]. discriminate.
    + intros []; cbn; intros H; try easy. destruct H as [H H']. split; [exact H|]. intros H0. now specialize (H' H0).
  - apply sp_bind, sp_alloc; intros m1 L1 P1; [|split; [unfold lost; lia|easy]].
    apply sp_bind, sp_cleanup. eapply sp_mono; [apply (Hcopy Hx)| | |]; cbn beta.
    + intros m2 c (Wc & Vc & Lc & Qc). apply sp_bind, sp_cleanup. eapply sp_mono; [apply (copy_all_ref Hv)| | |]; cbn beta.
      * intros m3 cs (W & Vs & L & Q). apply sp_bind. eapply sp_frees; [apply (all_frees Hdes Hv)|]. intros m4 L4 P4.
        apply sp_bind. eapply sp_frees; [apply st_frees|]. intros m5 L5 P5. apply sp_val. cbn [v_elems v_cap].
        split; [apply Forall_app; auto|]. unfold quiet in *. split.
        -- intros H. assert (H1 : e_ndebug E = false \/ plan m1 = []) by (destruct H; auto). assert (H2 : e_ndebug E = false \/ plan m2 = []) by (destruct H1; auto).
           specialize (Vc H1). specialize (Vs H2). rewrite map_app. cbn. congruence.
        -- split; [|intros H; rewrite P5, P4; auto]. unfold fp_vec, fp_st at 1. cbn [v_elems v_cap]. rewrite sum_app, sum_cons, sum_nil.
           replace (Nat.eqb (Nat.max 1 (2 * length (v_elems v))) 0) with false by (symmetry; apply Nat.eqb_neq; lia). lia.
      * intros m3 p (L & Q). eapply sp_frees; [apply frees_bind; [apply Hdes, Wc|apply frees_free]|]. intros m4 L4 P4. split.
        -- unfold lost in *. lia.
        -- intros H0. destruct (Q (Qc (P1 H0))) as [_ (e & _ & He)]. discriminate.
      * intros []; cbn; intros H; try easy. destruct H as [H H']. split; [exact H|]. intros H0. now specialize (H' (Qc (P1 H0))).
    + intros m2 p (L & Q). apply sp_free. intros m3 L3 P3. split; [unfold lost in *; lia|].
      intros H0. destruct (Q (P1 H0)) as [_ (e & _ & He)]. discriminate.
    + intros []; cbn; intros H; try easy. destruct H as [H H']. split; [exact H|]. intros H0. now specialize (H' (P1 H0)).
Qed.
End Elem.

(** *** Assignment of a vector of Words *)
Lemma assign_each_ok from P B : forall xs m, Forall whole_w xs -> Forall whole_w from -> (length xs <= length from)%nat -> sp (assign_each xs from) m
  (fun m' r => quiet m m' /\ match snd r with
    | None => Forall whole_w (fst r) /\ map the_word (fst r) = map the_word (firstn (length xs) from) /\ live m' = live m - sum fp_w xs + sum fp_w (fst r)
    | Some p => p = OutOfMemory /\ plan m <> [] /\ xs <> [] end) P B.
Proof.
  intros xs. revert from. induction xs as [|x xs IH]; intros [|f from] m Hx Hf Hl; cbn [assign_each].
  - apply sp_val. cbn. repeat split; auto; [red; auto|lia].
  - apply sp_val. cbn. repeat split; auto; [red; auto|lia].
  - cbn in Hl. lia.
  - inversion Hx as [|? ? Hx1 Hx2]; subst. inversion Hf as [|? ? Hf1 Hf2]; subst. apply sp_bind. eapply sp_mono; [apply (@duplicate_ok x f m P B); assumption| |auto|auto]. cbn beta.
    intros m1 [a [p|]] [H Q]; cbn [fst snd] in *.
    + apply sp_val. cbn. split; [exact Q|]. repeat split; [tauto|tauto|discriminate].
    + destruct H as (Wa & Va & La). apply sp_bind. eapply sp_mono; [apply (IH from m1); auto; cbn in Hl; lia| |auto|auto]. cbn beta.
      intros m2 [q [p|]] [Q2 H2]; cbn [fst snd] in *; apply sp_val; cbn [fst snd]; (split; [unfold quiet in *; auto|]).
      * destruct H2 as (H2 & H3 & _). split; [exact H2|]. split; [|discriminate]. intros H0. apply H3, Q, H0.
      * destruct H2 as (W2 & V2 & L2). split; [auto|]. split; [cbn; congruence|]. rewrite !sum_cons. lia.
Qed.
Lemma copy_ok o : whole_w o -> ref E (o_copy o) (Ok (the_word o)) whole_w the_word fp_w 0.
Proof. apply copy_ref. Qed.
Lemma words_copied l : Forall whole_w l -> ref E (copy_all o_copy o_destroy l) (Ok (map the_word l)) (Forall whole_w) (map the_word) (sum fp_w) 0.
Proof. apply (copy_all_ref copy_ok word_frees). Qed.
(** The same, with no value lost. *)
Lemma words_made l m (Q : memory -> list oword -> Prop) (P : memory -> stop -> Prop) B : Forall whole_w l ->
  (forall m' cs, Forall whole_w cs -> map the_word cs = map the_word l -> live m' = live m + sum fp_w cs -> quiet m m' -> Q m' cs) ->
  (forall m', live m' = live m -> plan m <> [] -> P m' OutOfMemory) -> sp (copy_all o_copy o_destroy l) m Q P B.
Proof.
  intros Hl. revert m Q P. induction Hl as [|x l Hx Hl IH]; intros m Q P HQ HP; cbn [copy_all].
  - apply sp_val, HQ; auto; [rewrite sum_nil; lia|red; auto].
  - apply sp_bind. unfold o_copy, construct. apply sp_bind. eapply sp_mono; [apply (@duplicate_ok o_empty x m P B); [reflexivity|exact Hx]| |auto|auto].
    cbn beta. intros m1 [c [p|]] [H Qc]; cbn [fst snd] in *; change (fp_w o_empty) with 0 in H.
    + apply sp_fail. destruct H as (-> & H1 & H2). apply HP; [lia|exact H1].
    + destruct H as (Wc & Vc & Lc). apply sp_val, sp_bind, sp_cleanup, IH.
      * intros m2 cs W2 V2 L2 Q2. apply sp_val, HQ; [auto|cbn; congruence|rewrite sum_cons; lia|unfold quiet in *; auto].
      * intros m2 L2 P2. eapply sp_frees; [apply word_frees, Wc|]. intros m3 L3 P3. apply HP; [lia|]. intros H0. apply P2, Qc, H0.
Qed.
Lemma v_assign_ok v from m P B : whole_l v -> Forall whole_w from -> sp (v_assign v from) m
  (fun m' r => quiet m m' /\ match snd r with
    | None => whole_l (fst r) /\ the_list (fst r) = map the_word from /\ live m' = live m - fp_vec fp_w v + fp_vec fp_w (fst r)
    | Some p => p = OutOfMemory /\ plan m <> [] /\ (v = v_new -> fst r = v_new /\ live m' = live m) end) P B.
Proof.
  intros Hv Hf. unfold v_assign. cbv zeta. unfold whole_l in Hv. destruct (Nat.ltb_spec (v_cap v) (length from)) as [Hlt|Hge].
  - apply sp_bind, sp_try, sp_bind, sp_alloc; intros m1 L1 P1.
    + apply sp_cleanup, words_made; [exact Hf| |].
      * intros m2 cs W2 V2 L2 Q2. apply sp_bind. eapply sp_frees; [apply (all_frees word_frees Hv)|]. intros m3 L3 P3.
        apply sp_bind. eapply sp_frees; [apply st_frees|]. intros m4 L4 P4. apply sp_val. cbn [fst snd]. split; [unfold quiet in *; intros H; rewrite P4, P3; auto|].
        split; [exact W2|]. split; [exact V2|]. unfold fp_vec, fp_st at 2. cbn [v_elems v_cap].
        replace (Nat.eqb (length from) 0) with false by (symmetry; apply Nat.eqb_neq; lia). lia.
      * intros m2 L2 P2. apply sp_free. intros m3 L3 P3. apply sp_val. cbn [fst snd]. split; [unfold quiet; intros H; destruct (P2 (P1 H))|]. split; [reflexivity|]. split; [auto|]. intros H. split; [exact H|lia].
    + apply sp_val. cbn [fst snd]. split; [unfold quiet; easy|]. split; [reflexivity|]. split; [auto|]. intros H. split; [exact H|lia].
  - destruct (Nat.leb_spec (length from) (length (v_elems v))) as [Hle|Hgt].
    + rewrite <- (firstn_skipn (length from) (v_elems v)) in Hv. apply Forall_app in Hv as [Hv1 Hv2].
      assert (Hl : length (firstn (length from) (v_elems v)) = length from) by (rewrite firstn_length; lia).
      apply sp_bind. eapply sp_mono; [apply (@assign_each_ok from P B _ m Hv1 Hf); lia| |auto|auto]. cbn beta. intros m1 [r [p|]] [Q1 H1]; cbn [fst snd] in *.
      * apply sp_val. cbn [fst snd]. split; [exact Q1|]. destruct H1 as (-> & H1 & H1'). split; [reflexivity|]. split; [exact H1|]. intros ->. destruct H1'. cbn. apply firstn_nil.
      * destruct H1 as (W1 & V1 & L1). apply sp_bind. eapply sp_frees; [apply (all_frees word_frees Hv2)|]. intros m2 L2 P2. apply sp_val. cbn [fst snd].
        split; [unfold quiet in *; intros H; rewrite P2; auto|]. split; [exact W1|]. rewrite Hl, firstn_all in V1. split; [exact V1|].
        unfold fp_vec, fp_st. cbn [v_elems v_cap]. pose proof (f_equal (sum fp_w) (firstn_skipn (length from) (v_elems v))) as Hs. rewrite sum_app in Hs. lia.
    + apply sp_bind. eapply sp_mono; [apply (@assign_each_ok from P B _ m Hv Hf); lia| |auto|auto]. cbn beta. intros m1 [r [p|]] [Q1 H1]; cbn [fst snd] in *.
      * apply sp_val. cbn [fst snd]. split; [exact Q1|]. destruct H1 as (-> & H1 & _). split; [reflexivity|]. split; [exact H1|]. intros ->. cbn in *; lia.
      * destruct H1 as (W1 & V1 & L1). apply sp_bind, sp_try, words_made.
        -- rewrite <- (firstn_skipn (length (v_elems v)) from) in Hf. now apply Forall_app in Hf as [_ Hf].
        -- intros m2 cs W2 V2 L2 Q2. apply sp_val. cbn [fst snd]. split; [unfold quiet in *; auto|]. unfold whole_l, the_list. cbn [v_elems v_cap].
           split; [apply Forall_app; auto|]. split; [rewrite map_app, V1, V2, <- map_app, firstn_skipn; reflexivity|].
           unfold fp_vec, fp_st. cbn [v_elems v_cap]. rewrite sum_app. lia.
        -- intros m2 L2 P2. apply sp_val. cbn [fst snd]. split; [unfold quiet in *; intros H; destruct (P2 (Q1 H))|]. split; [reflexivity|]. split; [auto|]. intros ->. cbn in *; lia.
Qed.

(** *** WordList *)
Lemma l_new_ref : ref E l_new (Ok []) whole_l the_list fp_list 0.
Proof.
  intros m. unfold l_new. apply sp_bind, sp_alloc; intros m1 L1 P1; [|split; [unfold lost; lia|easy]]. apply sp_val. repeat split; auto. constructor.
Qed.
Lemma l_copy_ref l : whole_l l -> ref E (l_copy l) (Ok (the_list l)) whole_l the_list fp_list 1.
Proof.
  intros Hl m. unfold l_copy. apply sp_bind, sp_alloc; intros m1 L1 P1; [|split; [unfold lost; lia|easy]]. unfold construct. apply sp_bind.
  eapply sp_mono; [apply (@v_assign_ok v_new (v_elems l) m1 (fun _ _ => False) (fun _ => False)); [constructor|exact Hl]| |easy|easy]. cbn beta.
  intros m2 [r [p|]] [Q2 H2]; cbn [fst snd] in *.
  - apply sp_fail. destruct H2 as (-> & H2 & H3). split; [|intros H; destruct (H2 (P1 H))].
    destruct (H3 eq_refl) as [_ H4]. unfold lost. lia.
  - apply sp_val. destruct H2 as (W2 & V2 & L2). change (fp_vec fp_w v_new) with 0 in L2. split; [exact W2|]. split; [intros _; unfold the_list in *; congruence|].
    split; [unfold fp_list; lia|unfold quiet in *; auto].
Qed.
End Cont.
