(** From the invariant to values, storage and the count of allocations. *)
From Verif Require Import Base TrieM WordM MapM DoubleM ContM OwnM Spec_Own OwnP OwnQ OwnR.
From Coq Require Import ZifyBool ZifyN ZifyNat.
Local Open Scope N_scope.

(** ** Programs *)
Lemma prog_follows E ops : (forall c, In c ops -> ~ implicit_copy c) -> forall vs m cs n vs' os, inv vs m cs n -> v_prog E ops vs = (vs', Ok os) ->
  exists m' cs', prog E ops (m, cs) = ((m', cs'), Ok os) /\ inv vs' m' cs' (n + all_lost ops os).
Proof.
  induction ops as [|c ops IH]; intros Hc vs m cs n vs' os Hi H; cbn [v_prog] in H.
  - injection H as <- <-. exists m, cs. split; [reflexivity|]. exact (inv_same Hi (fun _ => eq_refl)).
  - destruct (v_exec E c vs) as [vs1 o] eqn:Hx. assert (Hf : fine o). { destruct o; try exact I; discriminate H. }
    destruct (exec_follows (Hc c (or_introl eq_refl)) Hi Hx Hf) as (m1 & cs1 & H1 & H2).
    assert (HH : exists os1, v_prog E ops vs1 = (vs', Ok os1) /\ os = o :: os1).
    { destruct o; try destruct Hf; destruct (v_prog E ops vs1) as [v2 [os1| | | |]]; cbn in H; try discriminate; injection H as <- <-; eauto. }
    destruct HH as (os1 & Hv & ->). destruct (IH (fun d Hd => Hc d (or_intror Hd)) _ _ _ _ _ _ H2 Hv) as (m2 & cs2 & K1 & K2). exists m2, cs2.
    split; [|cbn [all_lost]; now rewrite PeanoNat.Nat.add_assoc]. cbn [prog]. rewrite H1. destruct o; try destruct Hf; now rewrite (bind_eq _ K1).
Qed.
Lemma inv_start : inv [] [] [] 0.
Proof. exists [], []. split; [constructor|]. split; [reflexivity|]. intros g. reflexivity. Qed.

(** ** Values *)
Lemma block_ok m a b : sub [(a, b)] m -> block_at m (Some a) = Some b.
Proof. intros H. unfold block_at. now rewrite (ms_at H). Qed.
Lemma each_ok V O (R : V -> O -> list cell -> Prop) f m vs os W : (forall v o X, R v o X -> sub X m -> f o = Some v) -> rep_all R vs os W -> sub W m -> each f os = Some vs.
Proof.
  intros Hf Hr. induction Hr as [|v o W vs os W' Ho Hr IH]; intros Hs; [reflexivity|]. cbn [each]. rewrite (Hf v o W Ho ltac:(hs)), IH; [reflexivity|hs].
Qed.
Lemma word_ok m v o X : rep_word v o X -> sub X m -> word_value m o = Some v.
Proof.
  intros [|w a] Hs; [reflexivity|]. unfold word_value. cbn [hw_len hw_text]. destruct (N.eqb_spec (N.of_nat (length w)) 0) as [H0|H0]; [destruct w; [reflexivity|cbn in H0; lia]|].
  rewrite (block_ok Hs). replace (_ =? _) with true by (symmetry; apply N.eqb_eq; rewrite app_length; cbn [length]; lia).
  now rewrite Nnat.Nat2N.id, firstn_app, PeanoNat.Nat.sub_diag, firstn_all, app_nil_r.
Qed.
Lemma list_ok m l p X : rep_list l p X -> sub X m -> list_value m p = Some l.
Proof. intros (a & os & Y & -> & Hr & ->) Hs. unfold list_value. rewrite (@block_ok m a (BWords os) ltac:(hs)). apply (each_ok (@word_ok m) Hr). hs. Qed.
Lemma text_ok m t o X : rep_text t o X -> sub X m -> text_value m o = Some t.
Proof. intros (Y & Z & H1 & H2 & ->) Hs. unfold text_value. rewrite (word_ok (m := m) H1 ltac:(hs)), (list_ok (m := m) H2 ltac:(hs)). now destruct t. Qed.
Lemma doc_ok m d a X : rep_doc d a X -> sub X m -> doc_value m a = Some d.
Proof. intros (ts & Y & Hr & ->) Hs. unfold doc_value. rewrite (@block_ok m a (BDoc (d_id d) ts) ltac:(hs)), (each_ok (m := m) (@text_ok m) Hr ltac:(hs)). now destruct d. Qed.
Lemma obj_ok m v c X : rep_obj v c X -> sub X m -> value m c = Some v.
Proof.
  intros Ho Hs. destruct Ho as [v o W Ho|l p W Ho| |d a W Ho|k a W Ho|r a| |a]; cbn [value].
  - destruct Ho as [w o W Ho|n Hn].
    + rewrite (word_ok Ho Hs). destruct Ho as [|w a]; [reflexivity|]. cbn [hw_len hw_text]. now rewrite Bool.andb_false_r.
    + cbn [hw_len hw_text]. destruct (N.eqb_spec n 0); [lia|reflexivity].
  - rewrite (list_ok Ho Hs). destruct Ho as (a & os & Y & -> & _). reflexivity.
  - reflexivity.
  - now rewrite (doc_ok Ho Hs).
  - destruct Ho as (ds & Y & Hr & ->). rewrite (@block_ok m a (BDocs ds) ltac:(hs)), (each_ok (m := m) (@doc_ok m) Hr ltac:(hs)). reflexivity.
  - now rewrite (block_ok Hs).
  - reflexivity.
  - now rewrite (block_ok Hs).
Qed.
Lemma all_values m vs cs W : rep_all rep_var vs cs W -> sub W m -> holds_values m cs vs.
Proof.
  intros Hr. induction Hr as [|v o W vs os W' Ho Hr IH]; intros Hs; [constructor|]. constructor; [|apply IH; hs].
  destruct Ho as [|v c X Ho]; [exact I|]. apply (obj_ok (m := m) Ho). hs.
Qed.
Lemma inv_values vs m cs n : inv vs m cs n -> holds_values m cs vs.
Proof. intros (W & L & Hr & Hn & Hm). apply (all_values Hr). hs. Qed.
Lemma values_length m cs vs : holds_values m cs vs -> length cs = length vs.
Proof. induction 1; cbn; congruence. Qed.
Lemma values_at m cs vs x : holds_values m cs vs -> var_value m cs x = match nth_error vs x with Some o => o | None => None end.
Proof.
  intros H. revert x. unfold var_value. induction H as [|c v cs vs Hc H IH]; intros [|x]; cbn [nth_error]; try reflexivity; [|apply IH].
  destruct c, v; now auto.
Qed.

(** ** Storage *)
Lemma flat_ok V O (R : V -> O -> list cell -> Prop) f m vs os W : (forall v o X, R v o X -> sub X m -> f o = map fst X) -> rep_all R vs os W -> sub W m -> flat_map f os = map fst W.
Proof.
  intros Hf Hr. induction Hr as [|v o W vs os W' Ho Hr IH]; intros Hs; [reflexivity|]. cbn [flat_map]. rewrite (Hf v o W Ho ltac:(hs)), IH, map_app; [reflexivity|hs].
Qed.
Lemma word_at v o X : rep_word v o X -> at_ (hw_text o) = map fst X.
Proof. now intros [|w a]. Qed.
Lemma list_st m l p X : rep_list l p X -> sub X m -> list_storage m p = map fst X.
Proof.
  intros (a & os & Y & -> & Hr & ->) Hs. unfold list_storage. rewrite (@block_ok m a (BWords os) ltac:(hs)). cbn [at_ app map fst]. f_equal.
  apply (@flat_ok _ _ rep_word (fun o => at_ (hw_text o)) m l os Y (fun v o X H _ => word_at H) Hr). hs.
Qed.
Lemma doc_st m d a X : rep_doc d a X -> sub X m -> doc_storage m a = map fst X.
Proof.
  intros (ts & Y & Hr & ->) Hs. unfold doc_storage. rewrite (@block_ok m a (BDoc (d_id d) ts) ltac:(hs)). cbn [map fst]. f_equal.
  apply (@flat_ok _ _ rep_text _ m (d_texts d) ts Y); [|exact Hr|hs]. intros v o X (Z1 & Z2 & H1 & H2 & ->) Hx. rewrite (word_at H1), (list_st (m := m) H2 ltac:(hs)). symmetry. apply map_app.
Qed.
Lemma obj_st m v c X : rep_obj v c X -> sub X m -> storage m c = map fst X.
Proof.
  intros Ho Hs. destruct Ho as [v o W Ho|l p W Ho| |d a W Ho|k a W Ho|r a| |a]; cbn [storage]; try reflexivity.
  - destruct Ho as [w o W Ho|n Hn]; [exact (word_at Ho)|reflexivity].
  - exact (list_st Ho Hs).
  - exact (doc_st Ho Hs).
  - destruct Ho as (ds & Y & Hr & ->). rewrite (@block_ok m a (BDocs ds) ltac:(hs)). cbn [map fst]. f_equal. apply (@flat_ok _ _ rep_doc _ m k ds Y); [exact (@doc_st m)|exact Hr|hs].
Qed.
Lemma all_st m vs cs W : rep_all rep_var vs cs W -> sub W m -> flat_map (var_storage m) cs = map fst W.
Proof. intros Hr Hs. apply (@flat_ok _ _ rep_var _ m vs cs W); [|exact Hr|exact Hs]. intros v o X [|v' c X' Ho] Hx; [reflexivity|]. exact (obj_st Ho Hx). Qed.
Lemma addr_count a l : lsum (at_addr a) l = count_occ PeanoNat.Nat.eq_dec (map fst l) a.
Proof.
  induction l as [|[b k] l IH]; [reflexivity|]. cbn [lsum map count_occ fst]. rewrite IH. unfold at_addr at 1. cbn [fst]. destruct (PeanoNat.Nat.eq_dec b a) as [->|H]; [now rewrite PeanoNat.Nat.eqb_refl|].
  now rewrite (proj2 (PeanoNat.Nat.eqb_neq b a) H).
Qed.
Lemma sub_nodup W m : sub W m -> NoDup (map fst W).
Proof.
  intros Hs. apply (NoDup_count_occ PeanoNat.Nat.eq_dec). intros a. rewrite <- addr_count. destruct (@lives_addr a m 0%nat) as [H _]. exact (PeanoNat.Nat.le_trans _ _ _ (Hs (at_addr a)) H).
Qed.
Lemma sub_live W m a : sub W m -> In a (map fst W) -> exists b, nth_error m a = Some (Some b).
Proof.
  intros Hs Hi. apply in_map_iff in Hi as ([a' b] & <- & Hi). exists b. apply ms_at. intros f. apply in_split in Hi as (l & r & ->). specialize (Hs f). rewrite lsum_app, lsum_cons in Hs. cbn [lsum fst] in *. lia.
Qed.
Lemma unfreed_ok m : forall k, length (lives k m) = unfreed m.
Proof. unfold unfreed. induction m as [|[b|] m IH]; intros k; cbn; [reflexivity|now rewrite IH|apply IH]. Qed.
Lemma len_lsum (l : list cell) : length l = lsum (fun _ => 1%nat) l.
Proof. induction l; cbn; congruence. Qed.
Lemma inv_storage vs m cs n : inv vs m cs n -> NoDup (flat_map (var_storage m) cs) /\ (forall a, In a (flat_map (var_storage m) cs) -> exists b, nth_error m a = Some (Some b)) /\
  unfreed m = (length (flat_map (var_storage m) cs) + n)%nat.
Proof.
  intros (W & L & Hr & Hn & Hm). assert (Hs : sub W m) by hs. rewrite (all_st Hr Hs). split; [exact (sub_nodup Hs)|]. split; [intros a; exact (sub_live Hs)|].
  rewrite <- (unfreed_ok m 0%nat), len_lsum, map_length. specialize (Hm (fun _ => 1%nat)). unfold ms in Hm. now rewrite Hm, <- !len_lsum, Hn.
Qed.

(** ** The theorems *)
Lemma prog_inv E ops vs os : explicit ops -> v_prog E ops [] = (vs, Ok os) -> exists m cs, prog E ops ([], []) = ((m, cs), Ok os) /\ inv vs m cs (all_lost ops os).
Proof. intros Hc H. destruct (prog_follows Hc inv_start H) as (m & cs & H1 & H2). now exists m, cs. Qed.
Lemma prog_values E ops vs os : explicit ops -> v_prog E ops [] = (vs, Ok os) -> exists m cs, prog E ops ([], []) = ((m, cs), Ok os) /\ holds_values m cs vs.
Proof. intros Hc H. destruct (prog_inv Hc H) as (m & cs & H1 & H2). exists m, cs. split; [exact H1|exact (inv_values H2)]. Qed.
Lemma prog_storage E ops vs os m cs : explicit ops -> v_prog E ops [] = (vs, Ok os) -> prog E ops ([], []) = ((m, cs), Ok os) ->
  NoDup (flat_map (var_storage m) cs) /\ (forall a, In a (flat_map (var_storage m) cs) -> exists b, nth_error m a = Some (Some b)).
Proof. intros Hc H Hp. destruct (prog_inv Hc H) as (m' & cs' & H1 & H2). rewrite Hp in H1. injection H1 as <- <-. destruct (inv_storage H2) as (A & B & _). now split. Qed.
Lemma prog_count E ops vs os m cs : explicit ops -> v_prog E ops [] = (vs, Ok os) -> prog E ops ([], []) = ((m, cs), Ok os) ->
  unfreed m = (length (flat_map (var_storage m) cs) + all_lost ops os)%nat.
Proof. intros Hc H Hp. destruct (prog_inv Hc H) as (m' & cs' & H1 & H2). rewrite Hp in H1. injection H1 as <- <-. now destruct (inv_storage H2) as (_ & _ & B). Qed.
Lemma none_lost ops : forall os, (forall o, In o os -> o <> Throw ERuntime) -> all_lost ops os = 0%nat.
Proof.
  induction ops as [|c ops IH]; intros [|o os] H; try reflexivity. cbn [all_lost]. rewrite IH by (intros o' Ho; apply H; now right). specialize (H o (or_introl eq_refl)).
  unfold lost. destruct o as [|[]| | |]; try reflexivity; congruence.
Qed.
Lemma prog_freed E ops vs os m cs : explicit ops -> v_prog E ops [] = (vs, Ok os) -> prog E ops ([], []) = ((m, cs), Ok os) ->
  (forall o, In o os -> o <> Throw ERuntime) -> (forall v, In v vs -> v = None) -> forall b, In b m -> b = None.
Proof.
  intros Hc H Hp Ho Hv b Hb. pose proof (prog_count Hc H Hp) as Hn. rewrite (none_lost ops Ho), PeanoNat.Nat.add_0_r in Hn.
  assert (Hcs : forall c, In c cs -> c = None).
  { destruct (prog_values Hc H) as (m' & cs' & H1 & H2). rewrite Hp in H1. injection H1 as <- <-. clear Hp Hn Hb H Hc. induction H2 as [|c v cs vs Hx H2 IH]; [intros c []|].
    intros d [<-|Hd]; [|apply IH; [intros u Hu; apply Hv; now right|exact Hd]]. rewrite (Hv v (or_introl eq_refl)) in Hx. destruct c; [destruct Hx|reflexivity]. }
  assert (Hz : flat_map (var_storage m) cs = []).
  { clear - Hcs. induction cs as [|c cs IH]; [reflexivity|]. cbn [flat_map]. rewrite (Hcs c (or_introl eq_refl)), IH by (intros d Hd; apply Hcs; now right). reflexivity. }
  rewrite Hz in Hn. cbn [length] in Hn. destruct b as [b|]; [exfalso|reflexivity]. unfold unfreed in Hn. apply length_zero_iff_nil in Hn.
  assert (In (Some b) (filter (fun b => match b with Some _ => true | None => false end) m)) by (apply filter_In; split; [exact Hb|reflexivity]). rewrite Hn in H0. destruct H0.
Qed.

(** ** A statement changes only the variables it names as targets *)
Lemma nth_upd_other A (l : list A) x y a : x <> y -> nth_error (upd x a l) y = nth_error l y.
Proof. revert x y. induction l as [|b l IH]; intros [|x] [|y] H; cbn; try reflexivity; try congruence. apply IH. congruence. Qed.
Lemma upd_len A (l : list A) x a : length (upd x a l) = length l.
Proof. revert x. induction l as [|b l IH]; intros [|x]; cbn; congruence. Qed.
Lemma with_cases A vs (o : outcome A) k vs' r : with_ vs o k = (vs', r) -> vs' = vs \/ exists a, k a = (vs', r).
Proof. destruct o; cbn; intros H; try (injection H as <- _; now left). right. eauto. Qed.
Lemma exec_others E c vs vs' r y : v_exec E c vs = (vs', r) -> (y < length vs)%nat -> ~ In y (changes c) -> nth_error vs' y = nth_error vs y.
Proof.
  intros H Hy Hc. assert (Hadd : forall v, nth_error (add v vs) y = nth_error vs y) by (intros v; apply nth_error_app1; exact Hy).
  assert (Hup : forall x o, x <> y -> nth_error (upd x o vs) y = nth_error vs y) by (intros; now apply nth_upd_other).
  assert (Hmv : forall x v w, x <> y -> nth_error (add v (becomes x w vs)) y = nth_error vs y).
  { intros x v w Hx. unfold add, becomes. rewrite nth_error_app1 by now rewrite upd_len. now apply Hup. }
  assert (Htw : forall x z v w, x <> y -> z <> y -> nth_error (becomes z v (becomes x w vs)) y = nth_error vs y).
  { intros x z v w Hx Hz. unfold becomes. rewrite nth_upd_other by exact Hz. now apply Hup. }
  destruct c; cbn [changes In] in Hc; cbn [v_exec] in H; unfold v_method in H;
    repeat match type of H with
           | with_ _ _ _ = _ => let K := fresh "K" in let a := fresh "a" in destruct (with_cases H) as [->|(a & K)]; [reflexivity|]; clear H; rename K into H; cbn beta in H
           | (if ?b then _ else _) = _ => destruct b
           | match ?b with _ => _ end = _ => destruct b
           end;
    try (injection H as <- _); first [reflexivity|apply Hadd|apply Hup; intuition|apply Hmv; intuition|apply Htw; intuition].
Qed.
Lemma prog_app E ops : forall c vs vs1 os vs2 o, v_prog E ops vs = (vs1, Ok os) -> v_exec E c vs1 = (vs2, o) -> fine o -> v_prog E (ops ++ [c]) vs = (vs2, Ok (os ++ [o])).
Proof.
  induction ops as [|d ops IH]; intros c vs vs1 os vs2 o H Hc Hf; cbn [app v_prog] in *.
  - injection H as <- <-. rewrite Hc. destruct o; try destruct Hf; reflexivity.
  - destruct (v_exec E d vs) as [v3 [u|e| | |]]; try discriminate H; destruct (v_prog E ops v3) as [v4 [os1| | | |]] eqn:Hv; cbn in H; try discriminate H; injection H as <- <-; now rewrite (IH _ _ _ _ _ _ Hv Hc Hf).
Qed.
Lemma prog_run_app E ops c s s1 os s2 o : prog E ops s = (s1, Ok os) -> exec E c s1 = (s2, o) -> fine o -> prog E (ops ++ [c]) s = (s2, Ok (os ++ [o])).
Proof.
  revert s s1 os. induction ops as [|d ops IH]; intros s s1 os H Hc Hf; cbn [app prog] in *.
  - injection H as <- <-. rewrite Hc. destruct o; try destruct Hf; reflexivity.
  - destruct (exec E d s) as [s3 [u|e| | |]]; try discriminate H; unfold mbind in H |- *; destruct (prog E ops s3) as [s4 [os1| | | |]] eqn:Hv; cbn in H; try discriminate H; injection H as <- <-; now rewrite (IH _ _ _ Hv Hc Hf).
Qed.
Lemma independent E ops vs os m cs c vs' o : explicit (ops ++ [c]) -> v_prog E ops [] = (vs, Ok os) -> prog E ops ([], []) = ((m, cs), Ok os) -> v_exec E c vs = (vs', o) -> fine o ->
  exists m' cs', exec E c (m, cs) = ((m', cs'), o) /\ forall y, (y < length cs)%nat -> ~ In y (changes c) -> var_value m' cs' y = var_value m cs y.
Proof.
  intros Hx Hv Hp Hc Hf. destruct (prog_inv (ops := ops) (fun d Hd => Hx d (proj2 (in_app_iff _ _ _) (or_introl Hd))) Hv) as (m0 & cs0 & H1 & Hi). rewrite Hp in H1. injection H1 as <- <-.
  destruct (exec_follows (Hx c ltac:(apply in_app_iff; right; now left)) Hi Hc Hf) as (m' & cs' & H2 & Hi'). exists m', cs'. split; [exact H2|]. intros y Hy Hn.
  rewrite (values_at y (inv_values Hi)), (values_at y (inv_values Hi')), (exec_others Hc); [reflexivity| |exact Hn].
  rewrite <- (values_length (inv_values Hi)). exact Hy.
Qed.
