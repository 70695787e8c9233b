(** Bounded arguments give bounded prices. *)
From Verif Require Import Base TrieM ErrorValuesM Spec_Hist Spec_Edit Spec_Lev Spec_EV EVP.
From Coq Require Import ZifyBool ZifyN ZifyNat.
Local Open Scope Z_scope.

Record ranged (lo hi : Z) (e : errvals) : Prop := {
  rg_lut : forall a b, (a < 512)%N -> (b < 512)%N -> lo <= lut_at e a b <= hi;
  rg_single : Forall (fun p => lo <= snd p <= hi) (ev_single e);
  rg_gerr : Forall (fun v => lo <= v <= hi) (ev_gerr e);
  rg_ins : lo <= ev_ins e <= hi;
  rg_del : lo <= ev_del e <= hi;
  rg_edel : lo <= ev_edel e <= hi;
  rg_sins : lo <= ev_sins e <= hi;
  rg_trans : lo <= ev_trans e <= hi
}.

Section Range.
Variables lo hi : Z.
Hypothesis Hlo : lo <= 0.
Hypothesis Hhi : 100 <= hi.
Notation RG := (ranged lo hi).

Definition same_prices (e e' : errvals) : Prop :=
  ev_ins e' = ev_ins e /\ ev_del e' = ev_del e /\ ev_edel e' = ev_edel e /\ ev_sins e' = ev_sins e /\ ev_trans e' = ev_trans e.

Lemma group_loop_prices id : forall ls e, same_prices e (fst (group_loop id ls e)).
Proof.
  induction ls as [|l r IH]; intros e; cbn [group_loop]; [repeat split|].
  destruct (find_group _ l) as [g|].
  - destruct (Nat.eqb g id); [apply IH|repeat split].
  - exact (IH (with_gmap ((l, id) :: ev_gmap e) e)).
Qed.
Lemma setGroupError_prices g v e : same_prices e (fst (setGroupError g v e)).
Proof.
  unfold setGroupError, mbind, reads. pose proof (group_loop_prices (length (ev_gerr e)) g (with_gerr (ev_gerr e ++ [v]) e)) as H.
  destruct (group_loop _ _ _) as [e2 [[]| | | |]]; cbn [fst] in *; try exact H.
  destruct (addGroup_maps v g e2) as (_ & _ & _ & _ & H1 & H2 & H3 & H4 & H5 & _).
  destruct H as (K1 & K2 & K3 & K4 & K5). cbn in K1, K2, K3, K4, K5. repeat split; cbn; congruence.
Qed.
Lemma setError_prices x y v e : same_prices e (setError x y v e).
Proof.
  unfold setError. cbv zeta.
  match goal with |- same_prices _ (addToLUT ?a ?b ?v ?f) => destruct (addToLUT_maps a b v f) as (_ & _ & _ & _ & H1 & H2 & H3 & H4 & H5 & _) end.
  repeat split; assumption.
Qed.

Lemma setError_ranged x y v e : lo <= v <= hi -> RG e -> RG (setError x y v e).
Proof.
  intros Hv R. destruct (setError_maps e x y v) as (M1 & M2 & M3 & M4). destruct (setError_prices x y v e) as (K1 & K2 & K3 & K4 & K5).
  constructor.
  - intros a b Ha Hb. rewrite setError_lut by assumption. destruct (_ && _); [exact Hv|now apply (rg_lut R)].
  - rewrite M1. constructor; [exact Hv|apply (rg_single R)].
  - rewrite M3. apply (rg_gerr R).
  - rewrite K1. apply (rg_ins R).
  - rewrite K2. apply (rg_del R).
  - rewrite K3. apply (rg_edel R).
  - rewrite K4. apply (rg_sins R).
  - rewrite K5. apply (rg_trans R).
Qed.
Lemma group_ranged g v e : lo <= v <= hi -> ev_wf e -> RG e -> RG (fst (setGroupError g v e)).
Proof.
  intros Hv W R. destruct (setGroupError_prices g v e) as (K1 & K2 & K3 & K4 & K5).
  assert (Hlut : forall a b, (a < 512)%N -> (b < 512)%N -> lo <= lut_at (fst (setGroupError g v e)) a b <= hi).
  { intros a b Ha Hb. destruct (setGroupError_spec g v W) as (e' & [(He & _ & Hl & _)|(He & _ & Hl & _)] & _); rewrite He; cbn [fst].
    - rewrite Hl by assumption. destruct (_ && _); [exact Hv|now apply (rg_lut R)].
    - unfold lut_at. rewrite Hl. now apply (rg_lut R). }
  destruct (setGroupError_spec g v W) as (e' & Hc & M1 & M3 & _).
  assert (He : fst (setGroupError g v e) = e') by (destruct Hc as [(He & _)|(He & _)]; now rewrite He).
  rewrite He in *. constructor; try assumption.
  - rewrite M1. apply (rg_single R).
  - rewrite M3. apply Forall_app. split; [apply (rg_gerr R)|]. constructor; [exact Hv|constructor].
  - rewrite K1. apply (rg_ins R).
  - rewrite K2. apply (rg_del R).
  - rewrite K3. apply (rg_edel R).
  - rewrite K4. apply (rg_sins R).
  - rewrite K5. apply (rg_trans R).
Qed.
Lemma pairs_ranged ps : forallb (fun p => (0 <=? snd p) && (snd p <=? 100)) ps = true -> forall e, RG e -> RG (set_pairs ps e).
Proof.
  induction ps as [|p r IH]; intros Hf e R; [exact R|]. cbn in Hf |- *. apply andb_true_iff in Hf as [Hp Hf].
  apply IH; [exact Hf|]. apply setError_ranged; [lia|exact R].
Qed.
Lemma accents_ranged ls : forall e, ev_wf e /\ RG e -> ev_wf (fst (addAccents ls e)) /\ RG (fst (addAccents ls e)).
Proof.
  induction ls as [|g r IH]; intros e W; cbn [addAccents]; [exact W|].
  apply (@mbind_fst_inv _ _ _ (fun e => ev_wf e /\ RG e)); [|intros _ s' W'; now apply IH].
  destruct g; [exact W|]. split; [now apply group_wf|]. apply group_ranged; [unfold DEFAULT_GROUP_ERROR; lia|apply W|apply W].
Qed.

Lemma do_ranged c e : value_in lo hi c -> ev_wf e -> RG e -> RG (fst (ev_do c e)).
Proof.
  intros Hv W R. destruct c; cbn [ev_do value_in] in *; unfold pure; cbn [fst];
    try (destruct R; constructor; cbn; try assumption; unfold DEFAULT_SUBSTRING_END_DELETION_ERROR, DEFAULT_SUBSTRING_START_INSERTION_ERROR; lia).
  - now apply setError_ranged.
  - now apply group_ranged.
  - now apply accents_ranged.
  - rewrite kb_pairs. apply pairs_ranged; [reflexivity|exact R].
  - rewrite pad_pairs. apply pairs_ranged; [reflexivity|exact R].
  - assert (Hx : ev_wf (fst (addStandardErrors latin greek e)) /\ RG (fst (addStandardErrors latin greek e))).
    { unfold addStandardErrors.
      apply (@mbind_fst_inv _ _ _ (fun e => ev_wf e /\ RG e)); [now apply accents_ranged|]. intros _ s1 W1.
      apply (@mbind_fst_inv _ _ _ (fun e => ev_wf e /\ RG e)); [now apply accents_ranged|]. intros _ s2 [W2 H2].
      cbn [fst]. rewrite kb_pairs. split; [now apply pairs_wf|]. apply pairs_ranged; [reflexivity|exact H2]. }
    apply Hx.
  - destruct R. constructor; cbn; try assumption; try constructor.
    + change (lo <= lut_at (clearErrors e) a b). rewrite lut_at_clear by assumption. rewrite (wf_sub W). destruct (a =? b)%N; lia.
    + change (lut_at (clearErrors e) a b <= hi). rewrite lut_at_clear by assumption. rewrite (wf_sub W). destruct (a =? b)%N; lia.
Qed.
Lemma run_ranged calls : Forall (value_in lo hi) calls -> forall e, ev_wf e -> RG e -> RG (ev_run calls e).
Proof.
  induction calls as [|c r IH]; intros Hv e W R; [exact R|]. apply Forall_cons_iff in Hv as [Hc Hv].
  apply IH; [exact Hv|now apply do_wf|now apply do_ranged].
Qed.
Lemma new_ranged : RG ev_new.
Proof.
  constructor; cbn; try (unfold DEFAULT_ERROR; lia); try constructor.
  - change (lo <= lut_at ev_new a b). rewrite lut_at_new by assumption. destruct (a =? b)%N; lia.
  - change (lut_at ev_new a b <= hi). rewrite lut_at_new by assumption. destruct (a =? b)%N; lia.
Qed.

Lemma ranged_sub e a b v : ev_wf e -> RG e -> getSubstituteError e a b = Ok v -> lo <= v <= hi.
Proof.
  intros W R. rewrite get_val by exact W. intros [= <-]. unfold ev_val.
  destruct ((a <? 512)%N && (b <? 512)%N) eqn:Hl; [apply (rg_lut R); lia|].
  unfold slow_val. destruct (a =? b)%N; [lia|]. destruct (find_single _ _ _) as [v|] eqn:Hs.
  - unfold find_single in Hs. destruct (find _ _) as [p|] eqn:Hf; [|discriminate]. injection Hs as <-.
    apply find_some in Hf as [Hin _]. pose proof (rg_single R) as Ha. rewrite Forall_forall in Ha. now apply Ha.
  - destruct (find_group (ev_gmap e) (N.max a b)) as [g1|] eqn:H1; [|rewrite (wf_sub W); lia].
    destruct (find_group (ev_gmap e) (N.min a b)) as [g2|]; [|rewrite (wf_sub W); lia].
    destruct (Nat.eqb g1 g2); [|rewrite (wf_sub W); lia].
    pose proof (rg_gerr R) as Ha. rewrite Forall_forall in Ha. apply Ha. apply nth_In. apply (wf_gid W H1).
Qed.

Lemma prices_ranged calls n : Forall (value_in lo hi) calls ->
  let e := ev_after calls in
  lo <= getInsertionError e <= hi /\ lo <= getDeletionError e <= hi /\ lo <= getEndDeletionError e <= hi /\
  lo <= getStartInsertionError e n <= hi /\ lo <= getTransposeError e <= hi /\
  (forall a b v, getSubstituteError e a b = Ok v -> lo <= v <= hi).
Proof.
  intros Hv. cbv zeta. pose proof (run_ranged Hv new_wf new_ranged) as R. fold (ev_after calls) in R.
  repeat split; try apply R.
  - unfold getStartInsertionError. destruct (_ <=? _)%N; apply R.
  - unfold getStartInsertionError. destruct (_ <=? _)%N; apply R.
  - apply (@ranged_sub (ev_after calls) a b v (after_wf calls) R H).
  - apply (@ranged_sub (ev_after calls) a b v (after_wf calls) R H).
Qed.
End Range.

Lemma trans_default calls : Forall no_transpose calls -> getTransposeError (ev_after calls) = 100.
Proof.
  intros H. unfold ev_after. assert (H0 : ev_trans ev_new = 100) by reflexivity. revert H0. generalize ev_new.
  induction calls as [|c r IH]; intros e He; [exact He|]. apply Forall_cons_iff in H as [Hc H]. cbn [ev_run fold_left].
  fold (ev_run r (fst (ev_do c e))). apply IH; [exact H|].
  assert (Hp : forall ps e, ev_trans (set_pairs ps e) = ev_trans e).
  { induction ps as [|p ps IHp]; intros e1; [reflexivity|]. cbn. rewrite IHp.
    now destruct (setError_prices (fst (fst p)) (snd (fst p)) (snd p) e1) as (_ & _ & _ & _ & Hx). }
  assert (Ha : forall ls e, ev_trans e = 100 -> ev_trans (fst (addAccents ls e)) = 100).
  { induction ls as [|g ls IHl]; intros e1 H1; cbn [addAccents]; [exact H1|].
    apply (@mbind_fst_inv _ _ _ (fun e => ev_trans e = 100)); [|intros _ s' W'; now apply IHl].
    destruct g as [|l g]; [exact H1|]. destruct (setGroupError_prices (l :: g) DEFAULT_GROUP_ERROR e1) as (_ & _ & _ & _ & Hx). congruence. }
  destruct c; cbn [ev_do no_transpose] in *; unfold pure; cbn [fst]; try exact He; try destruct Hc.
  - destruct (setError_prices a b v e) as (_ & _ & _ & _ & Hx). congruence.
  - destruct (setGroupError_prices g v e) as (_ & _ & _ & _ & Hx). congruence.
  - now apply Ha.
  - unfold addStandardErrors.
    apply (@mbind_fst_inv _ _ _ (fun e => ev_trans e = 100)); [now apply Ha|]. intros _ s1 W1.
    apply (@mbind_fst_inv _ _ _ (fun e => ev_trans e = 100)); [now apply Ha|]. intros _ s2 W2.
    cbn [fst]. rewrite kb_pairs, Hp. exact W2.
Qed.

Lemma default_prices calls : default_like calls ->
  nonneg (ev_after calls) /\ (forall n, swaps_not_cheap (ev_after calls) n) /\
  (forall ops q, Z.of_nat (longest ops + length q + 2) * 100 + 10000 <= 2147483647 -> fits (ev_after calls) ops q).
Proof.
  intros H. unfold default_like in H.
  assert (Hv : Forall (value_in 0 100) calls) by (eapply Forall_impl; [|exact H]; now intros ? [? _]).
  assert (Ht : Forall no_transpose calls) by (eapply Forall_impl; [|exact H]; now intros ? [_ ?]).
  pose proof (fun n => @prices_ranged 0 100 ltac:(lia) ltac:(lia) calls n Hv) as Hp. cbv zeta in Hp.
  split; [|split].
  - destruct (Hp 0%N) as (H1 & H2 & H3 & _ & H5 & H6). split; [lia|]. split; [lia|]. split; [lia|]. split; [|split; [lia|]].
    + intros n. destruct (Hp n) as (_ & _ & _ & [H4 _] & _). exact H4.
    + intros a b v Hx. apply H6 in Hx. lia.
  - intros n. left. intros a b v Hx. rewrite trans_default by exact Ht. destruct (Hp 0%N) as (_ & _ & _ & _ & _ & H6).
    apply H6 in Hx. lia.
  - intros ops q Hb. destruct (Hp (N.of_nat (length q))) as (H1 & H2 & H3 & H4 & H5 & H6). exists 100.
    repeat split; try lia; intros; apply H6 in H0; lia.
Qed.
Lemma fits_bounded calls B ops q : 100 <= B -> Forall (value_in (- B) B) calls ->
  Z.of_nat (longest ops + length q + 2) * B + 10000 <= 2147483647 -> fits (ev_after calls) ops q.
Proof.
  intros HB Hv Hb. destruct (@prices_ranged (- B) B ltac:(lia) HB calls (N.of_nat (length q)) Hv) as (H1 & H2 & H3 & H4 & H5 & H6).
  exists B. repeat split; try lia; intros; apply H6 in H; lia.
Qed.
