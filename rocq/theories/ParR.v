(** Proofs about ParM: whole programs. *)
From Verif Require Import Base TrieM WordM WordP WordQ MapM DoubleM ContM OwnM OwnP OwnQ Spec_Own OomM Spec_Oom OomP OomQ OomR OomT ParM Spec_Par ParP ParQ.
Local Open Scope Z_scope.

Definition crash_fate (f : fate) : Prop := match f with Died_abort | Died_undefined | Died_fuel => True | _ => False end.
Definition fine (fs : list fate) : Prop := forall f, In f fs -> ~ crash_fate f.
Lemma sp_case A (f : T A) m Q P B : sp f m Q P B -> match f m with
  | (m', Val a) => Q m' a | (m', Fail p) => P m' p | (_, Aborted) => B CAbort | (_, Undefined) => B CUndef | (_, NoFuel) => B CFuel end.
Proof. intros H. exact H. Qed.
Lemma loses_pos c : 0 <= p_loses c.
Proof. destruct c; cbn; lia. Qed.
Lemma lost_pos ops : forall fs, 0 <= p_lost ops fs.
Proof. induction ops as [|c ops IH]; intros [|f fs]; cbn; try lia. specialize (IH fs). pose proof (@loses_pos c). destruct f; lia. Qed.
Lemma runs_ok ops : forall m vs m' vs' fs, p_runs ops m vs = (m', vs', fs) -> Forall whole_v vs ->
  Forall whole_v vs' /\ y_run (p_done ops fs) (the_pvalues vs) = Some (the_pvalues vs') /\
  (forall k f, nth_error fs k = Some f -> crash_fate f -> f = Died_undefined /\ exists x, nth_error ops k = Some (QResAddAll x x)) /\
  (forall p, In (Threw p) fs -> p = OutOfMemory \/ p = Thrown EOutOfRange) /\
  (plan m = [] -> ~ In (Threw OutOfMemory) fs /\ (fine fs -> plan m' = [])) /\
  (fine fs -> live m - held vs <= live m' - held vs' <= live m - held vs + p_lost ops fs).
Proof.
  induction ops as [|c ops IH]; intros m vs m' vs' fs; cbn [p_runs].
  { intros [= <- <- <-] Hw. split; [exact Hw|]. split; [reflexivity|]. split; [intros [|k] f H; discriminate H|]. split; [intros p []|]. split; [intros H; split; auto|]. intros _. cbn. lia. }
  destruct (p_step c vs) as [f|] eqn:Hs.
  - intros H Hw. pose proof (sp_case (@step_ok c vs f m Hw Hs)) as Hg. destruct (f m) as [m1 [vs1|p| | |]].
    + destruct Hg as (W1 & Y1 & L1 & Q1). destruct (p_runs ops m1 vs1) as [[m2 vs2] fs2] eqn:Hr. injection H as <- <- <-. destruct (IH _ _ _ _ _ Hr W1) as (A1 & A2 & A3 & A4 & A5 & A6).
      split; [exact A1|]. split; [cbn [p_done y_run]; now rewrite Y1|]. split; [intros [|k] g Hk; [injection Hk as <-; intros []|exact (A3 k g Hk)]|].
      split; [intros p [X|X]; [discriminate X|auto]|]. split.
      * intros Hp. destruct (A5 (Q1 Hp)) as [B1 B2]. split; [intros [X|X]; [discriminate X|auto]|]. intros Hf. apply B2. intros g Hg. apply Hf. now right.
      * intros Hf. cbn [p_lost]. assert (Hf2 : fine fs2) by (intros g Hg; apply Hf; now right). specialize (A6 Hf2). lia.
    + destruct (p_runs ops m1 vs) as [[m2 vs2] fs2] eqn:Hr. injection H as <- <- <-. destruct (IH _ _ _ _ _ Hr Hw) as (A1 & A2 & A3 & A4 & A5 & A6).
      split; [exact A1|]. split; [exact A2|]. split; [intros [|k] g Hk; [injection Hk as <-; intros []|exact (A3 k g Hk)]|].
      split; [intros q [X|X]; [injection X as <-; destruct Hg as [(-> & _)|(-> & _)]; auto|auto]|]. split.
      * intros Hp. destruct Hg as [(_ & X & _)|(-> & -> & _)]; [contradiction|]. destruct (A5 Hp) as [B1 B2]. split; [intros [X|X]; [discriminate X|auto]|]. intros Hf. apply B2. intros g Hg. apply Hf. now right.
      * intros Hf. cbn [p_lost]. assert (Hf2 : fine fs2) by (intros g Hg'; apply Hf; now right). specialize (A6 Hf2). pose proof (@loses_pos c). destruct Hg as [(_ & _ & X & _)|(_ & -> & _)]; unfold lost in *; lia.
    + destruct Hg as [Hg _]. discriminate Hg.
    + destruct Hg as [_ [x ->]]. injection H as <- <- <-. split; [exact Hw|]. split; [destruct ops; reflexivity|]. split; [intros [|[|k]] g Hk; try discriminate Hk; injection Hk as <-; intros _; split; [reflexivity|now exists x]|].
      split; [intros p [X|[]]; discriminate X|]. split; [intros Hp; split; [intros [X|[]]; discriminate X|]|]; intros Hf; exfalso; apply (Hf Died_undefined); cbn; auto.
    + destruct Hg as [Hg _]. discriminate Hg.
  - destruct (p_runs ops m vs) as [[m2 vs2] fs2] eqn:Hr. intros [= <- <- <-] Hw. destruct (IH _ _ _ _ _ Hr Hw) as (A1 & A2 & A3 & A4 & A5 & A6).
    split; [exact A1|]. split; [exact A2|]. split; [intros [|k] g Hk; [injection Hk as <-; intros []|exact (A3 k g Hk)]|].
    split; [intros q [X|X]; [discriminate X|auto]|]. split.
    + intros Hp. destruct (A5 Hp) as [B1 B2]. split; [intros [X|X]; [discriminate X|auto]|]. intros Hf. apply B2. intros g Hg. apply Hf. now right.
    + intros Hf. cbn [p_lost]. apply A6. intros g Hg. apply Hf. now right.
Qed.
Lemma runs_app ops : forall more m vs m' vs' fs, p_runs ops m vs = (m', vs', fs) -> fine fs ->
  p_runs (ops ++ more) m vs = let '(m2, vs2, fs2) := p_runs more m' vs' in (m2, vs2, fs ++ fs2).
Proof.
  induction ops as [|c ops IH]; intros more m vs m' vs' fs; cbn [p_runs app].
  { intros [= <- <- <-] _. now destruct (p_runs more m vs) as [[? ?] ?]. }
  destruct (p_step c vs) as [f|]; [destruct (f m) as [m1 [vs1|p| | |]]|].
  - destruct (p_runs ops m1 vs1) as [[m2 vs2] fs2] eqn:Hr. intros [= <- <- <-] Hf. rewrite (IH more _ _ _ _ _ Hr); [|intros g Hg; apply Hf; now right]. now destruct (p_runs more m2 vs2) as [[? ?] ?].
  - destruct (p_runs ops m1 vs) as [[m2 vs2] fs2] eqn:Hr. intros [= <- <- <-] Hf. rewrite (IH more _ _ _ _ _ Hr); [|intros g Hg; apply Hf; now right]. now destruct (p_runs more m2 vs2) as [[? ?] ?].
  - intros [= <- <- <-] Hf. exfalso. apply (Hf Died_abort); cbn; auto.
  - intros [= <- <- <-] Hf. exfalso. apply (Hf Died_undefined); cbn; auto.
  - intros [= <- <- <-] Hf. exfalso. apply (Hf Died_fuel); cbn; auto.
  - destruct (p_runs ops m vs) as [[m2 vs2] fs2] eqn:Hr. intros [= <- <- <-] Hf. rewrite (IH more _ _ _ _ _ Hr); [|intros g Hg; apply Hf; now right]. now destruct (p_runs more m2 vs2) as [[? ?] ?].
Qed.

Section Prog.
Variables (p : list bool) (ops : list pstmt) (m : memory) (vs : pvars) (fs : list fate).
Hypothesis Hr : p_runs ops (mkMem p 0) [] = (m, vs, fs).
Lemma all_ok : Forall whole_v vs.
Proof. exact (proj1 (runs_ok Hr (Forall_nil _))). Qed.
Lemma effects : y_run (p_done ops fs) [] = Some (the_pvalues vs).
Proof. exact (proj1 (proj2 (runs_ok Hr (Forall_nil _)))). Qed.
Lemma safe : ~ In Died_abort fs /\ ~ In Died_fuel fs /\ forall k, nth_error fs k = Some Died_undefined -> exists x, nth_error ops k = Some (QResAddAll x x).
Proof.
  pose proof (proj1 (proj2 (proj2 (runs_ok Hr (Forall_nil _))))) as H. split; [|split].
  - intros X. apply In_nth_error in X. destruct X as [k X]. now destruct (H k _ X I).
  - intros X. apply In_nth_error in X. destruct X as [k X]. now destruct (H k _ X I).
  - intros k X. exact (proj2 (H k _ X I)).
Qed.
Lemma fine_of : ~ In Died_undefined fs -> fine fs.
Proof. intros H f Hf Hc. destruct safe as (S1 & S2 & _). destruct f; try contradiction; auto. Qed.
Lemma next c v' : ~ In Died_undefined fs -> y_step c (the_pvalues vs) = Some v' -> exists m' vs' f, p_runs (ops ++ [c]) (mkMem p 0) [] = (m', vs', fs ++ [f]) /\
  ((f = Done /\ the_pvalues vs' = v') \/ (f = Threw OutOfMemory /\ vs' = vs /\ plan m <> [])).
Proof.
  intros Hu Hy. rewrite (runs_app [c] Hr (fine_of Hu)). cbn [p_runs].
  destruct (p_step c vs) as [f|] eqn:Hs; [|now rewrite (proj1 (step_there Hs)) in Hy].
  pose proof (sp_case (@step_ok c vs f m all_ok Hs)) as Hg. destruct (f m) as [m1 [vs1|q| | |]].
  - destruct Hg as (_ & Y1 & _). eexists _, _, _. split; [reflexivity|]. left. split; [reflexivity|congruence].
  - eexists _, _, _. split; [reflexivity|]. right. destruct Hg as [(-> & X & _)|(_ & _ & X)]; [auto|]. exfalso.
    destruct X as (x & y & i & r & r2 & -> & X & Y & Z). cbn [y_step] in Hy. rewrite X, Y in Hy. unfold returned, mr_copyResult, at_or_throw in Hy. unfold mr_size in Z. apply N.leb_le in Z. rewrite Z in Hy. discriminate Hy.
  - destruct Hg as [Hg _]. discriminate Hg.
  - destruct Hg as [_ [x ->]]. cbn [y_step] in Hy. rewrite Nat.eqb_refl in Hy. destruct (y_res (the_pvalues vs) x); discriminate Hy.
  - destruct Hg as [Hg _]. discriminate Hg.
Qed.
Lemma range x y i r r2 : ~ In Died_undefined fs -> y_res (the_pvalues vs) x = Some r -> y_res (the_pvalues vs) y = Some r2 -> (mr_size r2 <= i)%N ->
  p_runs (ops ++ [QResTake x y i]) (mkMem p 0) [] = (m, vs, fs ++ [Threw (Thrown EOutOfRange)]).
Proof.
  intros Hu X Y Z. rewrite (runs_app [QResTake x y i] Hr (fine_of Hu)). cbn [p_runs]. assert (Hy : y_step (QResTake x y i) (the_pvalues vs) = None).
  { cbn [y_step]. rewrite X, Y. unfold returned, mr_copyResult, at_or_throw. unfold mr_size in Z. apply N.leb_le in Z. rewrite Z. reflexivity. }
  destruct (p_step (QResTake x y i) vs) as [f|] eqn:Hs; [|exfalso; apply (proj2 (step_there Hs)); now exists x, y, i, r, r2].
  pose proof (sp_case (@step_ok _ vs f m all_ok Hs)) as Hg. destruct (f m) as [m1 [vs1|q| | |]].
  - destruct Hg as (_ & Y1 & _). congruence.
  - destruct Hg as [(_ & _ & _ & X1)|(-> & -> & _)]; [contradiction|reflexivity].
  - destruct Hg as [Hg _]. discriminate Hg.
  - destruct Hg as [_ [z Hz]]. discriminate Hz.
  - destruct Hg as [Hg _]. discriminate Hg.
Qed.
Lemma thrown q : In (Threw q) fs -> q = OutOfMemory \/ q = Thrown EOutOfRange.
Proof. exact (proj1 (proj2 (proj2 (proj2 (runs_ok Hr (Forall_nil _))))) q). Qed.
Lemma enough : p = [] -> ~ In (Threw OutOfMemory) fs.
Proof. intros ->. exact (proj1 (proj1 (proj2 (proj2 (proj2 (proj2 (runs_ok Hr (Forall_nil _)))))) eq_refl)). Qed.
Lemma obj_pos v : 0 <= fp_v v.
Proof.
  assert (Hst : forall A (u : vec A), 0 <= fp_st u) by (intros; unfold fp_st; destruct (Nat.eqb _ _); lia).
  assert (Hf : forall f, 0 <= fp_filter f).
  { intros f. unfold fp_filter, fp_vec. pose proof (Hst _ f). assert (0 <= sum fp_term (v_elems f)); [|lia]. apply sum_pos. intros t. unfold fp_term, fp_vec. pose proof (Hst _ t).
    assert (0 <= sum fp_pair (v_elems t)); [|lia]. apply sum_pos. intros [a b]. unfold fp_pair. pose proof (@word_pos a). pose proof (@word_pos b). cbn. lia. }
  destruct v as [[r|f|q]|]; cbn.
  - unfold fp_res. pose proof (Hst _ (or_vec r)). lia.
  - apply Hf.
  - unfold fp_params. pose proof (Hf (op_filter q)). assert (0 <= sum fp_key (op_fields q)); [|lia]. apply sum_pos. intros o. unfold fp_key. pose proof (@word_pos o). lia.
  - lia.
Qed.
Lemma freed : ~ In Died_undefined fs -> (forall v, In v vs -> v = None) -> 0 <= live m <= p_lost ops fs.
Proof.
  intros Hu Hn. pose proof (proj2 (proj2 (proj2 (proj2 (proj2 (runs_ok Hr (Forall_nil _)))))) (fine_of Hu)) as H. assert (H0 : held vs = 0).
  { clear - Hn. unfold held. induction vs as [|v l IH]; [reflexivity|]. rewrite sum_cons, (Hn v (or_introl eq_refl)). cbn [fp_v]. rewrite IH; [lia|]. intros w Hw. apply Hn. now right. }
  rewrite H0 in H. change (held []) with 0 in H. cbn [live] in H. lia.
Qed.
Lemma not_too_much : ~ In Died_undefined fs -> 0 <= live m.
Proof.
  intros Hu. pose proof (proj2 (proj2 (proj2 (proj2 (proj2 (runs_ok Hr (Forall_nil _)))))) (fine_of Hu)) as H. pose proof (@sum_pos _ fp_v vs obj_pos) as H0. change (held []) with 0 in H. cbn [live] in H. unfold held in H. lia.
Qed.
(** What is lost. *)
Lemma leak_copy x r q : ~ In Died_undefined fs -> y_res (the_pvalues vs) x = Some r -> mr_results r <> [] -> plan m = true :: false :: q ->
  p_runs (ops ++ [QResCopy x]) (mkMem p 0) [] = (mkMem q (live m + 1), vs, fs ++ [Threw OutOfMemory]).
Proof.
  intros Hu X Hne Hp. rewrite (runs_app [QResCopy x] Hr (fine_of Hu)). cbn [p_runs p_step]. unfold y_res, the_pvalues in X. rewrite nth_error_map in X. unfold a_res.
  destruct (nth_error vs x) as [[[o|o|o]|]|]; try discriminate X. injection X as <-. cbn in Hne. destruct m as [pl l]. cbn in Hp. subst pl.
  unfold p_make, r_copy, r_store. destruct (v_elems (or_vec o)) as [|e es]; [contradiction|]. reflexivity.
Qed.
Lemma leak_filter q : ~ In Died_undefined fs -> plan m = true :: false :: q ->
  p_runs (ops ++ [QFilter]) (mkMem p 0) [] = (mkMem q (live m + 1), vs, fs ++ [Threw OutOfMemory]).
Proof. intros Hu Hp. rewrite (runs_app [QFilter] Hr (fine_of Hu)). destruct m as [pl l]. cbn in Hp. subst pl. reflexivity. Qed.
Lemma leak_params q : ~ In Died_undefined fs -> plan m = true :: true :: false :: q ->
  p_runs (ops ++ [QParams]) (mkMem p 0) [] = (mkMem q (live m + 1), vs, fs ++ [Threw OutOfMemory]).
Proof.
  intros Hu Hp. rewrite (runs_app [QParams] Hr (fine_of Hu)). destruct m as [pl l]. cbn in Hp. subst pl. cbn -[Z.add Z.sub]. replace (l + 1 + 1 - 1) with (l + 1) by lia. reflexivity.
Qed.
End Prog.
