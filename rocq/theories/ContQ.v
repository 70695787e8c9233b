(** Results with any relevancies, NaN included (C77). *)
From Verif Require Import Base TrieM WordM MapM DoubleM ContM MapP Spec_Cont ContP.
From Coq Require Import ZifyBool ZifyN ZifyNat.
Local Open Scope N_scope.
Local Open Scope m_scope.

Record obj_any (log : list (double * N)) (r : mresults) : Prop := {
  oa_perm : Permutation (mr_results r) log;
  oa_sorted : mr_sorted r = true -> ~ poisoned log
}.
Lemma poisoned_perm l l' : Permutation l l' -> poisoned l -> poisoned l'.
Proof.
  intros H [Hl (x & Hx & Hn)]. split; [now rewrite <- (Permutation_length H)|]. exists x. split; [now apply (Permutation_in _ H)|exact Hn].
Qed.
Lemma poisonedb l : existsb (fun x : double * N => is_nan (fst x)) l && Nat.ltb 1 (length l) = true <-> poisoned l.
Proof.
  unfold poisoned. rewrite andb_true_iff, existsb_exists, Nat.ltb_lt. split; intros [H1 H2]; split; auto.
Qed.
Lemma any_get log r k : obj_any log r ->
  (k < N.of_nat (length log) /\ poisoned log /\ mr_get k r = (r, UB)) \/
  (~ (k < N.of_nat (length log) /\ poisoned log) /\ exists r', obj_any log r' /\
     ((k < N.of_nat (length log) /\ exists x, mr_get k r = (r', Ok x)) \/ (N.of_nat (length log) <= k /\ mr_get k r = (r', Throw EOutOfRange)))).
Proof.
  intros [HP HS]. pose proof (Permutation_length HP) as Hlen. unfold mr_get.
  destruct (N.leb_spec (N.of_nat (length (mr_results r))) k) as [Hk|Hk].
  - right. split; [lia|]. exists r. split; [now constructor|]. right. split; [lia|reflexivity].
  - unfold mbind, mr_sortIfRequired. destruct (mr_sorted r) eqn:Hs.
    + right. split; [intros [_ H]; now apply HS in H|]. exists r. split; [constructor; [exact HP|intros _; now apply HS]|]. left. split; [lia|].
      unfold reads. destruct (nth_error (mr_results r) (N.to_nat k)) as [x|] eqn:Hn; [now exists x|]. apply nth_error_None in Hn. lia.
    + destruct (existsb _ _ && _) eqn:Hp.
      * left. split; [lia|]. split; [|reflexivity]. apply poisonedb in Hp. now apply (poisoned_perm HP).
      * assert (Hno : ~ poisoned log). { intros H. apply (poisoned_perm (Permutation_sym HP)) in H. apply poisonedb in H. congruence. }
        right. split; [tauto|]. cbv beta iota. set (s := rev (stable_sort (rev (mr_results r)))).
        assert (Hsp : Permutation s (mr_results r)) by (unfold s; now rewrite <- Permutation_rev, sort_perm, <- Permutation_rev).
        exists (mkMR s true). split; [constructor; cbn; [now rewrite Hsp|auto]|]. left. split; [lia|]. unfold reads. cbn [mr_results].
        destruct (nth_error s (N.to_nat k)) as [x|] eqn:Hn; [now exists x|]. apply nth_error_None in Hn. rewrite (Permutation_length Hsp) in Hn. lia.
Qed.
Lemma A2_upd L w : Forall2 obj_any L w -> forall i l r, obj_any l r -> Forall2 obj_any (upd i l L) (upd i r w).
Proof. induction 1; intros [|i] a b Hab; cbn; constructor; auto. Qed.
Lemma A2_upd_r L w : Forall2 obj_any L w -> forall i l r, nth_error L i = Some l -> obj_any l r -> Forall2 obj_any L (upd i r w).
Proof. induction 1; intros [|i] a b Hn Hab; cbn in *; try discriminate; constructor; auto; [congruence|eauto]. Qed.
Lemma A2_nth L w i : Forall2 obj_any L w -> (i < length w)%nat -> exists l r, nth_error L i = Some l /\ nth_error w i = Some r /\ obj_any l r.
Proof.
  intros H. revert i. induction H as [|l r L w Hlr H IH]; intros [|i] Hi; cbn in *; [lia|lia|eauto|]. apply IH. lia.
Qed.
Lemma any_push log more res more' : Permutation res log -> Permutation more' more -> obj_any (log ++ more) (mkMR (res ++ more') false).
Proof. intros H1 H2. constructor; cbn; [now rewrite H1, H2|discriminate]. Qed.

Lemma any_step c calls L w : named (length w) (c :: calls) -> Forall2 obj_any L w ->
  (is_read c /\ snd (w_step c w) = UB) \/
  exists L' w' o, w_step c w = (w', o) /\ (o = Ok tt \/ exists e, o = Throw e) /\ logged c L L' /\ Forall2 obj_any L' w' /\ named (length w') calls.
Proof.
  intros Hp H. destruct c as [|j|i j|i id x|i j|i j k|i k|i k]; cbn [named w_step is_read] in *.
  - right. exists (L ++ [[]]), (w ++ [mr_new]), (Ok tt). split; [reflexivity|]. split; [now left|]. split; [constructor|]. split.
    + apply Forall2_app; [exact H|]. constructor; [|constructor]. constructor; [reflexivity|]. intros _ [Hl _]. cbn in Hl. lia.
    + rewrite app_length. cbn. now rewrite Nat.add_1_r.
  - right. destruct Hp as [Hj Hp]. destruct (A2_nth H Hj) as (l & r & Hl & Hr & Hok).
    exists (L ++ [l]), (w ++ [r]), (Ok tt). unfold with_obj. rewrite Hr. split; [reflexivity|]. split; [now left|]. split; [now constructor|]. split.
    + apply Forall2_app; [exact H|]. constructor; [exact Hok|constructor].
    + rewrite app_length. cbn. now rewrite Nat.add_1_r.
  - right. destruct Hp as (Hi & Hj & Hp). destruct (A2_nth H Hj) as (l & r & Hl & Hr & Hok). destruct (A2_nth H Hi) as (l2 & r2 & Hl2 & Hr2 & _).
    exists (upd i l L), (upd i r w), (Ok tt). unfold with_obj, on_obj. rewrite Hr, Hr2. split; [reflexivity|]. split; [now left|]. split; [now constructor|].
    rewrite upd_length. split; [now apply A2_upd|exact Hp].
  - right. destruct Hp as (Hi & Hp). destruct (A2_nth H Hi) as (l & r & Hl & Hr & Hok).
    exists (upd i (l ++ [(x, id)]) L), (upd i (mkMR (mr_results r ++ [(x, id)]) false) w), (Ok tt). unfold on_obj. rewrite Hr.
    split; [reflexivity|]. split; [now left|]. split; [now constructor|]. rewrite upd_length. split; [|exact Hp].
    apply A2_upd; [exact H|]. apply any_push; [apply Hok|reflexivity].
  - right. destruct Hp as (Hi & Hj & Hij & Hp). destruct (A2_nth H Hi) as (l & r & Hl & Hr & Hok). destruct (A2_nth H Hj) as (l2 & r2 & Hl2 & Hr2 & Hok2).
    exists (upd i (l ++ l2) L), (upd i (mkMR (mr_results r ++ mr_results r2) false) w), (Ok tt). unfold with_obj, on_obj. rewrite Hr2.
    replace (Nat.eqb i j) with false by lia. rewrite Hr.
    split; [reflexivity|]. split; [now left|]. split; [now constructor|]. rewrite upd_length. split; [|exact Hp].
    apply A2_upd; [exact H|]. apply any_push; [apply Hok|apply Hok2].
  - right. destruct Hp as (Hi & Hj & Hp). destruct (A2_nth H Hi) as (l & r & Hl & Hr & Hok). destruct (A2_nth H Hj) as (l2 & r2 & Hl2 & Hr2 & Hok2).
    unfold with_obj, on_obj. rewrite Hr2, Hr. unfold mr_copyResult. rewrite at_spec.
    pose proof (Permutation_length (oa_perm Hok2)) as Hlen.
    destruct (nth_error (mr_results r2) (N.to_nat k)) as [p|] eqn:Hn.
    + assert (Hin : In p l2) by (rewrite <- (oa_perm Hok2); now apply nth_error_In in Hn).
      assert (Hk : (N.to_nat k < length (mr_results r2))%nat) by (apply nth_error_Some; congruence).
      exists (upd i (l ++ [p]) L), (upd i (mkMR (mr_results r ++ [p]) false) w), (Ok tt).
      split; [reflexivity|]. split; [now left|]. split; [apply (@lg_copy L i j k l l2 p); try assumption; lia|]. rewrite upd_length. split; [|exact Hp].
      apply A2_upd; [exact H|]. apply any_push; [apply Hok|reflexivity].
    + apply nth_error_None in Hn. exists L, (upd i r w), (Throw EOutOfRange). split; [reflexivity|]. split; [right; now eexists|].
      split; [apply (@lg_nocopy L i j k l2); [exact Hl2|lia]|]. rewrite upd_length. split; [|exact Hp]. now apply (@A2_upd_r L w H i l).
  - destruct Hp as (Hi & Hp). destruct (A2_nth H Hi) as (l & r & Hl & Hr & Hok). unfold on_obj. rewrite Hr. unfold mr_getDocumentID, mbind.
    destruct (any_get k Hok) as [(_ & _ & ->)|(_ & r' & Hok' & Hc)]; [left; now split|]. right.
    destruct Hc as [(_ & x & ->)|(_ & ->)]; cbn [fst snd obind].
    + exists L, (upd i r' w), (Ok tt). split; [reflexivity|]. split; [now left|]. split; [constructor|]. rewrite upd_length. split; [|exact Hp]. now apply (@A2_upd_r L w H i l).
    + exists L, (upd i r' w), (Throw EOutOfRange). split; [reflexivity|]. split; [right; now eexists|]. split; [constructor|]. rewrite upd_length. split; [|exact Hp]. now apply (@A2_upd_r L w H i l).
  - destruct Hp as (Hi & Hp). destruct (A2_nth H Hi) as (l & r & Hl & Hr & Hok). unfold on_obj. rewrite Hr. unfold mr_getRelevancy, mbind.
    destruct (any_get k Hok) as [(_ & _ & ->)|(_ & r' & Hok' & Hc)]; [left; now split|]. right.
    destruct Hc as [(_ & x & ->)|(_ & ->)]; cbn [fst snd obind].
    + exists L, (upd i r' w), (Ok tt). split; [reflexivity|]. split; [now left|]. split; [constructor|]. rewrite upd_length. split; [|exact Hp]. now apply (@A2_upd_r L w H i l).
    + exists L, (upd i r' w), (Throw EOutOfRange). split; [reflexivity|]. split; [right; now eexists|]. split; [constructor|]. rewrite upd_length. split; [|exact Hp]. now apply (@A2_upd_r L w H i l).
Qed.
Lemma any_run calls : forall L w, named (length w) calls -> Forall2 obj_any L w ->
  (exists L' w', w_run calls w = (w', Ok tt) /\ logged_all calls L L' /\ Forall2 obj_any L' w') \/
  (snd (w_run calls w) = UB /\ exists before c after w1, calls = before ++ c :: after /\ is_read c /\ w_run before w = (w1, Ok tt) /\ snd (w_step c w1) = UB).
Proof.
  induction calls as [|c r IH]; intros L w Hp H.
  - left. exists L, w. split; [reflexivity|]. split; [constructor|exact H].
  - destruct (any_step Hp H) as [[Hr Hu]|(L1 & w1 & o & Hs & Ho & Hl & H1 & Hp1)].
    + right. split; [|exists [], c, r, w; auto]. cbn [w_run]. destruct (w_step c w) as [w' o]. cbn [snd] in Hu. subst o. reflexivity.
    + assert (Hrun : forall cs, w_run (c :: cs) w = w_run cs w1) by (intros cs; cbn [w_run]; rewrite Hs; destruct Ho as [->|[e ->]]; reflexivity).
      destruct (IH L1 w1 Hp1 H1) as [(L2 & w2 & Hr & Hl2 & H2)|(Hu & b & c' & a & w2 & -> & Hc & Hb & Hx)].
      * left. exists L2, w2. rewrite Hrun. split; [exact Hr|]. split; [now apply (@la_cons c r L L1 L2)|exact H2].
      * right. rewrite Hrun. split; [exact Hu|]. exists (c :: b), c', a, w2. rewrite Hrun. auto.
Qed.

Lemma nan_exact calls w : named 0 calls -> w_run calls [] = (w, Ok tt) ->
  exists L, logged_all calls [] L /\ length L = length w /\
  forall i r l k, nth_error w i = Some r -> nth_error L i = Some l ->
    (snd (mr_getDocumentID k r) = UB <-> k < N.of_nat (length l) /\ poisoned l) /\
    (snd (mr_getRelevancy k r) = UB <-> k < N.of_nat (length l) /\ poisoned l).
Proof.
  intros Hn Hw. destruct (@any_run calls [] [] Hn (Forall2_nil _)) as [(L & w' & Hr & Hl & H)|[Hu _]]; [|rewrite Hw in Hu; discriminate].
  replace w' with w in * by congruence. exists L. split; [exact Hl|]. split; [clear - H; induction H; cbn; congruence|]. intros i r l k Hi HL.
  destruct (A2_nth (i := i) H) as (l2 & r2 & H1 & H2 & Hok); [apply nth_error_Some; congruence|].
  replace l2 with l in * by congruence. replace r2 with r in * by congruence.
  unfold mr_getDocumentID, mr_getRelevancy, mbind.
  destruct (any_get k Hok) as [(Hk & Hp & ->)|(Hno & r' & _ & [(_ & x & ->)|(_ & ->)])]; cbn [snd]; (split; split; [discriminate || auto..]); tauto.
Qed.
Lemma only_reads calls : named 0 calls -> (exists w, w_run calls [] = (w, Ok tt)) \/
  (snd (w_run calls []) = UB /\ exists before c after w, calls = before ++ c :: after /\ is_read c /\ w_run before [] = (w, Ok tt) /\ snd (w_step c w) = UB).
Proof.
  intros Hn. destruct (@any_run calls [] [] Hn (Forall2_nil _)) as [(L & w' & Hr & _)|H]; [left; now exists w'|now right].
Qed.
