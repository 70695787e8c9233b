(** Searches that run out of memory. *)
From Verif Require Import Base TrieM ErrorValuesM LevIndexM FailM SrOomM.
From Coq Require Import Permutation.

(** The first of [n] allocations that fails. *)
Fixpoint stop (n : nat) (p : list bool) : option nat :=
  match n, p with
  | S _, false :: _ => Some O
  | S n', _ :: r => option_map S (stop n' r)
  | _, _ => None
  end.
Lemma stop_app : forall a b p, stop (a + b) p = match stop a p with Some k => Some k | None => option_map (Nat.add a) (stop b (skipn a p)) end.
Proof.
  induction a as [|a IH]; intros b p; cbn [Nat.add stop skipn]; [now destruct (stop b p)|].
  destruct p as [|[] p]; [now destruct b|rewrite IH; destruct (stop a p); [reflexivity|]; now destruct (stop b (skipn a p))|reflexivity].
Qed.
Lemma stop_lt : forall n p k, stop n p = Some k -> (k < n)%nat.
Proof. induction n as [|n IH]; intros [|[] p] k; cbn; try discriminate; [destruct (stop n p) eqn:H; try discriminate; intros [= <-]; specialize (IH _ _ H); lia|intros [= <-]; lia]. Qed.
Lemma skip_skip (A : Type) : forall a b (l : list A), skipn a (skipn b l) = skipn (b + a) l.
Proof. intros a b. revert a. induction b as [|b IH]; intros a l; [reflexivity|]. destruct l; cbn [skipn Nat.add]; [now destruct a|apply IH]. Qed.

(** ** The search that never runs out *)
Definition sim {A} (f : M sstate A) (g : R A) : Prop := forall em m p, exists em' add o, f (em, m) = ((em', m ++ add), o) /\
  match stop (length add) p with
  | None => g ((em, m), p) = (((em', m ++ add), skipn (length add) p), as_res o)
  | Some k => exists em2, g ((em, m), p) = (((em2, m ++ firstn k add), skipn (S k) p), Out)
  end.
Lemma sim_bind A B (f : M sstate A) g (k : A -> M sstate B) l : sim f g -> (forall a, sim (k a) (l a)) -> sim (mbind f k) (rbind g l).
Proof.
  intros Hf Hk em m p. destruct (Hf em m p) as (em1 & add1 & o & H1 & H2). unfold mbind, rbind. rewrite H1. destruct o as [a|x| | |].
  - destruct (Hk a em1 (m ++ add1) (skipn (length add1) p)) as (em2 & add2 & o2 & H3 & H4). exists em2, (add1 ++ add2), o2. rewrite app_assoc. split; [exact H3|].
    rewrite app_length, stop_app. destruct (stop (length add1) p) as [j|] eqn:Hj.
    + destruct H2 as (em3 & H2). rewrite H2. exists em3. apply stop_lt in Hj. rewrite firstn_app. replace (j - length add1)%nat with O by lia. now rewrite app_nil_r.
    + rewrite H2. cbn [as_res]. destruct (stop (length add2) (skipn (length add1) p)) as [j|]; cbn [option_map].
      * destruct H4 as (em3 & H4). exists em3. rewrite skip_skip, Nat.add_succ_r in H4. rewrite firstn_app_2, app_assoc. exact H4.
      * rewrite skip_skip in H4. exact H4.
  - exists em1, add1, (Throw x). split; [reflexivity|]. destruct (stop (length add1) p); [destruct H2 as (em3 & H2); exists em3|]; now rewrite H2.
  - exists em1, add1, Abort. split; [reflexivity|]. destruct (stop (length add1) p); [destruct H2 as (em3 & H2); exists em3|]; now rewrite H2.
  - exists em1, add1, UB. split; [reflexivity|]. destruct (stop (length add1) p); [destruct H2 as (em3 & H2); exists em3|]; now rewrite H2.
  - exists em1, add1, Fuel. split; [reflexivity|]. destruct (stop (length add1) p); [destruct H2 as (em3 & H2); exists em3|]; now rewrite H2.
Qed.
Definition silent {A} (f : M sstate A) : Prop := forall em m, exists em' o, f (em, m) = ((em', m), o).
Lemma sim_quiet A (f : M sstate A) : silent f -> sim f (quiet f).
Proof. intros H em m p. destruct (H em m) as (em' & o & He). exists em', [], o. rewrite app_nil_r. split; [exact He|]. cbn [length stop skipn]. unfold quiet. cbn [fst snd]. now rewrite He. Qed.
Lemma silent_reads A (f : sstate -> outcome A) : silent (reads f).
Proof. intros em m. now exists em, (f (em, m)). Qed.
Lemma silent_ret A (a : A) : silent (ret a).
Proof. intros em m. now exists em, (Ok a). Qed.
Lemma silent_bind A B (f : M sstate A) (k : A -> M sstate B) : silent f -> (forall a, silent (k a)) -> silent (mbind f k).
Proof. intros Hf Hk em m. destruct (Hf em m) as (em1 & o & H1). unfold mbind. rewrite H1. destruct o as [a|x| | |]; [apply Hk|now exists em1, (Throw x)|now exists em1, Abort|now exists em1, UB|now exists em1, Fuel]. Qed.
Lemma silent_assert E b : silent (massert E b).
Proof. intros em m. unfold massert. destruct b; [now exists em, (Ok tt)|]. destruct (e_ndebug E); [now exists em, (Ok tt)|now exists em, Abort]. Qed.
Lemma silent_row : forall n k depth l p q e, silent (row_loop n k depth l p q e).
Proof.
  induction n as [|n IH]; intros; cbn [row_loop]; [apply silent_ret|]. apply silent_bind; [apply silent_reads|]. intros v. apply silent_bind; [|intros []; apply IH].
  intros em m. cbn [fst snd]. destruct (em_set depth (S k) v em) as [em' r]. now exists em', r.
Qed.
Lemma sim_ret : sim (ret tt) rret.
Proof. apply sim_quiet, silent_ret. Qed.
Lemma sim_add q id err : sim (fun s => ((fst s, im_addMatch q id err (snd s)), Ok tt)) (r_addMatch q id err).
Proof.
  intros em m p. exists em, [(id, err)], (Ok tt). split; [reflexivity|]. unfold r_addMatch. destruct p as [|[] p]; cbn [length stop option_map skipn tl fst snd]; [reflexivity|reflexivity|].
  exists em. cbn [firstn]. now rewrite app_nil_r.
Qed.
Lemma sim_sib t : forall fuel visit rvisit, (forall n l, sim (visit n l) (rvisit n l)) -> forall sibling, sim (sib_loop fuel t visit sibling) (r_sib_loop fuel t rvisit sibling).
Proof.
  induction fuel as [|f IH]; intros visit rvisit Hv sibling; cbn [sib_loop r_sib_loop].
  - intros em m p. exists em, [], Fuel. rewrite app_nil_r. now split.
  - destruct (sibling =? 0)%N; [apply sim_ret|]. apply sim_bind; [apply sim_quiet, silent_reads|]. intros l. apply sim_bind; [apply sim_quiet, silent_reads|]. intros n. apply sim_bind; [apply Hv|].
    intros _. apply sim_bind; [apply sim_quiet, silent_reads|]. intros next. now apply IH.
Qed.
Lemma sim_search t q e maxE : forall fuel node l pl depth, sim (searchRecursive fuel t q e maxE node l pl depth) (r_search fuel t q e maxE node l pl depth).
Proof.
  induction fuel as [|f IH]; intros; cbn [searchRecursive r_search].
  - intros em m p. exists em, [], Fuel. rewrite app_nil_r. now split.
  - apply sim_bind; [apply sim_quiet, silent_row|]. intros _. apply sim_bind; [apply sim_quiet, silent_reads|]. intros total. apply sim_bind.
    + destruct (total <=? maxE)%Z; [|apply sim_ret]. apply sim_bind; [apply sim_quiet, silent_reads|]. intros id. destruct (negb (id =? INVALID_WORDID)%N); [apply sim_add|apply sim_ret].
    + intros _. apply sim_bind; [apply sim_quiet, silent_reads|]. intros mn. destruct (mn <=? maxE)%Z; [|apply sim_ret]. apply sim_bind; [apply sim_quiet, silent_reads|]. intros s. apply sim_sib. intros n l2. apply IH.
Qed.

(** ** The matrix *)
Lemma blocks_le : forall n p k b r, blocks n p = (k, b, r) -> (k <= n)%nat /\ (b = true -> k = n /\ r = skipn n p) /\ (b = false -> (k < n)%nat).
Proof.
  induction n as [|n IH]; intros p k b r H.
  - cbn in H. injection H as <- <- <-. cbn. repeat split; auto; discriminate.
  - destruct p as [|[] p]; cbn [blocks tl] in H.
    + destruct (blocks n []) as [[k1 b1] r1] eqn:H1. injection H as <- <- <-. destruct (IH _ _ _ _ H1) as (A & B & C). split; [lia|]. split; [intros Hb; destruct (B Hb) as [-> ->]; split; [reflexivity|now rewrite skipn_nil]|intros Hb; specialize (C Hb); lia].
    + destruct (blocks n p) as [[k1 b1] r1] eqn:H1. injection H as <- <- <-. destruct (IH _ _ _ _ H1) as (A & B & C). split; [lia|]. split; [intros Hb; destruct (B Hb) as [-> ->]; now split|intros Hb; specialize (C Hb); lia].
    + injection H as <- <- <-. split; [lia|]. split; [discriminate|lia].
Qed.
Lemma blocks_true : forall n p, Forall (fun b => b = true) (firstn n p) -> blocks n p = (n, true, skipn n p).
Proof.
  induction n as [|n IH]; intros [|b p] H; cbn [blocks skipn firstn tl] in *; try reflexivity.
  - rewrite (IH [] ltac:(now rewrite firstn_nil)). now rewrite skipn_nil.
  - pose proof (Forall_inv H) as ->. now rewrite (IH p (Forall_inv_tail H)).
Qed.
Lemma stop_true : forall n p, Forall (fun b => b = true) p -> stop n p = None.
Proof. induction n as [|n IH]; intros [|b p] H; cbn; try reflexivity. pose proof (Forall_inv H) as ->. now rewrite (IH p (Forall_inv_tail H)). Qed.

(** ** The whole search *)
Definition body (E : env) (s : levindex) (q : word) (e : errvals) (maxE : Z) : M sstate unit :=
  (z <- reads (fun st => em_get (fst st) 0 0) ;;
   massert E (z =? 0)%Z ;;;
   (if Nat.ltb 0 (length q) then (v <- reads (fun st => em_get (fst st) 0 1) ;; massert E (v =? getInsertionError e)%Z) else ret tt) ;;;
   sibling <- reads (fun _ => getSiblingList (li_trie s) (getRoot (li_trie s))) ;;
   sib_loop (t_fuel (li_trie s)) (li_trie s) (fun n l => searchRecursive (t_fuel (li_trie s)) (li_trie s) q e maxE n l 0 1) sibling)%m.
Lemma rest_ok E s q e maxE em0 n m p live : exists em' add o, body E s q e maxE (em0, m) = ((em', m ++ add), o) /\
  match stop (length add) p with
  | None => r_rest E s q e maxE em0 n (mkSR m p live) = (mkSR (match o with Ok _ => im_sort E (m ++ add) | _ => m ++ add end) (skipn (length add) p) (match o with Ok _ | Throw _ => live - n | _ => live end), as_res o)
  | Some k => r_rest E s q e maxE em0 n (mkSR m p live) = (mkSR (m ++ firstn k add) (skipn (S k) p) (live - n), Out)
  end.
Proof.
  assert (Hs : sim (body E s q e maxE) (rbind (quiet (reads (fun st => em_get (fst st) 0 0))) (fun z =>
    rbind (quiet (massert E (z =? 0)%Z)) (fun _ =>
    rbind (if Nat.ltb 0 (length q) then
             rbind (quiet (reads (fun st => em_get (fst st) 0 1))) (fun v => quiet (massert E (v =? getInsertionError e)%Z))
           else rret) (fun _ =>
    rbind (quiet (reads (fun _ => getSiblingList (li_trie s) (getRoot (li_trie s))))) (fun sibling =>
    r_sib_loop (t_fuel (li_trie s)) (li_trie s)
      (fun n l => r_search (t_fuel (li_trie s)) (li_trie s) q e maxE n l 0 1) sibling)))))).
  { unfold body. apply sim_bind; [apply sim_quiet, silent_reads|]. intros z. apply sim_bind; [apply sim_quiet, silent_assert|]. intros _. apply sim_bind.
    - destruct (Nat.ltb 0 (length q)); [|apply sim_ret]. apply sim_bind; [apply sim_quiet, silent_reads|]. intros v. apply sim_quiet, silent_assert.
    - intros _. apply sim_bind; [apply sim_quiet, silent_reads|]. intros sibling. apply sim_sib. intros n2 l. apply sim_search. }
  destruct (Hs em0 m p) as (em' & add & o & H1 & H2). exists em', add, o. split; [exact H1|]. unfold r_rest. cbn [sr_matches sr_plan sr_live]. destruct (stop (length add) p) as [k|].
  - destruct H2 as (em2 & H2). rewrite H2. reflexivity.
  - rewrite H2. now destruct o as [[]|x| | |].
Qed.
Lemma find_body E s q e maxE m : findWords E s q e maxE m =
  match em_new (S (li_longest s)) (S (length q)) (getDeletionError e) (getStartInsertionError e (N.of_nat (length q))) with
  | Ok em0 => match body E s q e maxE (em0, m) with ((_, m1), Ok _) => (im_sort E m1, Ok tt) | ((_, m1), o) => (m1, o) end
  | Throw x => (m, Throw x) | Abort => (m, Abort) | UB => (m, UB) | Fuel => (m, Fuel)
  end.
Proof. unfold findWords, body. destruct (em_new _ _ _ _) as [em0|x| | |]; try reflexivity. match goal with |- context [snd ?t] => destruct t as [[em1 m1] o] end. cbn [fst snd]. now destruct o. Qed.
Lemma no_throw rows cols i d x : em_new rows cols i d <> Throw x.
Proof.
  unfold em_new. assert (H : forall n j m x, em_col0 n j d m <> Throw x).
  { induction n as [|n IH]; intros j m y; cbn [em_col0]; [discriminate|]. destruct (m (pred j) O); [|discriminate]. unfold iadd. match goal with |- context [if ?c then _ else _] => destruct c end; cbn [obind]; [apply IH|discriminate]. }
  match goal with |- context [em_col0 ?a ?b ?c ?m] => specialize (H a b m); destruct (em_col0 a b c m) as [f|y| | |] end; cbn [obind]; try discriminate. now intros _; apply (H y).
Qed.

Section Search.
Variables (E : env) (s : levindex) (q : word) (e : errvals) (maxE : Z).
Notation plain := (findWords E s q e maxE).
Notation short := (r_findWords E s q e maxE).
Lemma sr_ends m0 plan live st o : env_ok E -> short (mkSR m0 plan live) = (st, o) ->
  (exists r, plain m0 = (sr_matches st, r) /\ o = as_res r) \/
  (o = Out /\ exists some, sr_matches st = m0 ++ some /\ forall m, plain m0 = (m, Ok tt) -> exists rest, Permutation m (m0 ++ some ++ rest)).
Proof.
  intros HE. unfold r_findWords. cbn [sr_plan sr_matches sr_live]. rewrite find_body. destruct (blocks (li_longest s + 3) plan) as [[k b] p]. destruct b.
  2:{ intros [= <- <-]. right. split; [reflexivity|]. exists []. rewrite app_nil_r. split; [reflexivity|]. intros m Hm. cbn [app].
      destruct (em_new _ _ _ _) as [em0|x| | |]; try discriminate Hm. destruct (@rest_ok E s q e maxE em0 0 m0 [] 0) as (em' & add & o' & H1 & _). rewrite H1 in Hm.
      destruct o' as [[]|x| | |]; try discriminate Hm. injection Hm as <-. exists add. apply (eo_sort_perm HE). }
  destruct (em_new _ _ _ _) as [em0|x| | |]; try (intros [= <- <-]; left; cbn [sr_matches]; eexists; split; [reflexivity|reflexivity]).
  destruct (@rest_ok E s q e maxE em0 (li_longest s + 3) m0 p (live + k)) as (em' & add & o' & H1 & H2). rewrite H1. destruct (stop (length add) p) as [j|]; rewrite H2; intros [= <- <-]; cbn [sr_matches].
  - right. split; [reflexivity|]. exists (firstn j add). split; [reflexivity|]. intros m Hm. destruct o' as [[]|x| | |]; try discriminate Hm. injection Hm as <-. exists (skipn j add). rewrite firstn_skipn. apply (eo_sort_perm HE).
  - left. exists o'. split; [now destruct o' as [[]|x| | |]|reflexivity].
Qed.
Lemma sr_enough m0 plan live : Forall (fun b => b = true) plan -> exists st, short (mkSR m0 plan live) = (st, as_res (snd (plain m0))) /\ sr_matches st = fst (plain m0).
Proof.
  intros Hp. unfold r_findWords. cbn [sr_plan sr_matches sr_live]. rewrite find_body.
  assert (Hf : Forall (fun b => b = true) (firstn (li_longest s + 3) plan) /\ Forall (fun b => b = true) (skipn (li_longest s + 3) plan)) by (rewrite <- (firstn_skipn (li_longest s + 3) plan) in Hp; now apply Forall_app in Hp).
  rewrite (blocks_true (proj1 Hf)). destruct (em_new _ _ _ _) as [em0|x| | |]; try (eexists; split; reflexivity).
  destruct (@rest_ok E s q e maxE em0 (li_longest s + 3) m0 (skipn (li_longest s + 3) plan) (live + (li_longest s + 3))) as (em' & add & o' & H1 & H2). rewrite H1. rewrite (stop_true _ (proj2 Hf)) in H2. rewrite H2.
  destruct o' as [[]|x| | |]; eexists; split; reflexivity.
Qed.
Lemma sr_freed m0 plan live st o : short (mkSR m0 plan live) = (st, o) -> o = Val tt \/ o = Out \/ (exists x, o = Thrown x) ->
  (live <= sr_live st)%nat /\ (sr_live st < live + (li_longest s + 3))%nat /\ (Forall (fun b => b = true) (firstn (li_longest s + 3) plan) -> sr_live st = live) /\ (o <> Out -> sr_live st = live).
Proof.
  unfold r_findWords. cbn [sr_plan sr_matches sr_live]. destruct (blocks (li_longest s + 3) plan) as [[k b] p] eqn:Hb. destruct (blocks_le Hb) as (A & B & C). destruct b.
  2:{ intros [= <- <-] _. cbn [sr_live]. specialize (C eq_refl). split; [lia|]. split; [lia|]. split; [intros Ht; rewrite (blocks_true Ht) in Hb; discriminate Hb|intros Hx; now destruct Hx]. }
  destruct (B eq_refl) as [-> _]. destruct (em_new _ _ _ _) as [em0|x| | |] eqn:He; [|now destruct (no_throw He)| | |]; try (intros [= <- <-] [Hx|[Hx|[x Hx]]]; discriminate Hx).
  destruct (@rest_ok E s q e maxE em0 (li_longest s + 3) m0 p (live + (li_longest s + 3))) as (em' & add & o' & H1 & H2).
  assert (Hl : forall y, sr_live st = live -> (live <= sr_live st)%nat /\ (sr_live st < live + (li_longest s + 3))%nat /\ (Forall (fun b => b = true) (firstn (li_longest s + 3) plan) -> sr_live st = live) /\ (y -> sr_live st = live)) by (intros y Hy; rewrite Hy; repeat split; auto; lia).
  destruct (stop (length add) p) as [j|]; rewrite H2; intros [= <- <-] Ho; apply Hl; cbn [sr_live]; [lia|]. destruct o' as [[]|x| | |]; try lia; destruct Ho as [Hx|[Hx|[y Hx]]]; discriminate Hx.
Qed.
End Search.
