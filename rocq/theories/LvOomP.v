(** LevenshteinIndexes that run out of memory. *)
From Verif Require Import Base TrieM LevIndexM Spec_Hist Spec_Lev FailM LvOomM Spec_LvOom.
From Coq Require Import ZifyBool ZifyN ZifyNat.
Local Open Scope N_scope.

(** ** The index that never ran out has the same trie *)
Lemma l_step E w id s p s2 : li_trie s = li_trie s2 -> exists s' p' o s2' r, l_insertWord E w id (mkLO s p) = (mkLO s' p', o) /\ li_insertWord E w id s2 = (s2', r) /\ li_trie s' = li_trie s2' /\
  match r with Ok _ => went o | _ => o = as_res r end.
Proof.
  intros Ht. unfold l_insertWord, li_insertWord. destruct (Nat.eqb (length w) 0); [exists s, p, (Val tt), s2, (Ok tt); repeat split; auto; now left|].
  cbn [lo_index lo_plan]. unfold mbind, reads, on_li_trie. cbn [li_trie]. rewrite <- Ht. destruct (insertWord E w id (li_trie s)) as [t [node|x| | |]].
  - cbn [li_counts li_max li_longest li_trie]. destruct (counts_find (li_counts s) id) as [c|].
    + eexists _, _, _, _, _. split; [reflexivity|]. split; [reflexivity|]. split; [reflexivity|]. now left.
    + destruct p as [|[] p]; eexists _, _, _, _, _; (split; [reflexivity|]); (split; [reflexivity|]); (split; [reflexivity|]); [now left|now left|now right].
  - eexists _, _, _, _, _. now repeat split.
  - eexists _, _, _, _, _. now repeat split.
  - eexists _, _, _, _, _. now repeat split.
  - eexists _, _, _, _, _. now repeat split.
Qed.
Lemma l_sim E : forall ops s p s2, li_trie s = li_trie s2 -> exists st os s2' r, l_all E ops (mkLO s p) = (st, os) /\ lev_insert_all E ops s2 = (s2', r) /\ li_trie (lo_index st) = li_trie s2' /\
  match r with Ok _ => length os = length ops /\ Forall went os | _ => exists os', os = os' ++ [as_res r] /\ Forall went os' end.
Proof.
  induction ops as [|[w id] ops IH]; intros s p s2 Ht; cbn [l_all lev_insert_all].
  { exists (mkLO s p), [], s2, (Ok tt). split; [reflexivity|]. split; [reflexivity|]. split; [exact Ht|]. now split. }
  destruct (@l_step E w id s p s2 Ht) as (s' & p' & o & s2' & r & He & He2 & Ht' & Ho). unfold mbind. rewrite He, He2. destruct r as [[]|x| | |].
  - destruct (IH s' p' s2' Ht') as (st & os & s3 & r & Hr & Hr2 & Ht3 & Hos). rewrite Hr, Hr2. exists st, (o :: os), s3, r.
    split; [destruct Ho as [->| ->]; reflexivity|]. split; [now destruct r as [[]|x| | |]|]. split; [exact Ht3|].
    destruct r as [[]|x| | |]; first [destruct Hos as [A B]; split; [cbn; now rewrite A|now constructor] | destruct Hos as (os' & -> & B); exists (o :: os'); split; [reflexivity|now constructor]].
  - subst o. cbn [as_res]. eexists _, _, _, _. split; [reflexivity|]. split; [reflexivity|]. split; [exact Ht'|]. exists []. now split.
  - subst o. cbn [as_res]. eexists _, _, _, _. split; [reflexivity|]. split; [reflexivity|]. split; [exact Ht'|]. exists []. now split.
  - subst o. cbn [as_res]. eexists _, _, _, _. split; [reflexivity|]. split; [reflexivity|]. split; [exact Ht'|]. exists []. now split.
  - subst o. cbn [as_res]. eexists _, _, _, _. split; [reflexivity|]. split; [reflexivity|]. split; [exact Ht'|]. exists []. now split.
Qed.

(** ** What it counts *)
Record LC (s : levindex) (ops : list (word * N)) : Prop := {
  lc_count : forall id, li_wordCount s id = times id ops;
  lc_some : forall id, counts_find (li_counts s) id = None \/ counts_find (li_counts s) id = Some (times id ops);
  lc_bound : forall id, times id ops <= li_max s;
  lc_reach : exists id, times id ops = li_max s;
  lc_long : li_longest s = longest ops
}.
Lemma find_set c id v k : counts_find (counts_set c id v) k = if (k =? id) then Some v else counts_find c k.
Proof.
  unfold counts_find. induction c as [|[a b] c IH]; cbn.
  - rewrite (N.eqb_sym id k). now destruct (k =? id).
  - destruct (N.eqb_spec a id) as [->|Hne]; cbn.
    + rewrite (N.eqb_sym id k). now destruct (k =? id).
    + destruct (N.eqb_spec a k) as [->|Hk]; [destruct (N.eqb_spec k id); [contradiction|reflexivity]|exact IH].
Qed.
Lemma times_app id a b : times id (a ++ b) = times id a + times id b.
Proof. unfold times, real. rewrite !filter_app, app_length. lia. Qed.
Lemma longest_app a b : longest (a ++ b) = Nat.max (longest a) (longest b).
Proof. unfold longest. induction a as [|x a IH]; cbn; [reflexivity|]. rewrite IH. lia. Qed.
Lemma times_one w id k : w <> [] -> times k [(w, id)] = if (k =? id) then 1 else 0.
Proof. intros Hw. unfold times, real. cbn [filter fst]. destruct w; [contradiction|]. cbn. rewrite (N.eqb_sym id k). now destruct (k =? id). Qed.
Lemma empty_op a id k : times k (a ++ [([], id)]) = times k a /\ longest (a ++ [([], id)]) = longest a.
Proof. rewrite times_app, longest_app. unfold times, real, longest. cbn. lia. Qed.
Lemma LC_trie s t ops : LC s ops -> LC (mkLI (li_counts s) (li_max s) (li_longest s) t) ops.
Proof. intros H. constructor; try apply H. Qed.
Lemma LC_add s w id ops : LC s ops -> w <> [] ->
  let n := match counts_find (li_counts s) id with Some c => c + 1 | None => 1 end in
  LC (mkLI (counts_set (li_counts s) id n) (if li_max s <? n then n else li_max s) (if Nat.ltb (li_longest s) (length w) then length w else li_longest s) (li_trie s)) (ops ++ [(w, id)]).
Proof.
  intros H Hw n. assert (Hn : n = times id ops + 1).
  { unfold n. pose proof (lc_count H id) as Hc. unfold li_wordCount in Hc. destruct (counts_find (li_counts s) id); lia. }
  assert (Ht : forall k, times k (ops ++ [(w, id)]) = times k ops + if (k =? id) then 1 else 0) by (intros k; now rewrite times_app, times_one).
  assert (Hf : forall k, counts_find (counts_set (li_counts s) id n) k = if (k =? id) then Some n else counts_find (li_counts s) k) by (intros k; apply find_set).
  constructor; cbn [li_counts li_max li_longest li_trie].
  - intros k. rewrite Ht. unfold li_wordCount. cbn [li_counts]. rewrite Hf. pose proof (lc_count H k) as Hc. unfold li_wordCount in Hc. destruct (N.eqb_spec k id) as [->|Hk]; lia.
  - intros k. rewrite Ht, Hf. destruct (N.eqb_spec k id) as [->|Hk]; [right; now rewrite Hn|]. rewrite N.add_0_r. apply (lc_some H).
  - intros k. rewrite Ht. pose proof (@lc_bound _ _ H k) as Hb. destruct (N.ltb_spec (li_max s) n), (N.eqb_spec k id) as [->|Hk]; lia.
  - destruct (N.ltb_spec (li_max s) n) as [Hlt|Hge].
    + exists id. rewrite Ht, N.eqb_refl. lia.
    + destruct (lc_reach H) as [k Hk]. exists k. rewrite Ht. destruct (N.eqb_spec k id) as [->|Hne]; lia.
  - rewrite longest_app. cbn [longest fold_right fst]. rewrite Nat.max_0_r, <- (lc_long H). destruct (Nat.ltb_spec (li_longest s) (length w)); lia.
Qed.
Lemma LC_nil s id ops : LC s ops -> LC s (ops ++ [([], id)]).
Proof.
  intros [A B C D F]. assert (Ht : forall k, times k (ops ++ [([], id)]) = times k ops) by (intros k; exact (proj1 (empty_op ops id k))).
  constructor.
  - intros k. rewrite Ht. apply A.
  - intros k. rewrite Ht. apply B.
  - intros k. rewrite Ht. apply C.
  - destruct D as [k D]. exists k. now rewrite Ht.
  - exact (eq_trans F (eq_sym (proj2 (empty_op ops id 0)))).
Qed.
Lemma l_counts1 E w id s p st o ops : LC s ops -> l_insertWord E w id (mkLO s p) = (st, o) -> LC (lo_index st) (match o with Val _ => ops ++ [(w, id)] | _ => ops end).
Proof.
  intros H. unfold l_insertWord. destruct (Nat.eqb_spec (length w) 0) as [Hl|Hl].
  { intros [= <- <-]. destruct w; [|discriminate Hl]. cbn [lo_index]. exact (LC_nil id H). }
  assert (Hw : w <> []) by (intros ->; now apply Hl). cbn [lo_index lo_plan]. unfold on_li_trie. destruct (insertWord E w id (li_trie s)) as [t [node|x| | |]]; try (intros [= <- <-]; cbn [lo_index]; now apply LC_trie).
  pose proof (LC_add id (LC_trie t H) Hw) as Ha. cbn [li_counts li_max li_longest li_trie] in *. cbv zeta in Ha. destruct (counts_find (li_counts s) id) as [c|]; [intros [= <- <-]; exact Ha|].
  destruct p as [|[] p]; intros [= <- <-]; cbn [lo_index]; try exact Ha. now apply LC_trie.
Qed.
Lemma l_counts E : forall ops s p st os past, LC s past -> l_all E ops (mkLO s p) = (st, os) -> LC (lo_index st) (past ++ finished ops os).
Proof.
  induction ops as [|[w id] ops IH]; intros s p st os past H Hr; cbn [l_all] in Hr; [injection Hr as <- <-; cbn; now rewrite app_nil_r|].
  destruct (l_insertWord E w id (mkLO s p)) as [[s1 p1] o] eqn:H1. pose proof (l_counts1 H H1) as H2. cbn [lo_index] in H2.
  destruct o as [u| |x| | |]; try (injection Hr as <- <-; cbn [finished lo_index]; destruct ops; now rewrite app_nil_r).
  - destruct (l_all E ops (mkLO s1 p1)) as [st2 os2] eqn:H3. injection Hr as <- <-. pose proof (IH _ _ _ _ _ H2 H3) as G. cbn [finished]. now rewrite <- app_assoc in G.
  - destruct (l_all E ops (mkLO s1 p1)) as [st2 os2] eqn:H3. injection Hr as <- <-. exact (IH _ _ _ _ _ H2 H3).
Qed.
Lemma LC_new E s : li_new E = Ok s -> LC s [].
Proof.
  unfold li_new. destruct (trie_new E) as [t| | | |]; cbn [obind]; try discriminate. intros [= <-]. constructor; cbn.
  - intros id. reflexivity.
  - intros id. now left.
  - intros id. unfold times. cbn. lia.
  - now exists 0.
  - reflexivity.
Qed.
Lemma no_bad_end os os' (x : fres unit) : os = os' ++ [x] -> Forall went os -> went x.
Proof. intros -> H. apply Forall_app in H as [_ H]. now apply Forall_inv in H. Qed.

Lemma l_one E w id s s1 : li_insertWord E w id s = (s1, Ok tt) -> l_insertWord E w id (mkLO s []) = (mkLO s1 [], Val tt).
Proof.
  unfold li_insertWord, l_insertWord. destruct (Nat.eqb (length w) 0); [intros [= <-]; reflexivity|]. cbn [lo_index lo_plan]. unfold mbind, reads, on_li_trie.
  destruct (insertWord E w id (li_trie s)) as [t [node|x| | |]]; try discriminate. cbn [li_counts li_max li_longest li_trie tl]. intros [= <-]. now destruct (counts_find (li_counts s) id).
Qed.
Lemma l_enough E : forall ops s0 s, lev_insert_all E ops s0 = (s, Ok tt) -> l_all E ops (mkLO s0 []) = (mkLO s [], repeat (Val tt) (length ops)).
Proof.
  induction ops as [|[w id] o IH]; intros s0 s H1; cbn [lev_insert_all l_all] in *; [injection H1 as <-; reflexivity|].
  unfold mbind in H1. destruct (li_insertWord E w id s0) as [s1 r] eqn:Hi. destruct r as [[]|x| | |]; try discriminate H1.
  rewrite (l_one Hi), (IH _ _ H1). reflexivity.
Qed.
Lemma l_back E w id st st1 : l_insertWord E w id st = (st1, Val tt) -> li_insertWord E w id (lo_index st) = (lo_index st1, Ok tt).
Proof.
  unfold li_insertWord, l_insertWord. destruct (Nat.eqb (length w) 0); [intros [= <-]; reflexivity|]. unfold mbind, reads, on_li_trie.
  destruct (insertWord E w id (li_trie (lo_index st))) as [t [node|x| | |]]; try discriminate. cbn [li_counts li_max li_longest li_trie tl].
  destruct (counts_find (li_counts (lo_index st)) id); [intros [= <-]; reflexivity|]. destruct (lo_plan st) as [|[] p]; try discriminate; intros [= <-]; reflexivity.
Qed.
Lemma l_told E : forall ops st st', l_all E ops st = (st', repeat (Val tt) (length ops)) -> lev_insert_all E ops (lo_index st) = (lo_index st', Ok tt).
Proof.
  induction ops as [|[w id] o IH]; intros st st' H; cbn [lev_insert_all l_all length repeat] in *; [injection H as <-; reflexivity|].
  destruct (l_insertWord E w id st) as [st1 r] eqn:Hi. destruct r as [[]| |x| | |]; try discriminate H.
  - destruct (l_all E o st1) as [st2 os2] eqn:H2. injection H as -> ->. unfold mbind. rewrite (l_back Hi). exact (IH _ _ H2).
  - destruct (l_all E o st1) as [st2 os2] eqn:H2. discriminate H.
Qed.

Section Client.
Variables (E : env) (s0 : levindex) (ops : list (word * N)) (plan : list bool) (st : lstate) (os : list (fres unit)).
Hypothesis (Hn : li_new E = Ok s0) (Hr : l_all E ops (mkLO s0 plan) = (st, os)).
Lemma lo_ends : exists s r, lev_insert_all E ops s0 = (s, r) /\ match r with Ok _ => length os = length ops /\ Forall went os | _ => exists os', os = os' ++ [as_res r] /\ Forall went os' end.
Proof. destruct (@l_sim E ops s0 plan s0 eq_refl) as (st' & os' & s2 & r & H1 & H2 & _ & H3). rewrite Hr in H1. injection H1 as <- <-. now exists s2, r. Qed.
Lemma lo_counts : (forall id, li_wordCount (lo_index st) id = times id (finished ops os)) /\ (forall id, times id (finished ops os) <= li_maxCount (lo_index st)) /\ exists id, times id (finished ops os) = li_maxCount (lo_index st).
Proof. pose proof (l_counts (LC_new Hn) Hr) as H. split; [apply H|]. split; apply H. Qed.
Hypothesis (Hgo : Forall went os).
Lemma lo_twin : exists s, lev_insert_all E ops s0 = (s, Ok tt) /\ li_trie (lo_index st) = li_trie s.
Proof.
  destruct (@l_sim E ops s0 plan s0 eq_refl) as (st' & os' & s2 & r & H1 & H2 & H3 & H4). rewrite Hr in H1. injection H1 as <- <-. exists s2.
  destruct r as [[]|x| | |]; [now split| | | |]; destruct H4 as (os' & H4 & _); destruct (no_bad_end H4 Hgo) as [Hx|Hx]; discriminate Hx.
Qed.
Lemma lo_words : exists s, lev_insert_all E ops s0 = (s, Ok tt) /\ (forall w, li_hasWord (lo_index st) w = li_hasWord s w) /\ li_numWords (lo_index st) = li_numWords s /\ li_numNodes (lo_index st) = li_numNodes s.
Proof. destruct lo_twin as (s & H1 & H2). exists s. unfold li_hasWord, li_numWords, li_numNodes. rewrite H2. now repeat split. Qed.
Lemma finished_le : forall o2 p2, (longest (finished o2 p2) <= longest o2)%nat.
Proof. unfold longest. induction o2 as [|x o2 IH]; intros [|y p2]; cbn; try lia. specialize (IH p2). destruct y; cbn; lia. Qed.
Lemma lo_search : covered ops os -> exists s, lev_insert_all E ops s0 = (s, Ok tt) /\ forall q e maxE m, findWords E (lo_index st) q e maxE m = findWords E s q e maxE m.
Proof.
  intros Hc. destruct lo_twin as (s & H1 & H2). exists s. split; [exact H1|]. pose proof (lc_long (l_counts (LC_new Hn) Hr)) as Hl. cbn [app] in Hl.
  pose proof (l_enough H1) as Ha.
  pose proof (lc_long (l_counts (LC_new Hn) Ha)) as Hl2. cbn [app lo_index] in Hl2.
  assert (Hf : finished ops (repeat (Val tt) (length ops)) = ops) by (clear; induction ops as [|x o IH]; cbn; [reflexivity|now rewrite IH]). rewrite Hf in Hl2.
  assert (Hlen : li_longest (lo_index st) = li_longest s) by (pose proof (finished_le ops os); unfold covered in Hc; lia).
  intros q e maxE m. unfold findWords. now rewrite Hlen, H2.
Qed.
Lemma in_longest w id o : In (w, id) o -> (length w <= longest o)%nat.
Proof. induction o as [|x o IH]; intros Hin; [destruct Hin|]. destruct Hin as [->|Hin]; cbn; [lia|]. specialize (IH Hin). unfold longest in IH. lia. Qed.
Lemma longest_le o k : (forall w id, In (w, id) o -> (length w <= k)%nat) -> (longest o <= k)%nat.
Proof. induction o as [|[w id] o IH]; intros H; cbn; [lia|]. pose proof (H w id (or_introl eq_refl)). assert (longest o <= k)%nat by (apply IH; intros v i Hi; apply (H v i); now right). unfold longest in *. lia. Qed.
Lemma lo_retry : (forall op, In op ops -> In op (finished ops os)) -> covered ops os.
Proof. intros H. apply longest_le. intros w id Hin. exact (in_longest (H _ Hin)). Qed.
End Client.
