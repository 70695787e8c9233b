(** C122: the methods of Matcher do on the tries of ResM what they do in MatcherM. *)
From Verif Require Import Base TrieM TrieA TrieP TrieP2 TrieD WordStoreM ErrorValuesM LevIndexM WordM MapM MapP DoubleM ContM MatcherM Spec_Hist ResM ResP ResQ Spec_Res Spec_EV Spec_Match HoldM Spec_Hold.
From Coq Require Import ZifyBool ZifyN ZifyNat.
Local Open Scope N_scope.
Local Open Scope m_scope.

Definition came {A} (o : outcome A) : Prop := match o with Ok _ | Throw _ => True | _ => False end.
(** The operating system refused. *)
Definition no_room {A} (o : outcome A) : bool := match o with Throw ERuntime => true | _ => false end.

(** ** Tries *)
Lemma ins_ok E i w id s rt s' o : inv s -> trie_at s i rt -> writable w -> t_insertWord E i w id s = (s', o) -> came o ->
  exists rt', s_tries s' = upd i (Some rt') (s_tries s) /\ insertWord E w id (rt_t rt) = (rt_t rt', o) /\ inv s' /\
    open_files s' = open_files s /\ (live_maps s' <= live_maps s)%nat /\ (no_room o = false -> live_maps s' = live_maps s).
Proof.
  intros Hinv Hi Hw He Hc. pose proof Hi as Hi0. unfold t_insertWord in He. unfold trie_at in Hi. rewrite Hi in He.
  destruct (r_insertWord E w id (s_k s, rt)) as [[k' rt'] o0] eqn:Hr. injection He as <- <-. exists rt'. split; [reflexivity|].
  assert (Hstep : t_insert E i w id s = (mkSys k' (upd i (Some rt') (s_tries s)), let! _ := o0 in Ok tt)) by (unfold t_insert; now rewrite Hi, Hr).
  assert (Hctl : ctl (let! _ := o0 in Ok tt)) by (destruct o0; exact Hc).
  pose proof (insert_step Hinv Hw Hstep Hctl) as [I F M X _]. cbn [isnew isdel] in *.
  assert (Hsame : insertWord E w id (rt_t rt) = (rt_t rt', o0)).
  { destruct (i_ok Hinv Hi0) as (_ & _ & Hg). destruct (t_mapped (rt_t rt)) eqn:Hm.
    - destruct (Hg eq_refl) as [Hh (es & ids & nw & R & _)].
      destruct (@insert_sim E (s_k s, rt) es ids nw w id) as (s2 & He2 & Ht2 & _); [split; assumption|exact R|apply Hw|].
      rewrite Hr in He2. injection He2 as <- ->. cbn [snd] in Ht2. cbn [snd]. rewrite Ht2. now destruct (insertWord E w id (rt_t rt)).
    - destruct w as [|l v]. { cbn in Hr. injection Hr as <- <- <-. reflexivity. }
      pose proof (insert_gone Hm Hr) as Hgn. exfalso. destruct o0 as [r|e| | |]; try contradiction.
      unfold r_insertWord in Hr. unfold mbind at 1 in Hr. unfold massert at 1 in Hr. destruct (negb _); [apply (tail_gone Hm) in Hr as [Hr|Hr]; discriminate Hr|].
      destruct (e_ndebug E); [apply (tail_gone Hm) in Hr as [Hr|Hr]; discriminate Hr|discriminate Hr]. }
  split; [exact Hsame|]. split; [exact I|]. split; [lia|]. split; [lia|].
  intros Hn. destruct o0 as [r|e| | |]; try contradiction.
  - destruct (X eq_refl). lia.
  - destruct w as [|l v]. { cbn in Hr. injection Hr as <- <- <-. unfold live_maps. reflexivity. }
    exfalso. destruct (i_ok Hinv Hi0) as (_ & _ & Hg). destruct (t_mapped (rt_t rt)) eqn:Hm.
    + destruct (Hg eq_refl) as [Hh (es & ids & nw & R & _)]. assert (Hne : l :: v <> []) by discriminate.
      pose proof (insertWord_spec E id R Hne (proj1 Hw) (proj2 Hw)) as HS. cbv zeta in HS. destruct (aext es 0 (l :: v)) as [es' j].
      destruct HS as [(t1 & He1 & _)|(t1 & He1 & _)]; rewrite Hsame in He1; injection He1 as _ He1; [destruct (_ || _); discriminate|subst e; discriminate Hn].
    + unfold r_insertWord in Hr. unfold mbind at 1 in Hr. unfold massert at 1 in Hr. destruct (negb _); [apply (tail_gone Hm) in Hr as [Hr|Hr]; discriminate Hr|].
      destruct (e_ndebug E); [apply (tail_gone Hm) in Hr as [Hr|Hr]; discriminate Hr|discriminate Hr].
Qed.
Lemma new_ok E s s' o : inv s -> t_new E s = (s', o) -> came o -> inv s' /\ open_files s' = S (open_files s) /\
  ((o = Ok tt /\ exists rt, s_tries s' = s_tries s ++ [Some rt] /\ trie_new E = Ok (rt_t rt) /\ live_maps s' = S (live_maps s)) \/
   (o = Throw ERuntime /\ s_tries s' = s_tries s /\ trie_new E = Throw ERuntime /\ live_maps s' = live_maps s)).
Proof.
  intros Hinv He Hc. pose proof He as He0. assert (Hctl : ctl o) by (destruct o; exact Hc). pose proof (new_step Hinv He Hctl) as [I F M X _]. cbn [isnew isdel] in *.
  split; [exact I|]. split; [lia|]. unfold t_new in He. cbv zeta in He. unfold trie_new. destruct (grow_ok E 1024) eqn:Hg.
  2: { right. injection He as <- <-. repeat split; reflexivity. }
  left. destruct (first_good Hg) as (t & r & Hft & _). change (mkTrie true 1024 (fun o0 => if o0 =? H_TOTAL then 1024 else 0) 0) with blank in He |- *.
  set (k0 := mkK (k_files (s_k s) ++ [true]) (k_maps (s_k s) ++ [Some 1024])) in *.
  assert (Ha : nth_error (k_maps k0) (length (k_maps (s_k s))) = Some (Some 1024)).
  { unfold k0. cbn [k_maps]. rewrite nth_error_app2 by lia. now rewrite Nat.sub_diag. }
  destruct (first_sim E (length (k_files (s_k s))) Ha) as (s2 & He2 & Ht2 & _). cbn [snd rt_t] in He2, Ht2.
  rewrite Hft in He2, Ht2. cbn [fst snd] in He2, Ht2. rewrite He2 in He. destruct s2 as [k' rt]. injection He as <- <-.
  cbn [snd rt_t] in Ht2. subst t. split; [reflexivity|]. exists rt. split; [reflexivity|]. split.
  - change (match first_m E blank with (t, r) => let! _ := r in Ok t end = Ok (rt_t rt)). now rewrite Hft.
  - destruct (X eq_refl). lia.
Qed.

(** ** What is seen *)
Definition handles (h : hmatcher) : list nat := hs_trie (h_store h) :: map (fun x => hl_trie (snd x)) (h_idx h).
Lemma see_at s i t : see_trie s i = Some t <-> exists rt, trie_at s i rt /\ rt_t rt = t.
Proof.
  unfold see_trie, trie_at. destruct (nth_error (s_tries s) i) as [[rt|]|]; split; intros H; try discriminate.
  - injection H as <-. now exists rt.
  - destruct H as (rt' & [= ->] & <-). reflexivity.
  - now destruct H as (rt' & H & _).
  - now destruct H as (rt' & H & _).
Qed.
Lemma see_idx_same s s' l : (forall i, In i (map (fun x => hl_trie (snd x)) l) -> see_trie s' i = see_trie s i) -> see_idx s' l = see_idx s l.
Proof.
  induction l as [|[k x] l IH]; intros H; [reflexivity|]. cbn [see_idx]. unfold see_lev. rewrite (H (hl_trie x)) by now left. rewrite IH; [reflexivity|].
  intros i Hi. apply H. now right.
Qed.
Lemma see_same s s' h : (forall i, In i (handles h) -> see_trie s' i = see_trie s i) -> see s' h = see s h.
Proof.
  intros H. unfold see, see_store. rewrite (@see_idx_same s s') by (intros i Hi; apply H; now right). now rewrite (H (hs_trie (h_store h))) by now left.
Qed.
Lemma see_find s k l r : see_idx s l = Some r -> match mp_find N.ltb k l with
  | Some x => exists li, see_lev s x = Some li /\ mp_find N.ltb k r = Some li
  | None => mp_find N.ltb k r = None end.
Proof.
  revert r. induction l as [|[j x] l IH]; intros r H; [now injection H as <-|]. cbn [see_idx] in H. destruct (see_lev s x) as [li|] eqn:Hx; [|discriminate].
  destruct (see_idx s l) as [r'|]; [|discriminate]. injection H as <-. cbn [mp_find]. destruct (k <? j); [reflexivity|]. destruct (j <? k); [now apply IH|]. now exists li.
Qed.
Lemma see_set s k x li l r : see_idx s l = Some r -> see_lev s x = Some li -> see_idx s (mp_set N.ltb k x l) = Some (mp_set N.ltb k li r).
Proof.
  revert r. induction l as [|[j y] l IH]; intros r H Hx; cbn [see_idx] in H.
  { injection H as <-. cbn [mp_set see_idx]. now rewrite Hx. }
  destruct (see_lev s y) as [ly|] eqn:Hy; [|discriminate]. destruct (see_idx s l) as [r'|] eqn:Hl; [|discriminate]. injection H as <-. cbn [mp_set].
  destruct (k <? j); [cbn [see_idx]; now rewrite Hx, Hy, Hl|]. destruct (j <? k); cbn [see_idx]; [now rewrite Hy, (IH _ eq_refl Hx)|now rewrite Hx, Hl].
Qed.
Definition tries_in (l : list (N * hlev)) : list nat := map (fun x => hl_trie (snd x)) l.
Lemma set_old k x y l : mp_find N.ltb k l = Some x -> hl_trie y = hl_trie x -> tries_in (mp_set N.ltb k y l) = tries_in l.
Proof.
  intros H Hy. induction l as [|[j z] l IH]; [discriminate|]. cbn [mp_find mp_set] in *. destruct (k <? j); [discriminate|].
  destruct (j <? k); cbn [tries_in map snd]; [unfold tries_in in IH; now rewrite IH|injection H as ->; now rewrite Hy].
Qed.
Lemma set_new k x l : mp_find N.ltb k l = None -> Permutation (tries_in (mp_set N.ltb k x l)) (tries_in l ++ [hl_trie x]).
Proof.
  intros H. induction l as [|[j z] l IH]; [reflexivity|]. cbn [mp_find mp_set] in *. destruct (k <? j).
  - cbn [tries_in map snd]. apply Permutation_cons_append.
  - destruct (j <? k); [|discriminate]. cbn [tries_in map snd app]. apply perm_skip. now apply IH.
Qed.
Lemma find_in_tries k x l : mp_find N.ltb k l = Some x -> In (hl_trie x) (tries_in l).
Proof.
  induction l as [|[j z] l IH]; [discriminate|]. cbn [mp_find tries_in map snd]. destruct (k <? j); [discriminate|]. destruct (j <? k); [right; now apply IH|intros [= ->]; now left].
Qed.
(** Another trie of the same indexes written to. *)
Lemma see_set_trie s s' k x li' l r : see_idx s l = Some r -> mp_find N.ltb k l = Some x -> NoDup (tries_in l) ->
  (forall i, i <> hl_trie x -> see_trie s' i = see_trie s i) -> see_lev s' x = Some li' -> see_idx s' l = Some (mp_set N.ltb k li' r).
Proof.
  revert r. induction l as [|[j y] l IH]; intros r H Hf Hn Ho Hx; [discriminate|]. cbn [see_idx] in H |- *. cbn [mp_find] in Hf.
  destruct (see_lev s y) as [ly|] eqn:Hy; [|discriminate]. destruct (see_idx s l) as [r'|] eqn:Hl; [|discriminate]. injection H as <-. cbn [mp_set].
  cbn [tries_in map snd] in Hn. apply NoDup_cons_iff in Hn as [Hny Hn]. destruct (k <? j); [discriminate|]. destruct (j <? k) eqn:Hjk.
  - assert (Hne : hl_trie y <> hl_trie x) by (intros He; apply Hny; rewrite He; now apply (find_in_tries Hf)).
    unfold see_lev. rewrite (Ho _ Hne). unfold see_lev in Hy. destruct (see_trie s (hl_trie y)); [|discriminate]. injection Hy as <-. now rewrite (IH _ eq_refl Hf Hn Ho Hx).
  - injection Hf as ->. rewrite Hx. rewrite (@see_idx_same s s'); [now rewrite Hl|]. intros i Hi. apply Ho. intros ->. now apply Hny.
Qed.
