(** Proofs about WordStore. *)
From Verif Require Import Base TrieM TrieA TrieP TrieP2 TrieD WordStoreM Spec_Hist TrieH.
From Coq Require Import ZifyBool ZifyN ZifyNat.
Local Open Scope N_scope.
Ltac Zify.zify_post_hook ::= Z.to_euclidean_division_equations.

(** ** position *)
Lemma position_some w l i : position w l = Some i -> nth_error l i = Some w.
Proof.
  revert i. induction l as [|v r IH]; intros i H; cbn in H; [discriminate|].
  destruct (weqb_spec w v) as [->|Hne]; [injection H as <-; reflexivity|].
  destruct (position w r) as [k|] eqn:Hp; [|discriminate]. injection H as <-. now apply IH.
Qed.
Lemma position_none w l : position w l = None <-> ~ In w l.
Proof.
  induction l as [|v r IH]; cbn; [tauto|]. destruct (weqb_spec w v) as [->|Hne].
  - split; [discriminate|]. intros H. exfalso. apply H. now left.
  - destruct (position w r) as [k|]; split; try discriminate; intros H.
    + exfalso. apply H. right. destruct (in_dec (list_eq_dec N.eq_dec) w r) as [Hi|Hi]; [exact Hi|].
      apply IH in Hi. discriminate.
    + intros [Hx|Hx]; [congruence|]. apply IH in Hx; [assumption|reflexivity].
    + reflexivity.
Qed.
Lemma position_nth w l i : NoDup l -> nth_error l i = Some w -> position w l = Some i.
Proof.
  revert i. induction l as [|v r IH]; intros i Hnd Hi; [destruct i; discriminate|].
  apply NoDup_cons_iff in Hnd as [Hv Hnd]. cbn. destruct (weqb_spec w v) as [->|Hne].
  - destruct i; [reflexivity|]. exfalso. apply Hv. cbn in Hi. now apply nth_error_In in Hi.
  - destruct i; cbn in Hi; [congruence|]. now rewrite (IH i).
Qed.
Lemma position_app w l x i : position w l = Some i -> position w (l ++ x) = Some i.
Proof.
  revert i. induction l as [|v r IH]; intros i H; cbn in *; [discriminate|].
  destruct (weqb w v); [assumption|]. destruct (position w r) as [k|]; [|discriminate].
  now rewrite (IH k).
Qed.

Definition dict (ws : list word) : list (word * N) :=
  combine ws (map N.of_nat (seq 0 (length ws))).

Lemma dict_length ws : length (dict ws) = length ws.
Proof. unfold dict. rewrite combine_length, map_length, seq_length. lia. Qed.
Lemma dict_snoc ws w : dict (ws ++ [w]) = dict ws ++ [(w, N.of_nat (length ws))].
Proof.
  unfold dict. rewrite app_length. cbn [length]. rewrite Nat.add_1_r, seq_S, map_app. cbn [map].
  assert (Hc : forall (a : list word) (b : list N) x y, length a = length b ->
            combine (a ++ [x]) (b ++ [y]) = combine a b ++ [(x, y)]).
  { induction a as [|a0 a IH]; intros [|b0 b] x y Hl; cbn in *; try discriminate; [reflexivity|].
    f_equal. apply IH. lia. }
  apply Hc. now rewrite map_length, seq_length.
Qed.
Lemma assoc_combine w : forall ws k,
  assoc (combine ws (map N.of_nat (seq k (length ws)))) w =
  match position w ws with Some i => Some (N.of_nat (k + i)) | None => None end.
Proof.
  induction ws as [|v r IH]; intros k; [reflexivity|].
  cbn [length seq map combine]. unfold assoc in *. cbn [find fst position].
  destruct (weqb w v); [cbn; do 2 f_equal; lia|]. rewrite IH.
  destruct (position w r) as [i|]; [|reflexivity]. do 2 f_equal. lia.
Qed.
Lemma assoc_dict ws w :
  assoc (dict ws) w = match position w ws with Some i => Some (N.of_nat i) | None => None end.
Proof. unfold dict. rewrite assoc_combine. now destruct (position w ws). Qed.

(** ** Invariant: the store holds exactly the distinct words [ws], numbered. *)
Record WS (s : wstore) (es : edges) (ids : list N) (ws : list word) : Prop := {
  w_rep : rep (ws_trie s) es ids (N.of_nat (length ws));
  w_abs : tr_abs es ids (dict ws);
  w_idx : Forall2 (at_node es) ws (ws_index s);
  w_letters : N.of_nat (length es) <= word_letters ws
}.

Lemma WS_nodup s es ids ws : WS s es ids ws -> NoDup ws.
Proof.
  intros H. pose proof (ta_nodup (w_abs H)) as Hn.
  replace ws with (map fst (dict ws)); [exact Hn|].
  unfold dict. clear. generalize 0%nat. induction ws as [|w r IH]; intros k; [reflexivity|].
  cbn. f_equal. apply IH.
Qed.

Lemma Forall2_len (A B : Type) (P : A -> B -> Prop) a b : Forall2 P a b -> length a = length b.
Proof. induction 1; cbn; congruence. Qed.

Lemma WS_small s es ids ws : WS s es ids ws -> N.of_nat (length ws) < 2147483648.
Proof.
  intros H. pose proof (dict_len (w_abs H)) as Hl. rewrite dict_length in Hl.
  pose proof (rep_len (w_rep H)). lia.
Qed.

Lemma WS_hasWord s es ids ws w : WS s es ids ws -> Forall nonnul w ->
  ws_hasWord s w = Ok (match position w ws with Some _ => true | None => false end).
Proof.
  intros H Hw. unfold ws_hasWord. rewrite (@TR_hasWord (ws_trie s) (dict ws) w); [|exists es, ids|exact Hw].
  - rewrite assoc_dict. now destruct (position w ws).
  - rewrite dict_length. split; [apply (w_rep H)|apply (w_abs H)].
Qed.

Lemma WS_getID_old E s es ids ws w i : WS s es ids ws -> Forall nonnul w ->
  position w ws = Some i -> ws_getID E w s = (s, Ok (N.of_nat i)).
Proof.
  intros H Hw Hp. unfold ws_getID.
  erewrite mbind_ok by (apply reads_ok; pose proof (WS_hasWord H Hw) as Hx; rewrite Hp in Hx; exact Hx).
  cbn iota. apply reads_ok.
  pose proof (assoc_dict ws w) as Ha. rewrite Hp in Ha.
  apply assoc_in in Ha; [|apply (ta_nodup (w_abs H))]. apply (ta_in (w_abs H)) in Ha.
  rewrite (findWord_spec (w_rep H) Hw). cbn [obind]. unfold lookup in Ha.
  destruct (awalk es 0 w) as [j|] eqn:Hj; [|discriminate]. cbv zeta in Ha.
  destruct (nth j ids 0 =? INVALID_WORDID); [discriminate|].
  unfold getWordID. rewrite (rd_id (w_rep H)) by apply (awalk_bound (Nat.le_0_l (length es)) Hj).
  congruence.
Qed.

Lemma word_letters_app a b : word_letters (a ++ b) = word_letters a + word_letters b.
Proof. unfold word_letters. induction a as [|x a IH]; cbn [app fold_right]; lia. Qed.

Lemma WS_getID_new E s es ids ws w : WS s es ids ws -> insertable w -> position w ws = None ->
  (exists s' es' ids' x, ws_getID E w s = (s', Ok (N.of_nat (length ws))) /\ es' = es ++ x
      /\ WS s' es' ids' (ws ++ [w]))
  \/ (exists s', ws_getID E w s = (s', Throw ERuntime) /\ t_mapped (ws_trie s') = false
      /\ exists sz, 1024 < sz /\ sz <= 72 + 64 * word_letters (ws ++ [w]) /\ grow_ok E (u32 sz) = false).
Proof.
  intros H Hi Hp. pose proof Hi as (Hne & Hw & Hlow).
  pose proof (WS_small H) as Hsm. pose proof (Forall2_len (w_idx H)) as Hlen.
  assert (Hu : u32 (N.of_nat (length (ws_index s))) = N.of_nat (length ws)).
  { rewrite <- Hlen. unfold u32. lia. }
  unfold ws_getID.
  erewrite mbind_ok by (apply reads_ok; pose proof (WS_hasWord H Hw) as Hx; rewrite Hp in Hx; exact Hx).
  cbn iota. erewrite mbind_ok by (apply reads_ok; reflexivity). rewrite Hu.
  pose proof (w_rep H) as R. rewrite <- (dict_length ws) in R.
  destruct (@insert_new E (ws_trie s) es ids (dict ws) w (N.of_nat (length ws)) R (w_abs H))
    as (es' & j & t' & Hax & Hcase); try assumption.
  { unfold INVALID_WORDID. lia. }
  { rewrite assoc_dict, Hp. reflexivity. }
  assert (Hbound : N.of_nat (length es') <= word_letters (ws ++ [w])).
  { pose proof (aext_len w es 0) as Hx. rewrite Hax in Hx. cbn [fst] in Hx.
    rewrite word_letters_app. cbn [word_letters fold_right]. pose proof (w_letters H). unfold word_letters in *. lia. }
  destruct Hcase as [(He & ids' & R' & A')|(He & Hm & Hlt & sz & Hs1 & Hs2 & Hs3)].
  - left. exists (mkWS t' (ws_index s ++ [noff j])), es', ids'.
    destruct (aext_spec (r_wf (w_rep H)) (Nat.le_0_l _) Hw Hax) as (Hwf' & (x & Hx) & Hwk & Hj).
    exists x. split; [|split; [exact Hx|]].
    + erewrite mbind_ok by (unfold on_trie; rewrite He; reflexivity).
      erewrite mbind_ok by reflexivity. unfold reads. cbn [ws_trie ws_index]. do 2 f_equal.
      rewrite app_length. cbn [length]. unfold u32. lia.
    + rewrite <- dict_snoc in R', A'. rewrite dict_length in R'. constructor; cbn [ws_trie ws_index]; try assumption.
      apply Forall2_app; [|constructor; [now exists j|constructor]].
      eapply Forall2_impl; [|apply (w_idx H)]. cbn. intros v off Hat. subst es'. now apply at_node_mono.
  - right. exists (mkWS t' (ws_index s)). split; [|split; [exact Hm|]].
    + erewrite mbind_throw by (unfold on_trie; rewrite He; reflexivity). reflexivity.
    + exists sz. split; [exact Hs1|]. split; [lia|exact Hs3].
Qed.

Lemma WS_new E s : ws_new E = Ok s -> exists ids, WS s [] ids [].
Proof.
  unfold ws_new. destruct (trie_new E) as [t| | | |] eqn:Ht; cbn [obind]; try discriminate.
  intros [= <-]. exists [INVALID_WORDID]. pose proof (hist_new Ht) as H. constructor.
  - apply (hi_rep H).
  - apply (hi_abs H).
  - constructor.
  - cbn. lia.
Qed.

Lemma getID_run E : forall rest s es ids ws, WS s es ids ws -> Forall insertable rest ->
  (exists s' es' ids' x, getID_all E rest s = (s', Ok (map N.of_nat (numbering ws rest))) /\ es' = es ++ x
      /\ WS s' es' ids' (distinct ws rest))
  \/ (exists s', getID_all E rest s = (s', Throw ERuntime) /\ t_mapped (ws_trie s') = false
      /\ exists sz, 1024 < sz /\ sz <= 72 + 64 * (word_letters ws + word_letters rest)
         /\ grow_ok E (u32 sz) = false).
Proof.
  induction rest as [|w r IH]; intros s es ids ws H Hall; cbn [getID_all numbering distinct].
  - left. exists s, es, ids, []. rewrite app_nil_r. split; [reflexivity|auto].
  - apply Forall_cons_iff in Hall as [Hw Hr].
    assert (Hwl : word_letters (w :: r) = N.of_nat (length w) + word_letters r) by reflexivity.
    destruct (position w ws) as [i|] eqn:Hp.
    + erewrite mbind_ok by (eapply WS_getID_old; [eassumption|apply Hw|eassumption]).
      destruct (IH _ _ _ _ H Hr) as [(s' & es' & ids' & x & He & Hx & H')|(s' & He & Hm & sz & Hs1 & Hs2 & Hs3)].
      * left. exists s', es', ids', x. erewrite mbind_ok by exact He. split; [reflexivity|auto].
      * right. exists s'. erewrite mbind_throw by exact He. split; [reflexivity|]. split; [exact Hm|].
        exists sz. split; [exact Hs1|]. split; [lia|exact Hs3].
    + destruct (WS_getID_new E H Hw Hp)
        as [(s1 & es1 & ids1 & x & He & Hx & H1)|(s1 & He & Hm & sz & Hs1 & Hs2 & Hs3)].
      * erewrite mbind_ok by exact He.
        destruct (IH _ _ _ _ H1 Hr) as [(s' & es' & ids' & x' & He' & Hx' & H')|(s' & He' & Hm' & sz & Hs1 & Hs2 & Hs3)].
        -- left. exists s', es', ids', (x ++ x'). erewrite mbind_ok by exact He'. split; [reflexivity|].
           split; [subst; now rewrite app_assoc|exact H'].
        -- right. exists s'. erewrite mbind_throw by exact He'. split; [reflexivity|]. split; [exact Hm'|].
           exists sz. split; [exact Hs1|]. split; [|exact Hs3].
           rewrite word_letters_app in Hs2. cbn [word_letters fold_right] in Hs2. unfold word_letters in *. cbn [fold_right]. lia.
      * right. exists s1. erewrite mbind_throw by exact He. split; [reflexivity|]. split; [exact Hm|].
        exists sz. split; [exact Hs1|]. split; [|exact Hs3].
        rewrite word_letters_app in Hs2. cbn [word_letters fold_right] in Hs2. unfold word_letters in *. cbn [fold_right]. lia.
Qed.

Lemma distinct_app : forall rest ws, exists x, distinct ws rest = ws ++ x.
Proof.
  induction rest as [|w r IH]; intros ws; cbn; [exists []; now rewrite app_nil_r|].
  destruct (position w ws); [apply IH|]. destruct (IH (ws ++ [w])) as [x ->].
  exists (w :: x). now rewrite <- app_assoc.
Qed.
Lemma distinct_in : forall rest ws w, In w (distinct ws rest) <-> In w ws \/ In w rest.
Proof.
  induction rest as [|v r IH]; intros ws w; cbn; [tauto|].
  destruct (position v ws) as [i|] eqn:Hp; rewrite IH.
  - apply position_some, nth_error_In in Hp. intuition (subst; auto).
  - rewrite in_app_iff. cbn. tauto.
Qed.

Lemma numbering_nth : forall rest ws i w, nth_error rest i = Some w ->
  exists k, nth_error (numbering ws rest) i = Some k /\ nth_error (distinct ws rest) k = Some w.
Proof.
  induction rest as [|v r IH]; intros ws i w Hi; [destruct i; discriminate|].
  cbn [numbering distinct]. destruct (position v ws) as [k|] eqn:Hp.
  - destruct i; cbn in Hi |- *.
    + injection Hi as <-. exists k. split; [reflexivity|].
      destruct (distinct_app r ws) as [x ->]. apply position_some in Hp.
      rewrite nth_error_app1; [exact Hp|]. apply nth_error_Some. congruence.
    + now apply IH.
  - destruct i; cbn in Hi |- *.
    + injection Hi as <-. exists (length ws). split; [reflexivity|].
      destruct (distinct_app r (ws ++ [v])) as [x ->]. rewrite <- app_assoc, nth_error_app2 by lia.
      rewrite Nat.sub_diag. reflexivity.
    + now apply IH.
Qed.

Lemma WS_getWord E s es ids ws i w : WS s es ids ws -> nth_error ws i = Some w ->
  ws_getWord E s (N.of_nat i) = word_of_letters E (w ++ [0]).
Proof.
  intros H Hi. pose proof (Forall2_len (w_idx H)) as Hlen.
  destruct (Forall2_nth (w_idx H) Hi) as (off & Hoff & j & Hj & ->).
  assert (Hlt : (i < length (ws_index s))%nat) by (apply nth_error_Some; congruence).
  unfold ws_getWord, ws_hasID. destruct (N.ltb_spec (N.of_nat i) (N.of_nat (length (ws_index s)))); [|lia].
  cbn [negb]. rewrite Nat2N.id, Hoff. now apply (getWord_spec (w_rep H)).
Qed.

(** ** C02 *)
Lemma bijection E s0 ws s ids :
  ws_new E = Ok s0 -> Forall insertable ws -> getID_all E ws s0 = (s, Ok ids) ->
  ids = map N.of_nat (numbering [] ws)
  /\ (forall i j wi wj ki kj, nth_error ws i = Some wi -> nth_error ws j = Some wj ->
        nth_error ids i = Some ki -> nth_error ids j = Some kj -> (wi = wj <-> ki = kj))
  /\ (forall i w k, nth_error ws i = Some w -> nth_error ids i = Some k ->
        ws_hasWord s w = Ok true /\ ws_hasID s k = true /\ (constructible E w -> ws_getWord E s k = Ok w)).
Proof.
  intros Hn Hall Hr. destruct (WS_new Hn) as [ids0 H0].
  destruct (@getID_run E ws s0 [] ids0 [] H0 Hall) as [(s' & es' & ids' & x & He & Hx & H)|(s' & He & _)]; [|congruence].
  rewrite Hr in He. injection He as <- ->. split; [reflexivity|].
  assert (Hnth : forall i w k, nth_error ws i = Some w -> nth_error (map N.of_nat (numbering [] ws)) i = Some k ->
            exists n, k = N.of_nat n /\ nth_error (distinct [] ws) n = Some w).
  { intros i w k Hi Hk. destruct (@numbering_nth ws [] i w Hi) as (n & Hn1 & Hn2).
    rewrite nth_error_map, Hn1 in Hk. cbn in Hk. injection Hk as <-. eauto. }
  split.
  - intros i j wi wj ki kj Hi Hj Hki Hkj.
    destruct (Hnth _ _ _ Hi Hki) as (n & -> & Hnw). destruct (Hnth _ _ _ Hj Hkj) as (m & -> & Hmw).
    split.
    + intros <-. f_equal. pose proof (WS_nodup H) as Hnd.
      apply (position_nth Hnd) in Hnw. apply (position_nth Hnd) in Hmw. congruence.
    + intros Heq. apply Nat2N.inj in Heq. congruence.
  - intros i w k Hi Hk. destruct (Hnth _ _ _ Hi Hk) as (n & -> & Hnw).
    split; [|split].
    + rewrite (WS_hasWord H).
      * now rewrite (position_nth (WS_nodup H) Hnw).
      * rewrite Forall_forall in Hall. apply nth_error_In in Hi. apply Hall in Hi. apply Hi.
    + unfold ws_hasID. rewrite <- (Forall2_len (w_idx H)).
      assert (n < length (distinct [] ws))%nat by (apply nth_error_Some; congruence). lia.
    + intros Hc. rewrite (WS_getWord E H Hnw). now apply constructible_back.
Qed.

Lemma id_stable E s0 ws1 ws2 s1 ids1 s2 ids2 :
  ws_new E = Ok s0 -> Forall insertable (ws1 ++ ws2) -> getID_all E ws1 s0 = (s1, Ok ids1) ->
  getID_all E ws2 s1 = (s2, Ok ids2) ->
  forall k, ws_hasID s1 k = true -> ws_getWord E s2 k = ws_getWord E s1 k.
Proof.
  intros Hn Hall Hr1 Hr2 k Hk. apply Forall_app in Hall as [Ha1 Ha2].
  destruct (WS_new Hn) as [ids0 H0].
  destruct (@getID_run E ws1 s0 [] ids0 [] H0 Ha1) as [(s' & es' & ids' & x & He & Hx & H)|(s' & He & _)]; [|congruence].
  rewrite Hr1 in He. injection He as <- ->.
  destruct (@getID_run E ws2 s1 es' ids' _ H Ha2) as [(s' & es2 & ids2' & x2 & He2 & Hx2 & H2)|(s' & He2 & _)]; [|congruence].
  rewrite Hr2 in He2. injection He2 as <- ->.
  unfold ws_hasID in Hk. rewrite <- (Forall2_len (w_idx H)) in Hk.
  assert (Hlt : (N.to_nat k < length (distinct [] ws1))%nat) by lia.
  destruct (nth_error (distinct [] ws1) (N.to_nat k)) as [w|] eqn:Hw.
  2:{ apply nth_error_None in Hw. lia. }
  rewrite <- (N2Nat.id k). rewrite (WS_getWord E H Hw). eapply WS_getWord; [exact H2|].
  destruct (distinct_app ws2 (distinct [] ws1)) as [y ->]. rewrite nth_error_app1 by assumption. exact Hw.
Qed.

(** ** C03 *)
Lemma unknown_ids E s0 ws s ids k n :
  ws_new E = Ok s0 -> Forall insertable ws -> getID_all E ws s0 = (s, Ok ids) ->
  n = N.of_nat (length (distinct [] ws)) ->
  (ws_hasID s k = true <-> In k ids) /\ (ws_hasID s k = true <-> k < n)
  /\ (ws_hasID s k = false -> ws_getWord E s k = Throw EOutOfRange).
Proof.
  intros Hn Hall Hr ->. destruct (WS_new Hn) as [ids0 H0].
  destruct (@getID_run E ws s0 [] ids0 [] H0 Hall) as [(s' & es' & ids' & x & He & Hx & H)|(s' & He & _)]; [|congruence].
  rewrite Hr in He. injection He as <- ->.
  assert (Hk : ws_hasID s k = true <-> k < N.of_nat (length (distinct [] ws))).
  { unfold ws_hasID. rewrite <- (Forall2_len (w_idx H)). lia. }
  split; [|split; [exact Hk|]].
  - rewrite Hk. rewrite in_map_iff. split.
    + intros Hlt. exists (N.to_nat k). split; [lia|].
      destruct (nth_error (distinct [] ws) (N.to_nat k)) as [w|] eqn:Hw.
      2:{ apply nth_error_None in Hw. lia. }
      pose proof (nth_error_In _ _ Hw) as Hin. apply distinct_in in Hin as [[]|Hin].
      apply In_nth_error in Hin as [i Hi]. destruct (@numbering_nth ws [] i w Hi) as (m & Hm1 & Hm2).
      assert (m = N.to_nat k) as <-.
      { pose proof (WS_nodup H) as Hnd. apply (position_nth Hnd) in Hw. apply (position_nth Hnd) in Hm2. congruence. }
      now apply nth_error_In in Hm1.
    + intros (m & <- & Hm). apply In_nth_error in Hm as [i Hi].
      assert (Hl : forall r0 w0, length (numbering w0 r0) = length r0).
      { induction r0 as [|v r0 IH]; intros w0; cbn; [reflexivity|]. destruct (position v w0); cbn; now rewrite IH. }
      assert (Hlt : (i < length ws)%nat).
      { rewrite <- (Hl ws []). apply nth_error_Some. congruence. }
      destruct (nth_error ws i) as [w|] eqn:Hw; [|apply nth_error_None in Hw; lia].
      destruct (@numbering_nth ws [] i w Hw) as (m' & Hm1 & Hm2). assert (m' = m) by congruence. subst m'.
      assert (m < length (distinct [] ws))%nat by (apply nth_error_Some; congruence). lia.
  - intros Hf. unfold ws_getWord. now rewrite Hf.
Qed.

(** ** Failure modes and capacity *)
Lemma ws_outcomes E s0 ws : ws_new E = Ok s0 -> Forall insertable ws ->
  exists s r, getID_all E ws s0 = (s, r) /\
   (r = Ok (map N.of_nat (numbering [] ws)) \/
    (r = Throw ERuntime /\ exists sz, 1024 < sz /\ sz <= 72 + 64 * word_letters ws /\ grow_ok E (u32 sz) = false)).
Proof.
  intros Hn Hall. destruct (WS_new Hn) as [ids0 H0].
  destruct (@getID_run E ws s0 [] ids0 [] H0 Hall) as [(s' & es' & ids' & x & He & Hx & H)|(s' & He & Hm & sz & Hs)].
  - eauto.
  - exists s', (Throw ERuntime). split; [exact He|]. right. split; [reflexivity|]. now exists sz.
Qed.
