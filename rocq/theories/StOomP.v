(** WordStores that run out of memory. *)
From Verif Require Import Base TrieM TrieA TrieP TrieP2 TrieD WordStoreM Spec_Hist TrieH WordStoreP FailM StOomM Spec_StOom CApiP.
From Coq Require Import ZifyBool ZifyN ZifyNat.
Local Open Scope N_scope.
Ltac Zify.zify_post_hook ::= Z.to_euclidean_division_equations.

(** The trie has the words [d], with their numbers; [names] are those in the vector; [past]
    the calls so far. *)
Record SX (s : wstore) (es : edges) (ids : list N) (d : list (word * N)) (names : list word) (past : list (word * fres N)) : Prop := {
  sx_rep : rep (ws_trie s) es ids (N.of_nat (length d));
  sx_abs : tr_abs es ids d;
  sx_idx : Forall2 (at_node es) names (ws_index s);
  sx_len : (length names <= length d)%nat;
  sx_val : forall w id, In (w, Val id) past -> In (w, id) d;
  sx_why : forall w id, In (w, id) d -> In (w, Out) past \/ nth_error names (N.to_nat id) = Some w;
  sx_names : forall i w, nth_error names i = Some w -> In (w, N.of_nat i) d /\ In (w, Val (N.of_nat i)) past /\ ~ In (w, Out) past
}.
Lemma SX_has s es ids d names past w : SX s es ids d names past -> Forall nonnul w -> hasWord (ws_trie s) w = Ok (match assoc d w with Some _ => true | None => false end).
Proof. intros H Hw. apply TR_hasWord; [|exact Hw]. exists es, ids. split; [apply (sx_rep H)|apply (sx_abs H)]. Qed.
Lemma SX_small s es ids d names past : SX s es ids d names past -> N.of_nat (length d) < 2147483648.
Proof. intros H. pose proof (dict_len (sx_abs H)) as Hl. pose proof (rep_len (sx_rep H)). lia. Qed.
Lemma SX_old E s es ids d names past w id p : SX s es ids d names past -> Forall nonnul w -> In (w, id) d -> s_getID E w (mkSO s p) = (mkSO s p, Val id).
Proof.
  intros H Hw Hin. unfold s_getID. cbn [so_store]. rewrite (SX_has H Hw). pose proof (proj2 (assoc_in _ _ (ta_nodup (sx_abs H))) Hin) as Ha. rewrite Ha.
  apply (ta_in (sx_abs H)) in Hin. rewrite (findWord_spec (sx_rep H) Hw). cbn [obind]. unfold lookup in Hin.
  destruct (awalk es 0 w) as [j|] eqn:Hj; [|discriminate Hin]. cbv zeta in Hin.
  destruct (nth j ids 0 =? INVALID_WORDID); [discriminate|]. unfold getWordID. rewrite (rd_id (sx_rep H)) by apply (awalk_bound (Nat.le_0_l (length es)) Hj). cbn [as_res]. congruence.
Qed.
Lemma SX_again s es ids d names past w id : SX s es ids d names past -> In (w, id) d -> SX s es ids d names (past ++ [(w, Val id)]).
Proof.
  intros H Hin. constructor; try apply H.
  - intros v k Hv. apply in_app_or in Hv as [Hv|[[= <- <-]|[]]]; [exact (sx_val H Hv)|exact Hin].
  - intros v k Hv. destruct (sx_why H Hv) as [Ho|Ho]; [left; apply in_or_app; now left|now right].
  - intros i v Hi. destruct (sx_names H Hi) as (A & B & C). split; [exact A|]. split; [apply in_or_app; now left|]. intros Hx. apply in_app_or in Hx as [Hx|[Hx|[]]]; [exact (C Hx)|discriminate Hx].
Qed.
Lemma SX_step E s es ids d names past w p L : SX s es ids d names past -> insertable w -> (forall o, In (w, o) past -> In w (map fst d)) -> N.of_nat (length es) <= L -> assoc d w = None ->
  (exists s' es' ids', s_getID E w (mkSO s p) = (mkSO s' (tl p), match p with false :: _ => Out | _ => Val (N.of_nat (length names)) end) /\ N.of_nat (length es') <= L + N.of_nat (length w) /\
     SX s' es' ids' (d ++ [(w, N.of_nat (length names))]) (match p with false :: _ => names | _ => names ++ [w] end) (past ++ [(w, match p with false :: _ => Out | _ => Val (N.of_nat (length names)) end)])) \/
  (exists s', s_getID E w (mkSO s p) = (s', Thrown ERuntime) /\ exists sz, 1024 < sz /\ sz <= 72 + 64 * (L + N.of_nat (length w)) /\ grow_ok E (u32 sz) = false).
Proof.
  intros H Hi Hdom HL Ha. pose proof Hi as (Hne & Hw & Hlow). pose proof (SX_small H) as Hsm. pose proof (sx_len H) as Hln. pose proof (Forall2_len (sx_idx H)) as Hlen.
  assert (Hu : u32 (N.of_nat (length (ws_index s))) = N.of_nat (length names)) by (rewrite <- Hlen; unfold u32; lia).
  assert (Hnot : ~ In w (map fst d)) by (now apply assoc_none).
  unfold s_getID. cbn [so_store]. rewrite (SX_has H Hw), Ha, Hu.
  destruct (@insert_new E (ws_trie s) es ids d w (N.of_nat (length names)) (sx_rep H) (sx_abs H)) as (es' & j & t' & Hax & Hcase); try assumption; [unfold INVALID_WORDID; lia|].
  assert (Hb : N.of_nat (length es') <= L + N.of_nat (length w)) by (pose proof (aext_len w es 0) as Hx; rewrite Hax in Hx; cbn [fst] in Hx; lia).
  destruct Hcase as [(He & ids' & R' & A')|(He & Hm & Hlt & sz & Hs1 & Hs2 & Hs3)].
  2:{ right. rewrite He. eexists. split; [reflexivity|]. exists sz. split; [exact Hs1|]. split; [lia|exact Hs3]. }
  left. rewrite He. destruct (aext_spec (r_wf (sx_rep H)) (Nat.le_0_l _) Hw Hax) as (Hwf' & (x & Hx) & Hwk & Hj).
  assert (Hidx : Forall2 (at_node es') names (ws_index s)) by (eapply Forall2_impl; [|apply (sx_idx H)]; cbn; intros v off Hat; subst es'; now apply at_node_mono).
  assert (Hnm : ~ In w names).
  { intros Hin. apply In_nth_error in Hin as [i Hin]. apply (sx_names H) in Hin as (Hin & _ & _). apply Hnot. exact (in_map fst _ _ Hin). }
  assert (Hnp : forall o, ~ In (w, o) past) by (intros o Ho; exact (Hnot (Hdom o Ho))).
  assert (Hgood : forall r, (mkSO (mkWS t' (ws_index s ++ [noff j])) r, Val (u32 (N.of_nat (length (ws_index s ++ [noff j])) - 1))) = (mkSO (mkWS t' (ws_index s ++ [noff j])) r, Val (N.of_nat (length names))) /\
    SX (mkWS t' (ws_index s ++ [noff j])) es' ids' (d ++ [(w, N.of_nat (length names))]) (names ++ [w]) (past ++ [(w, Val (N.of_nat (length names)))])).
  { intros r. split; [do 2 f_equal; rewrite app_length; cbn [length]; unfold u32; lia|]. constructor; cbn [ws_trie ws_index]; try assumption.
    - apply Forall2_app; [exact Hidx|constructor; [now exists j|constructor]].
    - rewrite !app_length. cbn. lia.
    - intros v k Hv. apply in_or_app. apply in_app_or in Hv as [Hv|[[= <- <-]|[]]]; [left; exact (sx_val H Hv)|right; now left].
    - intros v k Hv. apply in_app_or in Hv as [Hv|[[= <- <-]|[]]].
      + destruct (sx_why H Hv) as [Ho|Ho]; [left; apply in_or_app; now left|]. right. rewrite nth_error_app1; [exact Ho|]. apply nth_error_Some. congruence.
      + right. rewrite Nat2N.id, nth_error_app2, Nat.sub_diag by lia. reflexivity.
    - intros i v Hv. destruct (Nat.lt_ge_cases i (length names)) as [Hlt|Hge].
      + rewrite nth_error_app1 in Hv by exact Hlt. destruct (sx_names H Hv) as (B & C & D). split; [apply in_or_app; now left|]. split; [apply in_or_app; now left|].
        intros Hx2. apply in_app_or in Hx2 as [Hx2|[Hx2|[]]]; [exact (D Hx2)|discriminate Hx2].
      + rewrite nth_error_app2 in Hv by exact Hge. destruct (i - length names)%nat as [|[|k]] eqn:Hk; try discriminate Hv. injection Hv as <-. assert (i = length names) as -> by lia.
        split; [apply in_or_app; right; now left|]. split; [apply in_or_app; right; now left|]. intros Hx2. apply in_app_or in Hx2 as [Hx2|[Hx2|[]]]; [exact (Hnp _ Hx2)|discriminate Hx2]. }
  cbn [so_plan]. destruct p as [|[] r]; cbv zeta; cbn [tl].
  1,2: destruct (Hgood []) as [G1 G2]; eexists _, es', ids'; (split; [|split; [exact Hb|exact G2]]); injection G1 as G1; now rewrite G1.
  exists (mkWS t' (ws_index s)), es', ids'. split; [reflexivity|]. split; [exact Hb|]. constructor; cbn [ws_trie ws_index]; try assumption.
  - rewrite app_length. cbn. lia.
  - intros v k Hv. apply in_or_app. apply in_app_or in Hv as [Hv|[Hv|[]]]; [left; exact (sx_val H Hv)|discriminate Hv].
  - intros v k Hv. apply in_app_or in Hv as [Hv|[[= <- <-]|[]]]; [|left; apply in_or_app; right; now left].
    destruct (sx_why H Hv) as [Ho|Ho]; [left; apply in_or_app; now left|now right].
  - intros i v Hv. destruct (sx_names H Hv) as (B & C & D). split; [apply in_or_app; now left|]. split; [apply in_or_app; now left|].
    intros Hx2. apply in_app_or in Hx2 as [Hx2|[[= ->]|[]]]; [exact (D Hx2)|]. apply nth_error_In in Hv. exact (Hnm Hv).
Qed.
Lemma SX_new E s : ws_new E = Ok s -> exists ids, SX s [] ids [] [] [].
Proof.
  intros H. destruct (WS_new H) as [ids W]. exists ids. constructor.
  - exact (w_rep W).
  - exact (w_abs W).
  - exact (w_idx W).
  - reflexivity.
  - intros w id [].
  - intros w id [].
  - intros i w Hi. destruct i; discriminate Hi.
Qed.
Definition later (rest : list word) (os : list (fres N)) : Prop :=
  forall i j w o, (i < j)%nat -> asked rest os i w o -> nth_error rest j = Some w -> exists id, nth_error os j = Some (Val id) /\ forall k, o = Val k -> k = id.
Lemma s_run E : forall rest s p es ids d names past L, SX s es ids d names past -> (forall v o, In (v, o) past -> In v (map fst d)) -> N.of_nat (length es) <= L -> Forall insertable rest ->
  (exists s' p' es' ids' d' names' os, s_all E rest (mkSO s p) = (mkSO s' p', os) /\ length os = length rest /\ went_on os /\ SX s' es' ids' (d ++ d') names' (past ++ combine rest os) /\
     (forall v o, In (v, o) (past ++ combine rest os) -> In v (map fst (d ++ d'))) /\ (forall j w id, nth_error rest j = Some w -> In (w, id) d -> nth_error os j = Some (Val id)) /\ later rest os) \/
  (exists st' os, s_all E rest (mkSO s p) = (st', os ++ [Thrown ERuntime]) /\ went_on os /\ exists sz, 1024 < sz /\ sz <= 72 + 64 * (L + word_letters rest) /\ grow_ok E (u32 sz) = false).
Proof.
  induction rest as [|w r IH]; intros s p es ids d names past L H Hd HL Hall.
  { left. exists s, p, es, ids, [], names, []. rewrite !app_nil_r. split; [reflexivity|]. split; [reflexivity|]. split; [constructor|]. split; [exact H|]. split; [exact Hd|].
    split; [intros j v id Hj; destruct j; discriminate Hj|]. intros i j v o _ [Hi _]. destruct i; discriminate Hi. }
  apply Forall_cons_iff in Hall as [Hw Hr]. assert (Hwl : word_letters (w :: r) = N.of_nat (length w) + word_letters r) by reflexivity.
  (* the first call *)
  assert (Hone : (exists s1 p1 es1 ids1 d1 names1 o, s_getID E w (mkSO s p) = (mkSO s1 p1, o) /\ ((exists id, o = Val id) \/ o = Out) /\ SX s1 es1 ids1 (d ++ d1) names1 (past ++ [(w, o)]) /\
      (forall v x, In (v, x) (past ++ [(w, o)]) -> In v (map fst (d ++ d1))) /\ N.of_nat (length es1) <= L + N.of_nat (length w) /\
      (forall id, In (w, id) d -> o = Val id) /\ exists id, In (w, id) (d ++ d1) /\ forall k, o = Val k -> k = id) \/
    (exists s', s_getID E w (mkSO s p) = (s', Thrown ERuntime) /\ exists sz, 1024 < sz /\ sz <= 72 + 64 * (L + N.of_nat (length w)) /\ grow_ok E (u32 sz) = false)).
  { destruct (assoc d w) as [id|] eqn:Ha.
    - pose proof (proj1 (assoc_in _ _ (ta_nodup (sx_abs H))) Ha) as Hin. left. exists s, p, es, ids, [], names, (Val id). rewrite app_nil_r. split; [exact (SX_old E p H (proj1 (proj2 Hw)) Hin)|].
      split; [left; now exists id|]. split; [exact (SX_again H Hin)|]. split; [intros v x Hv; apply in_app_or in Hv as [Hv|[[= <- <-]|[]]]; [exact (Hd _ _ Hv)|exact (in_map fst _ _ Hin)]|]. split; [lia|].
      split; [|exists id; split; [exact Hin|intros k Hk; now injection Hk]]. intros id2 Hin2. apply (assoc_in _ _ (ta_nodup (sx_abs H))) in Hin2. congruence.
    - pose proof (proj1 (assoc_none _ _) Ha) as Hnot. destruct (@SX_step E s es ids d names past w p L H Hw (fun o => Hd w o) HL Ha) as [(s1 & es1 & ids1 & He & Hb & H1)|Hf]; [|right; exact Hf].
      left. exists s1, (tl p), es1, ids1, [(w, N.of_nat (length names))], (match p with false :: _ => names | _ => names ++ [w] end), (match p with false :: _ => Out | _ => Val (N.of_nat (length names)) end).
      split; [exact He|]. split; [destruct p as [|[] p]; [left|left|right]; try reflexivity; now eexists|]. split; [exact H1|].
      split; [intros v x Hv; rewrite map_app; apply in_or_app; apply in_app_or in Hv as [Hv|[[= <- _]|[]]]; [left; exact (Hd _ _ Hv)|right; now left]|]. split; [exact Hb|].
      split; [intros id Hin; destruct (Hnot (in_map fst _ _ Hin))|]. exists (N.of_nat (length names)). split; [apply in_or_app; right; now left|]. intros k Hk. destruct p as [|[] p]; now inversion Hk. }
  destruct Hone as [(s1 & p1 & es1 & ids1 & d1 & names1 & o & He & Ho & H1 & Hd1 & Hb & Hold & id & Hid & Hk)|(s' & He & sz & Hs1 & Hs2 & Hs3)].
  2:{ right. exists s', []. cbn [s_all]. rewrite He. split; [reflexivity|]. split; [constructor|]. exists sz. split; [exact Hs1|]. split; [lia|exact Hs3]. }
  destruct (IH s1 p1 es1 ids1 (d ++ d1) names1 (past ++ [(w, o)]) _ H1 Hd1 Hb Hr) as [(s' & p' & es' & ids' & d' & names' & os & He' & Hlen & Hgo & H' & Hd' & Hnth & Hlat)|(st' & os & He' & Hgo & sz & Hs1 & Hs2 & Hs3)].
  - left. exists s', p', es', ids', (d1 ++ d'), names', (o :: os). split; [cbn [s_all]; rewrite He, He'; destruct Ho as [(k & ->)| ->]; reflexivity|].
    split; [cbn; now rewrite Hlen|]. split; [constructor; assumption|]. cbn [combine]. rewrite <- !app_assoc in H', Hd'. cbn [app] in H', Hd'. split; [exact H'|]. split; [exact Hd'|]. split.
    + intros j v k Hj Hin. destruct j as [|j]; cbn [nth_error] in *; [injection Hj as ->; now rewrite (Hold _ Hin)|]. apply (Hnth j v k Hj). apply in_or_app. now left.
    + intros i j v x Hij [Hi Hx] Hj. destruct j as [|j]; [lia|]. cbn [nth_error] in Hj |- *. destruct i as [|i]; cbn [nth_error] in Hi, Hx.
      * injection Hi as ->. injection Hx as ->. exists id. split; [exact (Hnth _ _ _ Hj Hid)|exact Hk].
      * refine (Hlat i j v x _ (conj Hi Hx) Hj). lia.
  - right. exists st', (o :: os). split; [cbn [s_all]; rewrite He, He'; destruct Ho as [(k & ->)| ->]; reflexivity|]. split; [constructor; assumption|]. exists sz. split; [exact Hs1|]. split; [lia|exact Hs3].
Qed.
Lemma asked_in ws os i w o : asked ws os i w o -> In (w, o) (combine ws os).
Proof.
  unfold asked. revert os i. induction ws as [|v ws IH]; intros os i [H1 H2]; [destruct i; discriminate H1|]. destruct os as [|x os]; [destruct i; discriminate H2|].
  destruct i as [|i]; cbn in *; [left; congruence|right; apply (IH os i); now split].
Qed.
Lemma in_asked ws os w o : In (w, o) (combine ws os) -> exists i, asked ws os i w o.
Proof.
  unfold asked. revert os. induction ws as [|v ws IH]; intros os H; [destruct H|]. destruct os as [|x os]; [destruct H|].
  destruct H as [[= -> ->]|H]; [now exists O|]. destruct (IH os H) as [i Hi]. now exists (S i).
Qed.
Lemma went_no os o : went_on (os ++ [Thrown o]) -> False.
Proof. intros H. apply Forall_app in H as [_ H]. apply Forall_cons_iff in H as [[(id & H)|H] _]; discriminate H. Qed.

Section Client.
Variables (E : env) (s0 : wstore) (ws : list word) (plan : list bool) (st : sstate) (os : list (fres N)).
Hypothesis (Hn : ws_new E = Ok s0) (Hall : Forall insertable ws) (Hr : s_all E ws (mkSO s0 plan) = (st, os)).
Lemma so_ends : (length os = length ws /\ went_on os) \/ exists os', os = os' ++ [Thrown ERuntime] /\ went_on os' /\ exists sz, 1024 < sz /\ sz <= 72 + 64 * word_letters ws /\ grow_ok E (u32 sz) = false.
Proof.
  destruct (SX_new Hn) as [ids0 H0]. destruct (@s_run E ws s0 plan [] ids0 [] [] [] 0 H0 (fun v o H => H) (N.le_refl 0) Hall) as [(s' & p' & es' & ids' & d' & names' & os' & He & Hl & Hg & _)|(st' & os' & He & Hg & sz & Hs)];
    rewrite Hr in He; injection He as -> ->; [left; now split|]. right. exists os'. split; [reflexivity|]. split; [exact Hg|]. now exists sz.
Qed.
Hypothesis (Hgo : went_on os).
Lemma so_final : exists es ids d names, SX (so_store st) es ids d names (combine ws os) /\ (forall v o, In (v, o) (combine ws os) -> In v (map fst d)) /\ later ws os.
Proof.
  destruct (SX_new Hn) as [ids0 H0]. destruct (@s_run E ws s0 plan [] ids0 [] [] [] 0 H0 (fun v o H => H) (N.le_refl 0) Hall) as [(s' & p' & es' & ids' & d' & names' & os' & He & Hl & Hg & H & Hd & _ & Hlat)|(st' & os' & He & Hg & sz & Hs)];
    rewrite Hr in He; injection He as -> ->; [|destruct (went_no Hgo)]. cbn [app so_store] in *. now exists es', ids', d', names'.
Qed.
Lemma so_again i j w o : (i < j)%nat -> asked ws os i w o -> nth_error ws j = Some w -> exists id, asked ws os j w (Val id) /\ forall k, o = Val k -> k = id.
Proof. intros Hij Hi Hj. destruct so_final as (es & ids & d & names & _ & _ & Hlat). destruct (Hlat i j w o Hij Hi Hj) as (id & H1 & H2). exists id. split; [now split|exact H2]. Qed.
Lemma name_word es ids d names past i w : SX (so_store st) es ids d names past -> nth_error names i = Some w -> ws_hasID (so_store st) (N.of_nat i) = true /\ (constructible E w -> ws_getWord E (so_store st) (N.of_nat i) = Ok w).
Proof.
  intros H Hi. pose proof (Forall2_len (sx_idx H)) as Hlen. destruct (Forall2_nth (sx_idx H) Hi) as (off & Hoff & j & Hj & ->).
  assert (Hlt : (i < length (ws_index (so_store st)))%nat) by (apply nth_error_Some; congruence).
  assert (Hid : ws_hasID (so_store st) (N.of_nat i) = true) by (unfold ws_hasID; lia). split; [exact Hid|]. intros Hc. unfold ws_getWord. rewrite Hid. cbn [negb]. rewrite Nat2N.id, Hoff.
  transitivity (word_of_letters E (w ++ [0])); [now apply (getWord_spec (sx_rep H))|now apply constructible_back].
Qed.
Lemma so_names i w id : asked ws os i w (Val id) -> lucky ws os w -> ws_hasID (so_store st) id = true /\ (constructible E w -> ws_getWord E (so_store st) id = Ok w).
Proof.
  intros Hi Hl. destruct so_final as (es & ids & d & names & H & _ & _). pose proof (sx_val H (asked_in Hi)) as Hd. destruct (sx_why H Hd) as [Ho|Hnm].
  - apply in_asked in Ho as [j Hj]. destruct (Hl _ Hj).
  - pose proof (name_word H Hnm) as Hx. now rewrite N2Nat.id in Hx.
Qed.
Lemma so_distinct i j w v id : asked ws os i w (Val id) -> asked ws os j v (Val id) -> lucky ws os w -> lucky ws os v -> w = v.
Proof.
  intros Hi Hj Lw Lv. destruct so_final as (es & ids & d & names & H & _ & _). destruct (sx_why H (sx_val H (asked_in Hi))) as [Ho|A]; [apply in_asked in Ho as [k Hk]; destruct (Lw _ Hk)|].
  destruct (sx_why H (sx_val H (asked_in Hj))) as [Ho|B]; [apply in_asked in Ho as [k Hk]; destruct (Lv _ Hk)|]. congruence.
Qed.
Lemma so_known id : (ws_hasID (so_store st) id = true -> exists i w, asked ws os i w (Val id) /\ lucky ws os w) /\ (ws_hasID (so_store st) id = false -> ws_getWord E (so_store st) id = Throw EOutOfRange).
Proof.
  split; [|intros H; unfold ws_getWord; now rewrite H]. intros Hid. destruct so_final as (es & ids & d & names & H & _ & _). unfold ws_hasID in Hid. rewrite <- (Forall2_len (sx_idx H)) in Hid.
  destruct (nth_error names (N.to_nat id)) as [w|] eqn:Hw; [|apply nth_error_None in Hw; lia]. destruct (sx_names H Hw) as (_ & B & C). rewrite N2Nat.id in B. apply in_asked in B as [i B].
  exists i, w. split; [exact B|]. intros k Hk. exact (C (asked_in Hk)).
Qed.
Lemma so_has w : Forall nonnul w -> ws_hasWord (so_store st) w = Ok (if in_dec (list_eq_dec N.eq_dec) w ws then true else false).
Proof.
  intros Hw. destruct so_final as (es & ids & d & names & H & Hd & _). unfold ws_hasWord. rewrite (SX_has H Hw). f_equal.
  assert (Hlen : length os = length ws) by (destruct so_ends as [[Hl _]|(os' & -> & _)]; [exact Hl|destruct (went_no Hgo)]).
  destruct (in_dec (list_eq_dec N.eq_dec) w ws) as [Hin|Hin].
  - apply In_nth_error in Hin as [i Hi]. destruct (nth_error os i) as [o|] eqn:Ho; [|apply nth_error_None in Ho; assert (i < length ws)%nat by (apply nth_error_Some; intros Hx; pose proof (eq_trans (eq_sym Hi) Hx) as Hy; discriminate Hy); lia].
    pose proof (Hd _ _ (asked_in (conj Hi Ho))) as Hx. destruct (assoc d w) eqn:Ha; [reflexivity|]. apply assoc_none in Ha. destruct (Ha Hx).
  - destruct (assoc d w) as [id|] eqn:Ha; [|reflexivity]. apply (assoc_in _ _ (ta_nodup (sx_abs H))) in Ha. exfalso. apply Hin.
    assert (Hc : forall o, In (w, o) (combine ws os) -> In w ws) by (intros o Ho; exact (in_combine_l _ _ _ _ Ho)).
    destruct (sx_why H Ha) as [Ho|Ho]; [exact (Hc _ Ho)|]. destruct (sx_names H Ho) as (_ & B & _). exact (Hc _ B).
Qed.
Lemma so_has_iff w : Forall nonnul w -> exists b, ws_hasWord (so_store st) w = Ok b /\ (b = true <-> In w ws).
Proof. intros Hw. eexists. split; [exact (so_has Hw)|]. destruct (in_dec (list_eq_dec N.eq_dec) w ws) as [Hi|Hi]; split; intros Hx; [exact Hi|reflexivity|discriminate Hx|destruct (Hi Hx)]. Qed.
End Client.

(** ** With memory enough *)
Lemma s_told1 E w s p st id : s_getID E w (mkSO s p) = (st, Val id) -> ws_getID E w s = (so_store st, Ok id).
Proof.
  unfold s_getID, ws_getID. cbn [so_store so_plan]. unfold mbind, reads. destruct (hasWord (ws_trie s) w) as [[]| | | |]; try discriminate.
  - destruct (let! n := findWord (ws_trie s) w in getWordID (ws_trie s) n) as [k| | | |]; cbn [as_res]; intros [= <- <-]; reflexivity.
  - unfold on_trie. destruct (insertWord E w _ (ws_trie s)) as [t [node| | | |]]; try discriminate. cbn [ws_trie ws_index].
    destruct p as [|[] p]; intros [= <- <-]; reflexivity.
Qed.
Lemma s_told E : forall ws s p st ids, s_all E ws (mkSO s p) = (st, map Val ids) -> getID_all E ws s = (so_store st, Ok ids).
Proof.
  induction ws as [|w r IH]; intros s p st ids H; cbn [s_all getID_all] in *; [destruct ids; [injection H as <-; reflexivity|discriminate H]|].
  destruct (s_getID E w (mkSO s p)) as [[s1 p1] o] eqn:H1. destruct ids as [|id ids]; [destruct o; try destruct (s_all E r (mkSO s1 p1)); discriminate H|].
  destruct o as [k| | | | |]; try discriminate H; destruct (s_all E r (mkSO s1 p1)) as [st2 os] eqn:H2; try discriminate H. injection H as <- -> ->.
  pose proof (s_told1 H1) as G. cbn [so_store] in G. unfold mbind. rewrite G, (IH _ _ _ _ H2). reflexivity.
Qed.
Lemma s_enough1 E w s s' id : ws_getID E w s = (s', Ok id) -> s_getID E w (mkSO s []) = (mkSO s' [], Val id).
Proof.
  unfold s_getID, ws_getID. cbn [so_store so_plan]. unfold mbind, reads. destruct (hasWord (ws_trie s) w) as [[]| | | |]; try discriminate.
  - destruct (let! n := findWord (ws_trie s) w in getWordID (ws_trie s) n) as [k| | | |]; cbn [as_res]; intros [= <- <-]; reflexivity.
  - unfold on_trie. destruct (insertWord E w _ (ws_trie s)) as [t [node| | | |]]; try discriminate. cbn [ws_trie ws_index tl]. intros [= <- <-]. reflexivity.
Qed.
Lemma s_enough E : forall ws s s' ids, getID_all E ws s = (s', Ok ids) -> s_all E ws (mkSO s []) = (mkSO s' [], map Val ids).
Proof.
  induction ws as [|w r IH]; intros s s' ids H; cbn [s_all getID_all] in *; [injection H as <- <-; reflexivity|].
  apply bind_ok in H as (s1 & id & H1 & H). apply bind_ok in H as (s2 & ids2 & H2 & H). injection H as <- <-. rewrite (s_enough1 H1), (IH _ _ _ H2). reflexivity.
Qed.
