(** Proofs about whole calls, and histories of calls, that run out of memory. *)
From Verif Require Import Base TrieM WordM MapM DoubleM ContM OwnM OomM ErrorValuesM Spec_EV EVP EVE EVK EvOomM Spec_EvOom EvOomP.
From Coq Require Import ZifyBool ZifyN ZifyNat.
Local Open Scope N_scope.

(** A call does what it does with memory enough, or runs out. *)
Definition tame (f : V unit) (g : M errvals unit) : Prop := forall e m, ev_wf e ->
  (snd (g e) = Ok tt \/ snd (g e) = Throw ERuntime) /\
  exists e' m' r, f e m = (e', m', r) /\ ev_wf e' /\ (forall l, isInGroup e l = true -> isInGroup e' l = true) /\
  ((r = ended (snd (g e)) /\ e' = fst (g e) /\ live m' = live m /\ (plan m = [] -> m' = m)) \/
   (r = Fail OutOfMemory /\ plan m <> [] /\ (live m <= live m' <= live m + 1)%Z)).
Lemma tame_ret : tame (vret tt) (ret tt).
Proof. intros e m W. split; [now left|]. exists e, m, (Val tt). split; [reflexivity|]. split; [exact W|]. split; [auto|]. left. auto. Qed.
Lemma tame_bind f g f' g' : tame f g -> tame f' g' -> tame (vbind f (fun _ => f')) (mbind g (fun _ => g')).
Proof.
  intros F G e m W. destruct (F e m W) as (O1 & e1 & m1 & r1 & E1 & W1 & K1 & C1). unfold vbind, mbind. rewrite E1.
  destruct (g e) as [e2 o] eqn:He. cbn [fst snd] in *. destruct C1 as [(-> & -> & L1 & P1)|(-> & P1 & L1)].
  - destruct O1 as [->| ->]; cbn [ended].
    + destruct (G e2 m1 W1) as (O2 & e3 & m3 & r3 & E3 & W3 & K3 & C3). split; [exact O2|]. exists e3, m3, r3. split; [exact E3|]. split; [exact W3|]. split; [auto|].
      destruct C3 as [(-> & -> & L3 & P3)|(-> & P3 & L3)]; [left|right].
      * split; [reflexivity|]. split; [reflexivity|]. split; [lia|]. intros H. rewrite (P1 H) in *. auto.
      * split; [reflexivity|]. split; [intros H; apply P3; now rewrite (P1 H)|lia].
    + split; [now right|]. exists e2, m1, (Fail (Thrown ERuntime)). split; [reflexivity|]. split; [exact W1|]. split; [exact K1|]. left. auto.
  - split.
    + destruct O1 as [->| ->]; [|now right]. destruct (G e2 m) as (O2 & _); [|exact O2].
      destruct (F e (mkMem [] 0) W) as (_ & e3 & m3 & r3 & _ & W3 & _ & C3). rewrite He in C3.
      destruct C3 as [(_ & -> & _)|(_ & H & _)]; [exact W3|now destruct H].
    + exists e1, m1, (Fail OutOfMemory). split; [reflexivity|]. split; [exact W1|]. split; [exact K1|]. right. auto.
Qed.
Lemma tame_need f g : tame f g -> tame (vbind need (fun _ => f)) g.
Proof.
  intros F e m W. unfold vbind. destruct (need_cases e m) as [(m1 & -> & L1 & P1)|(m1 & -> & L1 & P1)].
  - destruct (F e m1 W) as (O1 & e2 & m2 & r2 & E2 & W2 & K2 & C2). split; [exact O1|]. exists e2, m2, r2. split; [exact E2|]. split; [exact W2|]. split; [exact K2|].
    destruct C2 as [(-> & -> & L3 & P3)|(-> & P3 & L3)]; [left|right].
    + split; [reflexivity|]. split; [reflexivity|]. split; [lia|]. intros H. rewrite (P1 H) in *. auto.
    + split; [reflexivity|]. split; [intros H; apply P3; now rewrite (P1 H)|lia].
  - split; [exact (proj1 (F e m W))|]. exists e, m1, (Fail OutOfMemory). split; [reflexivity|]. split; [exact W|]. split; [auto|]. right. split; [reflexivity|]. split; [exact P1|lia].
Qed.
Lemma partly_keeps e e' g v l : partly e e' g v -> isInGroup e l = true -> isInGroup e' l = true.
Proof. intros P. destruct (pa_map P) as (done & _ & Hm). unfold isInGroup. rewrite Hm. now destruct (find_group (ev_gmap e) l). Qed.
Lemma tame_group g v s : asUtf8 g = Ok s -> tame (v_setGroupError g v) (setGroupError g v).
Proof.
  intros Hs e m W. split.
  { destruct (setGroupError_spec g v W) as (e' & [(-> & _)|(-> & _)] & _); [now left|now right]. }
  destruct (@vgroup_cases g v s e m Hs) as (e' & m' & r & E & C). exists e', m', r. split; [exact E|].
  destruct C as [(-> & -> & L & P)|[(-> & P & -> & Ho & L)|(-> & P & L & C)]].
  - split; [now apply group_wf|]. split; [intros l; now apply group_keeps|]. left. auto.
  - split; [now apply group_wf|]. split; [intros l; now apply group_keeps|]. right. auto.
  - split; [destruct C as [->|C]; [exact W|exact (partly_wf W C)]|]. split.
    + intros l Hl. destruct C as [->|C]; [exact Hl|exact (partly_keeps C Hl)].
    + right. split; [reflexivity|]. split; [exact P|lia].
Qed.
Lemma tame_lines ls : (forall g, In g ls -> exists s, asUtf8 g = Ok s) -> tame (v_lines ls) (addAccents ls).
Proof.
  induction ls as [|g r IH]; intros H; [apply tame_ret|]. cbn [v_lines addAccents]. apply tame_need.
  apply tame_bind; [|apply IH; intros x Hx; apply H; now right]. destruct g as [|l g]; [apply tame_ret|].
  destruct (H (l :: g) (or_introl eq_refl)) as (s & Hs). exact (tame_group _ Hs).
Qed.
Lemma tame_pairs f ps : each_pair f ps -> tame f (pure (set_pairs ps)).
Proof.
  intros F e m W. split; [now left|]. assert (K : forall qs l, isInGroup e l = true -> isInGroup (set_pairs qs e) l = true) by (intros qs l; unfold isInGroup; now rewrite pairs_gmap).
  destruct (F e m) as [(m' & E & L & P)|(k & m' & E & L & P)].
  - exists (set_pairs ps e), m', (Val tt). split; [exact E|]. split; [now apply pairs_wf|]. split; [apply K|]. left. auto.
  - exists (set_pairs (firstn k ps) e), m', (Fail OutOfMemory). split; [exact E|]. split; [now apply pairs_wf|]. split; [apply K|]. right. split; [reflexivity|]. split; [exact P|lia].
Qed.
Lemma tame_ext f g g' : (forall e, g e = g' e) -> tame f g -> tame f g'.
Proof. intros H F e m W. rewrite <- H. now apply F. Qed.
Lemma kb_pure e : pure (set_pairs kb_calls) e = pure addKeyboardErrors e.
Proof. exact (f_equal (fun x => (x, Ok tt)) (eq_sym (kb_pairs e))). Qed.
Lemma pad_pure e : pure (set_pairs pad_calls) e = pure addNumberpadErrors e.
Proof. exact (f_equal (fun x => (x, Ok tt)) (eq_sym (pad_pairs e))). Qed.
Lemma tame_plain c : c <> ClearErrors -> (forall e, snd (ev_do c e) = Ok tt) -> tame (plainly (fun e => fst (ev_do c e))) (ev_do c).
Proof.
  intros Hc Ho e m W. split; [now left|]. exists (fst (ev_do c e)), m, (Val tt). split; [reflexivity|]. split; [now apply do_wf|].
  split; [intros l; now apply do_keeps|]. left. rewrite Ho. auto.
Qed.
Lemma tame_do c : readable c -> c <> ClearErrors -> tame (v_do c) (ev_do c).
Proof.
  intros R Hc. destruct c; cbn [v_do]; try (apply tame_plain; [discriminate|reflexivity]); try (now destruct Hc).
  - exact (tame_pairs (ep_set a b v)).
  - destruct (R g (or_introl eq_refl)) as (s & Hs). exact (tame_group v Hs).
  - apply tame_need. now apply tame_lines.
  - exact (tame_ext kb_pure (tame_pairs ep_keyboard)).
  - exact (tame_ext pad_pure (tame_pairs ep_numberpad)).
  - cbn [ev_do]. unfold addStandardErrors. apply tame_bind; [apply tame_need, tame_lines; intros x Hx; apply R; cbn [groups]; apply in_or_app; now left|].
    apply tame_bind; [apply tame_need, tame_lines; intros x Hx; apply R; cbn [groups]; apply in_or_app; now right|].
    exact (tame_ext kb_pure (tame_pairs ep_keyboard)).
Qed.
(** Without the condition on readable Words: well-formed whatever happens. *)
Definition keeps_wf (f : V unit) : Prop := forall e m e' m' r, ev_wf e -> f e m = (e', m', r) -> ev_wf e'.
Lemma kw_bind f g : keeps_wf f -> keeps_wf g -> keeps_wf (vbind f (fun _ => g)).
Proof.
  intros F G e m e' m' r W. unfold vbind. destruct (f e m) as [[e1 m1] [[]|p| | |]] eqn:H; pose proof (F _ _ _ _ _ W H) as W1;
    intros H2; [exact (G _ _ _ _ _ W1 H2)|injection H2 as <- <- <-; exact W1..].
Qed.
Lemma kw_need : keeps_wf need.
Proof. intros e m e' m' r W H. destruct (need_cases e m) as [(m1 & E & _)|(m1 & E & _)]; rewrite E in H; now injection H as <- <- <-. Qed.
Lemma kw_ret : keeps_wf (vret tt).
Proof. intros e m e' m' r W [= <- <- <-]. exact W. Qed.
Lemma kw_pairs f ps : each_pair f ps -> keeps_wf f.
Proof.
  intros F e m e' m' r W H. destruct (F e m) as [(m1 & E & _)|(k & m1 & E & _)]; rewrite E in H; injection H as <- <- <-; now apply pairs_wf.
Qed.
Lemma kw_group g v : keeps_wf (v_setGroupError g v).
Proof.
  intros e m e' m' r W. unfold v_setGroupError, vbind, vread, plainly.
  destruct (need_cases e m) as [(m1 & -> & L1 & P1)|(m1 & -> & L1 & P1)]; [|now intros [= <- _ _]].
  set (e1 := with_gerr (ev_gerr e ++ [v]) e). pose proof (group_wf g v W) as Wg. unfold setGroupError, mbind, reads in Wg.
  destruct (loop_cases (length (ev_gerr e)) g e1 m1) as (e2 & m2 & o & done & -> & L2 & Hd & G & C).
  assert (P : partly e e2 g v).
  { constructor; [apply (gr_lut G)|apply (gr_single G)|apply (gr_gerr G)|apply (gr_sub G)|]. exists done. split; [exact Hd|]. apply (gr_map G). }
  destruct C as [(-> & E & _)|[(-> & _ & _)|(-> & _)]]; [|intros [= <- _ _]; exact (partly_wf W P)..].
  fold e1 in Wg. rewrite E in Wg. cbn [fst] in Wg. unfold apart. destruct (o_asUtf8 _ m2) as [m3 [s|p| | |]]; now intros [= <- _ _].
Qed.
Lemma kw_lines ls : keeps_wf (v_lines ls).
Proof.
  induction ls as [|g r IH]; [apply kw_ret|]. cbn [v_lines]. apply kw_bind; [apply kw_need|]. apply kw_bind; [|exact IH].
  destruct g; [apply kw_ret|apply kw_group].
Qed.
Lemma kw_do c : keeps_wf (v_do c).
Proof.
  assert (P : forall c, keeps_wf (plainly (fun e => fst (ev_do c e)))) by (intros c' e m e' m' r W [= <- _ _]; now apply do_wf).
  destruct c; cbn [v_do]; try apply P.
  - exact (kw_pairs (ep_set a b v)).
  - apply kw_group.
  - apply kw_bind; [apply kw_need|apply kw_lines].
  - exact (kw_pairs ep_keyboard).
  - exact (kw_pairs ep_numberpad).
  - apply kw_bind; [apply kw_bind; [apply kw_need|apply kw_lines]|]. apply kw_bind; [apply kw_bind; [apply kw_need|apply kw_lines]|]. exact (kw_pairs ep_keyboard).
Qed.
Lemma reached_wf e : reached e -> ev_wf e.
Proof. induction 1 as [|c e m e1 m1 r _ IH H]; [exact new_wf|exact (kw_do IH H)]. Qed.

(** ** Theorems *)
Lemma prices_exist e a b : reached e -> exists v, getSubstituteError e a b = Ok v /\ getSubstituteError e b a = Ok v.
Proof.
  intros R. pose proof (reached_wf R) as W. rewrite !get_val by exact W. eexists. split; [reflexivity|]. f_equal.
  unfold ev_val. rewrite andb_comm. destruct ((a <? 512) && (b <? 512)) eqn:H; [apply (wf_sym W); lia|symmetry; apply slow_sym].
Qed.
Lemma do_ends c e m e' m' r : reached e -> readable c -> v_do c e m = (e', m', r) ->
  (live m <= live m' <= live m + 1)%Z /\ (r <> Fail OutOfMemory -> live m' = live m /\ e' = fst (ev_do c e) /\ r = ended (snd (ev_do c e)) /\ (r = Val tt \/ r = Fail (Thrown ERuntime))).
Proof.
  intros Re R H. pose proof (reached_wf Re) as W. destruct (match c with ClearErrors => true | _ => false end) eqn:Hc.
  - destruct c; try discriminate. cbn in H. injection H as <- <- <-. split; [lia|]. intros _. cbn. auto.
  - assert (Hn : c <> ClearErrors) by (intros ->; discriminate). destruct (tame_do R Hn m W) as (O & e1 & m1 & r1 & E & _ & _ & C). rewrite E in H. injection H as -> -> ->.
    destruct C as [(-> & -> & L & P)|(-> & P & L)]; [|split; [exact L|congruence]]. split; [lia|]. intros _. split; [exact L|]. split; [reflexivity|]. split; [reflexivity|].
    destruct O as [->| ->]; [now left|now right].
Qed.
Lemma enough_run calls : forall e n, ev_wf e -> (forall c, In c calls -> readable c) ->
  v_run calls e (mkMem [] n) = (ev_run calls e, mkMem [] n, results calls e).
Proof.
  induction calls as [|c r IH]; intros e n W R; [reflexivity|]. cbn [v_run results].
  assert (E : v_do c e (mkMem [] n) = (fst (ev_do c e), mkMem [] n, ended (snd (ev_do c e)))).
  { destruct (match c with ClearErrors => true | _ => false end) eqn:Hc; [destruct c; try discriminate; reflexivity|].
    assert (Hn : c <> ClearErrors) by (intros ->; discriminate).
    destruct (tame_do (R c (or_introl eq_refl)) Hn (mkMem [] n) W) as (O & e1 & m1 & r1 & E & _ & _ & [(-> & -> & L & P)|(_ & P & _)]); [|now destruct P].
    rewrite E, (P eq_refl). reflexivity. }
  rewrite E, IH; [reflexivity|now apply do_wf|]. intros x Hx. apply R. now right.
Qed.

(** Calls without groups. *)
Lemma scal_set x y v e : let e' := setError x y v e in
  getInsertionError e' = getInsertionError e /\ getDeletionError e' = getDeletionError e /\ getEndDeletionError e' = getEndDeletionError e /\
  getTransposeError e' = getTransposeError e /\ (forall n, getStartInsertionError e' n = getStartInsertionError e n).
Proof. cbv zeta. unfold setError. cbv zeta. unfold addToLUT. destruct (_ && _); cbn; repeat split. Qed.
Lemma scal_pairs ps : forall e, let e' := set_pairs ps e in
  getInsertionError e' = getInsertionError e /\ getDeletionError e' = getDeletionError e /\ getEndDeletionError e' = getEndDeletionError e /\
  getTransposeError e' = getTransposeError e /\ (forall n, getStartInsertionError e' n = getStartInsertionError e n).
Proof.
  induction ps as [|p r IH]; intros e; [cbv zeta; repeat split|]. cbv zeta. cbn [set_pairs fold_left].
  fold (set_pairs r (setError (fst (fst p)) (snd (fst p)) (snd p) e)).
  destruct (IH (setError (fst (fst p)) (snd (fst p)) (snd p) e)) as (H1 & H2 & H3 & H4 & H5).
  destruct (scal_set (fst (fst p)) (snd (fst p)) (snd p) e) as (G1 & G2 & G3 & G4 & G5).
  repeat split; intros; congruence.
Qed.
(** Pairs of different letters, each with one price. *)
Definition clean (ps : list (N * N * Z)) : Prop :=
  forallb (fun p => negb (fst (fst p) =? snd (fst p))) ps = true /\
  forallb (fun p => forallb (fun q => negb (same_pair (fst (fst p)) (snd (fst p)) (fst (fst q)) (snd (fst q))) || (snd p =? snd q)%Z) ps) ps = true.
Lemma kb_clean : clean kb_calls. Proof. split; vm_compute; reflexivity. Qed.
Lemma pad_clean : clean pad_calls. Proof. split; vm_compute; reflexivity. Qed.
Lemma get_pairs ps e a b : ev_wf e -> clean ps ->
  getSubstituteError (set_pairs ps e) a b = match final ps a b with Some v => Ok v | None => getSubstituteError e a b end.
Proof.
  intros W [H _]. rewrite pairs_get by assumption. exact (@final_fold ps a b None (getSubstituteError e a b)).
Qed.
Lemma final_app ps qs a b : final (ps ++ qs) a b = match final qs a b with Some v => Some v | None => final ps a b end.
Proof.
  unfold final. rewrite fold_left_app. generalize (fold_left (fun o p => if same_pair a b (fst (fst p)) (snd (fst p)) then Some (snd p) else o) ps None).
  assert (G : forall o o' : option Z, fold_left (fun o p => if same_pair a b (fst (fst p)) (snd (fst p)) then Some (snd p) else o) qs o =
     match fold_left (fun o p => if same_pair a b (fst (fst p)) (snd (fst p)) then Some (snd p) else o) qs None with Some v => Some v | None => o end).
  { induction qs as [|q r IH]; intros o o'; [reflexivity|]. cbn [fold_left]. destruct (same_pair a b _ _); [|exact (IH o o')].
    rewrite (IH (Some (snd q)) o'). now destruct (fold_left _ r None). }
  intros o. exact (G o o).
Qed.
Lemma final_in ps a b v : final ps a b = Some v -> exists p, In p ps /\ same_pair a b (fst (fst p)) (snd (fst p)) = true /\ snd p = v.
Proof.
  induction ps as [|p r IH] using rev_ind; [discriminate|]. rewrite final_app. unfold final at 1. cbn [fold_left].
  destruct (same_pair a b _ _) eqn:S.
  - intros [= <-]. exists p. split; [apply in_or_app; right; now left|auto].
  - intros H. destruct (IH H) as (q & Hq & Hs). exists q. split; [apply in_or_app; now left|exact Hs].
Qed.
Lemma clean_sub ps k : clean ps -> clean (firstn k ps).
Proof.
  assert (Hin : forall p, In p (firstn k ps) -> In p ps) by (intros p Hp; rewrite <- (firstn_skipn k ps); apply in_or_app; now left).
  intros [H1 H2]. rewrite forallb_forall in H1, H2. split; rewrite forallb_forall; intros p Hp; [now apply H1, Hin|].
  rewrite forallb_forall. intros q Hq. specialize (H2 p (Hin p Hp)). rewrite forallb_forall in H2. now apply H2, Hin.
Qed.
Lemma same_pair_trans a b p q r s : same_pair a b p q = true -> same_pair a b r s = true -> same_pair p q r s = true.
Proof. unfold same_pair. lia. Qed.
Lemma final_begin ps k a b v : clean ps -> final (firstn k ps) a b = Some v -> final ps a b = Some v.
Proof.
  intros [_ C] H. destruct (final_in H) as (p & Hp & Sp & <-).
  rewrite <- (firstn_skipn k ps), final_app, H. destruct (final (skipn k ps) a b) as [w|] eqn:Hw; [|reflexivity].
  destruct (final_in Hw) as (q & Hq & Sq & <-). rewrite forallb_forall in C. 
  assert (Ip : In p ps) by (rewrite <- (firstn_skipn k ps); apply in_or_app; now left).
  assert (Iq : In q ps) by (rewrite <- (firstn_skipn k ps); apply in_or_app; now right).
  specialize (C p Ip). rewrite forallb_forall in C. specialize (C q Iq). rewrite (same_pair_trans Sp Sq) in C. cbn in C. f_equal. lia.
Qed.
Lemma between_pairs ps k e : ev_wf e -> clean ps -> between e (set_pairs (firstn k ps) e) (set_pairs ps e).
Proof.
  intros W C a b. rewrite !get_pairs by (try apply clean_sub; assumption). destruct (final (firstn k ps) a b) as [v|] eqn:H; [|now left].
  right. now rewrite (final_begin C H).
Qed.
Lemma again_pairs ps k e : ev_wf e -> clean ps -> same_prices (set_pairs ps (set_pairs (firstn k ps) e)) (set_pairs ps e).
Proof.
  intros W C. split; [|split].
  - intros a b. rewrite !get_pairs by (try apply pairs_wf; try apply clean_sub; assumption).
    destruct (final ps a b) eqn:H; [reflexivity|]. destruct (final (firstn k ps) a b) eqn:H2; [|reflexivity]. rewrite (final_begin C H2) in H. discriminate.
  - intros l. unfold isInGroup. now rewrite !pairs_gmap.
  - destruct (scal_pairs ps (set_pairs (firstn k ps) e)) as (H1 & H2 & H3 & H4 & H5). destruct (scal_pairs (firstn k ps) e) as (G1 & G2 & G3 & G4 & G5).
    destruct (scal_pairs ps e) as (K1 & K2 & K3 & K4 & K5). repeat split; intros; congruence.
Qed.
Lemma groupless c : groups c = [] -> (forall e m, exists e', v_do c e m = (e', m, Val tt)) \/ (exists x y v, c = SetError x y v) \/
  (exists ps, clean ps /\ each_pair (v_do c) ps /\ forall e, fst (ev_do c e) = set_pairs ps e).
Proof.
  assert (N : each_pair (v_addAccents []) []).
  { intros e m. unfold v_addAccents, vbind. cbn [v_lines]. destruct (need_cases e m) as [(m' & -> & H)|(m' & -> & H)]; [left; exists m'; auto|right; exists 0%nat, m'; auto]. }
  destruct c; cbn [groups]; intros H; try (left; intros e m; eexists; reflexivity).
  - right. left. eauto.
  - discriminate.
  - subst. right. right. exists []. split; [split; reflexivity|]. split; [exact N|reflexivity].
  - right. right. exists kb_calls. split; [exact kb_clean|]. split; [exact ep_keyboard|]. intros e. apply kb_pairs.
  - right. right. exists pad_calls. split; [exact pad_clean|]. split; [exact ep_numberpad|]. intros e. apply pad_pairs.
  - apply app_eq_nil in H as [-> ->]. right. right. exists kb_calls. split; [exact kb_clean|]. split; [|intros e; apply kb_pairs].
    exact (ep_seq N (ep_seq N ep_keyboard)).
Qed.
Lemma same_refl e : same_prices e e.
Proof. repeat split. Qed.
Lemma pairs_fail c e m e1 m1 p : reached e -> groups c = [] -> v_do c e m = (e1, m1, Fail p) ->
  p = OutOfMemory /\ live m1 = live m /\ between e e1 (fst (ev_do c e)) /\ (forall l, isInGroup e1 l = isInGroup e l) /\
  forall m2 e2 m3, v_do c e1 m2 = (e2, m3, Val tt) -> same_prices e2 (fst (ev_do c e)).
Proof.
  intros R G H. pose proof (reached_wf R) as W. destruct (groupless G) as [F|[(x & y & v & ->)|(ps & C & F & Hd)]].
  - destruct (F e m) as (e' & E). rewrite E in H. discriminate.
  - cbn [v_do ev_do pure fst] in *. destruct (set_cases x y v e m) as [(m' & E & _)|(m' & E & L & _)]; rewrite E in H; [discriminate|]. injection H as <- <- <-.
    split; [reflexivity|]. split; [exact L|]. split; [intros a b; now left|]. split; [reflexivity|]. intros m2 e2 m3 H2.
    destruct (set_cases x y v e m2) as [(m4 & E2 & _)|(m4 & E2 & _)]; rewrite E2 in H2; [|discriminate]. injection H2 as <- _. apply same_refl.
  - rewrite !Hd. destruct (F e m) as [(m' & E & _)|(k & m' & E & L & _)]; rewrite E in H; [discriminate|]. injection H as <- <- <-.
    split; [reflexivity|]. split; [exact L|]. split; [now apply between_pairs|]. split; [intros l; unfold isInGroup; now rewrite pairs_gmap|].
    intros m2 e2 m3 H2. destruct (F (set_pairs (firstn k ps) e) m2) as [(m4 & E2 & _)|(k2 & m4 & E2 & _)]; rewrite E2 in H2; [|discriminate].
    injection H2 as <- _. now apply again_pairs.
Qed.
Lemma set_fail x y v e m e1 m1 p : v_do (SetError x y v) e m = (e1, m1, Fail p) -> e1 = e.
Proof.
  cbn [v_do]. destruct (set_cases x y v e m) as [(m' & E & _)|(m' & E & _)]; rewrite E; [discriminate|]. now intros [= <- _ _].
Qed.

(** Group calls. *)
Lemma group_fail g v e m e1 m1 : reached e -> readable (SetGroupError g v) -> v_do (SetGroupError g v) e m = (e1, m1, Fail OutOfMemory) ->
  (snd (ev_do (SetGroupError g v) e) = Ok tt /\ e1 = fst (ev_do (SetGroupError g v) e)) \/
  (live m1 = live m /\ forall a b, a < 512 -> b < 512 -> getSubstituteError e1 a b = getSubstituteError e a b).
Proof.
  intros R Rd H. cbn [v_do ev_do] in *. destruct (Rd g (or_introl eq_refl)) as (s & Hs).
  destruct (@vgroup_cases g v s e m Hs) as (e' & m' & r & E & C). rewrite E in H. injection H as -> -> ->.
  destruct C as [(E2 & _)|[(_ & _ & -> & Ho & _)|(_ & _ & L & C)]].
  - destruct (setGroupError_spec g v (reached_wf R)) as (e' & [(He & _)|(He & _)] & _); rewrite He in E2; discriminate.
  - left. auto.
  - right. split; [exact L|]. intros a b Ha Hb. destruct C as [->|C]; [reflexivity|]. rewrite !get_fast by assumption. unfold lut_at. now rewrite (pa_lut C).
Qed.
Lemma accents_free ls : forall e, ev_wf e -> snd (addAccents ls e) = Ok tt -> forall g l, In g ls -> In l g -> isInGroup e l = false.
Proof.
  induction ls as [|g r IH]; intros e W H g' l Hg Hl; [destruct Hg|]. cbn [addAccents] in H. unfold mbind in H.
  destruct g as [|x g].
  - cbn in H. destruct Hg as [<-|Hg]; [destruct Hl|]. exact (IH e W H g' l Hg Hl).
  - pose proof (group_wf (x :: g) DEFAULT_GROUP_ERROR W) as W'. pose proof (fun k => @group_keeps e (x :: g) DEFAULT_GROUP_ERROR k W) as Kp.
    destruct (setGroupError_spec (x :: g) DEFAULT_GROUP_ERROR W) as (e' & [(He & Hn & _)|(He & _)] & _); rewrite He in *; [|discriminate]. cbn [fst snd] in *.
    destruct Hg as [<-|Hg]; [apply Hn; now apply memb_in|]. specialize (IH e' W' H g' l Hg Hl).
    destruct (isInGroup e l) eqn:Hi; [|reflexivity]. rewrite (Kp l Hi) in IH. discriminate.
Qed.
Lemma do_free c e g l : ev_wf e -> snd (ev_do c e) = Ok tt -> In g (groups c) -> In l g -> isInGroup e l = false.
Proof.
  intros W H Hg Hl. destruct c; cbn [groups ev_do] in *; try (now destruct Hg).
  - destruct Hg as [<-|[]]. destruct (setGroupError_spec g0 v W) as (e' & [(He & Hn & _)|(He & _)] & _); rewrite He in H; [|discriminate]. apply Hn. now apply memb_in.
  - exact (accents_free W H Hg Hl).
  - unfold addStandardErrors, mbind in H. pose proof (@accents_wf latin e W) as W1. pose proof (@accents_keeps l latin e) as Kp.
    destruct (addAccents latin e) as [e1 [[]|x| | |]] eqn:E1; try discriminate. cbn [fst] in *.
    assert (H1 : snd (addAccents latin e) = Ok tt) by now rewrite E1. apply in_app_or in Hg as [Hg|Hg]; [exact (accents_free W H1 Hg Hl)|].
    destruct (addAccents greek e1) as [e2 [[]|x| | |]] eqn:E2; try discriminate.
    assert (H2 : snd (addAccents greek e1) = Ok tt) by now rewrite E2. pose proof (accents_free W1 H2 Hg Hl) as Hf.
    destruct (isInGroup e l) eqn:Hi; [|reflexivity]. rewrite (proj2 (Kp (conj W eq_refl))) in Hf. discriminate.
Qed.
Lemma stuck c e m g l : reached e -> readable c -> In g (groups c) -> In l g -> isInGroup e l = true -> snd (v_do c e m) <> Val tt.
Proof.
  intros R Rd Hg Hl Hi H. destruct (v_do c e m) as [[e' m'] r] eqn:E. cbn [snd] in H. subst r.
  destruct (do_ends R Rd E) as (_ & D). destruct (D ltac:(discriminate)) as (_ & _ & Hr & _).
  assert (Ho : snd (ev_do c e) = Ok tt) by (destruct (snd (ev_do c e)) as [[]| | | |]; try discriminate; reflexivity).
  rewrite (@do_free c e g l (reached_wf R) Ho Hg Hl) in Hi. discriminate.
Qed.
Lemma stuck_after c e m e1 m1 g l : reached e -> readable c -> v_do c e m = (e1, m1, Fail OutOfMemory) -> In g (groups c) -> In l g -> isInGroup e1 l = true ->
  forall m2, snd (v_do c e1 m2) <> Val tt.
Proof. intros R Rd H Hg Hl Hi m2. exact (@stuck c e1 m2 g l (reached_do R H) Rd Hg Hl Hi). Qed.
Lemma stuck_second a b r v e m p : reached e -> readable (SetGroupError (a :: b :: r) v) -> isInGroup e a = false -> isInGroup e b = false -> a <> b ->
  plan m = true :: true :: false :: p -> exists e1 m1, v_do (SetGroupError (a :: b :: r) v) e m = (e1, m1, Fail OutOfMemory) /\
  forall m2, snd (v_do (SetGroupError (a :: b :: r) v) e1 m2) <> Val tt.
Proof.
  intros R Rd Ha Hb Hne Hp. destruct m as [q n]. cbn [plan] in Hp. subst q.
  assert (Fa : find_group (ev_gmap e) a = None) by (unfold isInGroup in Ha; now destruct (find_group _ a)).
  assert (Fb : find_group (ev_gmap e) b = None) by (unfold isInGroup in Hb; now destruct (find_group _ b)).
  assert (E : v_do (SetGroupError (a :: b :: r) v) e (mkMem (true :: true :: false :: p) n) =
    (with_gmap ((a, length (ev_gerr e)) :: ev_gmap e) (with_gerr (ev_gerr e ++ [v]) e), mkMem p (n + 1 - 1 + 1 - 1), Fail OutOfMemory)).
  { cbn [v_do]. unfold v_setGroupError, vbind, vread, plainly. cbn [v_group_loop]. unfold vbind, vread, plainly, need, apart, tbind, alloc, free. cbn [plan live].
    change (ev_gmap (with_gerr (ev_gerr e ++ [v]) e)) with (ev_gmap e). rewrite Fa. cbn [plan live].
    cbn [with_gmap with_gerr ev_gmap]. rewrite find_group_cons. replace (a =? b) with false by lia. rewrite Fb. reflexivity. }
  eexists _, _. split; [exact E|]. apply (@stuck_after _ _ _ _ _ (a :: b :: r) a R Rd E); [now left|now left|].
  unfold isInGroup. cbn [with_gmap ev_gmap]. now rewrite find_group_cons, N.eqb_refl.
Qed.
(** After clearErrors all is as in a new object. *)
Lemma clear_reached e n more : reached e -> (forall c, In c more -> readable c) ->
  let e' := fst (fst (v_run (ClearErrors :: more) e (mkMem [] n))) in
  (forall a b, getSubstituteError e' a b = getSubstituteError (ev_after more) a b) /\ (forall l, isInGroup e' l = isInGroup (ev_after more) l) /\
  forall c, snd (ev_do c e') = snd (ev_do c (ev_after more)).
Proof.
  intros R Rd. pose proof (reached_wf R) as W. rewrite enough_run; [|exact W|intros c [<-|Hc]; [intros g []|now apply Rd]]. cbv zeta. cbn [fst].
  assert (H : sub_equiv (ev_run (ClearErrors :: more) e) (ev_after more)).
  { cbn [ev_run fold_left ev_do pure fst]. fold (ev_run more (clearErrors e)). apply run_equiv. split; [reflexivity|]. split; [reflexivity|]. split; [reflexivity|]. split; [exact (wf_sub W)|].
    intros a b Ha Hb. rewrite lut_at_clear, lut_at_new by assumption. now rewrite (wf_sub W). }
  split; [intros a b; exact (sub_equiv_get a b H)|]. split; [|intros c; exact (proj2 (do_equiv c H))]. intros l. unfold isInGroup. destruct H as (_ & -> & _). reflexivity.
Qed.
Lemma new_clean m m' r : v_new m = (m', r) -> (r = Val ev_new /\ live m' = (live m + 2)%Z) \/ (r = Fail OutOfMemory /\ live m' = live m).
Proof.
  unfold v_new, cleanup, try, tbind, alloc, free, fail, val. destruct m as [[|[|] [|[|] p]] n]; cbn [plan live]; intros [= <- <-]; cbn [live]; first [left; split; [reflexivity|lia]|right; split; [reflexivity|lia]].
Qed.
