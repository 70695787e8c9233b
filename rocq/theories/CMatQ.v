(** C programs whose matchers run out of memory: what a matcher has been through. *)
From Verif Require Import Base TrieM WordStoreM ErrorValuesM LevIndexM WordM MapM DoubleM ContM MatcherM DataFileM CApiM FailM
  Spec_Hist Spec_EV Spec_Word Spec_Cont Spec_Lev Spec_Match Spec_File Spec_CApi Spec_Fail CMatM Spec_CMat WordP SplitP MapP ContP DataP EVR MatchY MatchZ CApiP CApiQ CApiR CMatP.
From Coq Require Import ZifyBool ZifyN ZifyNat.
Local Open Scope N_scope.

Definition ended (e : x_end) : Prop := match e with Gave _ | Short _ => True | _ => False end.
Section Inv.
Variables (E : env) (W : world).
Hypothesis HF : folds_shipped E.
Hypothesis HW : shipped W.
Definition pl (fl : list (nat * place)) (n : nat) : list place := map snd (filter (fun x => Nat.eqb (fst x) n) fl).
Lemma pl_app a b n : pl (a ++ b) n = pl a n ++ pl b n.
Proof. unfold pl. now rewrite filter_app, map_app. Qed.
Lemma pl_same n t : pl (map (pair n) t) n = t.
Proof. unfold pl. induction t as [|x t IH]; [reflexivity|]. cbn. rewrite Nat.eqb_refl. cbn. now rewrite IH. Qed.
Lemma pl_other n k t : n <> k -> pl (map (pair n) t) k = [].
Proof. intros H. unfold pl. induction t as [|x t IH]; [reflexivity|]. cbn. destruct (Nat.eqb_spec n k); [contradiction|exact IH]. Qed.

Definition hist := list (m_call * fres unit).
Definition grown (lg : hist) (m : matcher) (p : list place) : Prop :=
  Forall (c_like E) (map fst lg) /\ exists m0 cs, mt_new E = Ok m0 /\ forall r, f_all E (map fst lg) (mkF m0 (cs ++ r) []) = (mkF m r p, map snd lg).
Definition xinv (lg : nat -> hist) (h : heap) (fl : list (nat * place)) : Prop :=
  (forall n o, live h n o -> match o with OMatcher m => grown (lg n) m (pl fl n) | _ => good E o end) /\
  (forall n, (length h <= n)%nat -> lg n = [] /\ pl fl n = []).
Lemma xinv_ext lg lg' h fl : (forall n, lg' n = lg n) -> xinv lg h fl -> xinv lg' h fl.
Proof. intros He [H1 H2]. split; [intros n o H; specialize (H1 _ _ H); destruct o; try exact H1; now rewrite He|intros n Hn; rewrite He; auto]. Qed.
Lemma good_of lg h fl : xinv lg h fl -> forall n o, live h n o -> match o with OMatcher _ => True | _ => good E o end.
Proof. intros [H _] n o Hl. specialize (H _ _ Hl). now destruct o. Qed.
Lemma xinv_new lg h fl o : xinv lg h fl -> match o with OMatcher m => grown [] m [] | _ => good E o end -> xinv lg (h ++ [Some o]) fl.
Proof.
  intros [H1 H2] Ho. split.
  - intros n x Hl. unfold live in Hl. destruct (Nat.lt_ge_cases n (length h)) as [Hn|Hn]; [rewrite nth_error_app1 in Hl by exact Hn; exact (H1 _ _ Hl)|].
    rewrite nth_error_app2 in Hl by exact Hn. destruct (n - length h)%nat as [|k]; [|destruct k; discriminate Hl]. cbn in Hl. injection Hl as <-. destruct (H2 n Hn) as [A B]. destruct o; try exact Ho. now rewrite A, B.
  - intros n Hn. rewrite app_length in Hn. apply H2. lia.
Qed.
Lemma shape_xinv lg h h' fl : shape E h h' -> xinv lg h fl -> xinv lg h' fl.
Proof.
  intros [->|[(o & -> & Ho)|(n & x & y & Hl & -> & Hx)]] HI; [exact HI| |].
  - apply xinv_new; [exact HI|]. destruct o; try exact Ho. destruct Ho.
  - destruct HI as [H1 H2]. split; [|intros k Hk; rewrite upd_len in Hk; now apply H2]. intros k o Hk. unfold live in Hk. destruct (Nat.eq_dec k n) as [->|Hn].
    + rewrite upd_same in Hk by exact (live_lt Hl). injection Hk as ->. destruct Hx as [Hx _]. destruct o; try exact Hx. destruct Hx.
    + rewrite upd_other in Hk by congruence. exact (H1 _ _ Hk).
Qed.
Lemma take_same st b st1 : x_take st = (b, st1) -> x_heap st1 = x_heap st /\ x_failed st1 = x_failed st.
Proof. unfold x_take. destruct (x_plan st); intros [= <- <-]; now split. Qed.
Lemma pure_xinv lg c st st' e : plain c = true -> c_strings c -> xinv lg (x_heap st) (x_failed st) -> x_pure E W c st = (st', e) -> ended e -> xinv lg (x_heap st') (x_failed st').
Proof.
  intros Hp Hs HI. unfold x_pure. destruct (c_do E W c (x_heap st)) as [h o] eqn:Hc. intros [= <- <-] He. cbn [x_heap x_failed]. destruct o as [v| | | |]; try destruct He.
  exact (shape_xinv (plain_shape Hp Hs (good_of HI) Hc) HI).
Qed.
Lemma short_same c fb st st' e : x_short E W c fb st = (st', e) -> st' = st /\ (e = X_undefined \/ e = Short fb).
Proof. unfold x_short. destruct (snd (c_do E W c (x_heap st))); intros [= <- <-]; auto. Qed.
Lemma one_xinv lg c fb st st' e : plain c = true -> c_strings c -> xinv lg (x_heap st) (x_failed st) -> x_one E W c fb st = (st', e) -> ended e -> xinv lg (x_heap st') (x_failed st').
Proof.
  intros Hp Hs HI. unfold x_one. destruct (x_take st) as [b st1] eqn:Ht. destruct (take_same Ht) as [A B]. rewrite <- A, <- B in HI.
  destruct b; [exact (pure_xinv Hp Hs HI)|]. intros H _. apply short_same in H as [-> _]. exact HI.
Qed.

(** ** Calls on a matcher *)
Lemma fr_do mc : c_like E mc -> framed (f_do E mc).
Proof. destruct mc as [c|c|f x|q p|q f]; cbn [f_do c_like]; intros H; [apply fr_index|apply fr_on|apply fr_weight|apply fr_bind; [apply fr_match|intros; apply fr_val]|destruct H]. Qed.
Lemma step_xinv lg h fl n m p mc s u : xinv lg h fl -> live h n (OMatcher m) -> c_like E mc -> f_do E mc (mkF m p []) = (s, u) ->
  u = snd (f_do E mc (mkF m p (pl fl n))) /\
  xinv (fun k => if Nat.eqb n k then lg n ++ [(mc, u)] else lg k) (upd n (Some (OMatcher (f_m s))) h) (fl ++ map (pair n) (f_failed s)).
Proof.
  intros HI Hl Hm Hr. destruct (fr_do Hm Hr) as (c & t & X & Y & _). pose proof (X []) as X0. rewrite Hr in X0. cbn [app] in X0. injection X0 as X0.
  assert (Ht : f_failed s = t) by (rewrite X0; reflexivity). split; [now rewrite X|]. destruct HI as [H1 H2]. pose proof (H1 _ _ Hl) as [HL (m0 & cs & Hm0 & Hall)].
  split.
  - intros k o Hk. unfold live in Hk. rewrite pl_app. destruct (Nat.eq_dec k n) as [->|Hn].
    + rewrite upd_same in Hk by exact (live_lt Hl). injection Hk as <-. rewrite Nat.eqb_refl, pl_same, Ht. split; [rewrite map_app; apply Forall_app; split; [exact HL|repeat constructor; exact Hm]|].
      exists m0, (cs ++ c). split; [exact Hm0|]. intros r. rewrite map_app, all_app, <- app_assoc, Hall. cbn [map f_all fst]. rewrite Y. now rewrite map_app.
    + rewrite upd_other in Hk by congruence. destruct (Nat.eqb_spec n k); [congruence|]. rewrite pl_other by congruence. rewrite app_nil_r. exact (H1 _ _ Hk).
  - intros k Hk. rewrite upd_len in Hk. pose proof (live_lt Hl). destruct (Nat.eqb_spec n k); [lia|]. rewrite pl_app, pl_other, app_nil_r by lia. now apply H2.
Qed.
Lemma xmat h n m : x_matcher h n = Some m <-> live h n (OMatcher m).
Proof. unfold x_matcher. rewrite live_get. destruct (get_obj h n) as [[]|]; split; intros H; try discriminate; injection H as ->; reflexivity. Qed.
Definition xgrow (lg : nat -> hist) (c : c_call) (st : xstate) : nat -> hist := fun n => lg n ++ x_calls E c st n.
Lemma x_calls_live c st n m : live (x_heap st) n (OMatcher m) -> x_calls E c st n = map (fun k => (k, snd (f_do E k (as_is st n m)))) (cpp_calls E c (x_heap st) n).
Proof. intros Hl. apply live_get in Hl. unfold x_calls. now rewrite Hl. Qed.
Lemma x_calls_nil c st n : cpp_calls E c (x_heap st) n = [] -> x_calls E c st n = [].
Proof. intros H. unfold x_calls. destruct (get_obj (x_heap st) n) as [[]|]; try reflexivity. now rewrite H. Qed.
Lemma on_xinv lg c st n m mc s u : xinv lg (x_heap st) (x_failed st) -> live (x_heap st) n (OMatcher m) -> (forall k, cpp_calls E c (x_heap st) k = if Nat.eqb n k then [mc] else []) -> c_like E mc ->
  f_do E mc (mkF m (x_plan st) []) = (s, u) -> xinv (xgrow lg c st) (upd n (Some (OMatcher (f_m s))) (x_heap st)) (x_failed st ++ map (pair n) (f_failed s)).
Proof.
  intros HI Hl Hc Hm Hr. destruct (step_xinv HI Hl Hm Hr) as [Hu HI']. refine (xinv_ext _ HI'). intros k. unfold xgrow. destruct (Nat.eqb_spec n k) as [<-|Hn].
  - rewrite (x_calls_live c Hl), Hc, Nat.eqb_refl. cbn [map]. unfold as_is, places. fold (pl (x_failed st) n). now rewrite <- Hu.
  - rewrite x_calls_nil; [apply app_nil_r|]. rewrite Hc. now destruct (Nat.eqb_spec n k).
Qed.
Lemma same_xinv lg c st h fl : (forall k, cpp_calls E c (x_heap st) k = []) -> xinv lg h fl -> xinv (xgrow lg c st) h fl.
Proof. intros Hc. apply xinv_ext. intros k. unfold xgrow. now rewrite x_calls_nil, app_nil_r. Qed.
Lemma x_on_inv A lg c st n m mc (f : F A) fb k st' e : xinv lg (x_heap st) (x_failed st) -> live (x_heap st) n (OMatcher m) -> (forall i, cpp_calls E c (x_heap st) i = if Nat.eqb n i then [mc] else []) -> c_like E mc ->
  (forall s o, f (mkF m (x_plan st) []) = (s, o) -> exists u, f_do E mc (mkF m (x_plan st) []) = (s, u)) ->
  (forall a s1 s2 e, k a s1 = (s2, e) -> ended e -> xinv (xgrow lg c st) (x_heap s1) (x_failed s1) -> xinv (xgrow lg c st) (x_heap s2) (x_failed s2)) ->
  x_on n m f fb k st = (st', e) -> ended e -> xinv (xgrow lg c st) (x_heap st') (x_failed st').
Proof.
  intros HI Hl Hc Hm Hf Hk. unfold x_on. destruct (f (mkF m (x_plan st) [])) as [s o] eqn:Hr. destruct (Hf _ _ eq_refl) as [u Hu]. pose proof (on_xinv HI Hl Hc Hm Hu) as HI'.
  destruct o as [a| |x| | |]; intros H He; try (injection H as <- <-; exact HI'). exact (Hk _ _ _ _ H He HI').
Qed.
Lemma call_xinv lg c st st' e : xinv lg (x_heap st) (x_failed st) -> c_strings c -> x_do E W c st = (st', e) -> ended e -> xinv (xgrow lg c st) (x_heap st') (x_failed st').
Proof.
  intros HI Hs H He. destruct c; cbn [x_do] in H.
  all: try (apply same_xinv; [reflexivity|]; first [refine (one_xinv _ _ HI H He)|refine (pure_xinv _ _ HI H He)]; first [reflexivity|exact Hs]; fail).
  - apply same_xinv; [reflexivity|]. destruct (x_take st) as [b st1] eqn:Ht. destruct (take_same Ht) as [A B]. rewrite <- A, <- B in HI. destruct b.
    + destruct (x_take st1) as [b2 st2] eqn:Ht2. destruct (take_same Ht2) as [A2 B2]. rewrite <- A2, <- B2 in HI. destruct b2; [refine (pure_xinv _ Hs HI H He); reflexivity|].
      destruct (x_has (x_heap st2) doc field_name); [injection H as <- <-; destruct He|].
      destruct (x_pure E W (col_document_add_text doc field_name []) st2) as [st3 e3] eqn:H3.
      refine (pure_xinv (c := col_document_add_text doc field_name []) (e := e3) (st := st2) eq_refl _ HI _ _); [apply Forall_nil| |].
      * rewrite H3. destruct e3; now injection H as <- <-.
      * destruct e3; try exact I; injection H as <- <-; exact He.
    + apply short_same in H as [-> _]. exact HI.
  - apply same_xinv; [reflexivity|]. unfold x_one in H. destruct (x_take st) as [b st1] eqn:Ht. destruct (take_same Ht) as [A B]. rewrite <- A, <- B in HI. destruct b; [|apply short_same in H as [-> _]; exact HI].
    unfold x_pure in H. cbn [c_do] in H. unfold caught, mbind, reads, alloc, ret in H. destruct (mt_new E) as [m|x| | |] eqn:Hm; cbn in H; injection H as <- <-; try exact HI. cbn [x_heap x_failed].
    apply xinv_new; [exact HI|]. split; [constructor|]. exists m, []. split; [exact Hm|]. reflexivity.
  - destruct m as [|n| |]; try (unfold x_pure in H; cbn in H; injection H as <- <-; destruct He). destruct c as [|j| |]; try (unfold x_pure in H; cbn [c_do] in H; unfold caught, mbind in H; destruct (the_matcher (PAt n) (x_heap st)) as [h1 o1] eqn:Hx; apply the_matcher_inv in Hx as [_ [->|(? & ? & _ & _ & ->)]]; cbn in H; injection H as <- <-; destruct He; fail).
    destruct (x_matcher (x_heap st) n) as [m|] eqn:Hm; [|injection H as <- <-; destruct He]. apply xmat in Hm. destruct (get_obj (x_heap st) j) as [[| | | |cp]|] eqn:Hj; try (injection H as <- <-; destruct He; fail).
    refine (x_on_inv (mc := MIndex cp) HI Hm _ _ _ _ H He).
    + intros i. cbn [cpp_calls]. now rewrite Hj.
    + apply live_get in Hj. exact (proj1 HI _ _ Hj).
    + intros s o Hr. now exists o.
    + intros a s1 s2 e2 [= <- <-] _ HI'. exact HI'.
  - destruct m as [|n| |]; try (unfold x_pure in H; cbn in H; injection H as <- <-; destruct He). destruct (x_matcher (x_heap st) n) as [m|] eqn:Hm; [|injection H as <- <-; destruct He]. apply xmat in Hm.
    destruct (splitToWords E query_as_utf8) as [q|x| | |] eqn:Hq; try (injection H as <- <-; destruct He; fail).
    2:{ injection H as <- <-. apply same_xinv; [|exact HI]. intros k. cbn [cpp_calls]. rewrite Hq. now destruct (Nat.eqb n k). }
    refine (x_on_inv (mc := MMatch q sp_new) HI Hm _ _ _ _ H He).
    + intros i. cbn [cpp_calls]. now rewrite Hq.
    + split; [reflexivity|]. exact (split_words Hs Hq).
    + intros s o Hr. cbn [f_do]. unfold fbind. rewrite Hr. destruct o; now eexists.
    + intros a s1 s2 e2. unfold x_results. destruct (x_take s1) as [b s3] eqn:Ht. destruct (take_same Ht) as [<- <-]. destruct b; intros [= <- <-] _ HI'; [|exact HI']. cbn [x_heap x_failed]. now apply xinv_new.
  - destruct ev as [| |n|]; try (unfold x_pure in H; cbn in H; injection H as <- <-; destruct He). destruct (x_matcher (x_heap st) n) as [m|] eqn:Hm; [|injection H as <- <-; destruct He]. apply xmat in Hm.
    refine (x_on_inv (mc := MErr (AddStandardErrors latin_groups greek_groups)) HI Hm _ _ _ _ H He).
    + reflexivity.
    + now left.
    + intros s o Hr. exists o. cbn [f_do]. rewrite <- Hr. unfold on_m, on_ev. cbn [f_m f_plan f_failed]. now rewrite (shipped_standard (mt_ev m) HF HW).
    + intros a s1 s2 e2 [= <- <-] _ HI'. exact HI'.
  - destruct ev as [| |n|]; try (unfold x_pure in H; cbn in H; injection H as <- <-; destruct He). destruct (x_matcher (x_heap st) n) as [m|] eqn:Hm; [|injection H as <- <-; destruct He]. apply xmat in Hm.
    refine (x_on_inv (mc := MErr SetSubstringMode) HI Hm _ _ _ _ H He).
    + reflexivity.
    + right. now left.
    + intros s o Hr. now exists o.
    + intros a s1 s2 e2 [= <- <-] _ HI'. exact HI'.
  - destruct weights as [| | |n]; try (unfold x_pure in H; cbn in H; injection H as <- <-; destruct He).
    destruct field as [|j| |]; try (unfold x_pure in H; cbn [c_do] in H; unfold caught, mbind in H; destruct (the_weights (PWeights n) (x_heap st)) as [h1 o1] eqn:Hx; apply the_weights_inv in Hx as [_ [->|(? & ? & _ & _ & ->)]]; cbn in H; injection H as <- <-; destruct He; fail).
    destruct (x_matcher (x_heap st) n) as [m|] eqn:Hm; [|injection H as <- <-; destruct He]. apply xmat in Hm. destruct (get_obj (x_heap st) j) as [[w| | | |]|] eqn:Hj; try (injection H as <- <-; destruct He; fail).
    refine (x_on_inv (mc := MWeight w new_weight) HI Hm _ _ _ _ H He).
    + intros i. cbn [cpp_calls]. now rewrite Hj.
    + apply live_get in Hj. exact (proj1 HI _ _ Hj).
    + intros s o Hr. now exists o.
    + intros a s1 s2 e2 [= <- <-] _ HI'. exact HI'.
Qed.
Lemma run_xinv calls : forall lg st st' es, xinv lg (x_heap st) (x_failed st) -> Forall c_strings calls -> x_run E W calls st = (st', es) -> all_end es ->
  xinv (fun n => lg n ++ x_history E W calls st n) (x_heap st') (x_failed st').
Proof.
  induction calls as [|c calls IH]; intros lg st st' es HI Hs Hr Ha.
  - injection Hr as <- <-. refine (xinv_ext _ HI). intros n. apply app_nil_r.
  - apply Forall_cons_iff in Hs as [Hc Hs]. cbn [x_run] in Hr. destruct (x_do E W c st) as [st1 e] eqn:H1.
    assert (G : exists es1, x_run E W calls st1 = (st', es1) /\ all_end es1 /\ ended e).
    { destruct e; try (injection Hr as <- <-; apply Forall_cons_iff in Ha as [[] _]); destruct (x_run E W calls st1) as [st2 es2]; injection Hr as <- <-; apply Forall_cons_iff in Ha as [_ Ha]; now exists es2. }
    destruct G as (es1 & Hr1 & Ha1 & He). pose proof (IH _ _ _ _ (call_xinv HI Hc H1 He) Hs Hr1 Ha1) as HI2. refine (xinv_ext _ HI2).
    intros n. cbn [x_history]. unfold xgrow. rewrite H1. cbn [fst]. now rewrite app_assoc.
Qed.
Lemma reached_xinv calls p st : Forall c_strings calls -> x_reached E W calls p st -> xinv (x_history E W calls (mkX [] p [])) (x_heap st) (x_failed st).
Proof.
  intros Hs (es & Hr & Ha). refine (run_xinv (lg := fun _ => []) _ Hs Hr Ha). split; [|split; reflexivity]. intros n o H. unfold live in H. destruct n; discriminate H.
Qed.
Lemma x_as_cpp calls p st n m : Forall c_strings calls -> x_reached E W calls p st -> live (x_heap st) n (OMatcher m) -> let hs := x_history E W calls (mkX [] p []) n in unfilled hs ->
  exists plan, f_history E (map fst hs) plan (map snd hs) (as_is st n m).
Proof.
  intros Hs Hr Hl hs Hu. destruct (proj1 (reached_xinv Hs Hr) _ _ Hl) as [_ (m0 & cs & Hm0 & Hall)]. fold hs in Hall. exists (cs ++ x_plan st), m0. split; [exact Hm0|].
  apply all_run; [apply Hall|]. now rewrite combine_map.
Qed.
Lemma x_like calls p st n m : Forall c_strings calls -> x_reached E W calls p st -> live (x_heap st) n (OMatcher m) -> Forall (c_like E) (map fst (x_history E W calls (mkX [] p []) n)).
Proof. intros Hs Hr Hl. apply (proj1 (reached_xinv Hs Hr) _ _ Hl). Qed.
End Inv.
