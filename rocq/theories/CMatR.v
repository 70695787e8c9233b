(** C programs whose matchers run out of memory: searching, safety, and memory enough. *)
From Verif Require Import Base TrieM WordStoreM ErrorValuesM LevIndexM WordM MapM DoubleM ContM MatcherM DataFileM CApiM FailM
  Spec_Hist Spec_EV Spec_Word Spec_Cont Spec_Edit Spec_Lev Spec_Match Spec_File Spec_CApi Spec_Fail CMatM Spec_CMat WordP SplitP MapP ContP DataP EVP EVR ScalarP TypoP MatchR MatchY MatchZ CApiP CApiQ CApiR CApiS
  FailP FailU CMatP CMatQ.
From Coq Require Import ZifyBool ZifyN ZifyNat.
Local Open Scope N_scope.

Lemma like_sound E cs : lower_ok E -> env_ok E -> Forall (c_like E) cs -> in_bounds cs -> sound_setup E cs.
Proof.
  intros HE HEo HL [Hw Ho]. constructor; [exact HEo|eapply Forall_impl; [|exact HL]; exact (like_clean HE)| |right; exact (like_equal HL)|exact Hw| |exact Ho].
  - rewrite prices_calls. apply (default_prices (like_prices HL)).
  - intros d f w Hin. destruct (like_occ HL Hin) as (Hf & Hne & _). exact (field_constructible HE Hf Hne).
Qed.
Lemma like_near E cs qw w err : lower_ok E -> Forall (c_like E) cs -> reached (prices_after cs) sp_new qw w err <-> near (prices_after cs) sp_new qw w err.
Proof.
  intros HE HL. split; [intros H; apply hit_near; now apply hit_reached|]. intros H. apply hit_reached. rewrite prices_calls in *. destruct (default_prices (like_prices HL)) as (A & B & _). apply near_hit; [apply after_wf|exact A|apply B|exact H].
Qed.
Lemma live_app h n o x : live h n o -> live (h ++ [x]) n o.
Proof. intros Hl. unfold live. rewrite nth_error_app1; [exact Hl|exact (live_lt Hl)]. Qed.
Lemma live_last h o : live (h ++ [Some o]) (length h) o.
Proof. unfold live. now rewrite nth_error_app2, Nat.sub_diag by lia. Qed.

Section Search.
Variables (E : env) (W : world).
Hypothesis HEo : env_ok E.
Hypothesis HE : lower_ok E.
Hypothesis HF : folds_shipped E.
Hypothesis HW : shipped W.
Lemma as_is_run A (f : F A) st n m s o : framed f -> f (mkF m (x_plan st) []) = (s, o) ->
  exists s', f (as_is st n m) = (s', o) /\ f_failed s' = places st n ++ f_failed s.
Proof.
  intros Hf Hr. destruct (Hf _ _ _ _ _ Hr) as (c & t & X & _). exists (mkF (f_m s) (f_plan s) (places st n ++ t)). split; [exact (X _)|]. cbn [f_failed]. f_equal.
  pose proof (X []) as X0. rewrite Hr in X0. injection X0 as X0. now rewrite X0.
Qed.
Lemma x_search calls p st n m : Forall c_strings calls -> x_reached E W calls p st -> live (x_heap st) n (OMatcher m) -> let hs := x_history E W calls (mkX [] p []) n in
  unfilled hs -> in_bounds (map fst hs) -> spared (as_is st n m) ->
  exists done, remains (map fst hs) (map snd hs) done /\ forall s q st' k, c_text s -> splitToWords E s = Ok q -> moderate (map fst hs) q ->
    x_do E W (col_matcher_match (PAt n) s) st = (st', Gave (VPtr (PAt k))) ->
    exists r view, live (x_heap st') k (OResults r) /\ shows r view /\ ranked view /\
      forall d, (exists x, In (x, d) view) <-> exists f w qw err, In (d, f, w) (occs done) /\ In qw q /\ near (prices_after (map fst hs)) sp_new qw w err.
Proof.
  intros Hs Hr Hl hs Hu Hb Hsp. destruct (x_as_cpp HF HW Hs Hr Hl Hu) as [plan HH]. fold hs in HH. pose proof (x_like HF HW Hs Hr Hl) as HL. fold hs in HL.
  pose proof (like_sound HE HEo HL Hb) as SS. destruct (oom_found SS HH Hsp) as (done & Hd & Hfound). exists done. split; [exact Hd|].
  intros s q st' k Ht Hq HM H. pose proof (like_query HE HL (split_words Ht Hq) HM) as SQ. cbn [x_do] in H. rewrite (proj2 (xmat _ _ _) Hl), Hq in H. unfold x_on in H.
  destruct (f_match E q sp_new (mkF m (x_plan st) [])) as [s1 o] eqn:Hm. destruct (as_is_run n (@fr_match E q sp_new) Hm) as (s2 & Hm2 & _).
  destruct o as [r| |x| | |]; try discriminate H. destruct (Hfound q sp_new s2 r SQ) as (view & Hv & Hk & Hiff); [repeat constructor|exact Hm2|].
  unfold x_results in H. destruct (x_take _) as [b st1] eqn:Htk. destruct (take_same Htk) as [A B]. destruct b; [|discriminate H]. injection H as <- <-. cbn [x_heap].
  exists r, view. split; [apply live_last|]. split; [exact Hv|]. split; [exact Hk|]. intros d. rewrite Hiff. split.
  - intros [(f & w & qw & err & X & _ & Y & Z) _]. exists f, w, qw, err. split; [exact X|]. split; [exact Y|]. exact (proj1 (@like_near E (map fst hs) qw w err HE HL) Z).
  - intros (f & w & qw & err & X & Y & Z). split; [exists f, w, qw, err; split; [exact X|split; [reflexivity|split; [exact Y|exact (proj2 (@like_near E (map fst hs) qw w err HE HL) Z)]]]|]. exists []. split; [now left|constructor].
Qed.
Lemma expected_ended c po : expected c po -> as_res po <> Aborted /\ as_res po <> Undefined /\ as_res po <> NoFuel.
Proof. intros H. apply expected_safe in H. destruct H as [(a & ->)|(x & ->)]; now repeat split. Qed.
Lemma x_on_safe A n m (f : F A) fb k st st' e : x_on n m f fb k st = (st', e) -> (forall s o, f (mkF m (x_plan st) []) = (s, o) -> o <> Aborted /\ o <> Undefined /\ o <> NoFuel) ->
  (forall a s1, ended (snd (k a s1))) -> ended e.
Proof.
  unfold x_on. destruct (f (mkF m (x_plan st) [])) as [s o]. intros H Hf Hk. destruct (Hf _ _ eq_refl) as (A1 & A2 & A3). destruct o; try congruence; try (injection H as <- <-; exact I). specialize (Hk a (mkX (upd n (Some (OMatcher (f_m s))) (x_heap st)) (f_plan s) (x_failed st ++ map (pair n) (f_failed s)))).
  rewrite H in Hk. exact Hk.
Qed.
Lemma x_on_places A n m (f : F A) fb k st st' e : x_on n m f fb k st = (st', e) -> (forall a s1 s2 e, k a s1 = (s2, e) -> x_failed s2 = x_failed s1) ->
  forall s o, f (mkF m (x_plan st) []) = (s, o) -> places st' n = places st n ++ f_failed s.
Proof.
  unfold x_on. intros H Hk s o Hr. rewrite Hr in H. assert (Hf : x_failed st' = x_failed st ++ map (pair n) (f_failed s)) by (destruct o; try (injection H as <- _; reflexivity); exact (Hk _ _ _ _ H)).
  unfold places. rewrite Hf. fold (pl (x_failed st ++ map (pair n) (f_failed s)) n). now rewrite pl_app, pl_same.
Qed.
Lemma x_safe calls p st n m c st' e : Forall c_strings calls -> x_reached E W calls p st -> live (x_heap st) n (OMatcher m) -> let hs := x_history E W calls (mkX [] p []) n in
  unfilled hs -> on_matcher c n -> handles_ok c (x_heap st) -> c_strings c ->
  match c with col_matcher_match _ s => in_bounds (map fst hs) /\ forall q, splitToWords E s = Ok q -> moderate (map fst hs) q | _ => True end ->
  x_do E W c st = (st', e) -> ~ In AtWordIndex (places st' n) /\ ~ In AtCounts (places st' n) -> exists v, e = Gave v \/ e = Short v.
Proof.
  intros Hs Hr Hl hs Hu Hon Hh Hc Hp H Hsp. assert (G : ended e); [|destruct e; try destruct G; eauto].
  destruct (x_as_cpp HF HW Hs Hr Hl Hu) as [plan HH]. fold hs in HH. pose proof (x_like HF HW Hs Hr Hl) as HL. fold hs in HL.
  assert (Hcl : Forall clean (map fst hs)) by (eapply Forall_impl; [|exact HL]; exact (like_clean HE)). pose proof (reached_xinv HF HW Hs Hr) as HI.
  assert (Hgen : forall mc s u, c_like E mc -> nameable mc -> match mc with MMatch q _ | MOnline q _ => sound_setup E (map fst hs) /\ sound_query (map fst hs) q | _ => True end ->
    f_do E mc (mkF m (x_plan st) []) = (s, u) -> places st' n = places st n ++ f_failed s -> u <> Aborted /\ u <> Undefined /\ u <> NoFuel).
  { intros mc s u Hm Hn Hq Hrun Hpl. destruct (as_is_run n (fr_do Hm) Hrun) as (s2 & Hr2 & Hf2). rewrite <- Hpl in Hf2.
    destruct (oom_safe HEo Hcl (like_clean HE Hm) Hn Hq HH Hr2) as [->|(po & -> & Hx)]; [unfold spared; now rewrite Hf2|now repeat split|exact (expected_ended Hx)]. }
  assert (Hpure : forall c, (exists v, snd (c_do E W c (x_heap st)) = Ok v) -> x_pure E W c st = (st', e) -> ended e).
  { intros c0 [v Hv] H0. unfold x_pure in H0. destruct (c_do E W c0 (x_heap st)) as [h o]. cbn in Hv. subst o. injection H0 as <- <-. exact I. }
  pose proof (proj2 (xmat _ _ _) Hl) as Hm.
  destruct Hon as [(q & ->)|[(s & ->)|[->|[->|[(q & x & ->)|[(q & ->)|[->|[->| ->]]]]]]]]; cbn [x_do handles_ok c_strings] in *.
  - destruct Hh as [_ (j & cp & -> & Hj)]. pose proof (proj1 HI _ _ Hj) as Hcp. apply live_get in Hj. rewrite Hm, Hj in H. refine (x_on_safe H _ _); [|intros; exact I]. intros s o Hrun.
    apply (Hgen (MIndex cp) s o Hcp I I Hrun). refine (x_on_places H _ Hrun). intros a s1 s2 e2 [= <- <-]. reflexivity.
  - rewrite Hm in H. destruct Hp as [Hb HM]. destruct (split_safe s HE) as [(q & Hq)|(x & Hq)]; rewrite Hq in H; [|injection H as <- <-; exact I].
    pose proof (like_sound HE HEo HL Hb) as SS. pose proof (like_query HE HL (split_words Hc Hq) (HM _ Hq)) as SQ.
    refine (x_on_safe H _ _); [|intros a s1; unfold x_results; destruct (x_take s1) as [[] s3]; exact I]. intros s1 o Hrun.
    assert (Hd : exists u, f_do E (MMatch q sp_new) (mkF m (x_plan st) []) = (s1, u) /\ (u <> Aborted /\ u <> Undefined /\ u <> NoFuel -> o <> Aborted /\ o <> Undefined /\ o <> NoFuel)).
    { cbn [f_do]. unfold fbind. rewrite Hrun. destruct o; eexists; (split; [reflexivity|]); intuition discriminate. }
    destruct Hd as (u & Hd & Hback). apply Hback. apply (Hgen (MMatch q sp_new) s1 u (conj eq_refl (split_words Hc Hq)) I (conj SS SQ) Hd). refine (x_on_places H _ Hrun).
    intros a s2 s3 e2. unfold x_results. destruct (x_take s2) as [b s4] eqn:Ht. destruct (take_same Ht) as [_ <-]. destruct b; intros [= <- <-]; reflexivity.
  - rewrite Hm in H. refine (x_on_safe H _ _); [|intros; exact I]. intros s o. unfold on_m, on_ev. cbn [f_m]. rewrite (shipped_standard (mt_ev m) HF HW).
    pose proof (ev_safe (AddStandardErrors latin_groups greek_groups) (mt_ev m)) as Hx. destruct (ev_do (AddStandardErrors latin_groups greek_groups) (mt_ev m)) as [ev oo]. cbn [snd] in Hx. intros [= <- <-]. destruct Hx as [-> | ->]; now repeat split.
  - rewrite Hm in H. refine (x_on_safe H _ _); [|intros; exact I]. intros s o [= <- <-]. now repeat split.
  - destruct Hh as [_ (j & w & -> & Hj)]. pose proof (proj1 HI _ _ Hj) as Hw. apply live_get in Hj. rewrite Hm, Hj in H. refine (x_on_safe H _ _); [|intros; exact I]. intros s o Hrun.
    apply (Hgen (MWeight w x) s o Hw I I Hrun). refine (x_on_places H _ Hrun). intros a s1 s2 e2 [= <- <-]. reflexivity.
  - destruct Hh as [_ (j & w & -> & Hj)]. apply (Hpure _ (ex_intro _ _ (f_equal snd (get_weight E W Hl Hj))) H).
  - apply (Hpure _ (ex_intro _ _ (f_equal snd (proj1 (members E W Hl)))) H).
  - apply (Hpure _ (ex_intro _ _ (f_equal snd (proj2 (members E W Hl)))) H).
  - refine (Hpure _ _ H). rewrite (deletes_done (c := col_matcher_delete (PAt n)) E W Hl eq_refl). now eexists.
Qed.
End Search.

(** ** What a function gives when memory runs out *)
Lemma pure_short E W c st st' v : x_pure E W c st <> (st', Short v).
Proof. unfold x_pure. destruct (c_do E W c (x_heap st)) as [h []]; discriminate. Qed.
Lemma one_short E W c fb st st' v : x_one E W c fb st = (st', Short v) -> v = fb.
Proof. unfold x_one. destruct (x_take st) as [[] st1]; [intros H; now apply pure_short in H|]. intros H. apply short_same in H as [_ [H|[= ->]]]; [discriminate H|reflexivity]. Qed.
Lemma on_short A n m (f : F A) fb k st st' v : (forall a s s' v, k a s = (s', Short v) -> v = fb) -> x_on n m f fb k st = (st', Short v) -> v = fb.
Proof. intros Hk. unfold x_on. destruct (f (mkF m (x_plan st) [])) as [s o]. destruct o as [a| |x| | |]; try discriminate; [apply Hk|intros [= _ <-]; reflexivity]. Qed.
Lemma x_fallback E W c st st' v : x_do E W c st = (st', Short v) -> v = fallback c.
Proof.
  intros H. destruct c; cbn [x_do fallback] in *.
  all: try (now apply pure_short in H); try (exact (one_short H)).
  - destruct (x_take st) as [[] st1]; [|apply short_same in H as [_ [H|[= ->]]]; [discriminate H|reflexivity]]. destruct (x_take st1) as [[] st2]; [now apply pure_short in H|].
    destruct (x_has (x_heap st2) doc field_name); [discriminate H|]. unfold x_pure in H. cbn [c_do] in H. unfold caught, mbind in H.
    destruct (the_doc doc (x_heap st2)) as [h1 o1] eqn:H1. apply the_doc_inv in H1 as [-> [->|(n & d & -> & Hn & ->)]]; [discriminate H|].
    destruct (the_word field_name (x_heap st2)) as [h2 o2] eqn:H2. apply the_word_inv in H2 as [-> [->|(j & w & -> & Hj & ->)]]; [discriminate H|].
    unfold method in H. destruct (doc_addText_utf8 E w [] _) as [d2 o2]. destruct o2; try discriminate H; injection H as _ <-; reflexivity.
  - destruct m as [|n| |]; try (now apply pure_short in H). destruct c as [|j| |]; try (now apply pure_short in H). destruct (x_matcher (x_heap st) n), (get_obj (x_heap st) j) as [[]|]; try discriminate H. refine (on_short _ H). intros ? ? ? ? Hk. discriminate Hk.
  - destruct m as [|n| |]; try (now apply pure_short in H). destruct (x_matcher (x_heap st) n); [|discriminate H]. destruct (splitToWords E query_as_utf8); try discriminate H. refine (on_short _ H).
    intros ? s9 ? ? Hk. unfold x_results in Hk. destruct (x_take s9) as [[] s2]; [discriminate Hk|]. now injection Hk.
  - destruct ev as [| |n|]; try (now apply pure_short in H). destruct (x_matcher (x_heap st) n); [|discriminate H]. refine (on_short _ H). intros ? ? ? ? Hk. discriminate Hk.
  - destruct ev as [| |n|]; try (now apply pure_short in H). destruct (x_matcher (x_heap st) n); [|discriminate H]. refine (on_short _ H). intros ? ? ? ? Hk. discriminate Hk.
  - destruct weights as [| | |n]; try (now apply pure_short in H). destruct field as [|j| |]; try (now apply pure_short in H). destruct (x_matcher (x_heap st) n), (get_obj (x_heap st) j) as [[]|]; try discriminate H. refine (on_short _ H). intros ? ? ? ? Hk. discriminate Hk.
Qed.
Lemma x_fallback_run E W calls : forall st st' es k c v, x_run E W calls st = (st', es) -> nth_error calls k = Some c -> nth_error es k = Some (Short v) -> v = fallback c.
Proof.
  induction calls as [|c0 calls IH]; intros st st' es k c v Hr Hc He; [now destruct k|]. cbn [x_run] in Hr. destruct (x_do E W c0 st) as [st1 e] eqn:H1.
  destruct k as [|k]; cbn [nth_error] in Hc.
  - injection Hc as ->. destruct e; try (destruct (x_run E W calls st1) as [st2 es2]); injection Hr as _ <-; cbn in He; try discriminate He; injection He as <-. exact (x_fallback H1).
  - destruct e; try (destruct (x_run E W calls st1) as [st2 es2] eqn:H2; injection Hr as _ <-; cbn in He; exact (IH _ _ _ _ _ _ H2 Hc He)); injection Hr as _ <-; destruct k; discriminate He.
Qed.

(** ** With memory enough *)
Lemma enough_on A (f : F A) (p : M matcher A) m : framed f -> er f p -> easy f -> f (mkF m [] []) = (mkF (fst (p m)) [] [], as_res (snd (p m))).
Proof.
  intros Hf He Hz. destruct (He (mkF m [] [])) as (s' & o & Hr & Ho). destruct (Hf _ _ _ _ _ Hr) as (_ & _ & _ & _ & Hp). destruct (Hz _ _ _ (Forall_nil _ : roomy (mkF m [] [])) Hr) as (_ & Hx & Hn).
  destruct Ho as [->|(po & H1 & ->)]; [congruence|]. cbn [f_m f_failed] in *. rewrite Hr, H1. cbn [fst snd]. specialize (Hp eq_refl). destruct s' as [a b c]. cbn in *. now subst.
Qed.
Lemma x_enough_do E W c h fl h' v : c_do E W c h = (h', Ok v) -> x_do E W c (mkX h [] fl) = (mkX h' [] fl, Gave v).
Proof.
  assert (Hpure : forall c, c_do E W c h = (h', Ok v) -> x_pure E W c (mkX h [] fl) = (mkX h' [] fl, Gave v)) by (intros c0 Hc; unfold x_pure; cbn [x_heap x_plan x_failed]; now rewrite Hc).
  assert (Hon : forall (A : Type) n m (f : F A) (p : M matcher A) fb (g : A -> c_val), framed f -> er f p -> easy f -> caught fb (mbind (method n m OMatcher p) (fun a => ret (g a))) h = (h', Ok v) ->
    x_on n m f fb (fun a st => (st, Gave (g a))) (mkX h [] fl) = (mkX h' [] fl, Gave v)).
  { intros A n m f p fb g H1 H2 H3. unfold x_on, caught, mbind, method, ret. cbn [x_plan x_heap x_failed]. rewrite (enough_on m H1 H2 H3). cbn [f_m f_plan f_failed map]. rewrite app_nil_r.
    destruct (p m) as [m' [a|x| | |]]; cbn [fst snd as_res]; intros H; try discriminate H; injection H as <- <-; reflexivity. }
  intros H. destruct c; cbn [x_do]; try (exact (Hpure _ H)); cbn [x_heap].
  - destruct m as [|n| |]; try exact (Hpure _ H). destruct c as [|j| |]; try exact (Hpure _ H). cbn [c_do] in H. unfold caught, mbind at 1 2 in H.
    destruct (the_matcher (PAt n) h) as [h1 o1] eqn:H1. apply the_matcher_inv in H1 as [-> [->|(n0 & m & [= <-] & Hn & ->)]]; [discriminate H|].
    destruct (the_corpus (PAt j) h) as [h2 o2] eqn:H2. apply the_corpus_inv in H2 as [-> [->|(j0 & cp & [= <-] & Hj & ->)]]; [discriminate H|].
    rewrite (proj2 (xmat _ _ _) Hn). apply live_get in Hj. rewrite Hj. apply (Hon unit n m (f_index E cp) (mt_index E cp) VVoid (fun _ => VVoid)); [apply fr_index|apply er_index|apply easy_index|exact H].
  - destruct m as [|n| |]; try exact (Hpure _ H). cbn [c_do] in H. unfold caught, mbind at 1 in H.
    destruct (the_matcher (PAt n) h) as [h1 o1] eqn:H1. apply the_matcher_inv in H1 as [-> [->|(n0 & m & [= <-] & Hn & ->)]]; [discriminate H|].
    rewrite (proj2 (xmat _ _ _) Hn). cbn [fst snd] in H. unfold mbind, method, mt_match_utf8, reads in H. unfold mbind in H. cbn [fst snd] in H. destruct (splitToWords E query_as_utf8) as [q|x| | |]; try discriminate H.
    2:{ injection H as <- <-. do 2 f_equal. symmetry. clear - Hn. revert n Hn. induction h as [|o h IH]; intros n Hn; [now destruct n|]. destruct n as [|n]; [injection Hn as ->; reflexivity|]. cbn. f_equal. now apply IH. }
    unfold x_on. cbn [x_plan x_heap x_failed]. rewrite (enough_on m (@fr_match E q sp_new) (@er_match E q sp_new) (@easy_match E q sp_new)). cbn [f_m f_plan f_failed map]. rewrite app_nil_r.
    destruct (mt_match E q sp_new m) as [m' [r|x| | |]]; cbn [fst snd as_res] in *; try discriminate H; injection H as <- <-; [|reflexivity]. reflexivity.
  - destruct ev as [| |n|]; try exact (Hpure _ H). cbn [c_do] in H. unfold caught, mbind at 1 in H.
    destruct (the_errors (PErr n) h) as [h1 o1] eqn:H1. apply the_errors_inv in H1 as [-> [->|(n0 & m & [= <-] & Hn & ->)]]; [discriminate H|]. rewrite (proj2 (xmat _ _ _) Hn).
    apply (Hon unit n m (on_m (on_ev (addStandardErrors_file E W))) (on_ev (addStandardErrors_file E W)) VVoid (fun _ => VVoid)); [apply fr_on|apply er_on|apply easy_on|exact H].
  - destruct ev as [| |n|]; try exact (Hpure _ H). cbn [c_do] in H. unfold caught, mbind at 1 in H.
    destruct (the_errors (PErr n) h) as [h1 o1] eqn:H1. apply the_errors_inv in H1 as [-> [->|(n0 & m & [= <-] & Hn & ->)]]; [discriminate H|]. rewrite (proj2 (xmat _ _ _) Hn).
    apply (Hon unit n m (on_m (on_ev (fun e => (setSubstringMode e, Ok tt)))) (on_ev (fun e => (setSubstringMode e, Ok tt))) VVoid (fun _ => VVoid)); [apply fr_on|apply er_on|apply easy_on|exact H].
  - destruct weights as [| | |n]; try exact (Hpure _ H). destruct field as [|j| |]; try exact (Hpure _ H). cbn [c_do] in H. unfold caught, mbind at 1 2 in H.
    destruct (the_weights (PWeights n) h) as [h1 o1] eqn:H1. apply the_weights_inv in H1 as [-> [->|(n0 & m & [= <-] & Hn & ->)]]; [discriminate H|].
    destruct (the_word (PAt j) h) as [h2 o2] eqn:H2. apply the_word_inv in H2 as [-> [->|(j0 & w & [= <-] & Hj & ->)]]; [discriminate H|].
    rewrite (proj2 (xmat _ _ _) Hn). apply live_get in Hj. rewrite Hj. apply (Hon unit n m (f_setWeight w new_weight) (set_w (iw_setWeight w new_weight)) VVoid (fun _ => VVoid)); [apply fr_weight| |unfold f_setWeight; ez|exact H].
    unfold f_setWeight. apply er_need_if, er_on.
Qed.
Lemma x_enough_from E W calls : forall h fl h' vs, c_run E W calls h = (h', Ok vs) -> x_run E W calls (mkX h [] fl) = (mkX h' [] fl, map Gave vs).
Proof.
  induction calls as [|c calls IH]; intros h fl h' vs H; cbn [c_run x_run] in *; [injection H as <- <-; reflexivity|].
  apply bind_ok in H as (h1 & v & H1 & H). apply bind_ok in H as (h2 & vs2 & H2 & H). injection H as <- <-. rewrite (x_enough_do fl H1), (IH _ fl _ _ H2). reflexivity.
Qed.
Lemma x_enough E W calls h vs : c_run E W calls [] = (h, Ok vs) -> x_run E W calls (mkX [] [] []) = (mkX h [] [], map Gave vs).
Proof. apply x_enough_from. Qed.
