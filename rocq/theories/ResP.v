(** The files and mappings held by programs over tries. *)
From Verif Require Import Base TrieM TrieA TrieP TrieP2 TrieD Spec_Hist ResM.
From Coq Require Import ZifyBool ZifyN ZifyNat.
Local Open Scope N_scope.
Ltac Zify.zify_post_hook ::= Z.to_euclidean_division_equations.

Definition isome {A} (o : option A) : bool := match o with Some _ => true | None => false end.
Definition nlive (m : list (option N)) : nat := length (filter isome m).

Lemma upd_nth {A} (l : list A) : forall n v, (n < length l)%nat -> nth_error (upd n v l) n = Some v.
Proof. induction l as [|x l IH]; intros [|n] v H; cbn in *; try lia; [reflexivity|]. apply IH. lia. Qed.
Lemma upd_other {A} (l : list A) : forall n m v, n <> m -> nth_error (upd n v l) m = nth_error l m.
Proof. induction l as [|x l IH]; intros [|n] [|m] v H; cbn in *; try congruence; try reflexivity. apply IH. lia. Qed.
Lemma upd_length {A} (l : list A) : forall n v, length (upd n v l) = length l.
Proof. induction l as [|x l IH]; intros [|n] v; cbn; congruence. Qed.

Lemma nlive_app a b : nlive (a ++ b) = (nlive a + nlive b)%nat.
Proof. unfold nlive. now rewrite filter_app, app_length. Qed.
Lemma nlive_drop m : forall a v, nth_error m a = Some (Some v) -> nlive m = S (nlive (upd a None m)).
Proof.
  unfold nlive. induction m as [|x m IH]; intros [|a] v H; cbn in H; try discriminate.
  - injection H as ->. reflexivity.
  - cbn [upd filter]. destruct (isome x); cbn [length]; now rewrite (IH _ _ H).
Qed.

(** The mapping a trie stands on. *)
Definition held (s : rst) : Prop :=
  t_mapped (rt_t (snd s)) = true ->
  nth_error (k_maps (fst s)) (rt_map (snd s)) = Some (Some (t_len (rt_t (snd s)))).
Definition big (m : list (option N)) : Prop := forall a l, nth_error m a = Some (Some l) -> 1024 <= l.

(** From [s], where the trie stands on its mapping, to [s']. *)
Record moved (s s' : rst) : Prop := {
  mv_files : k_files (fst s') = k_files (fst s);
  mv_f : rt_f (snd s') = rt_f (snd s);
  mv_held : held s';
  mv_len : (length (k_maps (fst s)) <= length (k_maps (fst s')))%nat;
  mv_other : forall b, b <> rt_map (snd s) -> (b < length (k_maps (fst s)))%nat ->
      nth_error (k_maps (fst s')) b = nth_error (k_maps (fst s)) b;
  mv_addr : rt_map (snd s') = rt_map (snd s) \/ (length (k_maps (fst s)) <= rt_map (snd s'))%nat;
  mv_live : nlive (k_maps (fst s)) =
      if t_mapped (rt_t (snd s')) then nlive (k_maps (fst s')) else S (nlive (k_maps (fst s')));
  mv_in : (rt_map (snd s') < length (k_maps (fst s')))%nat;
  mv_big : big (k_maps (fst s)) -> big (k_maps (fst s'))
}.
Definition stands (s : rst) : Prop := t_mapped (rt_t (snd s)) = true /\ held s.

Lemma stands_in s : stands s -> (rt_map (snd s) < length (k_maps (fst s)))%nat.
Proof. intros [Hm Hh]. apply nth_error_Some. rewrite (Hh Hm). discriminate. Qed.
Lemma moved_refl s s' : stands s -> fst s' = fst s -> rt_f (snd s') = rt_f (snd s) ->
  rt_map (snd s') = rt_map (snd s) -> t_mapped (rt_t (snd s')) = true ->
  t_len (rt_t (snd s')) = t_len (rt_t (snd s)) -> moved s s'.
Proof.
  intros Hs Hk Hf Ha Hm Hl. pose proof (stands_in Hs). destruct Hs as [Hm0 Hh].
  constructor; rewrite ?Hk, ?Ha, ?Hf, ?Hm; auto.
  intros _. rewrite Hk, Ha, Hl. exact (Hh Hm0).
Qed.
Lemma moved_trans s s' s'' : moved s s' -> t_mapped (rt_t (snd s')) = true -> moved s' s'' -> moved s s''.
Proof.
  intros A Hm B. constructor.
  - rewrite (mv_files B). apply (mv_files A).
  - rewrite (mv_f B). apply (mv_f A).
  - apply (mv_held B).
  - pose proof (mv_len A). pose proof (mv_len B). lia.
  - intros b Hb Hl. pose proof (mv_len A). rewrite (mv_other B).
    + now apply (mv_other A).
    + destruct (mv_addr A) as [->|Ha]; [assumption|lia].
    + lia.
  - pose proof (mv_len A). destruct (mv_addr B) as [->|Hb]; [apply (mv_addr A)|right; lia].
  - pose proof (mv_live A) as HA. rewrite Hm in HA. rewrite HA. apply (mv_live B).
  - apply (mv_in B).
  - intros H. now apply (mv_big B), (mv_big A).
Qed.

(** [rm] does what [m] does and moves the trie. *)
Definition sim {A} (s : rst) (m : M trie A) (rm : M rst A) : Prop :=
  exists s', rm s = (s', snd (m (rt_t (snd s)))) /\ rt_t (snd s') = fst (m (rt_t (snd s))) /\ moved s s'.
(** The same without any change of the mapping. *)
Definition still {A} (m : M trie A) (rm : M rst A) : Prop := forall s,
  rm s = ((fst s, mkRT (rt_f (snd s)) (rt_map (snd s)) (fst (m (rt_t (snd s))))), snd (m (rt_t (snd s))))
  /\ t_mapped (fst (m (rt_t (snd s)))) = t_mapped (rt_t (snd s))
  /\ t_len (fst (m (rt_t (snd s)))) = t_len (rt_t (snd s)).

Lemma still_sim A (m : M trie A) rm s : still m rm -> stands s -> sim s m rm.
Proof.
  intros H Hs. destruct (H s) as (He & Hm & Hl). eexists. split; [exact He|]. split; [reflexivity|].
  apply moved_refl; try assumption; try reflexivity. cbn [snd rt_t]. rewrite Hm. apply Hs.
Qed.
Lemma still_bind A B (m : M trie A) rm (f : A -> M trie B) rf :
  still m rm -> (forall a, still (f a) (rf a)) -> still (mbind m f) (mbind rm rf).
Proof.
  intros H1 H2 s. destruct (H1 s) as (He & Hm & Hl). unfold mbind. rewrite He.
  destruct (m (rt_t (snd s))) as [t' [a|e| | |]]; cbn [fst snd] in *; auto.
  destruct (H2 a (fst s, mkRT (rt_f (snd s)) (rt_map (snd s)) t')) as (He2 & Hm2 & Hl2).
  cbn [fst snd rt_t rt_f rt_map] in *. rewrite He2. rewrite Hm2, Hl2. auto.
Qed.
Lemma still_in A (m : M trie A) : (forall t, t_mapped (fst (m t)) = t_mapped t /\ t_len (fst (m t)) = t_len t) ->
  still m (in_trie m).
Proof.
  intros H s. destruct (H (rt_t (snd s))) as (Hm & Hl). split; [|auto].
  unfold in_trie. destruct (m (rt_t (snd s))); reflexivity.
Qed.
Lemma still_reads A (f : trie -> outcome A) : still (reads f) (in_trie (reads f)).
Proof. apply still_in. intros t. split; reflexivity. Qed.
Lemma wr_still off v t : t_mapped (fst (wr off v t)) = t_mapped t /\ t_len (fst (wr off v t)) = t_len t.
Proof. unfold wr. destruct (t_mapped t && _ && _) eqn:H; split; reflexivity. Qed.
Lemma still_wr off v : still (wr off v) (in_trie (wr off v)).
Proof. apply still_in. intros t. apply wr_still. Qed.
Lemma cells_still cells : forall off t, t_mapped (fst (wr_cells off cells t)) = t_mapped t /\ t_len (fst (wr_cells off cells t)) = t_len t.
Proof.
  induction cells as [|c r IH]; intros off t; cbn [wr_cells]; [split; reflexivity|].
  unfold mbind. pose proof (wr_still off c t) as Hw. destruct (wr off c t) as [t1 [a|e| | |]]; cbn [fst] in *; auto.
  destruct Hw as [<- <-]. apply IH.
Qed.
Lemma still_assert E b : still (massert E b) (massert E b).
Proof. intros [k [f a t]]. unfold massert. destruct b; [|destruct (e_ndebug E)]; cbn; auto. Qed.
Lemma still_ret A (a : A) : still (ret a) (ret a).
Proof. intros [k [f b t]]. cbn. auto. Qed.

Lemma sim_bind A B s (m : M trie A) rm (f : A -> M trie B) rf :
  sim s m rm ->
  (forall t' a, m (rt_t (snd s)) = (t', Ok a) -> t_mapped t' = true) ->
  (forall s' a, m (rt_t (snd s)) = (rt_t (snd s'), Ok a) -> stands s' -> sim s' (f a) (rf a)) ->
  sim s (mbind m f) (mbind rm rf).
Proof.
  intros (s1 & He & Ht & Hmv) Hm Hk. unfold sim, mbind. rewrite He.
  destruct (m (rt_t (snd s))) as [t' [a|e| | |]] eqn:Hms; cbn [fst snd] in *; subst t'.
  - specialize (Hm _ _ eq_refl).
    destruct (Hk s1 a) as (s2 & He2 & Ht2 & Hmv2); [reflexivity|split; [assumption|apply (mv_held Hmv)]|].
    exists s2. rewrite He2, Ht2. split; [reflexivity|]. split; [reflexivity|].
    eapply moved_trans; eassumption.
  - now exists s1.
  - now exists s1.
  - now exists s1.
  - now exists s1.
Qed.
(** With a first part that changes nothing the rest starts where it was. *)
Lemma sim_bind_reads A B s (g : trie -> outcome A) (f : A -> M trie B) rf : stands s ->
  (forall a, g (rt_t (snd s)) = Ok a -> sim s (f a) (rf a)) ->
  sim s (mbind (reads g) f) (mbind (in_trie (reads g)) rf).
Proof.
  intros Hs Hk. destruct s as [k [fl ad t]]. unfold sim, mbind, in_trie, reads in *. cbn [fst snd rt_t rt_f rt_map] in *.
  destruct (g t) as [a|e| | |] eqn:Hg; cbn [fst snd].
  1:{ exact (Hk a eq_refl). }
  all: eexists; split; [reflexivity|]; split; [reflexivity|]; apply moved_refl; try reflexivity; try exact Hs; apply Hs.
Qed.
Lemma sim_bind_still A B s (m : M trie A) rm (f : A -> M trie B) rf : stands s -> still m rm ->
  (forall s' a, m (rt_t (snd s)) = (rt_t (snd s'), Ok a) -> stands s' -> sim s' (f a) (rf a)) ->
  sim s (mbind m f) (mbind rm rf).
Proof.
  intros Hs Hst Hk. apply sim_bind; [now apply still_sim| |assumption].
  intros t' a He. destruct (Hst s) as (_ & Hm & _). rewrite He in Hm. cbn [fst] in Hm. rewrite Hm. apply Hs.
Qed.

Lemma big_upd m a : big m -> big (upd a None m).
Proof.
  intros H b l Hn. destruct (Nat.eq_dec a b) as [<-|Hne].
  - destruct (Nat.ltb_spec a (length m)).
    + rewrite upd_nth in Hn by assumption. discriminate.
    + assert (nth_error (upd a None m) a = None) by (apply nth_error_None; rewrite upd_length; lia). congruence.
  - rewrite upd_other in Hn by assumption. now apply (H b).
Qed.
Lemma big_app m l : big m -> 1024 <= l -> big (m ++ [Some l]).
Proof.
  intros H Hl b x Hn. destruct (Nat.ltb_spec b (length m)).
  - rewrite nth_error_app1 in Hn by assumption. now apply (H b).
  - rewrite nth_error_app2 in Hn by assumption.
    destruct (b - length m)%nat as [|[|n]]; cbn in Hn; congruence.
Qed.

Lemma bind_step S A B (m : M S A) (f : A -> M S B) s s' a : m s = (s', Ok a) -> mbind m f s = f a s'.
Proof. intros H. unfold mbind. now rewrite H. Qed.
Lemma expand_sim E s ff : stands s -> hdr (rt_t (snd s)) ff -> sim s (expand E) (r_expand E).
Proof.
  intros Hs H. pose proof (hdr_len H) as [Hlen _].
  unfold expand, r_expand. apply sim_bind_reads; [exact Hs|]. intros old Hold.
  assert (old = t_len (rt_t (snd s))).
  { change H_TOTAL with 0 in Hold. rewrite rd_ok in Hold by ((now rewrite (h_mapped H)) || lia).
    injection Hold as <-. apply (h_total H). }
  subst old. cbv zeta.
  pose proof (stands_in Hs) as Hin. destruct Hs as [Hm Hh]. specialize (Hh Hm).
  destruct s as [[files maps] [f a t]]. cbn [fst snd rt_t rt_f rt_map k_files k_maps] in *.
  set (ns := u32 (t_len t * 2)) in *.
  unfold sim. cbn [fst snd rt_t rt_f rt_map k_files k_maps].
  rewrite (@bind_step _ _ _ (r_munmap (t_len t)) _ _ (mkK files (upd a None maps), mkRT f a t) tt)
    by (unfold r_munmap; cbn [fst snd rt_t rt_f rt_map k_files k_maps]; now rewrite Hh, N.eqb_refl).
  destruct (grow_ok E ns) eqn:Hg.
  - set (rest := mbind (wr H_TOTAL ns) _).
    rewrite (@bind_step _ _ _ (r_mmap ns) _ _
      (mkK files (upd a None maps ++ [Some ns]), mkRT f (length (upd a None maps)) t) tt) by reflexivity.
    rewrite (@bind_step _ _ _ (in_trie (fun t => (mkTrie true ns (t_mem t) (t_root t), Ok tt))) _ _
      (mkK files (upd a None maps ++ [Some ns]), mkRT f (length (upd a None maps)) (mkTrie true ns (t_mem t) (t_root t))) tt) by reflexivity.
    match goal with |- context [mbind (r_wr H_TOTAL ns) ?r] => assert (Hst : still rest (mbind (r_wr H_TOTAL ns) r)) end.
    { unfold rest. apply still_bind; [apply still_wr|]. intros _.
      apply still_bind; [apply still_reads|]. intros x. apply still_bind; [apply still_reads|]. intros y. apply still_assert. }
    set (s1 := (mkK files (upd a None maps ++ [Some ns]), mkRT f (length (upd a None maps)) (mkTrie true ns (t_mem t) (t_root t)))).
    destruct (Hst s1) as (He & Hm1 & Hl1). rewrite He.
    change (rt_t (snd s1)) with (mkTrie true ns (t_mem t) (t_root t)) in *.
    eexists. split; [reflexivity|]. split; [reflexivity|].
    set (t2 := fst (rest _)) in *. cbn [t_mapped t_len] in Hm1, Hl1.
    assert (Hnz : 1024 <= ns).
    { unfold grow_ok in Hg. unfold ns, u32 in *. destruct (h_pow H) as (k & Hk & Hkr).
      assert (Hk31 : k <> 31). { intros ->. rewrite Hk in Hg. vm_compute in Hg. discriminate. }
      assert (Hsz : t_len t * 2 = 2 ^ (k + 1)). { rewrite Hk, N.add_1_r, N.pow_succ_r'. lia. }
      destruct (@pow_len (k + 1)) as [Hp1 Hp2]; [lia|]. lia. }
    unfold s1 in *; constructor; cbn [fst snd rt_t rt_f rt_map k_files k_maps]; rewrite ?app_length, ?upd_length.
    + reflexivity.
    + reflexivity.
    + unfold held, s1. cbn [fst snd rt_t rt_f rt_map k_files k_maps]. intros _. rewrite ?upd_length.
      rewrite nth_error_app2 by (rewrite upd_length; lia). rewrite upd_length, Nat.sub_diag, Hl1. reflexivity.
    + cbn. lia.
    + intros b Hb Hbl. rewrite nth_error_app1 by (rewrite upd_length; lia). apply upd_other. congruence.
    + right. lia.
    + rewrite Hm1, nlive_app. rewrite (nlive_drop Hh). cbn. lia.
    + cbn. lia.
    + intros Hb. apply big_app; [now apply big_upd|assumption].
  - eexists. split; [reflexivity|]. split; [reflexivity|].
    constructor; cbn [fst snd rt_t rt_f rt_map k_files k_maps t_mapped]; rewrite ?upd_length.
    + reflexivity.
    + reflexivity.
    + intros Hx. discriminate Hx.
    + lia.
    + intros b Hb Hbl. apply upd_other. congruence.
    + now left.
    + now rewrite (nlive_drop Hh).
    + lia.
    + apply big_upd.
Qed.

Lemma expand_ok E t ff t' : hdr t ff -> expand E t = (t', Ok tt) -> hdr t' ff.
Proof.
  intros H He. destruct (expand_spec E H) as [(Hg & He' & Hb)|(Hg & x & He' & _)]; rewrite He in He'; [|discriminate].
  injection He' as ->. apply (hdr_grown H Hb).
Qed.
Lemma grow_sim E size : forall fuel s ff, stands s -> hdr (rt_t (snd s)) ff ->
  sim s (grow_loop E fuel size) (r_grow_loop E fuel size).
Proof.
  induction fuel as [|f IH]; intros s ff Hs H; cbn [grow_loop r_grow_loop].
  - exists s. split; [reflexivity|]. split; [reflexivity|]. apply moved_refl; try reflexivity; apply Hs.
  - apply sim_bind_reads; [exact Hs|]. intros free _. apply sim_bind_reads; [exact Hs|]. intros tot _.
    destruct (tot <=? u32 (free + size)); [|apply still_sim; [apply still_ret|exact Hs]].
    apply sim_bind; [eapply expand_sim; eassumption| |].
    + intros t' [] He. apply (h_mapped (expand_ok H He)).
    + intros s' [] He Hs'. eapply IH; [exact Hs'|]. exact (expand_ok H He).
Qed.
Lemma append_sim E s ff cells : stands s -> hdr (rt_t (snd s)) ff -> (0 < length cells <= 3)%nat ->
  sim s (append E cells) (r_append E cells).
Proof.
  intros Hs H Hc. unfold append, r_append. cbv zeta.
  apply sim_bind_reads; [exact Hs|]. intros tot _. apply sim_bind_reads; [exact Hs|]. intros free _.
  apply sim_bind_still; [exact Hs|apply still_assert|]. intros s1 [] He1 Hs1.
  assert (H1 : hdr (rt_t (snd s1)) ff).
  { unfold massert in He1. destruct (free <? tot); [injection He1 as <-; exact H|].
    destruct (e_ndebug E); [injection He1 as <-; exact H|discriminate]. }
  apply sim_bind; [eapply grow_sim; eassumption| |].
  - intros t' [] He. assert (Hz : 4 * N.of_nat (length cells) <= 12) by lia.
    destruct (grow_loop_spec E 38 H1 Hz) as [(Hlt & He')|[(Hge & Hg & Hb & He' & Hlt)|(Hge & Hg & x & He' & _)]].
    + destruct (grow_loop_spec E 39 H1 Hz) as [(_ & He2)|[(Hge & _)|(Hge & _)]]; [|lia|lia].
      rewrite He in He2. injection He2 as ->. apply Hs1.
    + rewrite He in He'. injection He' as ->. reflexivity.
    + rewrite He in He'. discriminate.
  - intros s2 [] He Hs2. apply still_sim; [|exact Hs2].
    apply still_bind; [apply still_reads|]. intros fr.
    apply still_bind; [apply still_in; intros t; apply cells_still|]. intros _.
    apply still_bind; [apply still_reads|]. intros res.
    apply still_bind; [apply still_wr|]. intros _.
    apply still_bind; [apply still_reads|]. intros x. apply still_bind; [apply still_reads|]. intros y.
    apply still_bind; [apply still_assert|]. intros _. apply still_ret.
Qed.
Lemma append_hdr E t ff cells t' r : hdr t ff -> (0 < length cells <= 3)%nat ->
  append E cells t = (t', Ok r) -> hdr t' (ff + 4 * N.of_nat (length cells)).
Proof.
  intros H Hc He. destruct (append_spec E H Hc) as [(x & He' & Hx & _)|(x & He' & _)]; rewrite He in He'; [|discriminate].
  injection He' as <- _. exact Hx.
Qed.
Lemma c2 (a b : N) : (0 < length [a; b] <= 3)%nat.
Proof. cbn. lia. Qed.
Lemma c3 (a b c : N) : (0 < length [a; b; c] <= 3)%nat.
Proof. cbn. lia. Qed.
Lemma node_sim E s ff parent : stands s -> hdr (rt_t (snd s)) ff ->
  sim s (addNewNode E parent) (r_addNewNode E parent).
Proof.
  intros Hs H. unfold addNewNode, r_addNewNode.
  apply sim_bind; [eapply append_sim; [eassumption|eassumption|apply c2 || apply c3]| |].
  - intros t' a He. exact (h_mapped (append_hdr H (c2 _ _) He)).
  - intros s1 a He Hs1. pose proof (append_hdr H (c2 _ _) He) as H1.
    apply sim_bind; [eapply append_sim; [eassumption|eassumption|apply c2 || apply c3]| |].
    + intros t' b He1. exact (h_mapped (append_hdr H1 (c3 _ _ _) He1)).
    + intros s2 b He1 Hs2. apply still_sim; [|exact Hs2].
      apply still_bind; [apply still_reads|]. intros n. apply still_bind; [apply still_wr|]. intros _. apply still_ret.
Qed.
Lemma node_hdr E t ff p t' r : hdr t ff -> addNewNode E p t = (t', Ok r) -> hdr t' (ff + 20).
Proof.
  intros H He. destruct (addNewNode_spec E p H) as [(x & He' & Hx & _)|(x & s & He' & _)]; rewrite He in He'; [|discriminate].
  injection He' as <- _. exact Hx.
Qed.
Lemma sibling_sim E s ff node sib l : stands s -> hdr (rt_t (snd s)) ff ->
  sim s (addNewSibling E node sib l) (r_addNewSibling E node sib l).
Proof.
  intros Hs H. unfold addNewSibling, r_addNewSibling.
  apply sim_bind; [eapply node_sim; eassumption| |].
  - intros t' a He. exact (h_mapped (node_hdr H He)).
  - intros s1 a He Hs1. pose proof (node_hdr H He) as H1.
    apply sim_bind; [eapply append_sim; [eassumption|eassumption|apply c2 || apply c3]| |].
    + intros t' b He1. exact (h_mapped (append_hdr H1 (c3 _ _ _) He1)).
    + intros s2 b He1 Hs2. apply still_sim; [|exact Hs2].
      apply still_bind; [apply still_reads|]. intros n. apply still_bind; [apply still_assert|]. intros _.
      apply still_bind; [apply still_wr|]. intros _. apply still_ret.
Qed.
Lemma loop_sim E w : forall s es ids nw i, stands s -> rep (rt_t (snd s)) es ids nw -> (i <= length es)%nat ->
  Forall letter_ok w -> sim s (insert_loop E (noff i) w) (r_insert_loop E (noff i) w).
Proof.
  induction w as [|l r IH]; intros s es ids nw i Hs R Hi Hw; cbn [insert_loop r_insert_loop].
  - apply still_sim; [apply still_ret|exact Hs].
  - apply Forall_cons_iff in Hw as [Hl Hr].
    apply sim_bind_reads; [exact Hs|]. intros sib Hsib. rewrite (find_sib_node R Hi Hl) in Hsib.
    apply sim_bind_reads; [exact Hs|]. intros lt Hlt.
    destruct (find_kid es i l) as [k|] eqn:Hf; injection Hsib as <-.
    + pose proof (find_kid_some Hf) as [Hk He]. rewrite (rd_letter R Hk) in Hlt. injection Hlt as <-.
      rewrite He. cbn [snd]. rewrite N.eqb_refl.
      apply sim_bind_reads; [exact Hs|]. intros c Hc. rewrite (child_of R Hk) in Hc.
      assert (c = noff (S k)) as -> by congruence. apply (@IH s es ids nw (S k)); assumption || lia.
    + destruct (last_letter R Hi Hl Hf) as (l' & Hl' & Hne). rewrite Hl' in Hlt. injection Hlt as <-.
      destruct (N.eqb_spec l' l); [contradiction|].
      destruct (addNewSibling_spec E R Hi Hl Hf) as [(t1 & He1 & R1)|(t1 & He1 & Hm1 & _)].
      * apply sim_bind; [eapply sibling_sim; [exact Hs|apply (r_hdr R)]| |].
        -- intros t' a He. rewrite He1 in He. injection He as <- _. apply (h_mapped (r_hdr R1)).
        -- intros s' a He Hs'. rewrite He1 in He.
           assert (a = noff (S (length es))) as -> by congruence. assert (t1 = rt_t (snd s')) as -> by congruence.
           eapply IH; [exact Hs'|exact R1| |assumption]. rewrite app_length. cbn. lia.
      * apply sim_bind; [eapply sibling_sim; [exact Hs|apply (r_hdr R)]| |].
        -- intros t' a He. rewrite He1 in He. discriminate.
        -- intros s' a He Hs'. rewrite He1 in He. discriminate.
Qed.
Lemma insert_sim E s es ids nw w id : stands s -> rep (rt_t (snd s)) es ids nw -> Forall letter_ok w ->
  sim s (insertWord E w id) (r_insertWord E w id).
Proof.
  intros Hs R Hw. unfold insertWord, r_insertWord. destruct w as [|l w].
  { exists s. split; [reflexivity|]. split; [reflexivity|]. apply moved_refl; try reflexivity; apply Hs. }
  set (v := l :: w) in *.
  apply sim_bind_still; [exact Hs|apply still_assert|]. intros s1 [] He1 Hs1.
  assert (R1 : rep (rt_t (snd s1)) es ids nw).
  { unfold massert in He1. destruct (negb _); [injection He1 as <-; exact R|].
    destruct (e_ndebug E); [injection He1 as <-; exact R|discriminate]. }
  apply sim_bind_reads; [exact Hs1|]. intros root Hroot. rewrite (r_root R1) in Hroot. injection Hroot as <-.
  pose proof (insert_loop_spec E R1 (Nat.le_0_l _) Hw) as HL. destruct (aext es 0 v) as [es' j].
  change 16 with (noff 0).
  apply sim_bind; [eapply loop_sim; [exact Hs1|exact R1|lia|assumption]| |].
  - intros t' a He. destruct HL as [(t1 & k & He2 & R2)|(t1 & He2 & _)]; rewrite He2 in He; [|discriminate].
    injection He as <- _. apply (h_mapped (r_hdr R2)).
  - intros s2 a He Hs2. apply still_sim; [|exact Hs2].
    apply still_bind; [apply still_reads|]. intros c. apply still_bind.
    { destruct (c =? INVALID_WORDID); [|apply still_ret].
      apply still_bind; [apply still_wr|]. intros _. apply still_bind; [apply still_reads|]. intros n. apply still_wr. }
    intros _. apply still_bind; [apply still_reads|]. intros c2. apply still_bind; [apply still_assert|]. intros _. apply still_ret.
Qed.

(** ** The size of the mapping *)
Definition tidy (t : trie) (ff : N) : Prop := t_len t = 1024 \/ t_len t <= 2 * ff.
Lemma tidy_more t t' ff ff' : tidy t ff -> t_len t' = t_len t -> ff <= ff' -> tidy t' ff'.
Proof. unfold tidy. intros H -> Hf. lia. Qed.
Lemma bind_inv S A B (m : M S A) (k : A -> M S B) s s' b :
  mbind m k s = (s', Ok b) -> exists s1 a, m s = (s1, Ok a) /\ k a s1 = (s', Ok b).
Proof. unfold mbind. destruct (m s) as [s1 [a|e| | |]]; intros H; try discriminate. now exists s1, a. Qed.
Lemma reads_inv A (g : trie -> outcome A) t t' a : reads g t = (t', Ok a) -> t' = t /\ g t = Ok a.
Proof. unfold reads. intros H. injection H as -> ->. auto. Qed.
Lemma wr_len off v t t' : wr off v t = (t', Ok tt) -> t_len t' = t_len t.
Proof. intros H. pose proof (wr_still off v t) as [_ Hl]. now rewrite H in Hl. Qed.
Lemma assert_inv E b (t t' : trie) : massert E b t = (t', Ok tt) -> t' = t.
Proof. unfold massert. destruct b; [|destruct (e_ndebug E)]; intros H; congruence. Qed.
Lemma append_tidy E t ff cells t' r : hdr t ff -> tidy t ff -> (0 < length cells <= 3)%nat ->
  append E cells t = (t', Ok r) -> tidy t' (ff + 4 * N.of_nat (length cells)).
Proof.
  intros H Ht Hc He. destruct (append_spec E H Hc) as [(x & He' & _ & _ & _ & Hl)|(x & He' & _)]; rewrite He in He'; [|discriminate].
  injection He' as <- _. unfold tidy in *. destruct Hl as [(Hl & Hx)|(Hl & Hx & _)]; rewrite Hx; lia.
Qed.
Lemma node_tidy E t ff p t' r : hdr t ff -> tidy t ff -> addNewNode E p t = (t', Ok r) -> tidy t' (ff + 20).
Proof.
  intros H Ht He. unfold addNewNode in He.
  apply bind_inv in He as (t1 & a & He1 & He). pose proof (append_hdr H (c2 _ _) He1) as H1.
  pose proof (append_tidy H Ht (c2 _ _) He1) as Ht1.
  apply bind_inv in He as (t2 & b & He2 & He). pose proof (append_tidy H1 Ht1 (c3 _ _ _) He2) as Ht2.
  apply bind_inv in He as (t3 & n & He3 & He). apply reads_inv in He3 as [-> _].
  apply bind_inv in He as (t4 & [] & He4 & He). apply wr_len in He4. unfold ret in He. injection He as <- _.
  eapply tidy_more; [exact Ht2|exact He4|]. cbn [length]. lia.
Qed.
Lemma sibling_tidy E t ff node sib l t' r : hdr t ff -> tidy t ff -> addNewSibling E node sib l t = (t', Ok r) ->
  tidy t' (ff + 32).
Proof.
  intros H Ht He. unfold addNewSibling in He.
  apply bind_inv in He as (t1 & a & He1 & He). pose proof (node_hdr H He1) as H1. pose proof (node_tidy H Ht He1) as Ht1.
  apply bind_inv in He as (t2 & b & He2 & He). pose proof (append_tidy H1 Ht1 (c3 _ _ _) He2) as Ht2.
  apply bind_inv in He as (t3 & n & He3 & He). apply reads_inv in He3 as [-> _].
  apply bind_inv in He as (t4 & [] & He4 & He). apply assert_inv in He4 as ->.
  apply bind_inv in He as (t5 & [] & He5 & He). apply wr_len in He5. unfold ret in He. injection He as <- _.
  eapply tidy_more; [exact Ht2|exact He5|]. cbn [length]. lia.
Qed.
Definition fits (t : trie) (es : edges) : Prop := tidy t (36 + 32 * N.of_nat (length es)).
Lemma loop_fits E w : forall t es ids nw i t' r, rep t es ids nw -> fits t es -> (i <= length es)%nat ->
  Forall letter_ok w -> insert_loop E (noff i) w t = (t', Ok r) -> fits t' (fst (aext es i w)).
Proof.
  induction w as [|l v IH]; intros t es ids nw i t' r R Ht Hi Hw; cbn [insert_loop aext].
  - unfold ret. intros He. injection He as <- _. exact Ht.
  - apply Forall_cons_iff in Hw as [Hl Hr].
    erewrite mbind_ok by (apply reads_ok; apply (find_sib_node R Hi Hl)).
    destruct (find_kid es i l) as [k|] eqn:Hf.
    + pose proof (find_kid_some Hf) as [Hk He].
      erewrite mbind_ok by (apply reads_ok; apply (rd_letter R Hk)).
      rewrite He. cbn [snd]. rewrite N.eqb_refl.
      erewrite mbind_ok by (apply reads_ok; apply (child_of R Hk)).
      apply (@IH t es ids nw (S k)); assumption || lia.
    + destruct (last_letter R Hi Hl Hf) as (l' & Hl' & Hne).
      erewrite mbind_ok by (apply reads_ok; exact Hl').
      destruct (N.eqb_spec l' l); [contradiction|].
      destruct (addNewSibling_spec E R Hi Hl Hf) as [(t1 & He1 & R1)|(t1 & He1 & Hm1 & Hrf)].
      * erewrite mbind_ok by exact He1. intros He.
        eapply IH; [exact R1| | |assumption|exact He].
        -- pose proof (sibling_tidy (r_hdr R) Ht He1) as Hx. unfold fits. rewrite app_length. cbn [length].
           eapply tidy_more; [exact Hx|reflexivity|lia].
        -- rewrite app_length. cbn. lia.
      * erewrite mbind_throw by exact He1. intros He. discriminate.
Qed.
