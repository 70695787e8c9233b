(** C102: the accounts of a program over tries. *)
From Verif Require Import Base TrieM TrieA TrieP TrieP2 TrieD Spec_Hist ResM ResP Spec_Res.
From Coq Require Import ZifyBool ZifyN ZifyNat.
Local Open Scope N_scope.
Ltac Zify.zify_post_hook ::= Z.to_euclidean_division_equations.

Definition writable (w : word) : Prop := Forall nonnul w /\ is_low (hd 0 w) = false.
Definition good (t : trie) : Prop := exists es ids nw, rep t es ids nw /\ fits t es.

Lemma insert_good E t w id t' o : good t -> writable w -> insertWord E w id t = (t', o) ->
  match o with
  | Ok _ => good t'
  | Throw _ => good t' \/ t_mapped t' = false
  | _ => True
  end.
Proof.
  intros (es & ids & nw & R & Hf) [Hw Hlow] He.
  destruct w as [|l v].
  { cbn in He. injection He as <- <-. left. now exists es, ids, nw. }
  assert (Hne : l :: v <> []) by discriminate.
  pose proof (insertWord_spec E id R Hne Hw Hlow) as HS. cbv zeta in HS.
  destruct (aext es 0 (l :: v)) as [es' j] eqn:Hax.
  destruct HS as [(t1 & He1 & R1)|(t1 & He1 & Hm & _)]; rewrite He in He1.
  2:{ injection He1 as <- ->. now right. }
  destruct o as [r|e| | |]; [| |exact I|exact I|exact I].
  2:{ destruct (_ || _); discriminate. }
  injection He1 as <- _. eexists _, _, _. split; [exact R1|].
  unfold insertWord in He. apply bind_inv in He as (t2 & [] & He2 & He). apply assert_inv in He2 as ->.
  apply bind_inv in He as (t2 & root & He2 & He). apply reads_inv in He2 as [-> Hr].
  rewrite (r_root R) in Hr. injection Hr as <-. change 16 with (noff 0) in He.
  apply bind_inv in He as (t2 & n & He2 & He). apply (loop_fits R Hf (Nat.le_0_l _) Hw) in He2. rewrite Hax in He2. cbn [fst] in He2.
  apply bind_inv in He as (t3 & c & He3 & He). apply reads_inv in He3 as [-> _].
  apply bind_inv in He as (t3 & [] & He3 & He).
  assert (t_len t3 = t_len t2) as Hl3.
  { destruct (c =? INVALID_WORDID); [|unfold ret in He3; now injection He3 as <-].
    apply bind_inv in He3 as (t4 & [] & He4 & He3). apply wr_len in He4.
    apply bind_inv in He3 as (t5 & n' & He5 & He3). apply reads_inv in He5 as [-> _]. apply wr_len in He3. congruence. }
  apply bind_inv in He as (t4 & c' & He4 & He). apply reads_inv in He4 as [-> _].
  apply bind_inv in He as (t4 & [] & He4 & He). apply assert_inv in He4 as ->.
  unfold ret in He. injection He as <- _. unfold fits in *. eapply tidy_more; [exact He2|exact Hl3|lia].
Qed.

(** An insertion into a trie whose mapping was lost. *)
Lemma rd_gone t o : t_mapped t = false -> rd t o = UB.
Proof. intros H. unfold rd. now rewrite H. Qed.
Lemma find_sib_gone fuel t l o : t_mapped t = false -> find_sib fuel t l o = UB \/ find_sib fuel t l o = Fuel.
Proof. intros H. destruct fuel as [|f]; cbn [find_sib]; [now right|]. rewrite rd_gone by assumption. now left. Qed.
Lemma tail_gone E l v (g : N -> M rst N) k rt k' rt' o : t_mapped (rt_t rt) = false ->
  mbind (in_trie (reads (fun t => Ok (t_root t)))) (fun root => mbind (r_insert_loop E root (l :: v)) g) (k, rt) = (k', rt', o) ->
  o = UB \/ o = Fuel.
Proof.
  destruct rt as [f a t]. cbn [rt_t]. intros Hm He.
  unfold mbind at 1, in_trie at 1, reads at 1 in He. cbn [fst snd rt_t rt_f rt_map] in He.
  cbn [r_insert_loop] in He. unfold mbind at 1 in He. unfold mbind at 1 in He. unfold in_trie at 1, reads at 1 in He.
  cbn [fst snd rt_t rt_f rt_map] in He.
  destruct (find_sib_gone (t_fuel t) l (u32 (t_root t + SZ_NODE)) Hm) as [Hg|Hg]; rewrite Hg in He; injection He as _ _ <-; auto.
Qed.
Lemma insert_gone E w id k rt k' rt' o : t_mapped (rt_t rt) = false -> r_insertWord E w id (k, rt) = ((k', rt'), o) ->
  match o with Ok _ => False | Throw _ => k' = k /\ rt' = rt | _ => True end.
Proof.
  intros Hm He. unfold r_insertWord in He. destruct w as [|l v].
  { cbn in He. injection He as <- <- <-. auto. }
  unfold mbind at 1 in He. unfold massert at 1 in He. destruct (negb _).
  - apply (tail_gone Hm) in He as [-> | ->]; exact I.
  - destruct (e_ndebug E).
    + apply (tail_gone Hm) in He as [-> | ->]; exact I.
    + injection He as <- <- <-. exact I.
Qed.

(** ** The invariant *)
Definition ok1 (k : kernel) (rt : rtrie) : Prop :=
  nth_error (k_files k) (rt_f rt) = Some true /\ (rt_map rt < length (k_maps k))%nat /\
  (t_mapped (rt_t rt) = true -> held (k, rt) /\ good (rt_t rt)).
Record inv (s : sys) : Prop := {
  i_ok : forall i rt, trie_at s i rt -> ok1 (s_k s) rt;
  i_apart : forall i j a b, trie_at s i a -> trie_at s j b -> i <> j -> rt_f a <> rt_f b /\ rt_map a <> rt_map b;
  i_big : big (k_maps (s_k s))
}.
Definition ctl (o : outcome unit) : Prop := match o with Ok _ | Throw _ => True | _ => False end.
Definition isnew (c : t_call) : nat := match c with TNew => 1 | _ => 0 end.
Definition isdel (c : t_call) : nat := match c with TDelete _ => 1 | _ => 0 end.
Definition alive (s : sys) : nat := length (filter isome (s_tries s)).
(** Nobody stands on mapping [a]. *)
Definition orphan (s : sys) (a : nat) : Prop :=
  (a < length (k_maps (s_k s)))%nat /\ forall i rt, trie_at s i rt -> rt_map rt <> a.

Record stepped (c : t_call) (s s' : sys) (o : outcome unit) : Prop := {
  st_inv : inv s';
  st_files : (open_files s' + isdel c = open_files s + isnew c)%nat;
  st_maps : (live_maps s' <= live_maps s + isnew c)%nat;
  st_exact : o = Ok tt -> (live_maps s' = live_maps s + isnew c)%nat /\ (alive s' + isdel c = alive s + isnew c)%nat;
  st_orphan : forall a, orphan s a -> orphan s' a /\ nth_error (k_maps (s_k s')) a = nth_error (k_maps (s_k s)) a
}.

Lemma open_snoc l : length (filter (fun b : bool => b) (l ++ [true])) = S (length (filter (fun b => b) l)).
Proof. rewrite filter_app, app_length. cbn. lia. Qed.
Lemma open_close l : forall f, nth_error l f = Some true ->
  length (filter (fun b : bool => b) l) = S (length (filter (fun b => b) (upd f false l))).
Proof.
  induction l as [|x l IH]; intros [|f] H; cbn in H; try discriminate.
  - injection H as ->. reflexivity.
  - cbn [upd filter]. destruct x; cbn [length]; now rewrite (IH _ H).
Qed.
Lemma alive_drop (l : list (option rtrie)) : forall i rt, nth_error l i = Some (Some rt) ->
  length (filter isome l) = S (length (filter isome (upd i None l))).
Proof.
  induction l as [|x l IH]; intros [|i] rt H; cbn in H; try discriminate.
  - injection H as ->. reflexivity.
  - cbn [upd filter]. destruct (isome x); cbn [length]; now rewrite (IH _ _ H).
Qed.
Lemma alive_keep (l : list (option rtrie)) : forall i rt rt', nth_error l i = Some (Some rt) ->
  length (filter isome (upd i (Some rt') l)) = length (filter isome l).
Proof.
  induction l as [|x l IH]; intros [|i] rt rt' H; cbn in H; try discriminate.
  - injection H as ->. reflexivity.
  - cbn [upd filter]. destruct (isome x); cbn [length]; now rewrite (IH _ _ rt' H).
Qed.
Lemma at_upd s k i v j x : (i < length (s_tries s))%nat -> trie_at (mkSys k (upd i v (s_tries s))) j x ->
  (j = i /\ v = Some x) \/ (j <> i /\ trie_at s j x).
Proof.
  unfold trie_at. cbn [s_tries]. intros Hi H. destruct (Nat.eq_dec i j) as [<-|Hne].
  - rewrite upd_nth in H by assumption. left. split; [reflexivity|congruence].
  - rewrite upd_other in H by assumption. right. split; [congruence|assumption].
Qed.
Lemma at_snoc s k v j x : trie_at (mkSys k (s_tries s ++ [Some v])) j x -> (j = length (s_tries s) /\ v = x) \/ trie_at s j x.
Proof.
  unfold trie_at. cbn [s_tries]. intros H. destruct (Nat.ltb_spec j (length (s_tries s))).
  - rewrite nth_error_app1 in H by assumption. now right.
  - rewrite nth_error_app2 in H by assumption.
    destruct (j - length (s_tries s))%nat as [|[|n]] eqn:Hd; cbn in H; try discriminate. left. split; [lia|congruence].
Qed.
Lemma at_lt s i rt : trie_at s i rt -> (i < length (s_tries s))%nat.
Proof. unfold trie_at. intros H. apply nth_error_Some. congruence. Qed.

Lemma delete_step i s s' o : inv s -> t_delete i s = (s', o) -> ctl o -> stepped (TDelete i) s s' o.
Proof.
  intros [Iok Iap Ib] He Hc. unfold t_delete in He.
  destruct (nth_error (s_tries s) i) as [[rt|]|] eqn:Hi; try (injection He as <- <-; contradiction).
  injection He as <- <-. pose proof (Iok _ _ Hi) as (Hf & Hm & _).
  assert (Hsub : forall j x, trie_at (mkSys (mkK (upd (rt_f rt) false (k_files (s_k s))) (k_maps (s_k s))) (upd i None (s_tries s))) j x -> j <> i /\ trie_at s j x).
  { intros j x Hx. apply at_upd in Hx; [|exact (at_lt Hi)]. destruct Hx as [[_ Hx]|Hx]; [discriminate|assumption]. }
  constructor; cbn [isnew isdel].
  - constructor.
    + intros j x Hx. apply Hsub in Hx as [Hne Hx]. destruct (Iok _ _ Hx) as (Hf' & Hm' & Hg').
      split; [|split; [assumption|]].
      * cbn [s_k k_files]. rewrite upd_other; [assumption|]. intros He. symmetry in He. revert He. apply (Iap j i x rt Hx Hi Hne).
      * exact Hg'.
    + intros j1 j2 a b Ha Hb. apply Hsub in Ha as [_ Ha]. apply Hsub in Hb as [_ Hb]. now apply (Iap j1 j2).
    + exact Ib.
  - unfold open_files. cbn [s_k k_files]. rewrite (open_close Hf). lia.
  - unfold live_maps. cbn [s_k k_maps]. lia.
  - intros _. split; [unfold live_maps; cbn [s_k k_maps]; lia|]. unfold alive. cbn [s_tries]. rewrite (alive_drop Hi). lia.
  - intros a [Ha Ho]. split; [|reflexivity]. split; [exact Ha|]. intros j x Hx. apply Hsub in Hx as [_ Hx]. now apply (Ho j).
Qed.

Lemma live_nlive s : live_maps s = nlive (k_maps (s_k s)).
Proof. reflexivity. Qed.
Lemma insert_step E i w id s s' o : inv s -> writable w -> t_insert E i w id s = (s', o) -> ctl o -> stepped (TInsert i w id) s s' o.
Proof.
  intros [Iok Iap Ib] Hw He Hc. unfold t_insert in He.
  destruct (nth_error (s_tries s) i) as [[rt|]|] eqn:Hi; try (injection He as <- <-; contradiction).
  pose proof (Iok _ _ Hi) as (Hf & Hm & Hg). pose proof (at_lt Hi) as Hlt.
  destruct (r_insertWord E w id (s_k s, rt)) as [[k' rt'] o0] eqn:Hr. injection He as <- <-.
  destruct (t_mapped (rt_t rt)) eqn:Hmap.
  - destruct (Hg eq_refl) as [Hh Hgood]. pose proof Hgood as (es & ids & nw & R & Hfit).
    destruct (@insert_sim E (s_k s, rt) es ids nw w id) as (s2 & He2 & Ht2 & Hmv); [split; assumption|exact R|apply Hw|].
    rewrite Hr in He2. injection He2 as <- ->. cbn [fst snd] in Hmv, Ht2. cbn [snd] in Hc.
    destruct (insertWord E w id (rt_t rt)) as [t' o1] eqn:Hiw. cbn [fst snd] in *.
    pose proof (insert_good Hgood Hw Hiw) as Hres. subst t'.
    assert (Hctl : good (rt_t rt') \/ (t_mapped (rt_t rt') = false /\ exists e, o1 = Throw e)).
    { destruct o1 as [r|e| | |]; try contradiction; [now left|]. destruct Hres as [Hres|Hres]; [now left|right; split; [assumption|now exists e]]. }
    assert (Hm' : good (rt_t rt') -> t_mapped (rt_t rt') = true).
    { intros (? & ? & ? & R' & _). apply (h_mapped (r_hdr R')). }
    pose proof (mv_files Hmv) as Hfiles. pose proof (mv_f Hmv) as Hff. pose proof (mv_len Hmv) as Hlen. pose proof (mv_in Hmv) as Hin.
    pose proof (mv_live Hmv) as Hlive. cbn [fst snd] in *.
    constructor; cbn [isnew isdel].
    + constructor.
      * intros j x Hx. apply at_upd in Hx; [|assumption]. destruct Hx as [[-> Hx]|[Hne Hx]].
        -- injection Hx as <-. split; [cbn [s_k]; now rewrite Hfiles, Hff|]. split; [exact Hin|]. cbn [s_k]. intros Hmm.
           split; [exact (mv_held Hmv)|]. destruct Hctl as [Hctl|[Hctl _]]; [assumption|congruence].
        -- destruct (Iok _ _ Hx) as (Hf' & Hm1 & Hg'). split; [cbn [s_k]; now rewrite Hfiles|]. split; [cbn [s_k]; lia|].
           intros Hmm. destruct (Hg' Hmm) as [Hh' Hg2]. split; [|assumption]. intros _. cbn [fst snd s_k].
           rewrite (mv_other Hmv); cbn [fst snd]; [exact (Hh' Hmm)|apply (Iap j i x rt Hx Hi Hne)|assumption].
      * intros j1 j2 a b Ha Hb Hne. apply at_upd in Ha; [|assumption]. apply at_upd in Hb; [|assumption].
        assert (Hside : forall j x, trie_at s j x -> j <> i -> rt_f rt' <> rt_f x /\ rt_map rt' <> rt_map x).
        { intros j x Hx Hji. destruct (Iap i j rt x Hi Hx (fun e => Hji (eq_sym e))) as [H1 H2]. rewrite Hff. split; [assumption|].
          destruct (mv_addr Hmv) as [Ha'|Ha']; cbn [fst snd] in Ha'; [congruence|]. destruct (Iok _ _ Hx) as (_ & Hm1 & _). lia. }
        destruct Ha as [[-> Ha]|[Hna Ha]], Hb as [[-> Hb]|[Hnb Hb]].
        -- contradiction.
        -- injection Ha as <-. now apply (Hside j2).
        -- injection Hb as <-. destruct (Hside j1 a Ha Hna). split; congruence.
        -- now apply (Iap j1 j2).
      * cbn [s_k]. apply (mv_big Hmv). exact Ib.
    + unfold open_files. cbn [s_k]. rewrite Hfiles. lia.
    + rewrite !live_nlive. cbn [s_k].
      destruct (t_mapped (rt_t rt')); lia.
    + intros Ho. destruct Hctl as [Hctl|[_ (e & ->)]]; [|discriminate]. rewrite (Hm' Hctl) in Hlive.
      split; [rewrite !live_nlive; cbn [s_k]; lia|].
      unfold alive. cbn [s_tries]. rewrite (alive_keep rt' Hi). lia.
    + intros a [Ha Ho]. pose proof (Ho i rt Hi) as Hne. split; [split|].
      * cbn [s_k]. lia.
      * intros j x Hx. apply at_upd in Hx; [|assumption]. destruct Hx as [[-> Hx]|[_ Hx]]; [|now apply (Ho j)].
        injection Hx as <-. destruct (mv_addr Hmv) as [Ha'|Ha']; cbn [fst snd] in Ha'; [congruence|lia].
      * cbn [s_k]. apply (mv_other Hmv); cbn [fst snd]; [congruence|assumption].
  - pose proof (insert_gone Hmap Hr) as Hgn. destruct o0 as [r|e| | |]; try contradiction. destruct Hgn as [-> ->].
    assert (Hsame : upd i (Some rt) (s_tries s) = s_tries s).
    { clear - Hi. revert i Hi. induction (s_tries s) as [|x l IH]; intros [|i] Hi; cbn in *; try discriminate; [congruence|]. now rewrite IH. }
    rewrite Hsame. destruct s as [k l]. cbn [s_k s_tries] in *. constructor; cbn [isnew isdel].
    + now constructor.
    + lia.
    + lia.
    + discriminate.
    + auto.
Qed.

Local Open Scope m_scope.
Definition first_m (E : env) : M trie N :=
  tot <- reads (fun t => rd t H_TOTAL) ;;
  free <- reads (fun t => rd t H_FREE) ;;
  massert E (free <? tot) ;;;
  wr H_FREE SZ_HEADER ;;;
  root <- reads (fun t => rd t H_FREE) ;;
  (fun t => (mkTrie (t_mapped t) (t_len t) (t_mem t) root, Ok tt)) ;;;
  wr H_WORDS 0 ;;;
  addNewNode E 0.
Definition blank : trie := mkTrie true 1024 (fun o => if o =? H_TOTAL then 1024 else 0) 0.
Definition headed : trie :=
  mkTrie true 1024 (mset (mset (t_mem blank) H_FREE SZ_HEADER) H_WORDS 0) 16.
Lemma headed_hdr : hdr headed 16.
Proof. constructor; try reflexivity; cbn; try lia. exists 10. split; [reflexivity|lia]. Qed.
Lemma first_runs E : first_m E blank = addNewNode E 0 headed.
Proof.
  unfold first_m.
  erewrite mbind_ok by (apply reads_ok, rd_ok; [reflexivity|reflexivity|vm_compute; discriminate]).
  erewrite mbind_ok by (apply reads_ok, rd_ok; [reflexivity|reflexivity|vm_compute; discriminate]).
  erewrite mbind_ok by (apply massert_true; reflexivity).
  erewrite mbind_ok by (apply wr_ok; [reflexivity|reflexivity|vm_compute; discriminate]).
  erewrite mbind_ok by (apply reads_ok, rd_ok; [reflexivity|reflexivity|vm_compute; discriminate]).
  erewrite mbind_ok by reflexivity.
  erewrite mbind_ok by (apply wr_ok; [reflexivity|reflexivity|vm_compute; discriminate]).
  reflexivity.
Qed.
Lemma first_good E : grow_ok E 1024 = true -> exists t r, first_m E blank = (t, Ok r) /\ good t.
Proof.
  intros Hg. destruct (trie_new_spec Hg) as (t & Hn & R). unfold trie_new in Hn. rewrite Hg in Hn.
  change (let (t, r) := first_m E blank in let! _ := r in Ok t) with
    (match first_m E blank with (t, r) => let! _ := r in Ok t end) in Hn.
  assert (Hn' : match first_m E blank with (t, r) => let! _ := r in Ok t end = Ok t) by exact Hn. clear Hn.
  destruct (first_m E blank) as [t' [r|e| | |]] eqn:He; try discriminate. cbn [obind] in Hn'. injection Hn' as ->.
  exists t, r. split; [reflexivity|]. exists [], [INVALID_WORDID], 0. split; [exact R|].
  rewrite first_runs in He. refine (node_tidy headed_hdr _ He). now left.
Qed.
Lemma first_sim E k f a : nth_error (k_maps k) a = Some (Some 1024) -> sim (k, mkRT f a blank) (first_m E) (r_first E).
Proof.
  intros Ha. assert (Hs : stands (k, mkRT f a blank)) by (split; [reflexivity|intros _; exact Ha]).
  unfold first_m, r_first.
  apply sim_bind_reads; [exact Hs|]. intros tot Htot. apply sim_bind_reads; [exact Hs|]. intros free Hfree.
  cbn [snd rt_t] in Htot, Hfree.
  rewrite rd_ok in Htot, Hfree by (reflexivity || (vm_compute; discriminate)).
  injection Htot as <-. injection Hfree as <-.
  apply sim_bind_still; [exact Hs|apply still_assert|]. intros s1 [] He1 Hs1.
  apply assert_inv in He1. cbn [snd rt_t] in He1.
  apply sim_bind_still; [exact Hs1|apply still_wr|]. intros s2 [] He2 Hs2. rewrite He1 in He2.
  rewrite wr_ok in He2 by (reflexivity || (vm_compute; discriminate)).
  apply sim_bind_reads; [exact Hs2|]. intros root Hroot.
  assert (Ht2 : rt_t (snd s2) = with_mem blank (mset (t_mem blank) H_FREE SZ_HEADER)) by congruence.
  rewrite Ht2 in Hroot. rewrite rd_ok in Hroot by (reflexivity || (vm_compute; discriminate)). injection Hroot as <-.
  apply sim_bind_still; [exact Hs2|apply still_in; intros t; split; reflexivity|]. intros s3 [] He3 Hs3.
  apply sim_bind_still; [exact Hs3|apply still_wr|]. intros s4 [] He4 Hs4.
  eapply node_sim; [exact Hs4|]. 
  rewrite Ht2 in He3. assert (Ht3 : rt_t (snd s3) = mkTrie true 1024 (mset (t_mem blank) H_FREE SZ_HEADER) 16) by (injection He3 as <-; reflexivity).
  rewrite Ht3 in He4. rewrite wr_ok in He4 by (reflexivity || (vm_compute; discriminate)).
  assert (rt_t (snd s4) = headed) as -> by (injection He4 as <-; reflexivity). exact headed_hdr.
Qed.

Lemma new_step E s s' o : inv s -> t_new E s = (s', o) -> ctl o -> stepped TNew s s' o.
Proof.
  intros [Iok Iap Ib] He Hc. unfold t_new in He. cbv zeta in He. destruct (grow_ok E 1024) eqn:Hg.
  2:{ injection He as <- <-. constructor; cbn [isnew isdel].
      - constructor; [|exact Iap|exact Ib]. intros i rt Hi. destruct (Iok i rt Hi) as (Hf & Hm & Hgd).
        split; [|split; [exact Hm|exact Hgd]]. cbn [s_k k_files]. rewrite nth_error_app1; [assumption|]. apply nth_error_Some. congruence.
      - unfold open_files. cbn [s_k k_files]. rewrite open_snoc. lia.
      - unfold live_maps. cbn [s_k k_maps]. lia.
      - discriminate.
      - intros a Ha. split; [exact Ha|reflexivity]. }
  set (k0 := mkK (k_files (s_k s) ++ [true]) (k_maps (s_k s) ++ [Some 1024])) in *.
  set (f := length (k_files (s_k s))) in *. set (a := length (k_maps (s_k s))) in *.
  assert (Ha : nth_error (k_maps k0) a = Some (Some 1024)).
  { unfold k0, a. cbn [k_maps]. rewrite nth_error_app2 by lia. now rewrite Nat.sub_diag. }
  destruct (first_good Hg) as (t & r & Hft & Hgood).
  destruct (first_sim E f Ha) as (s2 & He2 & Ht2 & Hmv). cbn [snd rt_t] in He2, Ht2. fold blank in He.
  rewrite Hft in He2, Ht2. cbn [fst snd] in He2, Ht2. rewrite He2 in He. destruct s2 as [k' rt]. injection He as <- <-.
  cbn [snd rt_t] in Ht2. subst t.
  pose proof (mv_files Hmv) as Hfiles. pose proof (mv_f Hmv) as Hff. pose proof (mv_len Hmv) as Hlen. pose proof (mv_in Hmv) as Hin.
  pose proof (mv_live Hmv) as Hlive. pose proof (mv_addr Hmv) as Haddr. cbn [fst snd rt_f rt_map] in *.
  assert (Hl0 : length (k_maps k0) = S a) by (unfold k0, a; cbn [k_maps]; rewrite app_length; cbn; lia).
  assert (Hmapped : t_mapped (rt_t rt) = true).
  { destruct Hgood as (? & ? & ? & R' & _). apply (h_mapped (r_hdr R')). }
  assert (Hother : forall b, (b < a)%nat -> nth_error (k_maps k') b = nth_error (k_maps (s_k s)) b).
  { intros b Hb. rewrite (mv_other Hmv) by (cbn [fst snd rt_map]; lia). unfold k0. cbn [fst k_maps]. now apply nth_error_app1. }
  assert (Hold : forall i x, trie_at s i x -> (rt_f x < f)%nat /\ (rt_map x < a)%nat).
  { intros i x Hx. destruct (Iok i x Hx) as (H1 & H2 & _). split; [|exact H2]. apply nth_error_Some. congruence. }
  constructor; cbn [isnew isdel].
  - constructor.
    + intros i x Hx. apply at_snoc in Hx as [[-> <-]|Hx].
      * split; [|split; [exact Hin|]].
        -- cbn [s_k]. rewrite Hfiles, Hff. unfold k0, f. cbn [k_files]. rewrite nth_error_app2 by lia. now rewrite Nat.sub_diag.
        -- intros _. split; [exact (mv_held Hmv)|exact Hgood].
      * destruct (Iok i x Hx) as (H1 & H2 & H3). destruct (Hold i x Hx) as [H4 H5]. split; [|split].
        -- cbn [s_k]. rewrite Hfiles. unfold k0. cbn [k_files]. now rewrite nth_error_app1.
        -- cbn [s_k]. lia.
        -- intros Hm. destruct (H3 Hm) as [Hh Hgg]. split; [|assumption]. intros _. cbn [fst snd s_k]. rewrite (Hother _ H5). exact (Hh Hm).
    + assert (Hside : forall i x, trie_at s i x -> rt_f rt <> rt_f x /\ rt_map rt <> rt_map x).
      { intros i x Hx. destruct (Hold i x Hx). split; lia. }
      intros i j x y Hx Hy Hne. pose proof Hx as Hx0. pose proof Hy as Hy0.
      apply at_snoc in Hx as [[-> <-]|Hx]; apply at_snoc in Hy as [[-> <-]|Hy].
      * contradiction.
      * now apply (Hside j).
      * destruct (Hside i x Hx). split; congruence.
      * now apply (Iap i j).
    + cbn [s_k]. apply (mv_big Hmv). cbn [fst]. unfold k0. cbn [k_maps]. apply big_app; [exact Ib|lia].
  - unfold open_files. cbn [s_k]. rewrite Hfiles. unfold k0. cbn [k_files]. rewrite open_snoc. lia.
  - rewrite !live_nlive. cbn [s_k]. rewrite Hmapped in Hlive. unfold k0 in Hlive. cbn [k_maps] in Hlive. rewrite nlive_app in Hlive. cbn in Hlive. lia.
  - intros _. split.
    + rewrite !live_nlive. cbn [s_k]. rewrite Hmapped in Hlive. unfold k0 in Hlive. cbn [k_maps] in Hlive. rewrite nlive_app in Hlive. cbn in Hlive. lia.
    + unfold alive. cbn [s_tries]. rewrite filter_app, app_length. cbn. lia.
  - intros b [Hb Ho]. split; [split|].
    + cbn [s_k]. fold a in Hb. lia.
    + intros i x Hx. apply at_snoc in Hx as [[-> <-]|Hx]; [|now apply (Ho i)]. fold a in Hb. lia.
    + cbn [s_k]. now apply Hother.
Qed.

Lemma step_all E c s s' o : inv s -> allowed c -> t_step E c s = (s', o) -> ctl o -> stepped c s s' o.
Proof.
  destruct c as [|i w id|i]; cbn [t_step allowed]; intros I Hal He Hc.
  - exact (new_step I He Hc).
  - exact (insert_step I Hal He Hc).
  - exact (delete_step I He Hc).
Qed.
Lemma inv0 : inv sys0.
Proof.
  constructor.
  - intros i rt H. destruct i; discriminate.
  - intros i j a b H. destruct i; discriminate.
  - intros a l H. destruct a; discriminate.
Qed.
Lemma news_cons c cs : news (c :: cs) = (isnew c + news cs)%nat.
Proof. destruct c; reflexivity. Qed.
Lemma deletes_cons c cs : deletes (c :: cs) = (isdel c + deletes cs)%nat.
Proof. destruct c; reflexivity. Qed.

Lemma run_all E cs : forall s s', inv s -> Forall allowed cs -> t_run E cs s = (s', Ok tt) ->
  inv s' /\ (open_files s' + deletes cs = open_files s + news cs)%nat /\ (live_maps s' <= live_maps s + news cs)%nat /\
  (forall a, orphan s a -> orphan s' a /\ nth_error (k_maps (s_k s')) a = nth_error (k_maps (s_k s)) a).
Proof.
  induction cs as [|c cs IH]; intros s s' I Hal He; cbn [t_run] in He.
  - injection He as <-. cbn [news deletes filter length]. split; [exact I|]. split; [lia|]. split; [lia|]. auto.
  - apply Forall_cons_iff in Hal as [Hc Hal]. destruct (t_step E c s) as [s1 o] eqn:Hst.
    assert (Hctl : ctl o). { destruct o; try exact Logic.I; discriminate. }
    pose proof (step_all I Hc Hst Hctl) as S.
    assert (He' : t_run E cs s1 = (s', Ok tt)). { destruct o; try discriminate; exact He. }
    destruct (IH _ _ (st_inv S) Hal He') as (I' & Hf & Hm & Ho). rewrite news_cons, deletes_cons.
    pose proof (st_files S). pose proof (st_maps S). split; [exact I'|]. split; [lia|]. split; [lia|].
    intros a Ha. destruct (st_orphan S Ha) as [H2 H3]. rewrite <- H3. now apply Ho.
Qed.
Lemma seq_all E cs : forall s s', inv s -> Forall allowed cs -> t_seq E cs s = (s', Ok tt) ->
  inv s' /\ t_run E cs s = (s', Ok tt) /\ (live_maps s' = live_maps s + news cs)%nat /\ (alive s' + deletes cs = alive s + news cs)%nat.
Proof.
  induction cs as [|c cs IH]; intros s s' I Hal He; cbn [t_seq] in He.
  - unfold ret in He. injection He as <-. cbn [news deletes filter length]. split; [exact I|]. split; [reflexivity|]. split; lia.
  - apply Forall_cons_iff in Hal as [Hc Hal]. apply bind_inv in He as (s1 & [] & Hst & He).
    pose proof (step_all I Hc Hst Logic.I) as S. destruct (IH _ _ (st_inv S) Hal He) as (I' & Hr & Hm & Ha).
    destruct (st_exact S eq_refl) as [Hx Hy]. rewrite news_cons, deletes_cons. split; [exact I'|]. split; [|lia].
    cbn [t_run]. now rewrite Hst.
Qed.

(** ** C102 *)
Lemma to_inv E cs s : comes_to E cs s -> inv s.
Proof. intros [Ha He]. now destruct (run_all inv0 Ha He) as [H _]. Qed.
Lemma files_exact E cs s : comes_to E cs s -> (open_files s + deletes cs = news cs)%nat.
Proof. intros [Ha He]. destruct (run_all inv0 Ha He) as (_ & H & _). cbn in H. exact H. Qed.
Lemma maps_bound E cs s : comes_to E cs s -> (live_maps s <= news cs)%nat.
Proof. intros [Ha He]. destruct (run_all inv0 Ha He) as (_ & _ & H & _). cbn in H. exact H. Qed.
Lemma maps_exact E cs s : runs_clean E cs s -> live_maps s = news cs.
Proof. intros [Ha He]. destruct (seq_all inv0 Ha He) as (_ & _ & H & _). cbn in H. exact H. Qed.
Lemma clean_comes E cs s : runs_clean E cs s -> comes_to E cs s.
Proof. intros [Ha He]. split; [assumption|]. now destruct (seq_all inv0 Ha He) as (_ & H & _). Qed.
Lemma none_alive s : all_destroyed s -> alive s = 0%nat.
Proof.
  unfold all_destroyed, trie_at, alive. intros H. induction (s_tries s) as [|x l IH]; [reflexivity|].
  destruct x as [rt|]; [destruct (H O rt); reflexivity|]. apply IH. intros i rt Hi. exact (H (S i) rt Hi).
Qed.
Lemma closed_all E cs s : runs_clean E cs s -> all_destroyed s -> open_files s = 0%nat.
Proof.
  intros H Hd. pose proof (files_exact (clean_comes H)) as Hf. destruct H as [Ha He].
  destruct (seq_all inv0 Ha He) as (_ & _ & _ & Hal). rewrite (none_alive Hd) in Hal. cbn in Hal. lia.
Qed.
Lemma own_mapping E cs s i rt n : comes_to E cs s -> trie_at s i rt -> numNodes (rt_t rt) = Ok n ->
  exists l, mapping s (rt_map rt) l /\ 4 + 32 * n < l <= N.max 1024 (8 + 64 * n).
Proof.
  intros Hc Hi Hn. destruct (i_ok (to_inv Hc) Hi) as (_ & _ & Hg). unfold numNodes in Hn.
  destruct (t_mapped (rt_t rt)) eqn:Hm; [|rewrite rd_gone in Hn by assumption; discriminate].
  destruct (Hg eq_refl) as [Hh (es & ids & nw & R & Hfit)]. exists (t_len (rt_t rt)). split; [exact (Hh Hm)|].
  pose proof (hdr_len (r_hdr R)) as [Hlen _]. pose proof (h_room (r_hdr R)) as Hr.
  change H_NODES with 12 in Hn. rewrite rd_ok in Hn by (assumption || lia). rewrite (r_nodes R) in Hn.
  assert (n = 1 + N.of_nat (length es)) as -> by congruence. clear Hn. unfold fits, tidy in Hfit. lia.
Qed.
Lemma mappings_apart E cs s i j a b : comes_to E cs s -> trie_at s i a -> trie_at s j b -> i <> j ->
  rt_f a <> rt_f b /\ rt_map a <> rt_map b.
Proof. intros Hc Ha Hb Hne. exact (i_apart (to_inv Hc) Ha Hb Hne). Qed.
Lemma mapping_big E cs s a l : comes_to E cs s -> mapping s a l -> 1024 <= l.
Proof. intros Hc Hm. exact (i_big (to_inv Hc) Hm). Qed.
Lemma lost E cs s i rt l cs2 s2 : comes_to E cs s -> trie_at s i rt -> mapping s (rt_map rt) l ->
  Forall allowed cs2 -> t_run E (TDelete i :: cs2) s = (s2, Ok tt) -> mapping s2 (rt_map rt) l.
Proof.
  intros Hc Hi Hm Ha He. pose proof (to_inv Hc) as I. cbn [t_run] in He.
  destruct (t_step E (TDelete i) s) as [s1 o] eqn:Hst. cbn [t_step] in Hst. pose proof Hst as Hst0. unfold t_delete in Hst.
  unfold trie_at in Hi. rewrite Hi in Hst. injection Hst as <- <-.
  pose proof (delete_step I Hst0 Logic.I) as S.
  destruct (run_all (st_inv S) Ha He) as (_ & _ & _ & Ho). unfold mapping in *.
  destruct (Ho (rt_map rt)) as [_ Hx]; [|now rewrite Hx].
  split; [cbn [s_k k_maps]; apply nth_error_Some; congruence|].
  intros j x Hx. apply at_upd in Hx; [|exact (at_lt Hi)]. destruct Hx as [[_ Hx]|[Hne Hx]]; [discriminate|].
  apply (i_apart I Hx Hi Hne).
Qed.
Lemma same_insert E cs s i rt w id n : comes_to E cs s -> trie_at s i rt -> numNodes (rt_t rt) = Ok n -> allowed (TInsert i w id) ->
  exists s' rt', t_insert E i w id s = (s', let! _ := snd (insertWord E w id (rt_t rt)) in Ok tt) /\
    trie_at s' i rt' /\ rt_t rt' = fst (insertWord E w id (rt_t rt)).
Proof.
  intros Hc Hi Hn Hw. destruct (i_ok (to_inv Hc) Hi) as (_ & _ & Hg). unfold numNodes in Hn.
  destruct (t_mapped (rt_t rt)) eqn:Hm; [|rewrite rd_gone in Hn by assumption; discriminate].
  destruct (Hg eq_refl) as [Hh (es & ids & nw & R & _)].
  destruct (@insert_sim E (s_k s, rt) es ids nw w id) as (s2 & He2 & Ht2 & _); [split; assumption|exact R|apply Hw|].
  cbn [snd] in He2, Ht2. unfold t_insert. pose proof Hi as Hi0. unfold trie_at in Hi. rewrite Hi, He2. destruct s2 as [k' rt'].
  eexists _, rt'. split; [reflexivity|]. split; [|exact Ht2]. unfold trie_at. cbn [s_tries]. apply upd_nth. exact (at_lt Hi0).
Qed.
