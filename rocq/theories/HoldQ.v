(** C122: the simulation of Matcher. *)
From Verif Require Import Base TrieM TrieA TrieP TrieP2 TrieD WordStoreM ErrorValuesM LevIndexM WordM MapM MapP DoubleM ContM MatcherM Spec_Hist ResM ResP ResQ Spec_Res Spec_EV Spec_Match HoldM Spec_Hold HoldP.
From Coq Require Import ZifyBool ZifyN ZifyNat.
Local Open Scope N_scope.
Local Open Scope m_scope.

Record LS (s : sys) (h : hmatcher) (v : matcher) : Prop := { ls_inv : inv s; ls_see : see s h = Some v; ls_nodup : NoDup (handles h) }.
(** What a method may do to the system: make [n] tries, and lose a file when refused. *)
Record G (s : sys) (h : hmatcher) (s' : sys) (h' : hmatcher) (r : bool) : Prop := {
  g_len : (length (s_tries s) <= length (s_tries s'))%nat;
  g_handles : Permutation (handles h') (handles h ++ seq (length (s_tries s)) (length (s_tries s') - length (s_tries s)));
  g_alive : (alive s' + length (s_tries s) = alive s + length (s_tries s'))%nat;
  g_files : (open_files s + length (s_tries s') <= open_files s' + length (s_tries s) <= open_files s + length (s_tries s') + Nat.b2n r)%nat;
  g_maps : (live_maps s' + length (s_tries s) <= live_maps s + length (s_tries s'))%nat;
  g_exact : r = false -> (live_maps s' + length (s_tries s) = live_maps s + length (s_tries s'))%nat;
  g_other : forall j, ~ In j (handles h) -> (j < length (s_tries s))%nat -> nth_error (s_tries s') j = nth_error (s_tries s) j
}.
Definition hsim {A} (hm : M hst A) (m : M matcher A) : Prop := forall s h v s' h' o, LS s h v -> hm (s, h) = ((s', h'), o) -> came o ->
  exists v', m v = (v', o) /\ LS s' h' v' /\ G s h s' h' (no_room o).

Lemma G_same s h h' r : handles h' = handles h -> G s h s h' r.
Proof. intros H. constructor; try lia; auto. rewrite H, Nat.sub_diag. cbn. now rewrite app_nil_r. Qed.
Lemma seq_split a n m : (a <= n)%nat -> (n <= m)%nat -> seq a (m - a) = seq a (n - a) ++ seq n (m - n).
Proof. intros H1 H2. replace (m - a)%nat with ((n - a) + (m - n))%nat by lia. rewrite seq_app. f_equal. f_equal. lia. Qed.
Lemma G_trans s h s1 h1 s2 h2 r : G s h s1 h1 false -> G s1 h1 s2 h2 r -> G s h s2 h2 r.
Proof.
  intros [A1 A2 A3 A4 A5 A6 A7] [B1 B2 B3 B4 B5 B6 B7]. specialize (A6 eq_refl). cbn in A4. constructor; try lia.
  - rewrite B2, A2, <- app_assoc, <- seq_split by lia. reflexivity.
  - intros j Hj Hl. rewrite <- A7 by assumption. apply B7; [|lia]. intros Hi. apply (Permutation_in _ A2) in Hi. apply in_app_iff in Hi as [Hi|Hi]; [now apply Hj|]. apply in_seq in Hi. lia.
Qed.

Lemma hsim_ret A (a : A) : hsim (ret a) (ret a).
Proof. intros s h v s' h' o L H _. injection H as <- <- <-. exists v. split; [reflexivity|]. split; [exact L|]. now apply G_same. Qed.
Lemma hsim_throw A e : hsim (A := A) (mthrow e) (mthrow e).
Proof. intros s h v s' h' o L H _. injection H as <- <- <-. exists v. split; [reflexivity|]. split; [exact L|]. now apply G_same. Qed.
Lemma hsim_look A (f : matcher -> outcome A) : hsim (h_look f) (reads f).
Proof.
  intros s h v s' h' o L H _. unfold h_look in H. cbn [fst snd] in H. rewrite (ls_see L) in H. injection H as <- <- <-. exists v. split; [reflexivity|]. split; [exact L|]. now apply G_same.
Qed.
Lemma hsim_bind A B (hm : M hst A) m (hf : A -> M hst B) f : hsim hm m -> (forall a, hsim (hf a) (f a)) -> hsim (mbind hm hf) (mbind m f).
Proof.
  intros H1 H2 s h v s' h' o L H Hc. unfold mbind in *. destruct (hm (s, h)) as [[s1 h1] o1] eqn:He.
  destruct o1 as [a|e| | |]; try (injection H as <- <- <-; contradiction).
  - destruct (H1 _ _ _ _ _ _ L He I) as (v1 & -> & L1 & G1). destruct (H2 a _ _ _ _ _ _ L1 H Hc) as (v2 & Hv2 & L2 & G2). exists v2. split; [exact Hv2|]. split; [exact L2|]. exact (G_trans G1 G2).
  - injection H as <- <- <-. destruct (H1 _ _ _ _ _ _ L He I) as (v1 & -> & L1 & G1). exists v1. split; [reflexivity|]. now split.
Qed.
(** The same, where the second part is only asked when the first came to a value. *)
Lemma hsim_bind_in A B (hm : M hst A) m (hf : A -> M hst B) f : hsim hm m ->
  (forall v v' a, m v = (v', Ok a) -> forall s' h' s2 h2 o, LS s' h' v' -> hf a (s', h') = ((s2, h2), o) -> came o -> exists v2, f a v' = (v2, o) /\ LS s2 h2 v2 /\ G s' h' s2 h2 (no_room o)) ->
  hsim (mbind hm hf) (mbind m f).
Proof.
  intros H1 H2 s h v s' h' o L H Hc. unfold mbind in *. destruct (hm (s, h)) as [[s1 h1] o1] eqn:He.
  destruct o1 as [a|e| | |]; try (injection H as <- <- <-; contradiction).
  - destruct (H1 _ _ _ _ _ _ L He I) as (v1 & Hm & L1 & G1). rewrite Hm. destruct (H2 _ _ _ Hm _ _ _ _ _ L1 H Hc) as (v2 & Hv2 & L2 & G2). exists v2. split; [exact Hv2|]. split; [exact L2|]. exact (G_trans G1 G2).
  - injection H as <- <- <-. destruct (H1 _ _ _ _ _ _ L He I) as (v1 & -> & L1 & G1). exists v1. split; [reflexivity|]. now split.
Qed.
Lemma hsim_set f g : (forall s h v, see s h = Some v -> see s (f h) = Some (fst (g v)) /\ snd (g v) = Ok tt) -> (forall h, handles (f h) = handles h) -> hsim (h_set f) g.
Proof.
  intros Hf Hh s h v s' h' o L H _. injection H as <- <- <-. destruct (Hf _ _ _ (ls_see L)) as [H1 H2]. exists (fst (g v)). split; [rewrite <- H2; now destruct (g v)|]. split; [|now apply G_same].
  constructor; [exact (ls_inv L)|exact H1|]. rewrite Hh. exact (ls_nodup L).
Qed.
Ltac put := apply hsim_set; [|reflexivity]; intros s h v; unfold see; cbn; destruct (see_idx s (h_idx h)); [|discriminate]; destruct (see_store s (h_store h)); [|discriminate]; intros [= <-]; split; reflexivity.
Lemma hsim_stats f : hsim (h_set (h_put_stats f)) (set_stats f).
Proof. put. Qed.
Lemma hsim_rev f : hsim (h_set (h_put_rev f)) (set_rev f).
Proof. put. Qed.
Lemma hsim_size d k n : hsim (h_set (h_put_size d k n)) (set_size d k n).
Proof. put. Qed.
Lemma hsim_w f : hsim (h_set (h_put_w f)) (set_w f).
Proof. put. Qed.
Lemma hsim_ev A (f : M errvals A) : hsim (h_on_ev f) (on_ev f).
Proof.
  intros s h v s' h' o L H Hc. unfold h_on_ev, on_ev in *. cbn [fst snd] in H. pose proof (ls_see L) as Hs. unfold see in Hs.
  destruct (see_idx s (h_idx h)) as [idx|] eqn:Hi; [|discriminate]. destruct (see_store s (h_store h)) as [st|] eqn:Ht; [|discriminate]. injection Hs as <-. cbn [mt_ev] in *.
  destruct (f (h_ev h)) as [e' o'] eqn:He. injection H as <- <- <-. eexists. split; [reflexivity|]. split; [|now apply G_same].
  constructor; [exact (ls_inv L)| |exact (ls_nodup L)]. unfold see. cbn. now rewrite Hi, Ht.
Qed.

(** ** Writing to a trie *)
Lemma upd_len {A} (l : list A) : forall n v, length (upd n v l) = length l.
Proof. exact (upd_length l). Qed.
Lemma see_upd s s' i rt : (i < length (s_tries s))%nat -> s_tries s' = upd i (Some rt) (s_tries s) -> see_trie s' i = Some (rt_t rt) /\ forall j, j <> i -> see_trie s' j = see_trie s j.
Proof.
  intros Hl Ht. unfold see_trie. rewrite Ht. split; [now rewrite upd_nth|]. intros j Hj. rewrite upd_other by congruence. reflexivity.
Qed.
Lemma see_store_at s h v : see s h = Some v -> exists rt, trie_at s (hs_trie (h_store h)) rt /\ mt_store v = mkWS (rt_t rt) (hs_index (h_store h)).
Proof.
  unfold see, see_store. destruct (see_idx s (h_idx h)); [|discriminate]. destruct (see_trie s (hs_trie (h_store h))) as [t|] eqn:Ht; [|discriminate]. intros [= <-].
  apply see_at in Ht as (rt & Hr & <-). now exists rt.
Qed.
Lemma G_ins E i w id s h h' s' o rt rt' : inv s -> trie_at s i rt -> In i (handles h) -> handles h' = handles h -> s_tries s' = upd i (Some rt') (s_tries s) ->
  open_files s' = open_files s -> (live_maps s' <= live_maps s)%nat -> (no_room (A := N) o = false -> live_maps s' = live_maps s) -> insertWord E w id (rt_t rt) = (rt_t rt', o) -> G s h s' h' (no_room o).
Proof.
  intros HI Hi Hin Hh Ht Hf Hm Hx _. assert (Hl : length (s_tries s') = length (s_tries s)) by (rewrite Ht; apply upd_length).
  constructor; rewrite ?Hl, ?Nat.sub_diag; try lia.
  - cbn. now rewrite Hh, app_nil_r.
  - unfold alive. rewrite Ht, (alive_keep rt' Hi). reflexivity.
  - intros j Hj _. rewrite Ht. apply upd_other. intros ->. now apply Hj.
Qed.
(** insertWord on the trie of the store. *)
Lemma hsim_store E w n : writable w -> hsim (fun s => h_sys (t_insertWord E (hs_trie (h_store (snd s))) w n) s) (on_store (on_trie (insertWord E w n))).
Proof.
  intros Hw s h v s' h' o L H Hc. unfold h_sys in H. cbn [fst snd] in H. destruct (see_store_at (ls_see L)) as (rt & Hrt & Hst).
  destruct (t_insertWord E (hs_trie (h_store h)) w n s) as [s1 o1] eqn:He. injection H as <- <- <-.
  destruct (ins_ok (ls_inv L) Hrt Hw He Hc) as (rt' & Ht & Hi & I & F & M & X). unfold on_store, on_trie. rewrite Hst. cbn [ws_trie ws_index]. rewrite Hi.
  eexists. split; [reflexivity|]. split; [|eapply G_ins; eauto; [exact (ls_inv L)|now left]].
  destruct (see_upd (at_lt Hrt) Ht) as [S1 S2]. constructor; [exact I| |exact (ls_nodup L)].
  pose proof (ls_see L) as Hs. unfold see, see_store in *. destruct (see_idx s (h_idx h)) as [idx|] eqn:Hx; [|discriminate].
  rewrite (@see_idx_same s s1), Hx, S1; [|intros i Hi'; apply S2; intros ->; pose proof (ls_nodup L) as Hn; apply NoDup_cons_iff in Hn as [Hn _]; now apply Hn].
  destruct (see_trie s (hs_trie (h_store h))); [|discriminate]. injection Hs as <-. reflexivity.
Qed.
Lemma hsim_push node : hsim (h_set (h_push node)) (on_store (fun s => (mkWS (ws_trie s) (ws_index s ++ [node]), Ok tt))).
Proof.
  apply hsim_set; [|reflexivity]. intros s h v. unfold see, see_store. cbn. destruct (see_idx s (h_idx h)); [|discriminate]. destruct (see_trie s (hs_trie (h_store h))); [|discriminate].
  intros [= <-]. split; reflexivity.
Qed.
(** on_store is a homomorphism. *)
Lemma on_store_bind A B (f : M wstore A) (g : A -> M wstore B) m : on_store (mbind f g) m = mbind (on_store f) (fun a => on_store (g a)) m.
Proof. unfold on_store, mbind. destruct (f (mt_store m)) as [s [a|e| | |]]; cbn [mt_store]; try reflexivity. Qed.
Lemma on_store_reads A (f : wstore -> outcome A) m : on_store (reads f) m = reads (fun m => f (mt_store m)) m.
Proof. unfold on_store, reads. now destruct m. Qed.
Lemma hsim_ext A (hm : M hst A) m m' : (forall v, m v = m' v) -> hsim hm m -> hsim hm m'.
Proof. intros He H s h v s' h' o L Hr Hc. destruct (H _ _ _ _ _ _ L Hr Hc) as (v' & Hv & HL). exists v'. now rewrite <- He. Qed.
Lemma bind_ext A B (m m' : M matcher A) (f f' : A -> M matcher B) v : (forall v, m v = m' v) -> (forall a v, f a v = f' a v) -> mbind m f v = mbind m' f' v.
Proof. intros H1 H2. unfold mbind. rewrite H1. destruct (m' v) as [v' [a|e| | |]]; auto. Qed.
Definition ws_getID_m (E : env) (w : word) : M matcher N :=
  has <- reads (fun m => hasWord (ws_trie (mt_store m)) w) ;;
  if has then reads (fun m => let! n := findWord (ws_trie (mt_store m)) w in getWordID (ws_trie (mt_store m)) n)
  else
    (n <- reads (fun m => Ok (u32 (N.of_nat (length (ws_index (mt_store m)))))) ;;
     node <- on_store (on_trie (insertWord E w n)) ;;
     on_store (fun s => (mkWS (ws_trie s) (ws_index s ++ [node]), Ok tt)) ;;;
     reads (fun m => Ok (u32 (N.of_nat (length (ws_index (mt_store m))) - 1)))).
Lemma getID_m E w m : ws_getID_m E w m = on_store (ws_getID E w) m.
Proof.
  unfold ws_getID, ws_getID_m. rewrite on_store_bind. apply bind_ext; [intros v; now rewrite on_store_reads|]. intros [|] v; [now rewrite on_store_reads|].
  rewrite on_store_bind. apply bind_ext; [intros v0; now rewrite on_store_reads|]. intros n v0. rewrite on_store_bind. apply bind_ext; [reflexivity|].
  intros node v1. rewrite on_store_bind. apply bind_ext; [reflexivity|]. intros _ v2. now rewrite on_store_reads.
Qed.
Lemma hsim_getID E w : writable w -> hsim (h_getID E w) (on_store (ws_getID E w)).
Proof.
  intros Hw. apply (hsim_ext (getID_m E w)). unfold h_getID, ws_getID_m. apply hsim_bind; [apply hsim_look|]. intros [|]; [apply hsim_look|].
  apply hsim_bind; [apply hsim_look|]. intros n. apply hsim_bind; [now apply hsim_store|]. intros node. apply hsim_bind; [apply hsim_push|]. intros _. apply hsim_look.
Qed.
(** A word the store has: nothing is inserted. *)
Lemma hsim_known E w s h v s' h' o : hasWord (ws_trie (mt_store v)) w = Ok true -> LS s h v -> h_getID E w (s, h) = ((s', h'), o) -> came o ->
  exists v', on_store (ws_getID E w) v = (v', o) /\ LS s' h' v' /\ G s h s' h' (no_room o).
Proof.
  intros Hk L H Hc. rewrite <- getID_m. unfold ws_getID_m, h_getID in *. unfold mbind, h_look, reads in *. cbn [fst snd] in H. rewrite (ls_see L), Hk in H. rewrite Hk. cbn [fst snd] in H. rewrite (ls_see L) in H.
  injection H as <- <- <-. exists v. split; [reflexivity|]. split; [exact L|now apply G_same].
Qed.

(** ** Indexes *)
Lemma see_put_idx s h v k x li : see s h = Some v -> see_lev s x = Some li -> see s (h_put_idx k x h) = Some (set_idx k li v).
Proof.
  unfold see, h_put_idx, set_idx. cbn. destruct (see_idx s (h_idx h)) as [idx|] eqn:Hi; [|discriminate]. destruct (see_store s (h_store h)); [|discriminate].
  intros [= <-] Hx. now rewrite (see_set k Hi Hx).
Qed.
Lemma set_twice k (a b : levindex) l : mp_set N.ltb k a (mp_set N.ltb k b l) = mp_set N.ltb k a l.
Proof.
  induction l as [|[j y] l IH]; cbn [mp_set]; [now rewrite N.ltb_irrefl|]. destruct (k <? j) eqn:H1.
  - cbn [mp_set]. now rewrite N.ltb_irrefl.
  - destruct (j <? k) eqn:H2; cbn [mp_set]; rewrite H1, H2; [now rewrite IH|reflexivity].
Qed.
Lemma set_idx_twice k a b m : set_idx k a (set_idx k b m) = set_idx k a m.
Proof. unfold set_idx. cbn. now rewrite set_twice. Qed.
Lemma set_found k (a : levindex) l : mp_find N.ltb k l = Some a -> mp_set N.ltb k a l = l.
Proof.
  induction l as [|[j y] l IH]; [discriminate|]. cbn [mp_find mp_set]. destruct (k <? j); [discriminate|]. destruct (j <? k); [intros H; now rewrite (IH H)|now intros [= ->]].
Qed.
Lemma find_set_hl k (x : hlev) l : mp_find N.ltb k (mp_set N.ltb k x l) = Some x.
Proof.
  induction l as [|[j y] l IH]; cbn [mp_set mp_find]; [now rewrite N.ltb_irrefl|]. destruct (k <? j) eqn:H1; [cbn [mp_find]; now rewrite N.ltb_irrefl|].
  destruct (j <? k) eqn:H2; cbn [mp_find]; now rewrite H1, H2.
Qed.
(** insertWord on index [x] of field [k]. *)
Lemma li_ok E w id k x s h v s' h' o li : writable w -> LS s h v -> mp_find N.ltb k (h_idx h) = Some x -> see_lev s x = Some li ->
  h_li_insertWord E w id k x (s, h) = ((s', h'), o) -> came o ->
  let r := li_insertWord E w id li in
  snd r = o /\ LS s' h' (set_idx k (fst r) v) /\ G s h s' h' (no_room o).
Proof.
  intros Hw L Hk Hx H Hc. cbv zeta. unfold h_li_insertWord, li_insertWord in *. destruct (Nat.eqb (length w) 0).
  - injection H as <- <- <-. split; [reflexivity|]. split; [|now apply G_same]. cbn [fst ret]. replace (set_idx k li v) with v; [exact L|].
    pose proof (ls_see L) as Hs. unfold see in Hs. destruct (see_idx s (h_idx h)) as [idx|] eqn:Hi; [|discriminate]. destruct (see_store s (h_store h)); [|discriminate]. injection Hs as <-.
    unfold set_idx. cbn. pose proof (see_find k Hi) as Hf. rewrite Hk in Hf. destruct Hf as (li2 & H2 & H3). rewrite Hx in H2. injection H2 as <-. now rewrite (set_found H3).
  - unfold mbind, h_sys, reads, on_li_trie in *. cbn [fst snd] in *. unfold see_lev in Hx. destruct (see_trie s (hl_trie x)) as [t|] eqn:Ht; [|discriminate]. injection Hx as <-. cbn [li_trie li_counts li_max li_longest] in *.
    apply see_at in Ht as (rt & Hrt & <-). destruct (t_insertWord E (hl_trie x) w id s) as [s1 o1] eqn:He.
    assert (Hc1 : came o1) by (destruct o1; [exact I|exact I|injection H as <- <- <-; contradiction..]).
    destruct (ins_ok (ls_inv L) Hrt Hw He Hc1) as (rt' & Ht & Hi & I & F & M & X). rewrite Hi.
    destruct (see_upd (at_lt Hrt) Ht) as [S1 S2].
    pose proof (ls_see L) as Hs. unfold see in Hs. destruct (see_idx s (h_idx h)) as [idx|] eqn:Hidx; [|discriminate]. destruct (see_store s (h_store h)) as [st|] eqn:Hst; [|discriminate]. injection Hs as <-.
    pose proof (ls_nodup L) as Hn. apply NoDup_cons_iff in Hn as [Hn1 Hn2].
    assert (Hin : In (hl_trie x) (handles h)) by (right; apply (find_in_tries Hk)).
    assert (Hst1 : see_store s1 (h_store h) = Some st).
    { unfold see_store in *. rewrite S2; [exact Hst|]. intros He2. apply Hn1. rewrite He2. apply (find_in_tries Hk). }
    assert (Hl1 : see_lev s1 x = Some (mkLI (hl_counts x) (hl_max x) (hl_longest x) (rt_t rt'))) by (unfold see_lev; now rewrite S1).
    pose proof (see_set_trie Hidx Hk Hn2 S2 Hl1) as Hidx1.
    destruct o1 as [off|e| | |]; try contradiction.
    + injection H as <- <- <-. split; [reflexivity|]. cbn [fst snd]. split.
      2: { change (no_room (Ok tt)) with (no_room (Ok off)). eapply G_ins; eauto; [exact (ls_inv L)|]. unfold handles. cbn. f_equal. apply (set_old Hk); reflexivity. }
      constructor; [exact I| |].
      * unfold see, h_put_idx, set_idx. cbn. rewrite Hst1, (@see_set _ k _ (mkLI (counts_set (hl_counts x) id match counts_find (hl_counts x) id with Some c => c + 1 | None => 1 end) (if hl_max x <? match counts_find (hl_counts x) id with Some c => c + 1 | None => 1 end then match counts_find (hl_counts x) id with Some c => c + 1 | None => 1 end else hl_max x) (if Nat.ltb (hl_longest x) (length w) then length w else hl_longest x) (rt_t rt')) _ _ Hidx1); [now rewrite set_twice|]. unfold see_lev. cbn. now rewrite S1.
      * unfold handles. cbn [h_put_idx h_store h_idx]. replace (map _ (mp_set _ _ _ _)) with (tries_in (h_idx h)); [exact (ls_nodup L)|]. symmetry. apply (set_old Hk). reflexivity.
    + injection H as <- <- <-. split; [reflexivity|]. cbn [fst snd]. split.
      2: { change (no_room (A := unit) (Throw e)) with (no_room (A := N) (Throw e)). eapply G_ins; eauto. exact (ls_inv L). }
      constructor; [exact I| |exact (ls_nodup L)]. unfold see, set_idx. cbn. now rewrite Hidx1, Hst1.
Qed.
