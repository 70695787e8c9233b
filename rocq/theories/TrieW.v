(** Walking a trie from node to node. *)
From Verif Require Import Base TrieM TrieA TrieP TrieP2 TrieD TrieH Spec_Hist Spec_Walk.
From Coq Require Import ZifyBool ZifyN ZifyNat.
Local Open Scope N_scope.

Lemma first_assoc ops w : first_id ops w = assoc ops w.
Proof.
  unfold assoc. induction ops as [|[v id] r IH]; [reflexivity|]. cbn [first_id find fst]. destruct (weqb_spec v w) as [->|Hne].
  - destruct (weqb_spec w w); [reflexivity|contradiction].
  - destruct (weqb_spec w v); [congruence|exact IH].
Qed.

Section Walk.
Variables (t : trie) (es : edges) (ids : list N) (nw : N).
Hypothesis R : rep t es ids nw.

Definition three (k : nat) : N * N * N := (poff k, snd (edge es k), noff (S k)).
Lemma chain_siblings : forall ks off, chain (t_mem t) off ks -> Forall (fun k => (k < length es)%nat) ks -> siblings t (t_mem t (off + 8)) (map three ks).
Proof.
  induction ks as [|k ks IH]; intros off Hc Hk; cbn [chain map] in *.
  - rewrite Hc. constructor.
  - destruct Hc as [-> Hc]. apply Forall_cons_iff in Hk as [Hk Hks]. specialize (IH _ Hc Hks). apply one_more with (next := t_mem t (poff k + 8)).
    + unfold poff. lia.
    + apply (rd_letter R Hk).
    + apply (child_of R Hk).
    + apply (rd_ptr R Hk); lia.
    + unfold hasSibling. rewrite (rd_ptr R Hk) by lia. cbn [obind]. destruct ks as [|k2 ks]; cbn [chain map] in *.
      * rewrite Hc. reflexivity.
      * destruct Hc as [-> _]. destruct (N.eqb_spec (poff k2) 0) as [Hz|_]; [unfold poff in Hz; lia|reflexivity].
    + exact IH.
Qed.
Lemma first_sibling i : (i <= length es)%nat -> getSiblingList t (noff i) = Ok (t_mem t (noff i + 8 + 8)).
Proof.
  intros Hi. unfold getSiblingList, SZ_NODE. replace (noff i + 8 + 8) with (noff i + 16) by lia. apply (rd_node R Hi); lia.
Qed.
Lemma parent_of i : (i <= length es)%nat -> getParent t (noff i) = Ok (parent_off es i).
Proof. intros Hi. unfold getParent. rewrite (rd_node R Hi) by lia. now rewrite (r_par R Hi). Qed.
End Walk.

Lemma not_among t c first kids : siblings t first kids -> kids <> [] -> (forall s l, ~ In (s, l, c) kids) -> forall fuel, (length kids <= fuel)%nat -> sibling_to fuel t first c = Throw ERuntime.
Proof.
  induction 1 as [|s l c' next rest Hs _ Hc Hn _ Hr IH]; intros Hne Hin fuel Hf; [contradiction|]. destruct fuel as [|f]; [cbn [length] in Hf; lia|]. cbn [sibling_to]. rewrite Hc. cbn [obind].
  destruct (N.eqb_spec c' c) as [->|_]; [destruct (Hin s l); now left|]. rewrite Hn. cbn [obind]. destruct rest as [|x rest].
  - inversion Hr; subst. reflexivity.
  - assert (Hz : next <> 0) by (inversion Hr; assumption). destruct (N.eqb_spec next 0) as [|_]; [contradiction|]. apply IH; [discriminate|intros s2 l2 H2; apply (Hin s2 l2); now right|cbn [length] in *; lia].
Qed.
Lemma walk_down E t0 ops t offs p : trie_new E = Ok t0 -> ok_ops ops -> insert_all E ops t0 = (t, Ok offs) ->
  p = [] \/ (exists w, In w (words_of ops) /\ prefix_of p w) ->
  exists node first kids, findWord t p = Ok node /\ getWordID t node = Ok (match first_id ops p with Some id => id | None => INVALID_WORDID end) /\
    (p = [] -> node = getRoot t /\ getParent t node = Ok 0) /\
    getSiblingList t node = Ok first /\ siblings t first kids /\ NoDup (map (fun k => snd (fst k)) kids) /\
    (forall l, In l (map (fun k => snd (fst k)) kids) <-> exists w, In w (words_of ops) /\ prefix_of (p ++ [l]) w) /\
    (forall s l c, In (s, l, c) kids -> findWord t (p ++ [l]) = Ok c /\ getParent t c = Ok node /\ getSiblingTo t node c = Ok s) /\
    (kids <> [] -> forall c, (forall s l, ~ In (s, l, c) kids) -> getSiblingTo t node c = Throw ERuntime).
Proof.
  intros Hn Hok Hr Hp. destruct (run_all Hn Hok Hr) as (es & ids & d & H). pose proof (hi_abs H) as A. pose proof (hi_rep H) as R.
  assert (Hw : forall p, (p = [] \/ exists w, In w (words_of ops) /\ prefix_of p w) <-> exists j, awalk es 0 p = Some j).
  { intros q. split.
    - intros [->|(w & Hw & s & ->)]; [now exists O|].
      apply (hist_words H) in Hw. apply in_map_iff in Hw as ([w' id] & Hx & Hin). cbn in Hx. subst w'.
      apply (ta_in A) in Hin. unfold lookup in Hin.
      destruct (awalk es 0 (q ++ s)) as [j|] eqn:Hj; [|discriminate]. now apply awalk_prefix in Hj.
    - intros (j & Hj). destruct (ta_pref A Hj) as [->|(w & id & s & Hin & ->)]; [now left|].
      right. exists (q ++ s). split; [|now exists s]. apply (hist_words H). apply in_map_iff.
      now exists (q ++ s, id). }
  assert (Hlet : forall q j, awalk es 0 q = Some j -> Forall letter_ok q).
  { intros q j Hj. destruct (proj2 (Hw q) (ex_intro _ j Hj)) as [->|(w & Hin & s & ->)]; [constructor|].
    apply in_map_iff in Hin as ([w' id] & Hx & Hin). cbn in Hx. subst w'. unfold ok_ops in Hok. rewrite Forall_forall in Hok. destruct (Hok _ Hin) as [(_ & Hl & _) _]. cbn [fst] in Hl. now apply Forall_app in Hl as [Hl _]. }
  destruct (proj1 (Hw p) Hp) as [i Hi]. pose proof (awalk_bound (Nat.le_0_l (length es)) Hi) as Hb.
  exists (noff i), (t_mem t (noff i + 8 + 8)), (map (three es) (kids es i)).
  assert (Hall : Forall (fun k => (k < length es)%nat) (kids es i)) by (apply Forall_forall; intros k Hk; apply kids_in in Hk; apply Hk).
  assert (Hkid : forall k, In k (kids es i) -> awalk es 0 (p ++ [snd (edge es k)]) = Some (S k)).
  { intros k Hk. apply kids_in in Hk as [Hk Hpar]. rewrite awalk_app, Hi. cbn [awalk]. assert (Hf : find_kid es i (snd (edge es k)) = Some k) by (apply (@find_kid_iff es i _ k (r_wf R)); split; [exact Hk|destruct (edge es k); cbn in *; congruence]). now rewrite Hf. }
  assert (Hmap : map (fun k => snd (fst k)) (map (three es) (kids es i)) = map (fun k => snd (edge es k)) (kids es i)) by (rewrite map_map; reflexivity).
  split; [|split; [|split; [|split; [|split; [|split; [|split; [|split]]]]]]].
  - rewrite (findWord_spec R (Hlet _ _ Hi)), Hi. reflexivity.
  - unfold getWordID. rewrite (rd_id R Hb), first_assoc, <- (hi_assoc H). destruct (assoc d p) as [id|] eqn:Hd.
    + apply (@assoc_in N d p id (ta_nodup A)) in Hd. apply (ta_in A) in Hd. unfold lookup in Hd. rewrite Hi in Hd. cbv zeta in Hd. destruct (nth i ids 0 =? INVALID_WORDID); [discriminate|congruence].
    + destruct (lookup es ids p) as [id|] eqn:Hlk.
      { apply (ta_in A) in Hlk. apply (@assoc_none N d p) in Hd. destruct Hd. apply in_map_iff. now exists (p, id). }
      unfold lookup in Hlk. rewrite Hi in Hlk. cbv zeta in Hlk. destruct (N.eqb_spec (nth i ids 0) INVALID_WORDID) as [->|]; [reflexivity|discriminate].
  - intros ->. cbn [awalk] in Hi. injection Hi as <-. split; [unfold getRoot; now rewrite (r_root R)|]. rewrite (parent_of R Hb). reflexivity.
  - now apply (first_sibling R).
  - apply (chain_siblings R); [now apply (r_chain R)|exact Hall].
  - rewrite Hmap. pose proof (kids_nodup es i) as Hnd. revert Hnd Hkid. generalize (kids es i). clear. intros ks Hnd Hkid. induction Hnd as [|k ks Hk Hnd IH]; cbn [map]; constructor.
    + intros Hx. apply in_map_iff in Hx as (k2 & He & Hk2). pose proof (Hkid k (or_introl eq_refl)) as H1. pose proof (Hkid k2 (or_intror Hk2)) as H2. rewrite He, H1 in H2. injection H2 as <-. contradiction.
    + apply IH. intros k2 Hk2. apply Hkid. now right.
  - intros l. rewrite Hmap, in_map_iff. split.
    + intros (k & <- & Hk). destruct (proj2 (Hw _) (ex_intro _ _ (Hkid k Hk))) as [Hx|Hx]; [now destruct p|exact Hx].
    + intros Hx. destruct (proj1 (Hw _) (or_intror Hx)) as [j Hj]. rewrite awalk_app, Hi in Hj. cbn [awalk] in Hj. destruct (find_kid es i l) as [k|] eqn:Hf; [|discriminate].
      apply find_kid_some in Hf as [Hk He]. exists k. split; [now rewrite He|]. apply kids_in. split; [exact Hk|now rewrite He].
  - intros s l c Hin. apply in_map_iff in Hin as (k & Hthree & Hk). assert (s = poff k /\ l = snd (edge es k) /\ c = noff (S k)) as (-> & -> & ->) by (unfold three in Hthree; repeat split; congruence). clear Hthree. pose proof (Hkid k Hk) as Hj. apply kids_in in Hk as [Hk Hpar]. split; [|split].
    + rewrite (findWord_spec R (Hlet _ _ Hj)), Hj. reflexivity.
    + rewrite (parent_of R) by lia. cbn [parent_off]. now rewrite Hpar.
    + now apply (getSiblingTo_spec R).
  - intros Hne c Hc. unfold getSiblingTo. rewrite (first_sibling R Hb). cbn [obind]. pose proof (kids_len es i) as Hkl. rewrite (fuel_ge R).
    apply (not_among (kids := map (three es) (kids es i))); [apply (chain_siblings R); [now apply (r_chain R)|exact Hall]|exact Hne|exact Hc|rewrite map_length; lia].
Qed.
