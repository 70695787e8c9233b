(** Proofs about OomM: splitting, documents, programs. *)
From Verif Require Import Base TrieM WordM WordP WordQ MapM DoubleM ContM OwnM OwnP OwnQ Spec_Own OomM Spec_Oom OomP OomQ.
Local Open Scope Z_scope.

(** A function whose crash is only an assertion. *)
Lemma sp_ref E A V (f : T A) (o : outcome V) whole the fp leak m (Q : memory -> A -> Prop) (P : memory -> stop -> Prop) (B : crash -> Prop) :
  ref E f o whole the fp leak ->
  (forall m' a, whole a -> (e_ndebug E = false \/ plan m = [] -> o = Ok (the a)) -> live m' = live m + fp a -> quiet m m' -> Q m' a) ->
  (forall m' p, lost leak m m' -> (plan m = [] -> plan m' = [] /\ exists e, p = Thrown e /\ o = Throw e) -> P m' p) ->
  (e_ndebug E = false -> (plan m = [] -> o = Abort) -> B CAbort) -> (o = UB -> B CUndef) -> sp f m Q P B.
Proof.
  intros H HQ HP H1 H2. eapply sp_mono; [apply H| | |]; cbn beta.
  - intros m' a (X1 & X2 & X3 & X4). auto.
  - intros m' p (X1 & X2). auto.
  - intros [] X; [apply H1; apply X|auto|destruct X].
Qed.
(** Copies of a Word, and a new WordList. *)
Lemma copy_made o m (Q : memory -> oword -> Prop) (P : memory -> stop -> Prop) B : whole_w o ->
  (forall m' c, whole_w c -> the_word c = the_word o -> live m' = live m + fp_w c -> quiet m m' -> Q m' c) ->
  (forall m', live m' = live m -> plan m <> [] -> P m' OutOfMemory) -> sp (o_copy o) m Q P B.
Proof.
  intros Ho HQ HP. unfold o_copy, construct. apply sp_bind. eapply sp_mono; [apply (@duplicate_ok o_empty o m P B); [reflexivity|exact Ho]| |auto|auto].
  cbn beta. intros m1 [c [p|]] [H Qc]; cbn [fst snd] in *; change (fp_w o_empty) with 0 in H.
  - apply sp_fail. destruct H as (-> & H1 & H2). apply HP; [lia|exact H1].
  - destruct H as (Wc & Vc & Lc). apply sp_val, HQ; auto. lia.
Qed.
Lemma list_made m (Q : memory -> olist -> Prop) (P : memory -> stop -> Prop) B :
  (forall m', live m' = live m + 1 -> quiet m m' -> Q m' v_new) -> (forall m', live m' = live m -> plan m <> [] -> P m' OutOfMemory) -> sp l_new m Q P B.
Proof. intros HQ HP. unfold l_new. apply sp_bind, sp_alloc; intros m1 L1 P1; [apply sp_val, HQ; auto|apply HP; auto]. Qed.
Section Split.
Variable E : env.
Lemma skip_ok inside chars s : forall f i, (length s < f + i)%nat -> (i <= length s)%nat -> exists j, skip_loop f inside chars s i = Ok j /\ (i <= j <= length s)%nat.
Proof.
  induction f as [|f IH]; intros i Hf Hi; [lia|]. cbn [skip_loop]. unfold text_at. destruct (nth_error s i) as [b|] eqn:Hn.
  - cbn [obind]. destruct (_ && _)%bool eqn:Hb.
    + apply andb_true_iff in Hb as [_ Hb]. apply Nat.ltb_lt in Hb. destruct (IH (S i)) as (j & Hj & H); [lia|lia|]. exists j. split; [exact Hj|lia].
    + exists i. split; [reflexivity|lia].
  - apply nth_error_None in Hn. replace i with (length s) by lia. rewrite Nat.eqb_refl. cbn [obind]. rewrite Nat.ltb_irrefl, andb_false_r. exists (length s). split; [reflexivity|lia].
Qed.
Definition fp_buf (bs : nat) : Z := if Nat.eqb bs 0 then 0 else 1.
Lemma buf_frees bs : frees (if Nat.eqb bs 0 then val tt else free) (fp_buf bs).
Proof. unfold fp_buf. destruct (Nat.eqb bs 0); [apply frees_val|apply frees_free]. Qed.
Lemma l_add_ref l o : whole_l l -> whole_w o -> ref E (l_add l o) (Ok (the_list l ++ [the_word o])) whole_l the_list (fun r => fp_vec fp_w r - fp_vec fp_w l) 0.
Proof. intros Hl Ho. exact (push_ref (Z.le_refl 0) (@copy_ok E) word_frees Hl Ho). Qed.
Lemma split_loop_ok chars s : forall f end_ bs l m, whole_l l -> (end_ <= length s)%nat -> (length s < f + end_)%nat -> sp (o_split_loop E f chars s end_ bs l) m
  (fun m' r => quiet m m' /\ whole_l (fst r) /\ match snd r with
    | None => (e_ndebug E = false \/ plan m = [] -> split_loop E f chars s end_ bs (the_list l) = Ok (the_list (fst r))) /\ live m' = live m - fp_buf bs - fp_list l + fp_list (fst r)
    | Some p => live m - fp_buf bs - fp_list l + fp_list (fst r) <= live m' <= live m - fp_buf bs - fp_list l + fp_list (fst r) + 2 /\ (plan m = [] -> exists e, p = Thrown e /\ split_loop E f chars s end_ bs (the_list l) = Throw e) end)
  (fun _ _ => False)
  (fun c => match c with CAbort => e_ndebug E = false /\ (plan m = [] -> split_loop E f chars s end_ bs (the_list l) = Abort) | _ => False end).
Proof.
  induction f as [|f IH]; intros end_ bs l m Hl He Hf; [lia|]. cbn [o_split_loop split_loop].
  destruct (@skip_ok true chars s (S (length s)) end_) as (b & Hb & Hb1); [lia|lia|]. rewrite Hb. cbn [obind]. apply sp_bind. unfold pure at 1, sp at 1. cbv zeta.
  destruct (Nat.leb_spec (length s) b) as [Hge|Hlt].
  { apply sp_bind. eapply sp_frees; [apply buf_frees|]. intros m1 L1 P1. apply sp_val. cbn [fst snd]. unfold quiet. rewrite P1. split; [auto|]. split; [exact Hl|]. split; [reflexivity|lia]. }
  destruct (@skip_ok false chars s (S (length s)) (S b)) as (e2 & He2 & He3); [lia|lia|]. rewrite He2. cbn [obind]. apply sp_bind. unfold pure at 1, sp at 1.
  set (wl := (e2 - b)%nat) in *. set (bs2 := if Nat.ltb bs (wl + 1) then (wl + 1)%nat else bs) in *.
  assert (Hbs : Nat.ltb bs2 (wl + 1) = false /\ fp_buf bs2 = 1).
  { unfold bs2, fp_buf. destruct (Nat.ltb_spec bs (wl + 1)) as [H|H].
    - split; [apply Nat.ltb_irrefl|]. replace (Nat.eqb (wl + 1) 0) with false by (symmetry; apply Nat.eqb_neq; lia). reflexivity.
    - split; [apply Nat.ltb_ge; lia|]. replace (Nat.eqb bs 0) with false by (symmetry; apply Nat.eqb_neq; lia). reflexivity. }
  destruct Hbs as [-> Hbs]. apply sp_bind.
  match goal with |- sp ?g m ?Q _ _ => assert (Hgo : forall m1, live m1 = live m - fp_buf bs + 1 -> quiet m m1 -> Q m1 (inl tt)) end.
  { intros m1 L1 Q1. cbv beta iota. set (txt := firstn wl (skipn b s)). apply sp_bind, sp_try, sp_bind. eapply sp_ref; [apply (of_text_ref E txt)| | | |].
    - intros m2 w Ww Vw L2 Q2. apply sp_bind, sp_cleanup. eapply sp_ref; [apply (l_add_ref Hl Ww)| | | |].
      + intros m3 l2 Wl V3 L3 Q3. apply sp_bind. eapply sp_frees; [apply word_frees, Ww|]. intros m4 L4 P4. apply sp_val.
        assert (HV : e_ndebug E = false \/ plan m = [] -> word_of_utf8 E txt = Ok (the_word w) /\ the_list l2 = the_list l ++ [the_word w]).
        { unfold quiet in *. intros H. assert (H1 : e_ndebug E = false \/ plan m1 = []) by (destruct H; auto). assert (H2 : e_ndebug E = false \/ plan m2 = []) by (destruct H1; auto). split; [auto|]. specialize (V3 H2). congruence. }
        destruct (Nat.ltb_spec e2 (length s)) as [Hm|Hm].
        * eapply sp_mono; [apply (IH e2 bs2 l2 m4 Wl); lia| |easy|].
          -- cbn beta. intros m5 [r [p|]] (Q5 & W5 & H5); cbn [fst snd] in *; unfold quiet in *; rewrite P4 in *; rewrite Hbs in H5; (split; [auto|]; split; [exact W5|]).
             ++ destruct H5 as [H5 H6]. split; [unfold fp_list in *; lia|]. intros H. destruct (HV (or_intror H)) as [-> V2]. cbn [obind]. rewrite <- V2. auto.
             ++ destruct H5 as [H5 H6]. split; [|unfold fp_list in *; lia]. intros H. destruct (HV H) as [-> V2]. cbn [obind]. rewrite <- V2. apply H5. destruct H; auto.
          -- intros []; try easy. intros [H5 H6]. split; [exact H5|]. intros H. destruct (HV (or_intror H)) as [-> V2]. cbn [obind]. rewrite <- V2. apply H6. rewrite P4. unfold quiet in *. auto.
        * apply sp_bind, sp_free. intros m5 L5 P5. apply sp_val. cbn [fst snd]. unfold quiet in *. rewrite P5, P4. split; [auto|]. split; [exact Wl|]. split; [|unfold fp_list in *; lia].
          intros H. destruct (HV H) as [-> V2]. cbn [obind]. now rewrite <- V2.
      + intros m3 p L3 P3. eapply sp_frees; [apply word_frees, Ww|]. intros m4 L4 P4. apply sp_bind.
        assert (Hp : plan m = [] -> False). { intros H. unfold quiet in *. destruct (P3 (Q2 (Q1 H))) as (_ & e & _ & Hx). discriminate. }
        unfold lost in L3. match goal with |- sp ?g _ _ _ _ => assert (Hg : exists k, 0 <= k <= 1 /\ frees g k) by (destruct p as [|[]]; [exists 0|exists 0|exists 0|exists 1]; (split; [lia|]); auto using frees_val, frees_free) end.
        destruct Hg as (k & Hk & Hg). eapply sp_frees; [exact Hg|]. intros m5 L5 P5. apply sp_val. cbn [fst snd]. unfold quiet. split; [intros H; destruct (Hp H)|]. split; [exact Hl|]. split; [|intros H; destruct (Hp H)]. 
        assert (0 <= fp_w w) by (unfold fp_w; destruct (o_text w); lia). lia.
      + intros H1 H. split; [exact H1|]. intros H0. unfold quiet in *. specialize (H (Q2 (Q1 H0))). discriminate.
      + discriminate.
    - intros m2 p L2 P2. apply sp_bind.
      match goal with |- sp ?g _ _ _ _ => assert (Hg : exists k, 0 <= k <= 1 /\ frees g k) by (destruct p as [|[]]; [exists 0|exists 0|exists 0|exists 1]; (split; [lia|]); auto using frees_val, frees_free) end.
      destruct Hg as (k & Hk & Hg). eapply sp_frees; [exact Hg|]. intros m3 L3 P3. apply sp_val. cbn [fst snd]. unfold quiet in *. rewrite P3. unfold lost in L2.
      split; [intros H; apply P2, Q1, H|]. split; [exact Hl|]. split; [lia|]. intros H. destruct (P2 (Q1 H)) as (_ & e & -> & ->). exists e. split; reflexivity.
    - intros H1 H2. split; [exact H1|]. intros H. rewrite H2; [reflexivity|]. apply Q1, H.
    - intros H. pose proof (internal_cases E txt) as [[w Hw]|Hw]; unfold word_of_utf8 in H; rewrite Hw in H; cbn [obind] in H; [|discriminate]. pose proof (validate_kind E w) as Hk. now rewrite H in Hk. }
  destruct (Nat.ltb bs (wl + 1)) eqn:Hlt2.
  - apply sp_bind. eapply sp_frees; [apply buf_frees|]. intros m1 L1 P1. apply sp_try, sp_alloc; intros m2 L2 P2.
    + apply Hgo; [lia|]. unfold quiet. rewrite <- P1. exact P2.
    + rewrite P1 in P2. apply sp_val. cbn [fst snd]. unfold quiet. split; [easy|]. split; [exact Hl|]. split; [lia|]. easy.
  - apply sp_val. apply Hgo; [|red; auto]. fold bs2 in Hbs. unfold bs2 in Hbs. lia.
Qed.
Lemma split_ref s : ref E (o_split E s) (splitToWords E s) whole_l the_list fp_list 2.
Proof.
  intros m. unfold o_split, splitToWords, split. apply sp_bind, list_made; intros m1 L1 P1; [|unfold lost; split; [lia|easy]].
  apply sp_bind. eapply sp_mono; [apply (@split_loop_ok whitespaceLetters s (S (length s)) 0 0 v_new m1); [constructor|lia|lia]| |easy|].
  - cbn beta. change (the_list v_new) with (@nil word). change (fp_buf 0) with 0. change (fp_list v_new) with 1. intros m2 [r [p|]] (Q2 & W2 & H2); cbn [fst snd] in *.
    + apply sp_bind. eapply sp_frees; [apply list_frees, W2|]. intros m3 L3 P3. apply sp_fail. destruct H2 as [H2 H3]. unfold lost. split; [lia|]. intros H. unfold quiet in *. rewrite P3. auto.
    + apply sp_val. destruct H2 as [H2 H3]. split; [exact W2|]. split; [|split; [lia|unfold quiet in *; auto]]. unfold quiet in *. intros H. apply H2. destruct H; auto.
  - change (the_list v_new) with (@nil word). intros []; try easy. intros [H1 H2]. split; [exact H1|]. unfold quiet in *. auto.
Qed.
End Split.

Section Docs.
Variable E : env.
Definition the_node (t : oword * olist) : word * wordlist := (the_word (fst t), the_list (snd t)).
(** A step that cannot crash, on the way to a value that is known. *)
Lemma sp_ok A V (f : T A) (v : V) whole the fp leak m (Q : memory -> A -> Prop) (P : memory -> stop -> Prop) (B : crash -> Prop) :
  ref E f (Ok v) whole the fp leak ->
  (forall m' a, whole a -> (e_ndebug E = false \/ plan m = [] -> v = the a) -> live m' = live m + fp a -> quiet m m' -> Q m' a) ->
  (forall m' p, lost leak m m' -> plan m <> [] -> P m' p) ->
  (e_ndebug E = false -> plan m <> [] -> B CAbort) -> sp f m Q P B.
Proof.
  intros H HQ HP H1. eapply sp_ref; [exact H| | | |discriminate].
  - intros m' a X1 X2 X3 X4. apply HQ; auto. intros X. specialize (X2 X). congruence.
  - intros m' p X1 X2. apply HP; [exact X1|]. intros X. destruct (X2 X) as (_ & e & _ & Y). discriminate.
  - intros X1 X2. apply H1; [exact X1|]. intros X. specialize (X2 X). discriminate.
Qed.
Ltac ndm := unfold quiet in *; match goal with H : _ \/ _ |- _ => destruct H; auto end.
Lemma node_ref t : whole_n t -> ref E (node_copy t) (Ok (the_node t)) whole_n the_node fp_node 1.
Proof.
  intros [H1 H2] m. unfold node_copy. apply sp_bind, sp_alloc; intros m1 L1 P1; [|split; [unfold lost; lia|easy]].
  apply sp_bind, sp_cleanup. eapply sp_ok; [apply (copy_ref E H1)| | |].
  - intros m2 k Wk Vk L2 Q2. apply sp_bind, sp_cleanup. eapply sp_ok; [apply (l_copy_ref E H2)| | |].
    + intros m3 l Wl Vl L3 Q3. apply sp_val. split; [split; assumption|]. split; [|split; [unfold fp_node; cbn [fst snd]; lia|unfold quiet in *; auto]].
      intros H. unfold the_node. cbn [fst snd]. rewrite Vk, Vl; [reflexivity|ndm|ndm].
    + intros m3 p L3 P3. eapply sp_frees; [apply frees_bind; [apply word_frees, Wk|apply frees_free]|]. intros m4 L4 P4. unfold lost in *. split; [lia|]. intros H. destruct P3. unfold quiet in *. auto.
    + intros X Y. split; [exact X|]. intros H. destruct Y. unfold quiet in *. auto.
  - intros m2 p L2 P2. apply sp_free. intros m3 L3 P3. unfold lost in *. split; [lia|]. intros H. destruct P2. auto.
  - intros X Y. split; [exact X|]. intros H. destruct Y. auto.
Qed.
Lemma doc_ref d : whole_d d -> ref E (d_copy d) (Ok (the_doc d)) whole_d the_doc fp_doc 2.
Proof.
  intros Hd m. unfold d_copy. apply sp_bind, sp_alloc; intros m1 L1 P1; [|split; [unfold lost; lia|easy]].
  apply sp_bind. eapply sp_ok; [apply (copy_all_ref node_ref node_frees Hd)| | |].
  - intros m2 ts W2 V2 L2 Q2. apply sp_val. split; [exact W2|]. split; [|split; [unfold fp_doc; cbn [od_texts]; lia|unfold quiet in *; auto]].
    intros H. unfold the_doc. cbn [od_id od_texts]. change (fun t : oword * olist => (the_word (fst t), the_list (snd t))) with the_node. rewrite V2; [reflexivity|ndm].
  - intros m2 p L2 P2. unfold lost in *. split; [lia|]. intros H. destruct P2. auto.
  - intros X Y. split; [exact X|]. intros H. destruct Y. auto.
Qed.
Lemma d_new_ref id : ref E (d_new id) (Ok (doc_new id)) whole_d the_doc fp_doc 0.
Proof. intros m. unfold d_new. apply sp_bind, sp_alloc; intros m1 L1 P1; [|split; [unfold lost; lia|easy]]. apply sp_val. repeat split; auto. constructor. Qed.
Lemma c_new_ref : ref E c_new (Ok []) whole_c (fun c => map the_doc (v_elems c)) fp_corpus 0.
Proof. intros m. unfold c_new. apply sp_bind, sp_alloc; intros m1 L1 P1; [|split; [unfold lost; lia|easy]]. apply sp_val. repeat split; auto. constructor. Qed.
Lemma c_add_ref c d : whole_c c -> whole_d d ->
  ref E (c_add c d) (Ok (map the_doc (v_elems c) ++ [the_doc d])) whole_c (fun c => map the_doc (v_elems c)) (fun r => fp_vec fp_doc r - fp_vec fp_doc c) 2.
Proof. intros Hc Hd. exact (push_ref (lk := 2) ltac:(lia) doc_ref doc_frees Hc Hd). Qed.
Lemma l_at_ref l i : whole_l l -> ref E (l_at l i) (wl_at (the_list l) i) whole_w the_word fp_w 0.
Proof.
  intros Hl m. unfold l_at, wl_at, at_or_throw, the_list. rewrite map_length. destruct (_ <=? _)%N.
  { apply sp_bind. unfold pure, sp. split; [unfold lost; lia|]. intros H. split; [exact H|]. eexists. split; reflexivity. }
  rewrite nth_error_map. destruct (nth_error (v_elems l) (N.to_nat i)) as [o|] eqn:Hn; cbn [option_map].
  - apply sp_bind. unfold pure, sp at 1. apply copy_ref. unfold whole_l in Hl. rewrite Forall_forall in Hl. apply Hl. exact (nth_error_In _ _ Hn).
  - apply sp_bind. unfold pure, sp. reflexivity.
Qed.
Lemma keys_val ts : Forall whole_n ts -> forall m, t_map (fun t : oword * olist => o_read (fst t)) ts m = (m, Val (map (fun t => the_word (fst t)) ts)).
Proof.
  induction 1 as [|t ts [Ht _] Hts IH]; intros m; [reflexivity|]. cbn [t_map map]. unfold tbind. rewrite (read_val Ht). unfold val at 1. rewrite IH. reflexivity.
Qed.
Lemma ins_map A C (f : A -> C) i x l : map f (ins i x l) = ins i (f x) (map f l).
Proof. revert i. induction l as [|y l IH]; intros [|i]; cbn; try reflexivity. now rewrite IH. Qed.
Lemma upd_map A C (f : A -> C) i x l : map f (upd i x l) = upd i (f x) (map f l).
Proof. revert i. induction l as [|y l IH]; intros [|i]; cbn; try reflexivity. now rewrite IH. Qed.
Lemma ins_Forall A (W : A -> Prop) i x l : W x -> Forall W l -> Forall W (ins i x l).
Proof. intros Hx Hl. revert i. induction Hl as [|y l Hy Hl IH]; intros [|i]; cbn; auto. Qed.
Lemma upd_Forall A (W : A -> Prop) i x l : W x -> Forall W l -> Forall W (upd i x l).
Proof. intros Hx Hl. revert i. induction Hl as [|y l Hy Hl IH]; intros [|i]; cbn; auto. Qed.
Lemma ins_sum A (fp : A -> Z) i x l : sum fp (ins i x l) = fp x + sum fp l.
Proof. revert i. induction l as [|y l IH]; intros [|i]; cbn [ins]; rewrite ?sum_cons; try reflexivity. rewrite IH. lia. Qed.
Lemma upd_sum A (fp : A -> Z) i x y l : nth_error l i = Some y -> sum fp (upd i x l) = sum fp l - fp y + fp x.
Proof. revert i. induction l as [|z l IH]; intros [|i] H; try discriminate H; cbn [upd]; rewrite ?sum_cons; cbn in H; [injection H as ->; lia|]. rewrite (IH _ H). lia. Qed.
Lemma key_found k ks : snd (key_at k ks) = true -> In k ks.
Proof.
  induction ks as [|x ks IH]; cbn [key_at]; [discriminate|]. destruct (wltb k x) eqn:H1; [discriminate|]. destruct (wltb x k) eqn:H2; [|left; symmetry; now apply WordQ.wlt_total].
  destruct (key_at k ks); cbn in *. auto.
Qed.
Lemma addText_ok d o l m P B : whole_d d -> whole_w o -> whole_l l -> sp (d_addText d o l) m
  (fun m' r => quiet m m' /\ match snd r with
    | None => whole_d (fst r) /\ the_doc (fst r) = fst (doc_addText (the_word o) (the_list l) (the_doc d)) /\ live m' = live m - fp_doc d + fp_doc (fst r)
    | Some p => plan m <> [] /\ (~ In (the_word o) (map fst (d_texts (the_doc d))) -> whole_d (fst r) /\ live m' = live m - fp_doc d + fp_doc (fst r)) end) P B.
Proof.
  intros Hd Ho Hl. unfold d_addText. apply sp_bind. unfold sp at 1. rewrite (keys_val Hd). rewrite (read_val Ho). apply sp_bind, sp_val.
  set (ks := map (fun t : oword * olist => the_word (fst t)) (od_texts d)).
  assert (Hset : forall ls, mp_set wltb (the_word o) ls (d_texts (the_doc d)) = let (i, b) := key_at (the_word o) ks in
    if b then match nth_error (map the_node (od_texts d)) i with Some t => upd i (fst t, ls) (map the_node (od_texts d)) | None => map the_node (od_texts d) end else ins i (the_word o, ls) (map the_node (od_texts d))).
  { intros ls. rewrite set_at. unfold the_doc. cbn [d_texts]. rewrite map_map. reflexivity. }
  pose proof (@key_bound (the_word o) ks) as Hkb. pose proof (@key_found (the_word o) ks) as Hkf. replace (map fst (d_texts (the_doc d))) with ks by (unfold the_doc, ks; cbn [d_texts]; now rewrite map_map).
  destruct (key_at (the_word o) ks) as [i [|]] eqn:Hk; cbn [fst snd] in Hkb.
  - specialize (Hkb eq_refl). unfold ks in Hkb. rewrite map_length in Hkb. destruct (nth_error (od_texts d) i) as [t|] eqn:Hn; [|apply nth_error_None in Hn; lia].
    assert (Ht : whole_n t) by (unfold whole_d in Hd; rewrite Forall_forall in Hd; exact (Hd _ (nth_error_In _ _ Hn))). destruct Ht as [Ht1 Ht2].
    apply sp_bind. eapply sp_mono; [apply (@v_assign_ok (snd t) (v_elems l) m P B Ht2 Hl)| |auto|auto]. cbn beta. intros m1 [r [p|]] [Q1 H1]; cbn [fst snd] in *; apply sp_val; cbn [fst snd]; (split; [exact Q1|]).
    + split; [tauto|]. intros Hin. destruct (Hin (Hkf eq_refl)).
    + destruct H1 as (W1 & V1 & L1). split; [apply upd_Forall; [split; assumption|exact Hd]|]. split.
      * unfold doc_addText. cbn [fst]. rewrite Hset. rewrite nth_error_map, Hn. cbn [option_map]. unfold the_doc. cbn [od_id od_texts d_id].
        change (fun t : oword * olist => (the_word (fst t), the_list (snd t))) with the_node. rewrite upd_map. unfold the_node at 1 4. cbn [fst snd]. rewrite V1. reflexivity.
      * unfold fp_doc. cbn [od_texts]. rewrite (upd_sum fp_node _ Hn). change (fp_node (fst t, r)) with (fp_w (fst t) + fp_list r + 1). assert (Hx : fp_node t = fp_w (fst t) + fp_list (snd t) + 1) by reflexivity. unfold fp_list in *. lia.
  - apply sp_bind, sp_try, sp_bind, sp_alloc; intros m1 L1 P1.
    2: { apply sp_val. cbn [fst snd]. split; [red; easy|]. split; [exact P1|]. intros _. split; [exact Hd|lia]. }
    apply sp_bind, sp_cleanup, copy_made; [exact Ho| |].
    + intros m2 k Wk Vk L2 Q2. apply sp_bind, sp_cleanup, list_made; intros m3 L3 P3.
      * apply sp_val. cbv iota beta. apply sp_bind. cbn [snd fst]. eapply sp_mono; [apply (@v_assign_ok v_new (v_elems l) m3 P B); [constructor|exact Hl]| |auto|auto]. cbn beta.
        change (fp_vec fp_w v_new) with 0. intros m4 [r [p|]] [Q4 H4]; cbn [fst snd] in *; apply sp_val; cbn [fst snd]; unfold quiet in *; (split; [auto|]).
        -- destruct H4 as (_ & H4 & H5). split; [intros H; apply H4; auto|]. intros _. destruct (H5 eq_refl) as [-> L4]. split; [apply ins_Forall; [split; [assumption|constructor]|exact Hd]|].
           unfold fp_doc. cbn [od_texts]. rewrite ins_sum. change (fp_node (k, v_new)) with (fp_w k + 1 + 1). unfold olist in *. lia.
        -- destruct H4 as (W4 & V4 & L4). split; [apply ins_Forall; [split; assumption|exact Hd]|]. split.
           ++ unfold doc_addText. cbn [fst]. rewrite Hset. unfold the_doc. cbn [od_id od_texts d_id].
              change (fun t : oword * olist => (the_word (fst t), the_list (snd t))) with the_node. rewrite ins_map. unfold the_node at 1. cbn [fst snd]. rewrite V4, Vk. reflexivity.
           ++ unfold fp_doc. cbn [od_texts]. rewrite ins_sum. change (fp_node (k, r)) with (fp_w k + fp_list r + 1). unfold fp_list. unfold olist in *. lia.
      * eapply sp_frees; [apply frees_bind; [apply word_frees, Wk|apply frees_free]|]. intros m4 L4 P4. apply sp_val. cbn [fst snd]. unfold quiet in *. split; [intros H; destruct P3; auto|]. split; [intros H; destruct P3; auto|]. intros _. split; [exact Hd|lia].
    + intros m2 L2 P2. apply sp_free. intros m3 L3 P3. apply sp_val. cbn [fst snd]. unfold quiet in *. split; [intros H; destruct P2; auto|]. split; [intros H; destruct P2; auto|]. intros _. split; [exact Hd|lia].
Qed.
Lemma addUtf8_ok d o s m : whole_d d -> whole_w o -> sp (d_addUtf8 E d o s) m
  (fun m' r => quiet m m' /\ match snd r with
    | None => whole_d (fst r) /\ (e_ndebug E = false \/ plan m = [] -> exists ws, splitToWords E s = Ok ws /\ the_doc (fst r) = fst (doc_addText (the_word o) ws (the_doc d))) /\
      live m' = live m - fp_doc d + fp_doc (fst r)
    | Some p => (plan m = [] -> exists e, p = Thrown e /\ splitToWords E s = Throw e) /\
      (~ In (the_word o) (map fst (d_texts (the_doc d))) -> whole_d (fst r) /\ live m - fp_doc d <= live m' - fp_doc (fst r) <= live m - fp_doc d + 2) end)
  (fun _ _ => False) (fun c => match c with CAbort => e_ndebug E = false /\ (plan m = [] -> splitToWords E s = Abort) | CUndef => splitToWords E s = UB | CFuel => False end).
Proof.
  intros Hd Ho. unfold d_addUtf8. apply sp_bind, sp_try. eapply sp_ref; [apply (split_ref E s)| | | |].
  - intros m1 l Wl Vl L1 Q1. apply sp_bind. eapply sp_mono; [apply (@addText_ok d o l m1 (fun _ _ => False) (fun _ => False) Hd Ho Wl)| |easy|easy]. cbn beta.
    intros m2 [r e] [Q2 H2]. apply sp_bind. eapply sp_frees; [apply list_frees, Wl|]. intros m3 L3 P3. apply sp_val. cbn [fst snd] in *. unfold quiet in *. rewrite P3. split; [auto|].
    destruct e as [p|].
    + destruct H2 as [H2 H4]. split; [intros H; destruct H2; auto|]. intros Hin. destruct (H4 Hin) as [W2 L2]. split; [exact W2|lia].
    + destruct H2 as (W2 & V2 & L2). split; [exact W2|]. split; [|lia]. intros H. exists (the_list l). auto.
  - intros m1 p L1 P1. apply sp_val. cbn [fst snd]. unfold quiet. split; [intros H; apply P1, H|]. split; [intros H; apply P1, H|]. intros _. split; [exact Hd|]. unfold lost in L1. lia.
  - auto.
  - auto.
Qed.
End Docs.
