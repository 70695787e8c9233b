(** Whole insertion histories. *)
From Verif Require Import Base TrieM TrieA TrieP TrieP2 TrieD Spec_Hist.
From Coq Require Import ZifyBool ZifyN ZifyNat.
Local Open Scope N_scope.
Ltac Zify.zify_post_hook ::= Z.to_euclidean_division_equations.

Lemma insertable_tword w : insertable w <-> tword w.
Proof. reflexivity. Qed.

Definition at_node (es : edges) (w : word) (off : N) : Prop :=
  exists j, awalk es 0 w = Some j /\ off = noff j.

Lemma at_node_mono es x w off : wf_edges (es ++ x) -> at_node es w off -> at_node (es ++ x) w off.
Proof. intros H (j & Hj & ->). exists j. split; [now apply awalk_mono|reflexivity]. Qed.

(** State after the operations [ops] were done and returned [offs]. *)
Record hist (t : trie) (es : edges) (ids : list N) (d ops : list (word * N)) (offs : list N) : Prop := {
  hi_rep : rep t es ids (N.of_nat (length d));
  hi_abs : tr_abs es ids d;
  hi_assoc : forall w, assoc d w = assoc ops w;
  hi_offs : Forall2 (fun op off => at_node es (fst op) off) ops offs;
  hi_len : N.of_nat (length es) <= letters_of ops
}.

Lemma Forall2_impl (A B : Type) (P Q : A -> B -> Prop) a b :
  (forall x y, P x y -> Q x y) -> Forall2 P a b -> Forall2 Q a b.
Proof. intros H. induction 1; constructor; auto. Qed.

Lemma assoc_app B (a b : list (word * B)) w :
  assoc (a ++ b) w = match assoc a w with Some i => Some i | None => assoc b w end.
Proof.
  unfold assoc. induction a as [|[v i] a IH]; [reflexivity|].
  cbn [app find fst]. destruct (weqb w v); [reflexivity|exact IH].
Qed.
Lemma assoc1 B (v : word) (i : B) w : assoc [(v, i)] w = if weqb w v then Some i else None.
Proof. unfold assoc. cbn. destruct (weqb w v); reflexivity. Qed.
Lemma assoc_some_in B (d : list (word * B)) w i : assoc d w = Some i -> In (w, i) d.
Proof.
  unfold assoc. destruct (find _ d) as [[v k]|] eqn:Hf; [|discriminate]. cbn. intros [= ->].
  apply find_some in Hf as [Hin Hw]. cbn in Hw. destruct (weqb_spec w v); [now subst|discriminate].
Qed.

Lemma letters_app a b : letters_of (a ++ b) = letters_of a + letters_of b.
Proof. unfold letters_of. induction a as [|x a IH]; cbn [app fold_right]; lia. Qed.

Lemma hist_step E t es ids d ops offs w id :
  hist t es ids d ops offs -> tword w -> id <> INVALID_WORDID ->
  (exists t' off es' ids' d' x, insertWord E w id t = (t', Ok off) /\ es' = es ++ x
     /\ hist t' es' ids' d' (ops ++ [(w, id)]) (offs ++ [off]))
  \/ (exists t', insertWord E w id t = (t', Throw ERuntime) /\ t_mapped t' = false
      /\ exists s, 1024 < s /\ s <= 72 + 64 * letters_of (ops ++ [(w, id)]) /\ grow_ok E (u32 s) = false)
  \/ (exists t', insertWord E w id t = (t', Abort) /\ e_ndebug E = false
      /\ exists i, In (w, i) ops /\ i <> id).
Proof.
  intros H Hw Hid. pose proof (r_wf (hi_rep H)) as Hwf.
  assert (Hlen : forall es' j, aext es 0 w = (es', j) ->
            N.of_nat (length es') <= letters_of (ops ++ [(w, id)])).
  { intros es' j Hax. pose proof (aext_len w es 0). rewrite Hax in *. cbn [fst] in *.
    pose proof (hi_len H). rewrite letters_app. cbn [letters_of fold_right fst].
    unfold letters_of in *. lia. }
  destruct (assoc d w) as [i|] eqn:Ha.
  - destruct (insert_old E id (hi_rep H) (hi_abs H) Hw Ha) as (j & t' & Hwk & He & R').
    destruct ((i =? id) || e_ndebug E) eqn:Hc.
    + left. exists t', (noff j), es, ids, d, []. rewrite app_nil_r. split; [exact He|].
      split; [reflexivity|]. constructor; try assumption.
      * apply (hi_abs H).
      * intros v. rewrite assoc_app, assoc1, <- (hi_assoc H).
        destruct (assoc d v) eqn:Hv; [reflexivity|]. destruct (weqb_spec v w); [congruence|reflexivity].
      * apply Forall2_app; [apply (hi_offs H)|]. constructor; [|constructor]. now exists j.
      * apply (@Hlen es j). now apply aext_walked.
    + right. right. exists t'. split; [exact He|]. destruct (e_ndebug E); [lia|].
      split; [reflexivity|]. exists i. split; [|lia]. rewrite (hi_assoc H) in Ha. now apply assoc_some_in.
  - destruct (insert_new E (hi_rep H) (hi_abs H) Hw Hid Ha)
      as (es' & j & t' & Hax & [(He & ids' & R' & A')|(He & Hm & Hlt & s & Hs1 & Hs2 & Hs3)]).
    + destruct Hw as (Hne & Hlw & Hlow).
      destruct (aext_spec Hwf (Nat.le_0_l _) Hlw Hax) as (Hwf' & (x & Hx) & Hwk & Hj).
      left. exists t', (noff j), es', ids', (d ++ [(w, id)]), x. split; [exact He|]. split; [exact Hx|].
      constructor; try assumption.
      * intros v. now rewrite !assoc_app, (hi_assoc H).
      * apply Forall2_app; [|constructor; [now exists j|constructor]].
        eapply Forall2_impl; [|apply (hi_offs H)]. cbn. intros op off Hat. subst es'. now apply at_node_mono.
      * now apply (Hlen es' j).
    + right. left. exists t'. split; [exact He|]. split; [exact Hm|].
      exists s. specialize (Hlen _ _ Hax). split; [exact Hs1|]. split; [lia|exact Hs3].
Qed.


Lemma hist_run E ops2 : forall t es ids d ops offs,
  hist t es ids d ops offs ->
  Forall (fun op => tword (fst op) /\ snd op <> INVALID_WORDID) ops2 ->
  (exists t' offs2 es' ids' d' x, insert_all E ops2 t = (t', Ok offs2) /\ es' = es ++ x
     /\ hist t' es' ids' d' (ops ++ ops2) (offs ++ offs2))
  \/ (exists t', insert_all E ops2 t = (t', Throw ERuntime) /\ t_mapped t' = false
      /\ exists s, 1024 < s /\ s <= 72 + 64 * letters_of (ops ++ ops2) /\ grow_ok E (u32 s) = false)
  \/ (exists t', insert_all E ops2 t = (t', Abort) /\ e_ndebug E = false /\ id_conflict (ops ++ ops2)).
Proof.
  induction ops2 as [|[w id] r IH]; intros t es ids d ops offs H Hall.
  - left. exists t, [], es, ids, d, []. rewrite !app_nil_r. auto.
  - apply Forall_cons_iff in Hall as [[Hw Hid] Hr]. cbn [fst snd] in *.
    cbn [insert_all].
    destruct (hist_step E H Hw Hid)
      as [(t1 & off & es1 & ids1 & d1 & x & He & Hx & H1)|[(t1 & He & Hm & s & Hs)|(t1 & He & Hnd & i & Hi)]].
    + erewrite mbind_ok by exact He.
      destruct (IH _ _ _ _ _ _ H1 Hr)
        as [(t2 & offs2 & es2 & ids2 & d2 & x2 & He2 & Hx2 & H2)|[(t2 & He2 & Hm2 & s & Hs1 & Hs2 & Hs3)|(t2 & He2 & Hnd & Hc)]].
      * left. exists t2, (off :: offs2), es2, ids2, d2, (x ++ x2). erewrite mbind_ok by exact He2.
        rewrite <- !app_assoc in H2. cbn [app] in H2.
        split; [reflexivity|]. split; [subst; now rewrite app_assoc|exact H2].
      * right. left. exists t2. erewrite mbind_throw by exact He2. split; [reflexivity|]. split; [exact Hm2|].
        exists s. rewrite <- app_assoc in Hs2. auto.
      * right. right. exists t2. unfold mbind at 1. rewrite He2. split; [reflexivity|].
        split; [exact Hnd|]. now rewrite <- app_assoc in Hc.
    + right. left. exists t1. erewrite mbind_throw by exact He. split; [reflexivity|]. split; [exact Hm|].
      exists s. destruct Hs as (Hs1 & Hs2 & Hs3). split; [exact Hs1|]. split; [|exact Hs3].
      rewrite letters_app in *. cbn [letters_of fold_right fst] in *. unfold letters_of in *. lia.
    + right. right. exists t1. unfold mbind at 1. rewrite He. split; [reflexivity|]. split; [exact Hnd|].
      destruct Hi as [Hin Hne]. exists w, i, id. repeat split; try assumption.
      * apply in_or_app. now left.
      * apply in_or_app. right. now left.
Qed.

Lemma hist_new E t : trie_new E = Ok t -> hist t [] [INVALID_WORDID] [] [] [].
Proof.
  intros He. destruct (grow_ok E 1024) eqn:Hg.
  2:{ unfold trie_new in He. rewrite Hg in He. discriminate. }
  destruct (trie_new_spec Hg) as (t' & He' & R). assert (t' = t) by congruence. subst t'.
  constructor.
  - exact R.
  - destruct (trie_new_inv He) as (es & ids & R' & A').
    constructor; [constructor| |].
    + intros w id. cbn. split; [tauto|]. unfold lookup. destruct w as [|l r]; cbn; discriminate.
    + intros j [|l r] Hp; [now left|discriminate].
  - reflexivity.
  - constructor.
  - cbn. lia.
Qed.

Definition ok_ops (ops : list (word * N)) : Prop :=
  Forall (fun op => insertable (fst op) /\ snd op <> INVALID_WORDID) ops.

Lemma run_all E t0 ops t offs : trie_new E = Ok t0 -> ok_ops ops ->
  insert_all E ops t0 = (t, Ok offs) -> exists es ids d, hist t es ids d ops offs.
Proof.
  intros Hn Hok Hr.
  destruct (hist_run E (hist_new Hn) Hok)
    as [(t' & offs2 & es' & ids' & d' & x & He & _ & H)|[(t' & He & _)|(t' & He & _)]]; try congruence.
  rewrite Hr in He. injection He as <- <-. eauto.
Qed.

Lemma hist_words t es ids d ops offs : hist t es ids d ops offs ->
  forall w, In w (words_of d) <-> In w (words_of ops).
Proof.
  intros H w. unfold words_of.
  assert (Hx : forall B (a : list (word * B)), In w (map fst a) <-> assoc a w <> None).
  { intros B a. rewrite assoc_none. split; [tauto|]. intros Hn.
    destruct (in_dec (list_eq_dec N.eq_dec) w (map fst a)); tauto. }
  now rewrite !Hx, (hi_assoc H).
Qed.

Lemma hist_hasWord t es ids d ops offs w : hist t es ids d ops offs -> Forall nonnul w ->
  hasWord t w = Ok (match assoc ops w with Some _ => true | None => false end).
Proof.
  intros H Hw. rewrite <- (hi_assoc H). apply TR_hasWord; [|assumption].
  exists es, ids. split; [apply (hi_rep H)|apply (hi_abs H)].
Qed.

(** C01 *)
Lemma membership E t0 ops t offs w : trie_new E = Ok t0 -> ok_ops ops ->
  insert_all E ops t0 = (t, Ok offs) -> Forall nonnul w ->
  (In w (words_of ops) /\ hasWord t w = Ok true) \/ (~ In w (words_of ops) /\ hasWord t w = Ok false).
Proof.
  intros Hn Hok Hr Hw. destruct (run_all Hn Hok Hr) as (es & ids & d & H).
  rewrite (hist_hasWord H Hw). destruct (assoc ops w) as [i|] eqn:Ha.
  - left. split; [|reflexivity]. apply assoc_some_in in Ha. apply in_map_iff. now exists (w, i).
  - right. split; [|reflexivity]. now apply assoc_none.
Qed.

(** C04 *)
Lemma NoDup_same_len (A : Type) (a b : list A) : NoDup a -> NoDup b -> (forall x, In x a <-> In x b) -> length a = length b.
Proof. intros Ha Hb H. apply Nat.le_antisymm; apply NoDup_incl_length; try assumption; intros x Hx; now apply H. Qed.

Lemma words_count E t0 ops t offs ws : trie_new E = Ok t0 -> ok_ops ops ->
  insert_all E ops t0 = (t, Ok offs) ->
  NoDup ws -> (forall w, In w ws <-> In w (words_of ops)) ->
  numWords t = Ok (N.of_nat (length ws)).
Proof.
  intros Hn Hok Hr Hnd Hws. destruct (run_all Hn Hok Hr) as (es & ids & d & H).
  erewrite TR_numWords by (exists es, ids; split; [apply (hi_rep H)|apply (hi_abs H)]).
  do 2 f_equal. rewrite <- (map_length fst d). apply NoDup_same_len; [apply (ta_nodup (hi_abs H))|assumption|].
  intros w. rewrite Hws. apply (hist_words H).
Qed.

Lemma rep_numNodes t es ids nw : rep t es ids nw -> numNodes t = Ok (1 + N.of_nat (length es)).
Proof.
  intros R. unfold numNodes. pose proof (rep_len R).
  rewrite rd_ok by (apply (rep_mapped R) || (unfold H_NODES; lia)).
  change H_NODES with 12. now rewrite (r_nodes R).
Qed.

Lemma awalk_prefix es p s j : awalk es 0 (p ++ s) = Some j -> exists i, awalk es 0 p = Some i.
Proof. rewrite awalk_app. destruct (awalk es 0 p) as [i|]; [now exists i|discriminate]. Qed.

Lemma nodes_count E t0 ops t offs ps : trie_new E = Ok t0 -> ok_ops ops ->
  insert_all E ops t0 = (t, Ok offs) ->
  NoDup ps -> (forall p, In p ps <-> p = [] \/ exists w, In w (words_of ops) /\ prefix_of p w) ->
  numNodes t = Ok (N.of_nat (length ps)).
Proof.
  intros Hn Hok Hr Hnd Hps. destruct (run_all Hn Hok Hr) as (es & ids & d & H).
  pose proof (hi_abs H) as A. pose proof (hi_rep H) as R.
  rewrite (rep_numNodes R).
  assert (Hw : forall p, In p ps <-> exists j, awalk es 0 p = Some j).
  { intros p. rewrite Hps. split.
    - intros [->|(w & Hw & s & ->)]; [now exists O|].
      apply (hist_words H) in Hw. apply in_map_iff in Hw as ([w' id] & Hx & Hin). cbn in Hx. subst w'.
      apply (ta_in A) in Hin. unfold lookup in Hin.
      destruct (awalk es 0 (p ++ s)) as [j|] eqn:Hj; [|discriminate]. now apply awalk_prefix in Hj.
    - intros (j & Hj). destruct (ta_pref A Hj) as [->|(w & id & s & Hin & ->)]; [now left|].
      right. exists (p ++ s). split; [|now exists s]. apply (hist_words H). apply in_map_iff.
      now exists (p ++ s, id). }
  set (f := fun w => match awalk es 0 w with Some j => j | None => O end).
  assert (Hl : length ps = S (length es)).
  { transitivity (length (map f ps)); [symmetry; apply map_length|].
    rewrite <- (seq_length (S (length es)) 0). apply NoDup_same_len.
    - assert (Hw1 : forall p, In p ps -> exists j, awalk es 0 p = Some j) by (intros; now apply Hw).
      clear -Hnd Hw1. induction ps as [|p r IH]; [constructor|]. apply NoDup_cons_iff in Hnd as [Hp Hnd].
      cbn [map]. constructor.
      + intros Hx. apply in_map_iff in Hx as (v & Hfv & Hv).
        destruct (Hw1 p) as [j Hj]; [now left|]. destruct (Hw1 v) as [j' Hj']; [now right|].
        unfold f in Hfv. rewrite Hj, Hj' in Hfv. subst j'. apply Hp. now rewrite (awalk_inj Hj' Hj).
      + apply IH; [assumption|]. intros v Hv. apply Hw1. now right.
    - apply seq_NoDup.
    - intros j. rewrite in_seq, in_map_iff. split.
      + intros (p & <- & Hp). apply Hw in Hp as [j Hj]. unfold f. rewrite Hj.
        pose proof (awalk_bound (Nat.le_0_l (length es)) Hj). lia.
      + intros Hj. destruct (@awalk_exists es (r_wf R) j) as [p Hp]; [lia|].
        exists p. unfold f. rewrite Hp. split; [reflexivity|]. apply Hw. now exists j. }
  rewrite Hl. f_equal. lia.
Qed.

(** C05 *)
Lemma Forall2_nth (A B : Type) (P : A -> B -> Prop) a b : Forall2 P a b ->
  forall i x, nth_error a i = Some x -> exists y, nth_error b i = Some y /\ P x y.
Proof.
  induction 1 as [|x y a b Hp H IH]; intros [|i] z Hz; cbn in *; try discriminate.
  - injection Hz as ->. now exists y.
  - now apply IH.
Qed.

Lemma constructible_back E w : constructible E w -> word_of_letters E (w ++ [0]) = Ok w.
Proof.
  intros (buf & H). unfold word_of_letters in *.
  rewrite rev_app_distr. cbn [rev app]. change (0 =? 0) with true. cbn iota. rewrite rev_involutive.
  destruct (rev buf) as [|last front]; [discriminate|].
  cbv zeta in H. set (v := if last =? 0 then rev front else buf) in *.
  destruct (has_ws v) eqn:Hws; [discriminate|]. destruct (has_broken E v) as [[|]| | | |] eqn:Hb; cbn in H; try discriminate.
  injection H as <-. rewrite Hws, Hb. reflexivity.
Qed.

Lemma offsets E t0 ops t offs i w id : trie_new E = Ok t0 -> ok_ops ops ->
  insert_all E ops t0 = (t, Ok offs) -> nth_error ops i = Some (w, id) ->
  exists off, nth_error offs i = Some off /\ findWord t w = Ok off /\ off <> 0
    /\ getWord E t off = word_of_letters E (w ++ [0])
    /\ exists first, assoc ops w = Some first /\ getWordID t off = Ok first.
Proof.
  intros Hn Hok Hr Hi. destruct (run_all Hn Hok Hr) as (es & ids & d & H).
  destruct (Forall2_nth (hi_offs H) Hi) as (off & Hoff & j & Hj & ->). cbn [fst] in Hj.
  exists (noff j). split; [exact Hoff|].
  pose proof (nth_error_In _ _ Hi) as Hin. pose proof Hin as Hin2.
  unfold ok_ops in Hok. rewrite Forall_forall in Hok. apply Hok in Hin as [[_ [Hw _]] _]. cbn [fst] in Hw.
  split; [|split; [|split]].
  - rewrite (findWord_spec (hi_rep H) Hw), Hj. reflexivity.
  - pose proof (noff_align j). lia.
  - apply (getWord_spec (hi_rep H)). exact Hj.
  - destruct (assoc ops w) as [first|] eqn:Ha.
    2:{ apply assoc_none in Ha. exfalso. apply Ha. apply in_map_iff. now exists (w, id). }
    exists first. split; [reflexivity|]. rewrite <- (hi_assoc H) in Ha.
    apply assoc_some_in in Ha. apply (ta_in (hi_abs H)) in Ha. unfold lookup in Ha. rewrite Hj in Ha. cbv zeta in Ha.
    destruct (nth j ids 0 =? INVALID_WORDID); [discriminate|]. injection Ha as <-.
    apply (rd_id (hi_rep H)). apply (awalk_bound (Nat.le_0_l (length es)) Hj).
Qed.

Lemma insert_all_app E a b t : insert_all E (a ++ b) t =
  mbind (insert_all E a) (fun x => mbind (insert_all E b) (fun y => ret (x ++ y))) t.
Proof.
  revert t. induction a as [|[w id] a IH]; intros t.
  - cbn [app insert_all]. unfold mbind, ret. destruct (insert_all E b t) as [t' []]; reflexivity.
  - cbn [app insert_all]. unfold mbind at 1 3 4. destruct (insertWord E w id t) as [t1 [off| | | |]]; try reflexivity.
    unfold mbind at 1. rewrite IH. unfold mbind, ret.
    destruct (insert_all E a t1) as [t2 [x| | | |]]; try reflexivity.
    destruct (insert_all E b t2) as [t3 [y| | | |]]; reflexivity.
Qed.

(** C06 *)
Lemma never_ub E t0 ops : trie_new E = Ok t0 -> ok_ops ops ->
  exists t r, insert_all E ops t0 = (t, r) /\
  ((exists offs, r = Ok offs /\ 1024 <= t_len t <= 2147483648
      /\ Forall (fun o => 16 <= o /\ o + 20 <= t_len t) offs
      /\ forall i j wi wj oi oj, nth_error (words_of ops) i = Some wi -> nth_error (words_of ops) j = Some wj ->
           nth_error offs i = Some oi -> nth_error offs j = Some oj ->
           (wi = wj -> oi = oj) /\ (wi <> wj -> oi + 20 <= oj \/ oj + 20 <= oi))
   \/ (r = Throw ERuntime /\ exists s, 1024 < s /\ s <= 72 + 64 * letters_of ops /\ grow_ok E (u32 s) = false)
   \/ (r = Abort /\ e_ndebug E = false /\ id_conflict ops)).
Proof.
  intros Hn Hok.
  destruct (hist_run E (hist_new Hn) Hok)
    as [(t' & offs2 & es' & ids' & d' & x & He & _ & H)|[(t' & He & _ & s & Hs)|(t' & He & Hnd & Hc)]].
  - exists t', (Ok offs2). split; [exact He|]. left. exists offs2. split; [reflexivity|]. cbn [app] in H.
    pose proof (rep_len (hi_rep H)) as [Hl1 Hl2]. split; [exact Hl2|].
    assert (Hat : forall i o, nth_error offs2 i = Some o -> exists w j, nth_error (words_of ops) i = Some w
              /\ awalk es' 0 w = Some j /\ o = noff j /\ (j <= length es')%nat).
    { intros i o Ho. pose proof (hi_offs H) as F. clear -Ho F.
      revert i Ho. induction F as [|op off a b (j & Hj & ->) F IH]; intros [|i] Ho; cbn in Ho; try discriminate.
      - injection Ho as <-. exists (fst op), j. repeat split; try assumption.
        apply (awalk_bound (Nat.le_0_l _) Hj).
      - now apply IH. }
    split.
    + apply Forall_forall. intros o Ho. apply In_nth_error in Ho as [i Ho].
      destruct (Hat i o Ho) as (w & j & _ & _ & -> & Hj). destruct j; unfold noff; lia.
    + intros i j wi wj oi oj Hi Hj Hoi Hoj.
      destruct (Hat i oi Hoi) as (w & m & Hw & Hwk & -> & Hm).
      destruct (Hat j oj Hoj) as (w' & m' & Hw' & Hwk' & -> & Hm').
      assert (w = wi) by congruence. assert (w' = wj) by congruence. subst. split.
      * intros ->. congruence.
      * intros Hne. assert (m <> m') by (intros ->; apply Hne; eapply awalk_inj; eassumption).
        destruct m, m'; unfold noff; lia.
  - exists t', (Throw ERuntime). split; [exact He|]. right. left. split; [reflexivity|]. now exists s.
  - exists t', Abort. split; [exact He|]. right. right. auto.
Qed.

Lemma capacity E t0 ops : trie_new E = Ok t0 -> ok_ops ops ->
  os_grants E (letters_of ops) -> 72 + 64 * letters_of ops < 4294967296 -> ~ id_conflict ops ->
  exists t offs, insert_all E ops t0 = (t, Ok offs).
Proof.
  intros Hn Hok Hos Hcap Hc.
  destruct (never_ub Hn Hok) as (t & r & He & [(offs & -> & _)|[(_ & s & Hs1 & Hs2 & Hs3)|(_ & _ & Hx)]]).
  - eauto.
  - exfalso. unfold u32 in Hs3. rewrite N.mod_small in Hs3 by lia. rewrite Hos in Hs3 by lia. discriminate.
  - contradiction.
Qed.
