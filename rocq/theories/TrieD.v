(** Dictionary view of the trie: the list of (word, id) pairs inserted. *)
From Verif Require Import Base TrieM TrieA TrieP TrieP2.
From Coq Require Import ZifyBool ZifyN ZifyNat.
Local Open Scope N_scope.
Ltac Zify.zify_post_hook ::= Z.to_euclidean_division_equations.

Definition tword (w : word) : Prop :=
  w <> [] /\ Forall letter_ok w /\ is_low (hd 0 w) = false.

Lemma assoc_in B (d : list (word * B)) w id : NoDup (map fst d) -> (assoc d w = Some id <-> In (w, id) d).
Proof.
  unfold assoc. induction d as [|[v i] d IH]; intros Hnd; cbn in *; [split; [discriminate|tauto]|].
  apply NoDup_cons_iff in Hnd as [Hv Hnd]. destruct (weqb_spec w v) as [->|Hne]; cbn.
  - split; [intros [= ->]; now left|]. intros [[= ->]|Hin]; [reflexivity|].
    exfalso. apply Hv. apply in_map_iff. now exists (v, id).
  - rewrite (IH Hnd). split; [now right|]. intros [[= -> ->]|Hin]; [congruence|assumption].
Qed.
Lemma assoc_none B (d : list (word * B)) w : assoc d w = None <-> ~ In w (map fst d).
Proof.
  unfold assoc. induction d as [|[v i] d IH]; cbn; [tauto|].
  destruct (weqb_spec w v) as [->|Hne]; cbn.
  - split; [discriminate|]. intros H. exfalso. apply H. now left.
  - rewrite IH. split; [intros H [Hx|Hx]; [congruence|now apply H]|intros H Hx; apply H; now right].
Qed.

Record tr_abs (es : edges) (ids : list N) (d : list (word * N)) : Prop := {
  ta_nodup : NoDup (map fst d);
  ta_in : forall w id, In (w, id) d <-> lookup es ids w = Some id;
  ta_pref : forall j p, awalk es 0 p = Some j -> p = [] \/ exists w id s, In (w, id) d /\ w = p ++ s
}.

Definition TR (t : trie) (d : list (word * N)) : Prop :=
  exists es ids, rep t es ids (N.of_nat (length d)) /\ tr_abs es ids d.

Lemma awalk_back es x w j : wf_edges (es ++ x) -> awalk (es ++ x) 0 w = Some j ->
  (j <= length es)%nat -> awalk es 0 w = Some j.
Proof.
  intros H Hw Hj. destruct (awalk_exists (wf_prefix H) Hj) as [v Hv].
  assert (v = w) as <-; [|exact Hv].
  eapply awalk_inj; [exact Hw|]. apply awalk_mono; assumption.
Qed.

Lemma dict_len es ids d : tr_abs es ids d -> (length d <= S (length es))%nat.
Proof.
  intros H. set (f := fun w => match awalk es 0 w with Some j => j | None => O end).
  rewrite <- (map_length (fun p => f (fst p)) d), <- (seq_length (S (length es)) 0).
  apply NoDup_incl_length.
  - rewrite <- (map_map fst f).
    assert (Hin : forall w, In w (map fst d) -> exists j, awalk es 0 w = Some j).
    { intros w Hw. apply in_map_iff in Hw as ([w' id] & Hx & Hin). cbn in Hx. subst w'.
      apply (ta_in H) in Hin. unfold lookup in Hin. destruct (awalk es 0 w) as [j|]; [now exists j|discriminate]. }
    pose proof (ta_nodup H) as Hnd. induction (map fst d) as [|w ws IH]; [constructor|].
    cbn [map]. apply NoDup_cons_iff in Hnd as [Hw Hnd]. constructor.
    + intros Hx. apply in_map_iff in Hx as (v & Hfv & Hv).
      destruct (Hin w) as [j Hj]; [now left|]. destruct (Hin v) as [j' Hj']; [now right|].
      unfold f in Hfv. rewrite Hj, Hj' in Hfv. subst j'. apply Hw.
      rewrite (awalk_inj Hj' Hj). exact Hv.
    + apply IH; [|assumption]. intros v Hv. apply Hin. now right.
  - intros j Hj. apply in_map_iff in Hj as ([w id] & Hf & Hin). cbn in Hf.
    apply (ta_in H) in Hin. unfold lookup in Hin. apply in_seq.
    unfold f in Hf. destruct (awalk es 0 w) as [j'|] eqn:Hw; [|discriminate]. subst j'.
    pose proof (awalk_bound (Nat.le_0_l (length es)) Hw). lia.
Qed.

Lemma lookup_insert es ids w es' j id v :
  wf_edges es -> length ids = S (length es) -> Forall letter_ok w ->
  aext es 0 w = (es', j) -> id <> INVALID_WORDID ->
  let ids1 := ids ++ repeat INVALID_WORDID (length es' - length es) in
  lookup es' (upd j id ids1) v = if weqb v w then Some id else lookup es ids v.
Proof.
  intros Hwf Hlen Hw Hax Hid ids1.
  destruct (aext_spec Hwf (Nat.le_0_l _) Hw Hax) as (Hwf' & (x & Hx) & Hwk & Hj).
  assert (Hl1 : length ids1 = S (length es')).
  { unfold ids1. rewrite app_length, repeat_length, Hx, app_length. lia. }
  unfold lookup at 1. destruct (awalk es' 0 v) as [m|] eqn:Hv.
  - pose proof (awalk_bound (Nat.le_0_l (length es')) Hv) as Hm.
    rewrite nth_upd by lia. destruct (Nat.eqb_spec m j) as [->|Hne].
    + rewrite (awalk_inj Hwk Hv), weqb_refl.
      destruct (N.eqb_spec id INVALID_WORDID); [contradiction|reflexivity].
    + destruct (weqb_spec v w) as [->|Hvw]; [congruence|].
      unfold ids1. rewrite nth_app_repeat by (rewrite Hlen; lia).
      unfold lookup. destruct (Nat.ltb_spec m (length ids)) as [Hlt|Hge].
      * rewrite Hx in Hwf', Hv. rewrite (awalk_back Hwf' Hv) by lia. reflexivity.
      * rewrite N.eqb_refl. destruct (awalk es 0 v) as [m'|] eqn:Hv'; [|reflexivity].
        exfalso. pose proof (awalk_bound (Nat.le_0_l (length es)) Hv').
        rewrite Hx in Hwf', Hv. rewrite (awalk_mono Hwf' Hv') in Hv. injection Hv as ->. lia.
  - destruct (weqb_spec v w) as [->|Hvw]; [congruence|].
    unfold lookup. destruct (awalk es 0 v) as [m'|] eqn:Hv'; [|reflexivity].
    exfalso. rewrite Hx in Hwf', Hv. rewrite (awalk_mono Hwf' Hv') in Hv. discriminate.
Qed.

Lemma insert_new E t es ids d w id :
  rep t es ids (N.of_nat (length d)) -> tr_abs es ids d -> tword w -> id <> INVALID_WORDID ->
  assoc d w = None ->
  exists es' j t', aext es 0 w = (es', j) /\
   ((insertWord E w id t = (t', Ok (noff j)) /\
     exists ids', rep t' es' ids' (N.of_nat (length (d ++ [(w, id)]))) /\ tr_abs es' ids' (d ++ [(w, id)]))
    \/ (insertWord E w id t = (t', Throw ERuntime) /\ t_mapped t' = false /\
        (length es < length es')%nat /\ refused E (length es'))).
Proof.
  intros R A (Hne & Hw & Hlow) Hid Has.
  destruct (aext es 0 w) as [es' j] eqn:Hax.
  destruct (aext_spec (r_wf R) (Nat.le_0_l _) Hw Hax) as (Hwf' & (x & Hx) & Hwk & Hj).
  pose proof (insertWord_spec E id R Hne Hw Hlow) as Hins. rewrite Hax in Hins. cbv zeta in Hins.
  set (k := (length es' - length es)%nat) in *.
  set (ids1 := ids ++ repeat INVALID_WORDID k) in *.
  assert (Hl1 : length ids1 = S (length es')).
  { unfold ids1, k. rewrite app_length, repeat_length, (r_len R), Hx, app_length. lia. }
  assert (Hold : nth j ids1 0 = INVALID_WORDID).
  { unfold ids1. rewrite nth_app_repeat by (fold k; rewrite (r_len R); unfold k; rewrite Hx, app_length in *; lia).
    destruct (Nat.ltb_spec j (length ids)) as [Hlt|Hge]; [|reflexivity].
    assert (Hwe : awalk es 0 w = Some j).
    { rewrite (r_len R) in Hlt. rewrite Hx in Hwf', Hwk. apply (awalk_back Hwf' Hwk). lia. }
    destruct (lookup es ids w) as [id'|] eqn:Hlk.
    - exfalso. apply (ta_in A) in Hlk. apply assoc_in in Hlk; [congruence|apply (ta_nodup A)].
    - unfold lookup in Hlk. rewrite Hwe in Hlk. cbv zeta in Hlk.
      destruct (N.eqb_spec (nth j ids 0) INVALID_WORDID); [assumption|discriminate]. }
  rewrite Hold, N.eqb_refl in Hins. cbn [orb] in Hins.
  destruct Hins as [(t' & He & R')|(t' & He & Hm & Hlt & Hrf)].
  2:{ exists es', j, t'. split; [reflexivity|]. right. auto. }
  exists es', j, t'. split; [reflexivity|]. left. split; [exact He|].
  exists (upd j id ids1). split.
  - pose proof (dict_len A). pose proof (rep_len R).
    rewrite app_length. cbn [length].
    replace (N.of_nat (length d + 1)) with (u32 (N.of_nat (length d) + 1)); [exact R'|].
    unfold u32. lia.
  - assert (Hlk : forall v, lookup es' (upd j id ids1) v = if weqb v w then Some id else lookup es ids v).
    { intros v. apply lookup_insert; try assumption; [apply (r_wf R)|apply (r_len R)]. }
    constructor.
    + rewrite map_app. cbn [map fst]. eapply Permutation_NoDup; [apply Permutation_cons_append|].
      constructor; [now apply assoc_none|apply (ta_nodup A)].
    + intros v i. rewrite Hlk, in_app_iff, (ta_in A). cbn [In].
      destruct (weqb_spec v w) as [->|Hvw].
      * split; [|intros [= ->]; right; now left].
        intros [Hl|[[= <-]|[]]]; [|reflexivity].
        exfalso. apply (ta_in A), assoc_in in Hl; [congruence|apply (ta_nodup A)].
      * split; [|now left]. intros [Hl|[[= -> ->]|[]]]; [assumption|congruence].
    + intros m p Hp. destruct (Nat.leb_spec m (length es)) as [Hle|Hgt].
      * rewrite Hx in Hwf', Hp. apply (awalk_back Hwf') in Hp; [|assumption].
        destruct (ta_pref A Hp) as [->|(v & i & s & Hin & ->)]; [now left|].
        right. exists (p ++ s), i, s. split; [apply in_or_app; now left|reflexivity].
      * destruct (aext_new (r_wf R) (Nat.le_0_l _) Hw Hax (u := []) (eq_refl) Hp Hgt) as (p' & s & Hws & Hp' & Hpp).
        right. exists w, id, s. split; [apply in_or_app; right; now left|]. cbn in Hpp. congruence.
Qed.

Lemma insert_old E t es ids d w id id0 :
  rep t es ids (N.of_nat (length d)) -> tr_abs es ids d -> tword w ->
  assoc d w = Some id0 ->
  exists j t', awalk es 0 w = Some j /\
   insertWord E w id t = (t', if (id0 =? id) || e_ndebug E then Ok (noff j) else Abort) /\
   rep t' es ids (N.of_nat (length d)).
Proof.
  intros R A (Hne & Hw & Hlow) Has.
  apply assoc_in in Has; [|apply (ta_nodup A)]. apply (ta_in A) in Has.
  unfold lookup in Has. destruct (awalk es 0 w) as [j|] eqn:Hwk; [|discriminate]. cbv zeta in Has.
  pose proof (aext_walked Hwk) as Hax.
  pose proof (insertWord_spec E id R Hne Hw Hlow) as Hins. rewrite Hax in Hins. cbv zeta in Hins.
  rewrite Nat.sub_diag in Hins. cbn [repeat] in Hins. rewrite app_nil_r in Hins.
  destruct (N.eqb_spec (nth j ids 0) INVALID_WORDID); [discriminate|]. injection Has as Has.
  destruct Hins as [(t' & He & R')|(t' & _ & _ & Hlt & _)]; [|lia].
  exists j, t'. split; [reflexivity|]. split; [|exact R'].
  rewrite He, Has. cbn [orb]. reflexivity.
Qed.

(** ** Consequences for readers *)
Lemma TR_hasWord t d w : TR t d -> Forall letter_ok w ->
  hasWord t w = Ok (match assoc d w with Some _ => true | None => false end).
Proof.
  intros (es & ids & R & A) Hw. rewrite (hasWord_spec R Hw).
  destruct (lookup es ids w) as [id|] eqn:Hl.
  - apply (ta_in A), assoc_in in Hl; [now rewrite Hl|apply (ta_nodup A)].
  - destruct (assoc d w) as [id|] eqn:Ha; [|reflexivity].
    apply assoc_in in Ha; [|apply (ta_nodup A)]. apply (ta_in A) in Ha. congruence.
Qed.

Lemma TR_new E : grow_ok E 1024 = true -> exists t, trie_new E = Ok t /\ TR t [].
Proof.
  intros Hg. destruct (trie_new_spec Hg) as (t & He & R). exists t. split; [exact He|].
  exists [], [INVALID_WORDID]. split; [exact R|]. constructor.
  - constructor.
  - intros w id. cbn. split; [tauto|]. unfold lookup. destruct w as [|l r]; cbn; discriminate.
  - intros j [|l r] Hp; [now left|discriminate].
Qed.

Lemma trie_new_inv E t : trie_new E = Ok t -> TR t [].
Proof.
  intros H. destruct (grow_ok E 1024) eqn:Hg.
  - destruct (TR_new Hg) as (t' & He & HT). congruence.
  - unfold trie_new in H. rewrite Hg in H. discriminate.
Qed.

Lemma TR_numWords t d : TR t d -> numWords t = Ok (N.of_nat (length d)).
Proof.
  intros (es & ids & R & A). unfold numWords. pose proof (rep_len R).
  rewrite rd_ok by (apply (rep_mapped R) || (unfold H_WORDS; lia)).
  change H_WORDS with 8. now rewrite (r_words R).
Qed.
