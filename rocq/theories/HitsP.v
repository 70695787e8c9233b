(** The list of hits is a permutation of the dictionary entries that are close
    enough and not cut off. *)
From Verif Require Import Base TrieM TrieA TrieP TrieP2 TrieD ErrorValuesM LevIndexM Spec_Edit EditP SearchP.
From Coq Require Import ZifyBool ZifyN ZifyNat.
Local Open Scope Z_scope.

Section Hits.
Variables (t : trie) (es : edges) (ids : list N) (nw : N).
Hypothesis R : rep t es ids nw.
Variable e : errvals.
Variable q : word.
Let n := length q.
Let P := prices_of e n.
Variable maxE : Z.
Notation DD := (D P q).

Fixpoint hitsW (f : nat) (j : nat) (rp : list N) : list (word * N) :=
  match f with
  | O => []
  | S f' =>
    (if (DD rp n <=? maxE) && negb (nth j ids 0 =? INVALID_WORDID)%N then [(rev rp, nth j ids 0%N)] else [])
    ++ (if rmin (DD rp) n <=? maxE
        then flat_map (fun k => hitsW f' (S k) (snd (edge es k) :: rp)) (kids es j) else [])
  end.
Definition top_hitsW : list (word * N) :=
  flat_map (fun k => hitsW (t_fuel t) (S k) [snd (edge es k)]) (kids es 0).

Definition price (p : word * N) : N * Z := (snd p, DD (rev (fst p)) n).

Lemma map_flat_map (A B C : Type) (g : B -> C) (f : A -> list B) l : map g (flat_map f l) = flat_map (fun x => map g (f x)) l.
Proof. induction l; cbn; [reflexivity|]. now rewrite map_app, IHl. Qed.
Lemma flat_map_ext' (A B : Type) (f g : A -> list B) l : (forall x, f x = g x) -> flat_map f l = flat_map g l.
Proof. intros H. induction l; cbn; [reflexivity|]. now rewrite H, IHl. Qed.

Lemma hits_map : forall f j rp, hits es ids e q maxE f j rp = map price (hitsW f j rp).
Proof.
  induction f as [|f IH]; intros j rp; [reflexivity|]. cbn [hits hitsW]. rewrite map_app. f_equal.
  - fold n P. destruct (_ && _); [|reflexivity]. cbn [map]. unfold price. cbn [fst snd]. now rewrite (rev_involutive rp).
  - destruct (_ <=? _); [|reflexivity]. rewrite map_flat_map. apply flat_map_ext'. intros k. apply IH.
Qed.
Lemma top_hits_map : top_hits t es ids e q maxE = map price top_hitsW.
Proof. unfold top_hits, top_hitsW. rewrite map_flat_map. apply flat_map_ext'. intros k. apply hits_map. Qed.

(** No proper prefix [p ++ s1] of [p ++ s] is cut off. *)
Definition open_from (p s : word) : Prop :=
  forall s1 s2, s = s1 ++ s2 -> s2 <> [] -> rmin (DD (rev (p ++ s1))) n <= maxE.

Lemma kid_walk k i : (k < length es)%nat -> fst (edge es k) = i -> find_kid es i (snd (edge es k)) = Some k.
Proof.
  intros Hk Hp. apply find_kid_iff; [apply (r_wf R)|]. split; [exact Hk|]. rewrite <- Hp. now destruct (edge es k).
Qed.

Lemma hitsW_in : forall f j rp w id, (length es - j < f)%nat -> (j <= length es)%nat ->
  (In (w, id) (hitsW f j rp) <->
   exists s m, w = rev rp ++ s /\ awalk es j s = Some m /\ id = nth m ids 0%N /\ id <> INVALID_WORDID
     /\ DD (rev w) n <= maxE /\ open_from (rev rp) s).
Proof.
  induction f as [|f IH]; intros j rp w id Hf Hj; [lia|]. cbn [hitsW]. rewrite in_app_iff. split.
  - intros [H|H].
    + destruct ((DD rp n <=? maxE) && negb (nth j ids 0 =? INVALID_WORDID)%N) eqn:Hc; [|destruct H].
      destruct H as [[= <- <-]|[]]. exists [], j. rewrite app_nil_r, rev_involutive.
      repeat split; try lia.
      intros s1 s2 Hs Hne. symmetry in Hs. apply app_eq_nil in Hs as [_ ->]. congruence.
    + destruct (rmin (DD rp) n <=? maxE) eqn:Hm; [|destruct H].
      apply in_flat_map in H as (k & Hk & Hin). apply kids_in in Hk as [Hk Hp].
      pose proof (wf_parent (r_wf R) Hk) as Hpk. rewrite Hp in Hpk.
      apply IH in Hin as (s & m & -> & Hw & Hid & Hne & Hd & Ho); [|lia|lia].
      exists (snd (edge es k) :: s), m. cbn [rev] in *. rewrite <- app_assoc in *. cbn [app] in *.
      split; [reflexivity|]. split; [cbn [awalk]; now rewrite (kid_walk Hk Hp)|].
      repeat split; try assumption.
      intros s1 s2 Hs Hs2. destruct s1 as [|x s1].
      * rewrite app_nil_r, rev_involutive. lia.
      * injection Hs as <- Hs. specialize (Ho s1 s2 Hs Hs2). now rewrite <- app_assoc in Ho.
  - intros (s & m & -> & Hw & Hid & Hne & Hd & Ho). destruct s as [|l s].
    + left. cbn [awalk] in Hw. injection Hw as <-. rewrite app_nil_r, rev_involutive in *.
      replace ((DD rp n <=? maxE) && negb (nth j ids 0 =? INVALID_WORDID)%N) with true by lia. left. now rewrite Hid.
    + right. assert (Hm : (rmin (DD rp) n <=? maxE) = true).
      { specialize (Ho [] (l :: s) eq_refl ltac:(discriminate)). rewrite app_nil_r, rev_involutive in Ho. lia. }
      rewrite Hm. cbn [awalk] in Hw. destruct (find_kid es j l) as [k|] eqn:Hk; [|discriminate].
      apply find_kid_some in Hk as [Hk He]. apply in_flat_map. exists k.
      pose proof (wf_parent (r_wf R) Hk) as Hpk. rewrite He in Hpk. cbn in Hpk.
      split; [apply kids_in; split; [exact Hk|now rewrite He]|].
      rewrite He. cbn [snd]. apply IH; [lia|lia|]. exists s, m. cbn [rev]. rewrite <- !app_assoc. cbn [app].
      repeat split; try assumption.
      intros s1 s2 Hs Hs2. rewrite <- app_assoc. cbn [app]. apply (Ho (l :: s1) s2); [cbn; now rewrite Hs|exact Hs2].
Qed.

Lemma NoDup_flat_map (A B : Type) (f : A -> list B) l :
  NoDup l -> (forall x, In x l -> NoDup (f x)) ->
  (forall x y b, In x l -> In y l -> In b (f x) -> In b (f y) -> x = y) -> NoDup (flat_map f l).
Proof.
  induction l as [|a l IH]; intros Hnd Hf Hd; cbn; [constructor|].
  apply NoDup_cons_iff in Hnd as [Ha Hnd].
  assert (Happ : forall (u v : list B), NoDup u -> NoDup v -> (forall b, In b u -> ~ In b v) -> NoDup (u ++ v)).
  { induction u as [|b u IHu]; intros v Hu Hv Hx; [exact Hv|]. cbn. apply NoDup_cons_iff in Hu as [Hb Hu].
    constructor; [rewrite in_app_iff; intros [H|H]; [now apply Hb|]; apply (Hx b); [now left|exact H]|].
    apply IHu; try assumption. intros b' Hb'. apply Hx. now right. }
  apply Happ.
  - apply Hf. now left.
  - apply IH; [exact Hnd|intros x Hx; apply Hf; now right|]. intros x y b Hx Hy. apply Hd; now right.
  - intros b Hb Hin. apply in_flat_map in Hin as (y & Hy & Hby).
    apply Ha. rewrite (Hd a y b); [exact Hy|now left|now right|exact Hb|exact Hby].
Qed.

Lemma kids_letter j k k' : In k (kids es j) -> In k' (kids es j) -> snd (edge es k) = snd (edge es k') -> k = k'.
Proof.
  intros Hk Hk' He. apply kids_in in Hk as [Hk Hp]. apply kids_in in Hk' as [Hk' Hp'].
  pose proof (kid_walk Hk Hp) as H1. pose proof (kid_walk Hk' Hp') as H2. rewrite He in H1. congruence.
Qed.

Lemma hitsW_nodup : forall f j rp, (length es - j < f)%nat -> (j <= length es)%nat ->
  NoDup (map fst (hitsW f j rp)).
Proof.
  induction f as [|f IH]; intros j rp Hf Hj; [lia|]. cbn [hitsW].
  assert (Hrest : NoDup (map fst (if rmin (DD rp) n <=? maxE
        then flat_map (fun k => hitsW f (S k) (snd (edge es k) :: rp)) (kids es j) else []))).
  { destruct (_ <=? _); [|constructor]. rewrite map_flat_map. apply NoDup_flat_map.
    - apply kids_nodup.
    - intros k Hk. apply kids_in in Hk as [Hk Hp]. pose proof (wf_parent (r_wf R) Hk). apply IH; lia.
    - intros k k' w Hk Hk' Hw Hw'.
      apply in_map_iff in Hw as ([w1 i1] & Hx1 & Hin1). apply in_map_iff in Hw' as ([w2 i2] & Hx2 & Hin2).
      cbn [fst] in *. subst w1 w2.
      pose proof Hk as Hk2. pose proof Hk' as Hk2'.
      apply kids_in in Hk2 as [Hk2 Hp]. apply kids_in in Hk2' as [Hk2' Hp'].
      pose proof (wf_parent (r_wf R) Hk2). pose proof (wf_parent (r_wf R) Hk2').
      apply hitsW_in in Hin1 as (s1 & m1 & Hw1 & _); [|lia|lia].
      apply hitsW_in in Hin2 as (s2 & m2 & Hw2 & _); [|lia|lia].
      rewrite Hw1 in Hw2. cbn [rev] in Hw2. rewrite <- !app_assoc in Hw2. apply app_inv_head in Hw2.
      cbn [app] in Hw2. injection Hw2 as Hl _. now apply (@kids_letter j). }
  destruct (_ && _); cbn [app]; [|exact Hrest]. cbn [map fst]. constructor; [|exact Hrest].
  intros Hin. apply in_map_iff in Hin as ([w i] & Hx & Hin). cbn [fst] in Hx. subst w.
  destruct (_ <=? _); [|destruct Hin]. apply in_flat_map in Hin as (k & Hk & Hin).
  apply kids_in in Hk as [Hk Hp]. pose proof (wf_parent (r_wf R) Hk).
  apply hitsW_in in Hin as (s & m & Hw & _); [|lia|lia].
  apply (f_equal (@length N)) in Hw. cbn [rev] in Hw. rewrite !app_length in Hw. cbn [length] in Hw. lia.
Qed.

(** No non-empty proper prefix of [w] is cut off. *)
Definition not_cut (w : word) : Prop :=
  forall s1 s2, w = s1 ++ s2 -> s1 <> [] -> s2 <> [] -> rmin (DD (rev s1)) n <= maxE.

Lemma top_hitsW_in d w id : tr_abs es ids d -> (forall v i, In (v, i) d -> v <> []) ->
  (In (w, id) top_hitsW <-> In (w, id) d /\ DD (rev w) n <= maxE /\ not_cut w).
Proof.
  intros A Hne. unfold top_hitsW. rewrite in_flat_map.
  assert (Hfuel : forall k, (k < length es)%nat -> (length es - S k < t_fuel t)%nat) by (intros; rewrite (fuel_ge R); lia).
  split.
  - intros (k & Hk & Hin). apply kids_in in Hk as [Hk Hp].
    apply hitsW_in in Hin as (s & m & -> & Hw & Hid & Hni & Hd & Ho); [|now apply Hfuel|lia].
    cbn [rev app] in *. split; [|split; [exact Hd|]].
    + apply (ta_in A). unfold lookup. cbn [awalk]. rewrite (kid_walk Hk Hp), Hw. cbv zeta. rewrite <- Hid.
      destruct (N.eqb_spec id INVALID_WORDID); [contradiction|reflexivity].
    + intros s1 s2 Hs H1 H2. destruct s1 as [|x s1]; [congruence|]. injection Hs as <- Hs. apply (Ho s1 s2 Hs H2).
  - intros (Hin & Hd & Ho). pose proof (Hne _ _ Hin) as Hw. apply (ta_in A) in Hin. unfold lookup in Hin.
    destruct w as [|l s]; [congruence|]. cbn [awalk] in Hin.
    destruct (find_kid es 0 l) as [k|] eqn:Hk; [|discriminate]. apply find_kid_some in Hk as [Hk He].
    destruct (awalk es (S k) s) as [m|] eqn:Hm; [|discriminate]. cbv zeta in Hin.
    destruct (N.eqb_spec (nth m ids 0%N) INVALID_WORDID) as [|Hni]; [discriminate|]. injection Hin as Hid.
    exists k. split; [apply kids_in; split; [exact Hk|now rewrite He]|].
    apply hitsW_in; [now apply Hfuel|lia|]. rewrite He. cbn [snd rev app].
    exists s, m. repeat split; try assumption; try congruence.
    intros s1 s2 Hs H2. apply (Ho (l :: s1) s2); [cbn; now rewrite Hs|discriminate|exact H2].
Qed.

Lemma top_hitsW_nodup : NoDup (map fst top_hitsW).
Proof.
  unfold top_hitsW. rewrite map_flat_map. apply NoDup_flat_map.
  - apply kids_nodup.
  - intros k Hk. apply kids_in in Hk as [Hk Hp]. apply hitsW_nodup; [rewrite (fuel_ge R); lia|lia].
  - intros k k' w Hk Hk' Hw Hw'.
    apply in_map_iff in Hw as ([w1 i1] & Hx1 & Hin1). apply in_map_iff in Hw' as ([w2 i2] & Hx2 & Hin2).
    cbn [fst] in *. subst w1 w2.
    pose proof Hk as Hk2. pose proof Hk' as Hk2'.
    apply kids_in in Hk2 as [Hk2 Hp]. apply kids_in in Hk2' as [Hk2' Hp'].
    apply hitsW_in in Hin1 as (s1 & m1 & Hw1 & _); [|rewrite (fuel_ge R); lia|lia].
    apply hitsW_in in Hin2 as (s2 & m2 & Hw2 & _); [|rewrite (fuel_ge R); lia|lia].
    rewrite Hw1 in Hw2. cbn [rev app] in Hw2. injection Hw2 as Hl _. now apply (@kids_letter 0).
Qed.

(** ** When the row minimum never decreases, nothing is cut off wrongly *)
Definition monotone_prices : Prop :=
  0 <= p_ins P /\ 0 <= p_del P /\ 0 <= p_edel P /\ 0 <= p_sins P /\ 0 <= p_trans P /\
  (forall a b, 0 <= p_sub P a b) /\
  ((forall a b, p_sub P a b <= p_trans P) \/ (p_del P <= p_trans P /\ p_sins P <= p_trans P)).

Lemma rmin_step l rp : monotone_prices -> rmin (DD rp) n <= rmin (DD (l :: rp)) n.
Proof.
  intros (H1 & H2 & H3 & H4 & H5 & H6 & H7). apply rmin_ge. intros i Hi.
  induction i as [|k IH].
  - rewrite D_0. cbn [length]. pose proof (@rmin_le (DD rp) n 0 ltac:(lia)) as Hm. rewrite D_0 in Hm. nia.
  - rewrite D_S. cbv zeta. specialize (IH ltac:(lia)).
    pose proof (@rmin_le (DD rp) n (S k) ltac:(lia)) as Ha. pose proof (@rmin_le (DD rp) n k ltac:(lia)) as Hb.
    pose proof (H6 (nth k q 0%N) l) as Hs.
    assert (Hc : rmin (DD rp) n <= tr_of P q l rp k (DD (l :: rp) k + p_ins P)).
    { unfold tr_of. destruct k as [|k2]; [lia|]. destruct rp as [|l1 rp2]; [lia|].
      destruct (_ && _); [|lia].
      destruct H7 as [H7|[H7 H8]].
      - pose proof (H7 (nth k2 q 0%N) l1) as Hx. rewrite D_S in Hb. cbv zeta in Hb. lia.
      - pose proof (@rmin_le (DD (l1 :: rp2)) n k2 ltac:(lia)) as Hy.
        destruct k2 as [|k3].
        + rewrite D_0 in Hy |- *. cbn [length] in Hy. nia.
        + rewrite D_S in Hy. cbv zeta in Hy.
          replace (Nat.leb (length q) (S k3)) with false in Hy by (fold n; lia). lia. }
    destruct (Nat.leb _ _); lia.
Qed.

Lemma rmin_prefix s2 s1 : monotone_prices -> rmin (DD (rev s1)) n <= rmin (DD (rev (s1 ++ s2))) n.
Proof.
  intros Hm. revert s1. induction s2 as [|l s2 IH]; intros s1; [rewrite app_nil_r; lia|].
  replace (s1 ++ l :: s2) with ((s1 ++ [l]) ++ s2) by (rewrite <- app_assoc; reflexivity).
  specialize (IH (s1 ++ [l])). rewrite rev_app_distr in IH at 1. cbn [rev app] in IH.
  pose proof (@rmin_step l (rev s1) Hm). lia.
Qed.

Lemma monotone_not_cut w : monotone_prices -> DD (rev w) n <= maxE -> not_cut w.
Proof.
  intros Hm Hd s1 s2 -> _ _. pose proof (@rmin_prefix s2 s1 Hm).
  pose proof (@rmin_le (DD (rev (s1 ++ s2))) n n ltac:(lia)). lia.
Qed.
End Hits.
