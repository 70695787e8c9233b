(** The dynamic programme computes the minimum price of [Spec_Edit]. *)
From Verif Require Import Base Spec_Edit.
Local Open Scope Z_scope.

Section DP.
Variable P : prices.
Variable q : word.
Let n := length q.

(** Row of the table for the word prefix whose reversal is [rp]. *)
Fixpoint D (rp : list N) : nat -> Z :=
  match rp with
  | [] => fun i => Z.of_nat i * p_del P
  | l :: rp1 =>
    fix row (i : nat) : Z :=
      match i with
      | O => Z.of_nat (S (length rp1)) * p_sins P
      | S k =>
        let ins := row k + p_ins P in
        let del := D rp1 (S k) + (if Nat.leb n (S k) then p_edel P else p_del P) in
        let sub := D rp1 k + p_sub P (nth k q 0%N) l in
        let tr := match k, rp1 with
                  | S k2, l1 :: rp2 =>
                    if (nth k q 0%N =? l1)%N && (nth k2 q 0%N =? l)%N
                    then D rp2 k2 + p_trans P else ins + 10000
                  | _, _ => ins + 10000
                  end in
        Z.min ins (Z.min del (Z.min sub tr))
      end
  end.

(** ** Scripts grow and shrink at the right end *)
Lemma edit_snoc_sub i j qs w c a b : edit P n i j qs w c ->
  edit P n i j (qs ++ [a]) (w ++ [b]) (c + p_sub P a b).
Proof.
  induction 1; cbn [app].
  - replace (0 + p_sub P a b) with (p_sub P a b + 0) by lia. constructor. constructor.
  - replace (p_sub P a0 b0 + c + p_sub P a b) with (p_sub P a0 b0 + (c + p_sub P a b)) by lia. now constructor.
  - match goal with |- edit _ _ _ _ _ _ (?x + ?c + ?y) => replace (x + c + y) with (x + (c + y)) by lia end. now apply ed_drop.
  - match goal with |- edit _ _ _ _ _ _ (?x + ?c + ?y) => replace (x + c + y) with (x + (c + y)) by lia end. now apply ed_add.
  - match goal with |- edit _ _ _ _ _ _ (?x + ?c + ?y) => replace (x + c + y) with (x + (c + y)) by lia end. now apply ed_swap.
Qed.

Lemma edit_snoc_drop i j qs w c a : edit P n i j qs w c ->
  edit P n i j (qs ++ [a]) w (c + (if Nat.eqb (j + length w) 0 then p_del P else p_ins P)).
Proof.
  induction 1; cbn [app length].
  - rewrite Nat.add_0_r. match goal with |- edit _ _ _ _ _ _ (0 + ?x) => replace (0 + x) with (x + 0) by lia end.
    apply ed_drop. constructor.
  - match goal with |- edit _ _ _ _ _ _ (?x + ?c + ?y) => replace (x + c + y) with (x + (c + y)) by lia end.
    replace (j + S (length w))%nat with (S j + length w)%nat by lia. now constructor.
  - match goal with |- edit _ _ _ _ _ _ (?x + ?c + ?y) => replace (x + c + y) with (x + (c + y)) by lia end. now apply ed_drop.
  - match goal with |- edit _ _ _ _ _ _ (?x + ?c + ?y) => replace (x + c + y) with (x + (c + y)) by lia end.
    replace (j + S (length w))%nat with (S j + length w)%nat by lia. now apply ed_add.
  - match goal with |- edit _ _ _ _ _ _ (?x + ?c + ?y) => replace (x + c + y) with (x + (c + y)) by lia end.
    replace (j + S (S (length w)))%nat with (S (S j) + length w)%nat by lia. now apply ed_swap.
Qed.

Definition add_price (i : nat) : Z :=
  if Nat.eqb i 0 then p_sins P else if Nat.eqb i n then p_edel P else p_del P.

Lemma edit_snoc_add i j qs w c b : edit P n i j qs w c ->
  edit P n i j qs (w ++ [b]) (c + add_price (i + length qs)).
Proof.
  induction 1; cbn [app length].
  - rewrite Nat.add_0_r. match goal with |- edit _ _ _ _ _ _ (0 + ?x) => replace (0 + x) with (x + 0) by lia end.
    apply ed_add. constructor.
  - match goal with |- edit _ _ _ _ _ _ (?x + ?c + ?y) => replace (x + c + y) with (x + (c + y)) by lia end.
    replace (i + S (length q0))%nat with (S i + length q0)%nat by lia. now constructor.
  - match goal with |- edit _ _ _ _ _ _ (?x + ?c + ?y) => replace (x + c + y) with (x + (c + y)) by lia end.
    replace (i + S (length q0))%nat with (S i + length q0)%nat by lia. now apply ed_drop.
  - match goal with |- edit _ _ _ _ _ _ (?x + ?c + ?y) => replace (x + c + y) with (x + (c + y)) by lia end.
    now apply ed_add.
  - match goal with |- edit _ _ _ _ _ _ (?x + ?c + ?y) => replace (x + c + y) with (x + (c + y)) by lia end.
    replace (i + S (S (length q0)))%nat with (S (S i) + length q0)%nat by lia. now apply ed_swap.
Qed.

Lemma edit_snoc_swap i j qs w c a b : edit P n i j qs w c ->
  edit P n i j (qs ++ [a; b]) (w ++ [b; a]) (c + p_trans P).
Proof.
  induction 1; cbn [app].
  - replace (0 + p_trans P) with (p_trans P + 0) by lia. apply ed_swap. constructor.
  - match goal with |- edit _ _ _ _ _ _ (?x + ?c + ?y) => replace (x + c + y) with (x + (c + y)) by lia end. now constructor.
  - match goal with |- edit _ _ _ _ _ _ (?x + ?c + ?y) => replace (x + c + y) with (x + (c + y)) by lia end. now apply ed_drop.
  - match goal with |- edit _ _ _ _ _ _ (?x + ?c + ?y) => replace (x + c + y) with (x + (c + y)) by lia end. now apply ed_add.
  - match goal with |- edit _ _ _ _ _ _ (?x + ?c + ?y) => replace (x + c + y) with (x + (c + y)) by lia end. now apply ed_swap.
Qed.

(** Last step of a script. *)
Inductive last_step (i j : nat) : word -> word -> Z -> Prop :=
| ls_nil : last_step i j [] [] 0
| ls_sub qs w c a b : edit P n i j qs w c -> last_step i j (qs ++ [a]) (w ++ [b]) (c + p_sub P a b)
| ls_drop qs w c a : edit P n i j qs w c ->
    last_step i j (qs ++ [a]) w (c + (if Nat.eqb (j + length w) 0 then p_del P else p_ins P))
| ls_add qs w c b : edit P n i j qs w c -> last_step i j qs (w ++ [b]) (c + add_price (i + length qs))
| ls_swap qs w c a b : edit P n i j qs w c -> last_step i j (qs ++ [a; b]) (w ++ [b; a]) (c + p_trans P).

Lemma edit_last i j qs w c : edit P n i j qs w c -> last_step i j qs w c.
Proof.
  induction 1 as [i j|i j a b qs w c H IH|i j a qs w c H IH|i j b qs w c H IH|i j a b qs w c H IH].
  - constructor.
  - inversion IH; subst.
    + replace (p_sub P a b + 0) with (0 + p_sub P a b) by lia. apply (@ls_sub i j [] []). constructor.
    + match goal with |- last_step _ _ _ _ (?x + (?c + ?y)) => replace (x + (c + y)) with ((x + c) + y) by lia end.
      apply (@ls_sub i j (a :: qs0) (b :: w0)). now constructor.
    + match goal with |- last_step _ _ _ _ (?x + (?c + ?y)) => replace (x + (c + y)) with ((x + c) + y) by lia end.
      replace (S j + length w)%nat with (j + length (b :: w))%nat by (cbn; lia).
      apply (@ls_drop i j (a :: qs0) (b :: w)). now constructor.
    + match goal with |- last_step _ _ _ _ (?x + (?c + ?y)) => replace (x + (c + y)) with ((x + c) + y) by lia end.
      replace (S i + length qs)%nat with (i + length (a :: qs))%nat by (cbn; lia).
      apply (@ls_add i j (a :: qs) (b :: w0)). now constructor.
    + match goal with |- last_step _ _ _ _ (?x + (?c + ?y)) => replace (x + (c + y)) with ((x + c) + y) by lia end.
      apply (@ls_swap i j (a :: qs0) (b :: w0)). now constructor.
  - inversion IH; subst.
    + match goal with |- last_step _ _ _ _ (?x + 0) => replace (x + 0) with (0 + x) by lia end.
      replace (Nat.eqb j 0) with (Nat.eqb (j + @length N []) 0) by (cbn; now rewrite Nat.add_0_r).
      apply (@ls_drop i j [] []). constructor.
    + match goal with |- last_step _ _ _ _ (?x + (?c + ?y)) => replace (x + (c + y)) with ((x + c) + y) by lia end.
      apply (@ls_sub i j (a :: qs0) w0). now apply ed_drop.
    + match goal with |- last_step _ _ _ _ (?x + (?c + ?y)) => replace (x + (c + y)) with ((x + c) + y) by lia end.
      apply (@ls_drop i j (a :: qs0) w). now apply ed_drop.
    + match goal with |- last_step _ _ _ _ (?x + (?c + ?y)) => replace (x + (c + y)) with ((x + c) + y) by lia end.
      replace (S i + length qs)%nat with (i + length (a :: qs))%nat by (cbn; lia).
      apply (@ls_add i j (a :: qs) w0). now apply ed_drop.
    + match goal with |- last_step _ _ _ _ (?x + (?c + ?y)) => replace (x + (c + y)) with ((x + c) + y) by lia end.
      apply (@ls_swap i j (a :: qs0) w0). now apply ed_drop.
  - inversion IH; subst.
    + match goal with |- last_step _ _ _ _ (?x + 0) => replace (x + 0) with (0 + x) by lia end.
      fold (add_price i). replace (add_price i) with (add_price (i + @length N [])) by (cbn; now rewrite Nat.add_0_r).
      apply (@ls_add i j [] []). constructor.
    + match goal with |- last_step _ _ _ _ (?x + (?c + ?y)) => replace (x + (c + y)) with ((x + c) + y) by lia end.
      apply (@ls_sub i j qs0 (b :: w0)). now apply ed_add.
    + match goal with |- last_step _ _ _ _ (?x + (?c + ?y)) => replace (x + (c + y)) with ((x + c) + y) by lia end.
      replace (S j + length w)%nat with (j + length (b :: w))%nat by (cbn; lia).
      apply (@ls_drop i j qs0 (b :: w)). now apply ed_add.
    + match goal with |- last_step _ _ _ _ (?x + (?c + ?y)) => replace (x + (c + y)) with ((x + c) + y) by lia end.
      apply (@ls_add i j qs (b :: w0)). now apply ed_add.
    + match goal with |- last_step _ _ _ _ (?x + (?c + ?y)) => replace (x + (c + y)) with ((x + c) + y) by lia end.
      apply (@ls_swap i j qs0 (b :: w0)). now apply ed_add.
  - inversion IH; subst.
    + match goal with |- last_step _ _ _ _ (?x + 0) => replace (x + 0) with (0 + x) by lia end.
      apply (@ls_swap i j [] []). constructor.
    + match goal with |- last_step _ _ _ _ (?x + (?c + ?y)) => replace (x + (c + y)) with ((x + c) + y) by lia end.
      apply (@ls_sub i j (a :: b :: qs0) (b :: a :: w0)). now apply ed_swap.
    + match goal with |- last_step _ _ _ _ (?x + (?c + ?y)) => replace (x + (c + y)) with ((x + c) + y) by lia end.
      replace (S (S j) + length w)%nat with (j + length (b :: a :: w))%nat by (cbn; lia).
      apply (@ls_drop i j (a :: b :: qs0) (b :: a :: w)). now apply ed_swap.
    + match goal with |- last_step _ _ _ _ (?x + (?c + ?y)) => replace (x + (c + y)) with ((x + c) + y) by lia end.
      replace (S (S i) + length qs)%nat with (i + length (a :: b :: qs))%nat by (cbn; lia).
      apply (@ls_add i j (a :: b :: qs) (b :: a :: w0)). now apply ed_swap.
    + match goal with |- last_step _ _ _ _ (?x + (?c + ?y)) => replace (x + (c + y)) with ((x + c) + y) by lia end.
      apply (@ls_swap i j (a :: b :: qs0) (b :: a :: w0)). now apply ed_swap.
Qed.

(** ** Unfolding of D *)
Lemma D_nil i : D [] i = Z.of_nat i * p_del P. Proof. reflexivity. Qed.
Lemma D_0 rp : D rp 0 = Z.of_nat (length rp) * p_sins P.
Proof. destruct rp; [cbn; lia|reflexivity]. Qed.
Definition tr_of l rp1 k ins : Z :=
  match k, rp1 with
  | S k2, l1 :: rp2 => if (nth k q 0%N =? l1)%N && (nth k2 q 0%N =? l)%N
                       then D rp2 k2 + p_trans P else ins + 10000
  | _, _ => ins + 10000
  end.
Lemma D_S l rp1 k : D (l :: rp1) (S k) =
  let ins := D (l :: rp1) k + p_ins P in
  Z.min ins (Z.min (D rp1 (S k) + (if Nat.leb n (S k) then p_edel P else p_del P))
            (Z.min (D rp1 k + p_sub P (nth k q 0%N) l) (tr_of l rp1 k ins))).
Proof. reflexivity. Qed.

Lemma firstn_snoc k (l : word) : (k < length l)%nat -> firstn (S k) l = firstn k l ++ [nth k l 0%N].
Proof.
  revert l. induction k as [|k IH]; intros [|x l] H; cbn in H; try lia; [reflexivity|].
  cbn [firstn nth app]. f_equal. apply IH. lia.
Qed.

(** Achieved. *)
Lemma D_edit : forall m rp k, (length rp + k <= m)%nat -> (k <= n)%nat ->
  edit P n 0 0 (firstn k q) (rev rp) (D rp k).
Proof.
  induction m as [|m IH]; intros rp k Hm Hk.
  { destruct rp; cbn in Hm; [|lia]. assert (k = 0)%nat by lia. subst k. cbn. constructor. }
  destruct rp as [|l rp1].
  - clear IH Hm. induction k as [|k IHk]; [cbn; constructor|].
    rewrite firstn_snoc by (fold n; lia). rewrite D_nil. cbn [rev] in *.
    replace (Z.of_nat (S k) * p_del P) with (D [] k + p_del P) by (rewrite D_nil; lia).
    apply (@edit_snoc_drop 0 0 _ []). apply IHk. lia.
  - destruct k as [|k].
    + rewrite D_0. cbn [firstn]. clear IH Hm Hk. induction (l :: rp1) as [|x r IHr]; [cbn; constructor|].
      cbn [rev length]. replace (Z.of_nat (S (length r)) * p_sins P) with (Z.of_nat (length r) * p_sins P + p_sins P) by lia.
      exact (@edit_snoc_add 0 0 [] _ _ x IHr).
    + cbn [length] in Hm. rewrite D_S. cbv zeta.
      assert (Hins : edit P n 0 0 (firstn (S k) q) (rev (l :: rp1)) (D (l :: rp1) k + p_ins P)).
      { rewrite firstn_snoc by (fold n; lia).
        assert (He : edit P n 0 0 (firstn k q) (rev (l :: rp1)) (D (l :: rp1) k)) by (apply IH; cbn [length]; lia).
        apply (@edit_snoc_drop 0 0 _ _ _ (nth k q 0%N)) in He.
        rewrite rev_length in He. exact He. }
      assert (Hdel : edit P n 0 0 (firstn (S k) q) (rev (l :: rp1)) (D rp1 (S k) + (if Nat.leb n (S k) then p_edel P else p_del P))).
      { cbn [rev]. assert (He : edit P n 0 0 (firstn (S k) q) (rev rp1) (D rp1 (S k))) by (apply IH; lia).
        apply (@edit_snoc_add 0 0 _ _ _ l) in He.
        rewrite firstn_length_le in He by (fold n; lia). unfold add_price in He. cbn [Nat.eqb Nat.add] in He.
        replace (Nat.leb n (S k)) with (Nat.eqb (S k) n).
        - exact He.
        - destruct (Nat.leb_spec n (S k)); destruct (Nat.eqb_spec (S k) n); lia. }
      assert (Hsub : edit P n 0 0 (firstn (S k) q) (rev (l :: rp1)) (D rp1 k + p_sub P (nth k q 0%N) l)).
      { cbn [rev]. rewrite firstn_snoc by (fold n; lia). apply edit_snoc_sub. apply IH; lia. }
      assert (Htr : forall x, tr_of l rp1 k (D (l :: rp1) k + p_ins P) = x ->
                edit P n 0 0 (firstn (S k) q) (rev (l :: rp1)) x \/ x = D (l :: rp1) k + p_ins P + 10000).
      { intros x Hx. unfold tr_of in Hx. destruct k as [|k2]; [right; congruence|].
        destruct rp1 as [|l1 rp2]; [right; congruence|].
        destruct (N.eqb_spec (nth (S k2) q 0%N) l1) as [H1|]; [|right; cbn [andb] in Hx; congruence].
        destruct (N.eqb_spec (nth k2 q 0%N) l) as [H2|]; [|right; cbn [andb] in Hx; congruence].
        cbn [andb] in Hx. left. rewrite <- Hx.
        rewrite firstn_snoc by (fold n; lia). rewrite firstn_snoc by (fold n; lia).
        rewrite <- app_assoc. cbn [app rev]. rewrite <- app_assoc. cbn [app]. rewrite H1, H2.
        cbn [length] in Hm.
        apply edit_snoc_swap. apply IH; lia. }
      specialize (Htr _ eq_refl). generalize dependent (tr_of l rp1 k (D (l :: rp1) k + p_ins P)). intros tr Htr.
      set (x1 := D (l :: rp1) k + p_ins P) in *.
      set (x2 := D rp1 (S k) + _) in *. set (x3 := D rp1 k + _) in *.
      assert (Hc : Z.min x1 (Z.min x2 (Z.min x3 tr)) = x1 \/ Z.min x1 (Z.min x2 (Z.min x3 tr)) = x2 \/
                   Z.min x1 (Z.min x2 (Z.min x3 tr)) = x3 \/ (Z.min x1 (Z.min x2 (Z.min x3 tr)) = tr /\ tr <= x1)) by lia.
      destruct Hc as [->|[->|[->|[-> Hle]]]]; try assumption.
      destruct Htr as [Htr|Htr]; [exact Htr|lia].
Qed.

(** Minimal. *)
Lemma D_le : forall m rp k c, (length rp + k <= m)%nat -> (k <= n)%nat ->
  edit P n 0 0 (firstn k q) (rev rp) c -> D rp k <= c.
Proof.
  induction m as [|m IH]; intros rp k c Hm Hk He; apply edit_last in He.
  { destruct rp; cbn in Hm; [|lia]. assert (k = 0)%nat by lia. subst k. cbn in *.
    inversion He; subst; try lia;
      repeat match goal with H : _ ++ _ = [] |- _ => apply app_eq_nil in H; destruct H; discriminate end;
      repeat match goal with H : [] = _ ++ _ |- _ => symmetry in H; apply app_eq_nil in H; destruct H; discriminate end. }
  assert (Hqs : forall qs a, qs ++ [a] = firstn k q -> exists k1, k = S k1 /\ qs = firstn k1 q /\ a = nth k1 q 0%N).
  { intros qs a Hq. destruct k as [|k1]; [cbn in Hq; apply app_eq_nil in Hq; destruct Hq; discriminate|].
    exists k1. split; [reflexivity|]. rewrite firstn_snoc in Hq by (fold n; lia). apply app_inj_tail in Hq. exact Hq. }
  assert (Hws : forall w b, w ++ [b] = rev rp -> exists rp1, rp = b :: rp1 /\ w = rev rp1).
  { intros w b Hw. destruct rp as [|l rp1]; [cbn in Hw; apply app_eq_nil in Hw; destruct Hw; discriminate|].
    cbn in Hw. apply app_inj_tail in Hw as [-> ->]. now exists rp1. }
  inversion He as [Hq Hw Hc|qs w c' a b Hed Hq Hw Hc|qs w c' a Hed Hq Hw Hc|qs w c' b Hed Hq Hw Hc|qs w c' a b Hed Hq Hw Hc]; subst.
  - assert (k = 0)%nat by (destruct k; [reflexivity|rewrite firstn_snoc in Hq by (fold n; lia); symmetry in Hq; apply app_eq_nil in Hq; destruct Hq; discriminate]).
    destruct rp as [|l rp1]; [|cbn in Hw; symmetry in Hw; apply app_eq_nil in Hw; destruct Hw; discriminate].
    subst k. cbn. lia.
  - destruct (Hqs _ _ Hq) as (k1 & -> & -> & ->). destruct (Hws _ _ Hw) as (rp1 & -> & ->).
    cbn [length] in Hm. rewrite D_S. cbv zeta.
    assert (D rp1 k1 <= c') by (apply IH; [lia|lia|exact Hed]). lia.
  - destruct (Hqs _ _ Hq) as (k1 & -> & -> & ->). rewrite rev_length. cbn [Nat.add].
    assert (Hle : D rp k1 <= c') by (apply IH; [lia|lia|exact Hed]).
    destruct rp as [|l rp1].
    + cbn [length Nat.eqb]. rewrite D_nil in *. lia.
    + cbn [length Nat.eqb]. rewrite D_S. cbv zeta. lia.
  - destruct (Hws _ _ Hw) as (rp1 & -> & ->). cbn [length Nat.add] in *.
    assert (Hle : D rp1 k <= c') by (apply IH; [lia|lia|exact Hed]).
    rewrite firstn_length_le by (fold n; lia).
    destruct k as [|k1].
    + rewrite D_0 in *. unfold add_price. cbn [Nat.eqb length]. lia.
    + rewrite D_S. cbv zeta. unfold add_price. cbn [Nat.eqb].
      replace (match n with O => false | S m' => Nat.eqb k1 m' end) with (Nat.leb n (S k1)).
      * lia.
      * destruct n as [|n']; [lia|]. destruct (Nat.leb_spec (S n') (S k1)); destruct (Nat.eqb_spec k1 n'); lia.
  - change [a; b] with ([a] ++ [b]) in Hq. rewrite app_assoc in Hq.
    destruct (Hqs _ _ Hq) as (k1 & -> & Hq1 & ->).
    change [nth k1 q 0%N; a] with ([nth k1 q 0%N] ++ [a]) in Hw. rewrite app_assoc in Hw.
    destruct (Hws _ _ Hw) as (rp1 & -> & Hw1).
    destruct rp1 as [|l1 rp2]; [cbn in Hw1; apply app_eq_nil in Hw1; destruct Hw1; discriminate|].
    cbn [rev] in Hw1. apply app_inj_tail in Hw1 as [-> Hl1].
    destruct k1 as [|k2]; [cbn in Hq1; apply app_eq_nil in Hq1; destruct Hq1; discriminate|].
    rewrite firstn_snoc in Hq1 by (fold n; lia). apply app_inj_tail in Hq1 as [-> ->].
    cbn [length] in Hm. assert (Hle : D rp2 k2 <= c') by (apply IH; [lia|lia|exact Hed]).
    rewrite D_S. cbv zeta. unfold tr_of at 1. rewrite Hl1, !N.eqb_refl. cbn [andb]. lia.
Qed.

Theorem D_min w : min_cost P q w (D (rev w) n).
Proof.
  assert (Hf : firstn n q = q) by apply firstn_all.
  split.
  - unfold edit_cost. fold n. pose proof (@D_edit _ (rev w) n (Nat.le_refl _) (Nat.le_refl _)) as H.
    rewrite Hf, rev_involutive in H. exact H.
  - intros c' H. apply (@D_le _ (rev w) n c' (Nat.le_refl _) (Nat.le_refl _)).
    rewrite Hf, rev_involutive. exact H.
Qed.

Lemma min_cost_D w c : min_cost P q w c -> c = D (rev w) n.
Proof. intros [H1 H2]. destruct (D_min w) as [H3 H4]. specialize (H2 _ H3). specialize (H4 _ H1). lia. Qed.

End DP.
