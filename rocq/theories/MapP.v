(** Proofs about the std::map model and about comparing doubles. *)
From Verif Require Import Base TrieM WordM WordP WordQ MapM DoubleM.
From Coq Require Import ZifyBool ZifyN ZifyNat.

Record order_ok {K} (lt : K -> K -> bool) : Prop := {
  oo_irr : forall a, lt a a = false;
  oo_tr : forall a b c, lt a b = true -> lt b c = true -> lt a c = true;
  oo_tot : forall a b, lt a b = false -> lt b a = false -> a = b
}.
Lemma wltb_order : order_ok wltb.
Proof. constructor; [exact wlt_irrefl|exact wlt_trans|]. intros a b. apply wlt_total. Qed.
Lemma nltb_order : order_ok N.ltb.
Proof. constructor; lia. Qed.
Lemma pair_order : order_ok pair_lt.
Proof.
  constructor; unfold pair_lt; [intros [a b]|intros [a b] [c d] [e f]|intros [a b] [c d]]; cbn; try lia.
  intros H1 H2. assert (a = c) by lia. assert (b = d) by lia. congruence.
Qed.

Section MapP.
Context {K V : Type} (lt : K -> K -> bool) (HO : order_ok lt).
Notation kv := (list (K * V)).
Definition below (k : K) (m : kv) : Prop := Forall (fun p => lt k (fst p) = true) m.
Inductive msorted : kv -> Prop :=
| ms_nil : msorted []
| ms_cons k v m : below k m -> msorted m -> msorted ((k, v) :: m).
Lemma lt_cases a b : (lt a b = true /\ lt b a = false) \/ (lt a b = false /\ lt b a = true) \/ (a = b /\ lt a b = false /\ lt b a = false).
Proof.
  destruct (lt a b) eqn:H1, (lt b a) eqn:H2.
  - pose proof (oo_tr HO H1 H2). rewrite (oo_irr HO) in H. discriminate.
  - now left.
  - right. now left.
  - right. right. split; [now apply (oo_tot HO)|now split].
Qed.
Lemma below_tr a b m : lt a b = true -> below b m -> below a m.
Proof. intros H Hb. unfold below in *. rewrite Forall_forall in *. intros p Hp. eapply (oo_tr HO); [exact H|now apply Hb]. Qed.
Lemma find_below k m : below k m -> mp_find lt k m = None.
Proof. destruct m as [|[k' v] m]; [reflexivity|]. intros H. inversion H as [|? ? H1 H2]; subst. cbn in *. now rewrite H1. Qed.
Lemma set_below a k v m : lt a k = true -> below a m -> below a (mp_set lt k v m).
Proof.
  induction m as [|[k' v'] m IH]; intros H Hb; cbn; [constructor; [exact H|constructor]|].
  inversion Hb as [|? ? H1 H2]; subst. destruct (lt k k'); [constructor; assumption|].
  destruct (lt k' k); constructor; cbn; try assumption. now apply IH.
Qed.
Lemma set_sorted k v m : msorted m -> msorted (mp_set lt k v m).
Proof.
  induction 1 as [|k' v' m Hb Hs IH]; cbn; [constructor; constructor|].
  destruct (lt_cases k k') as [[H1 H2]|[[H1 H2]|(He & H1 & H2)]]; rewrite H1; try rewrite H2.
  - constructor; [|now constructor]. constructor; [exact H1|]. now apply (@below_tr k k').
  - constructor; [now apply set_below|exact IH].
  - subst. constructor; assumption.
Qed.
Lemma find_set_same k v m : msorted m -> mp_find lt k (mp_set lt k v m) = Some v.
Proof.
  induction 1 as [|k' v' m Hb Hs IH]; cbn; [now rewrite (oo_irr HO)|].
  destruct (lt_cases k k') as [[H1 H2]|[[H1 H2]|(He & H1 & H2)]]; rewrite H1; try rewrite H2; cbn.
  - now rewrite (oo_irr HO).
  - now rewrite H1, H2.
  - now rewrite H1, H2.
Qed.
Lemma find_set_other k j v m : msorted m -> j <> k -> mp_find lt j (mp_set lt k v m) = mp_find lt j m.
Proof.
  intros Hs Hne. induction Hs as [|k' v' m Hb Hs IH]; cbn.
  - destruct (lt_cases j k) as [[H1 H2]|[[H1 H2]|(He & H1 & H2)]]; [now rewrite H1|now rewrite H1, H2|congruence].
  - destruct (lt_cases k k') as [[H1 H2]|[[H1 H2]|(He & H1 & H2)]]; rewrite H1; try rewrite H2; cbn.
    + destruct (lt_cases j k) as [[H3 H4]|[[H3 H4]|(He & H3 & H4)]]; [|now rewrite H3, H4|congruence].
      rewrite H3. now rewrite (oo_tr HO H3 H1).
    + now rewrite IH.
    + subst k'. destruct (lt_cases j k) as [[H3 H4]|[[H3 H4]|(He & H3 & H4)]]; [now rewrite H3|now rewrite H3, H4|congruence].
Qed.
Lemma find_in k v m : msorted m -> (mp_find lt k m = Some v <-> In (k, v) m).
Proof.
  induction 1 as [|k' v' m Hb Hs IH]; [split; [discriminate|intros []]|]. cbn.
  destruct (lt_cases k k') as [[H1 H2]|[[H1 H2]|(He & H1 & H2)]]; rewrite H1; try rewrite H2.
  - split; [discriminate|]. intros [H|H].
    + injection H as -> ->. rewrite (oo_irr HO) in H1. discriminate.
    + unfold below in Hb. rewrite Forall_forall in Hb. specialize (Hb _ H). cbn in Hb. rewrite Hb in H2. discriminate.
  - rewrite IH. split; [now right|]. intros [H|H]; [|exact H]. injection H as -> ->. rewrite (oo_irr HO) in H2. discriminate.
  - subst k'. split; [intros [= ->]; now left|]. intros [H|H]; [injection H as ->; reflexivity|].
    unfold below in Hb. rewrite Forall_forall in Hb. specialize (Hb _ H). cbn in Hb. rewrite (oo_irr HO) in Hb. discriminate.
Qed.
Lemma find_none k m : msorted m -> (mp_find lt k m = None <-> ~ In k (map fst m)).
Proof.
  intros Hs. split.
  - intros H Hin. apply in_map_iff in Hin as ([k' v] & <- & Hin). apply (find_in k' v Hs) in Hin. cbn in H. congruence.
  - intros H. destruct (mp_find lt k m) as [v|] eqn:Hf; [|reflexivity]. apply (find_in k v Hs) in Hf. destruct H. now apply (in_map fst) in Hf.
Qed.
Lemma sorted_keys m : msorted m -> StronglySorted (fun a b => lt a b = true) (map fst m).
Proof.
  induction 1 as [|k v m Hb Hs IH]; cbn; [constructor|]. constructor; [exact IH|].
  unfold below in Hb. rewrite Forall_forall in *. intros x Hx. apply in_map_iff in Hx as (p & <- & Hp). now apply Hb.
Qed.
Lemma sorted_nodup m : msorted m -> NoDup (map fst m).
Proof.
  intros H. apply sorted_keys in H. induction (map fst m) as [|k l IH]; [constructor|].
  apply StronglySorted_inv in H as [H1 H2]. constructor; [|now apply IH]. intros Hin. rewrite Forall_forall in H2. specialize (H2 _ Hin).
  cbn in H2. rewrite (oo_irr HO) in H2. discriminate.
Qed.
Lemma set_keys k v m j : msorted m -> (In j (map fst (mp_set lt k v m)) <-> j = k \/ In j (map fst m)).
Proof.
  intros Hs. assert (Hd : j = k \/ j <> k).
  { destruct (lt_cases j k) as [[H1 H2]|[[H1 H2]|(He & _)]]; [right|right|now left]; intros ->; rewrite (oo_irr HO) in *; discriminate. }
  pose proof (set_sorted k v Hs) as Hs2. destruct Hd as [->|Hne].
  - split; [now left|]. intros _. pose proof (find_set_same k v Hs) as H. apply (find_in k v Hs2) in H. now apply (in_map fst) in H.
  - pose proof (find_set_other v Hs Hne) as H. split.
    + intros Hin. right. destruct (mp_find lt j m) as [x|] eqn:Hf.
      * apply (find_in j x Hs) in Hf. now apply (in_map fst) in Hf.
      * apply (find_none j Hs2) in H. contradiction.
    + intros [He|Hin]; [contradiction|]. destruct (mp_find lt j (mp_set lt k v m)) as [x|] eqn:Hf.
      * apply (find_in j x Hs2) in Hf. now apply (in_map fst) in Hf.
      * symmetry in H. apply (find_none j Hs) in H. contradiction.
Qed.
End MapP.

(** Two sorted maps with the same entries are equal. *)
Lemma ssorted_unique {A} (R : A -> A -> Prop) (Hirr : forall a, ~ R a a) (Htr : forall a b c, R a b -> R b c -> R a c) :
  forall l1 l2, StronglySorted R l1 -> StronglySorted R l2 -> (forall x, In x l1 <-> In x l2) -> l1 = l2.
Proof.
  induction l1 as [|a l1 IH]; intros [|b l2] H1 H2 He; [reflexivity| | |].
  - destruct (proj2 (He b)). now left.
  - destruct (proj1 (He a)). now left.
  - apply StronglySorted_inv in H1 as [H1 F1], H2 as [H2 F2]. rewrite Forall_forall in F1, F2.
    assert (a = b) as ->.
    { destruct (proj1 (He a) (or_introl eq_refl)) as [->|Hin]; [reflexivity|]. destruct (proj2 (He b) (or_introl eq_refl)) as [<-|Hin2]; [reflexivity|].
      exfalso. apply (Hirr a). apply (Htr a b a); [now apply F1|now apply F2]. }
    f_equal. apply IH; [exact H1|exact H2|]. intros x. split; intros Hx.
    + destruct (proj1 (He x) (or_intror Hx)) as [<-|H]; [|exact H]. exfalso. apply (Hirr b). now apply F1.
    + destruct (proj2 (He x) (or_intror Hx)) as [<-|H]; [|exact H]. exfalso. apply (Hirr b). now apply F2.
Qed.

(** ** Comparing doubles *)
Definition dkey (x : double) : Z * Z * Z :=
  match x with
  | S754_zero _ => (0, 0, 0)
  | S754_infinity s => (if s then -2 else 2, 0, 0)
  | S754_nan => (0, 0, 0)
  | S754_finite false m e => (1, e, Zpos m)
  | S754_finite true m e => (-1, -e, - Zpos m)
  end%Z.
Definition klt (a b : Z * Z * Z) : bool :=
  let '(a1, a2, a3) := a in let '(b1, b2, b3) := b in
  ((a1 <? b1) || ((a1 =? b1) && ((a2 <? b2) || ((a2 =? b2) && (a3 <? b3)))))%Z.
Lemma d_lt_key x y : is_nan x = false -> is_nan y = false -> d_lt x y = klt (dkey x) (dkey y).
Proof.
  intros Hx Hy. unfold d_lt, SFltb, SFcompare.
  destruct x as [[]|[]| |[] m e], y as [[]|[]| |[] n f]; cbv [is_nan] in Hx, Hy; try discriminate; try reflexivity; cbv [dkey klt].
  - destruct (Z.compare_spec e f).
    + subst f. change (Pos.compare_cont Eq m n) with (Pos.compare m n). destruct (Pos.compare_spec m n); cbv [CompOpp]; lia.
    + lia.
    + lia.
  - destruct (Z.compare_spec e f).
    + subst f. change (Pos.compare_cont Eq m n) with (Pos.compare m n). destruct (Pos.compare_spec m n); cbv [CompOpp]; lia.
    + lia.
    + lia.
Qed.
Lemma klt_irr a : klt a a = false.
Proof. destruct a as [[a1 a2] a3]. unfold klt. lia. Qed.
Lemma klt_tr a b c : klt a b = true -> klt b c = true -> klt a c = true.
Proof. destruct a as [[a1 a2] a3], b as [[b1 b2] b3], c as [[c1 c2] c3]. unfold klt. lia. Qed.
Lemma klt_ntr a b c : klt a b = false -> klt b c = false -> klt a c = false.
Proof. destruct a as [[a1 a2] a3], b as [[b1 b2] b3], c as [[c1 c2] c3]. unfold klt. lia. Qed.
Lemma klt_asym a b : klt a b = true -> klt b a = false.
Proof. destruct a as [[a1 a2] a3], b as [[b1 b2] b3]. unfold klt. lia. Qed.
