(** What typing errors cost at most. *)
From Verif Require Import Base TrieM ErrorValuesM LevIndexM Spec_Edit Spec_EV Spec_Lev EVP EVK EVR ScalarP EditP WordM MapM DoubleM ContM MatcherM Spec_Hist Spec_Word Spec_Cont Spec_Match.
Local Open Scope Z_scope.

(** Alignments of two words with [k] errors. *)
Inductive al : nat -> word -> word -> Prop :=
| al_nil : al 0 [] []
| al_keep k a q w : al k q w -> al k (a :: q) (a :: w)
| al_sub k a b q w : al k q w -> al (S k) (a :: q) (b :: w)
| al_drop k a q w : al k q w -> al (S k) (a :: q) w
| al_add k b q w : al k q w -> al (S k) q (b :: w).
Lemma al_refl w : al 0 w w.
Proof. induction w; now constructor. Qed.
Lemma al_app k u q w : al k q w -> al k (u ++ q) (u ++ w).
Proof. intros H. induction u; cbn; [exact H|now constructor]. Qed.
Lemma al_sym k q w : al k q w -> al k w q.
Proof. induction 1; now constructor. Qed.
Lemma al_trans k1 a b : al k1 a b -> forall k2 c, al k2 b c -> exists k, (k <= k1 + k2)%nat /\ al k a c.
Proof.
  induction 1 as [|k1 x a b H IH|k1 x y a b H IH|k1 x a b H IH|k1 y a b H IH]; intros k2 c H2.
  - exists k2. split; [lia|exact H2].
  - remember (x :: b) as xb eqn:Hx. revert Hx. induction H2 as [|k2 z q w H2 IH2|k2 z z' q w H2 IH2|k2 z q w H2 IH2|k2 z q w H2 IH2]; intros Hx; try discriminate Hx.
    + injection Hx as -> ->. destruct (IH _ _ H2) as (k & Hk & Ha). exists k. split; [exact Hk|now constructor].
    + injection Hx as -> ->. destruct (IH _ _ H2) as (k & Hk & Ha). exists (S k). split; [lia|now constructor].
    + injection Hx as -> ->. destruct (IH _ _ H2) as (k & Hk & Ha). exists (S k). split; [lia|now constructor].
    + destruct (IH2 Hx) as (k & Hk & Ha). exists (S k). split; [lia|now constructor].
  - remember (y :: b) as xb eqn:Hx. revert Hx. induction H2 as [|k2 z q w H2 IH2|k2 z z' q w H2 IH2|k2 z q w H2 IH2|k2 z q w H2 IH2]; intros Hx; try discriminate Hx.
    + injection Hx as -> ->. destruct (IH _ _ H2) as (k & Hk & Ha). exists (S k). split; [lia|now constructor].
    + injection Hx as -> ->. destruct (IH _ _ H2) as (k & Hk & Ha). exists (S k). split; [lia|now constructor].
    + injection Hx as -> ->. destruct (IH _ _ H2) as (k & Hk & Ha). exists (S k). split; [lia|now constructor].
    + destruct (IH2 Hx) as (k & Hk & Ha). exists (S k). split; [lia|now constructor].
  - destruct (IH _ _ H2) as (k & Hk & Ha). exists (S k). split; [lia|now constructor].
  - remember (y :: b) as xb eqn:Hx. revert Hx. induction H2 as [|k2 z q w H2 IH2|k2 z z' q w H2 IH2|k2 z q w H2 IH2|k2 z q w H2 IH2]; intros Hx; try discriminate Hx.
    + injection Hx as -> ->. destruct (IH _ _ H2) as (k & Hk & Ha). exists (S k). split; [lia|now constructor].
    + injection Hx as -> ->. destruct (IH _ _ H2) as (k & Hk & Ha). exists (S k). split; [lia|now constructor].
    + injection Hx as -> ->. destruct (IH _ _ H2) as (k & Hk & Ha). exists k. split; [lia|exact Ha].
    + destruct (IH2 Hx) as (k & Hk & Ha). exists (S k). split; [lia|now constructor].
Qed.
Lemma typo_al w w' : typo w w' -> al 1 w w'.
Proof. intros []; apply al_app; constructor; apply al_refl. Qed.
(** Two typing errors. *)
Lemma typo2_al w w' w'' : typo w w' -> typo w' w'' -> exists k, (k <= 2)%nat /\ al k w'' w.
Proof.
  intros H1 H2. destruct (al_trans (typo_al H1) (typo_al H2)) as (k & Hk & Ha). exists k. split; [exact Hk|now apply al_sym].
Qed.

Section Keep.
Variable P : prices.
Hypothesis Hself : forall a, p_sub P a a = 0.
Lemma keep_cost n u q w c : forall i j, edit P n (i + length u) (j + length u) q w c -> edit P n i j (u ++ q) (u ++ w) c.
Proof.
  induction u as [|a u IH]; intros i j H; cbn [app length] in *; [now rewrite !Nat.add_0_r in H|].
  replace c with (p_sub P a a + c) by (rewrite Hself; lia). constructor. apply IH. now rewrite !Nat.add_succ_l, <- !Nat.add_succ_r.
Qed.
Lemma same_cost n w : forall i j, edit P n i j w w 0.
Proof. induction w as [|a w IH]; intros i j; [constructor|]. replace 0 with (p_sub P a a + 0) by (rewrite Hself; lia). now constructor. Qed.
(** The letters before and after a part of a word. *)
Lemma before_cost n a q w c : forall j, edit P n 0 (j + length a) q w c -> edit P n 0 j q (a ++ w) (Z.of_nat (length a) * p_sins P + c).
Proof.
  induction a as [|x a IH]; intros j H; cbn [app length] in *; [now rewrite Nat.add_0_r in H|].
  replace (Z.of_nat (S (length a)) * p_sins P + c) with (p_sins P + (Z.of_nat (length a) * p_sins P + c)) by lia.
  apply (@ed_add P n 0 j x q (a ++ w)). apply IH. now rewrite Nat.add_succ_l, <- Nat.add_succ_r.
Qed.
Lemma after_cost n b : n <> O -> forall j, edit P n n j [] b (Z.of_nat (length b) * p_edel P).
Proof.
  intros Hn. induction b as [|x b IH]; intros j; [constructor|]. cbn [length].
  replace (Z.of_nat (S (length b)) * p_edel P) with (p_edel P + Z.of_nat (length b) * p_edel P) by lia.
  pose proof (@ed_add P n n j x [] b _ (IH (S j))) as H. rewrite Nat.eqb_refl in H. destruct (Nat.eqb_spec n 0); [contradiction|exact H].
Qed.
Lemma infix_cost a q b : q <> [] -> edit_cost P q (a ++ q ++ b) (Z.of_nat (length a) * p_sins P + Z.of_nat (length b) * p_edel P).
Proof.
  intros Hq. unfold edit_cost. apply before_cost. cbn [Nat.add].
  rewrite <- (app_nil_r q) at 2. apply keep_cost. cbn [Nat.add]. apply after_cost. destruct q; [contradiction|discriminate].
Qed.
End Keep.

Section Cost.
Variables (P : prices) (B : Z).
Hypothesis Hins : p_ins P <= B. Hypothesis Hdel : p_del P <= B. Hypothesis Hedel : p_edel P <= B. Hypothesis Hsins : p_sins P <= B.
Hypothesis Hsub : forall a b, p_sub P a b <= B. Hypothesis Hself : forall a, p_sub P a a = 0. Hypothesis Htr : p_trans P <= B.
Lemma al_cost n k q w : al k q w -> forall i j, exists c, edit P n i j q w c /\ c <= Z.of_nat k * B.
Proof.
  induction 1 as [|k x a b H IH|k x y a b H IH|k x a b H IH|k y a b H IH]; intros i j.
  - exists 0. split; [constructor|lia].
  - destruct (IH (S i) (S j)) as (c & Hc & Hk). exists (p_sub P x x + c). split; [now constructor|]. rewrite Hself. lia.
  - destruct (IH (S i) (S j)) as (c & Hc & Hk). exists (p_sub P x y + c). split; [now constructor|]. pose proof (@Hsub x y). lia.
  - destruct (IH (S i) j) as (c & Hc & Hk). eexists. split; [apply ed_drop; exact Hc|]. destruct (Nat.eqb j 0); lia.
  - destruct (IH i (S j)) as (c & Hc & Hk). eexists. split; [apply ed_add; exact Hc|]. destruct (Nat.eqb i 0); [lia|]. destruct (Nat.eqb i n); lia.
Qed.
Lemma swap_cost q w : swapped w q -> exists c, edit_cost P q w c /\ c <= B.
Proof.
  intros (u & a & b & v & -> & ->). exists (p_trans P + 0). split; [|lia]. unfold edit_cost. apply (keep_cost Hself). cbn [Nat.add]. constructor. now apply same_cost.
Qed.
End Cost.

(** ** At the prices of a matcher *)
Lemma prices_calls calls : prices_after calls = ev_after (price_calls calls).
Proof. reflexivity. Qed.
Lemma self_price e n a : getSubstituteError e a a = Ok 0 -> p_sub (prices_of e n) a a = 0.
Proof. intros H. cbn. now rewrite H. Qed.
Lemma min_below P q w c : edit_cost P q w c -> exists c', min_cost P q w c' /\ c' <= c.
Proof. intros H. exists (D P q (rev w) (length q)). pose proof (D_min P q w) as Hm. split; [exact Hm|]. now apply Hm. Qed.
Lemma usual_prices cs n : default_like cs -> no_self_price cs -> let P := prices_of (ev_after cs) n in
  p_ins P <= 100 /\ p_del P <= 100 /\ p_edel P <= 100 /\ p_sins P <= 100 /\ (forall a b, p_sub P a b <= 100) /\ (forall a, p_sub P a a = 0) /\ p_trans P <= 100.
Proof.
  intros H Hs P. assert (Hv : Forall (value_in 0 100) cs) by (eapply Forall_impl; [|exact H]; now intros ? [? _]).
  destruct (@prices_ranged 0 100 ltac:(lia) ltac:(lia) cs (N.of_nat n) Hv) as (H1 & H2 & H3 & H4 & H5 & H6). cbn. split; [lia|]. split; [lia|]. split; [lia|]. split; [lia|].
  split; [|split; [|lia]].
  - intros a b. destruct (getSubstituteError (ev_after cs) a b) as [v| | | |] eqn:Hx; try lia. apply H6 in Hx. lia.
  - intros a. unfold getSubstituteError in *. fold (getSubstituteError (ev_after cs) a a). rewrite self_zero; [reflexivity|]. intros v. apply Hs.
Qed.
Lemma near_typo cs p q w : default_like cs -> no_self_price cs -> typo w q \/ swapped w q -> exists err, near (ev_after cs) p q w err.
Proof.
  intros H Hs Ht. destruct (usual_prices (length q) H Hs) as (H1 & H2 & H3 & H4 & H5 & H6 & H7).
  assert (G : exists c, edit_cost (prices_of (ev_after cs) (length q)) q w c /\ c <= 100).
  { destruct Ht as [Ht|Ht]; [|eapply swap_cost; eassumption]. apply typo_al, al_sym in Ht. destruct (@al_cost _ 100 H1 H2 H3 H4 H5 H6 (length q) _ _ _ Ht 0%nat 0%nat) as (c & Hc & Hk). exists c. split; [exact Hc|lia]. }
  destruct G as (c & Hc & Hle). destruct (min_below Hc) as (c' & Hm & Hc'). exists c'. split; [exact Hm|]. unfold limit. destruct (_ && _); lia.
Qed.
Lemma near_typo2 cs p q w w' : default_like cs -> no_self_price cs -> typo w w' -> typo w' q -> (2 <= length q)%nat \/ sp_dynamic p = false ->
  exists err, near (ev_after cs) p q w err.
Proof.
  intros H Hs T1 T2 Hl. destruct (usual_prices (length q) H Hs) as (H1 & H2 & H3 & H4 & H5 & H6 & H7).
  destruct (typo2_al T1 T2) as (k & Hk & Ha). destruct (@al_cost _ 100 H1 H2 H3 H4 H5 H6 (length q) _ _ _ Ha 0%nat 0%nat) as (c & Hc & Hkc).
  destruct (min_below Hc) as (c' & Hm & Hc'). exists c'. split; [exact Hm|]. unfold limit.
  replace (sp_dynamic p && Nat.ltb (length q) 2)%bool with false; [lia|]. symmetry. apply andb_false_iff.
  destruct Hl as [Hl|Hl]; [right; apply Nat.ltb_ge; lia|now left].
Qed.
(** Substring mode. *)
Lemma substring_cost cs a q b : let s := scalars_after cs in s_sins s = 15 -> s_edel s = 15 -> (s_limit s <= N.of_nat (length q))%N -> q <> [] -> no_self_price cs ->
  exists c, min_cost (prices_of (ev_after cs) (length q)) q (a ++ q ++ b) c /\ c <= 15 * Z.of_nat (length a) + 15 * Z.of_nat (length b).
Proof.
  intros s H1 H2 H3 Hq Hs. destruct (getters_spec cs (N.of_nat (length q))) as (_ & _ & G3 & _ & G5). fold s in G3, G5.
  assert (Hself : forall x, p_sub (prices_of (ev_after cs) (length q)) x x = 0).
  { intros x. apply self_price. apply self_zero. intros v. apply Hs. }
  destruct (min_below (infix_cost Hself a b Hq)) as (c & Hm & Hc). exists c. split; [exact Hm|].
  cbn [prices_of p_sins p_edel] in Hc. rewrite G3, G5, H2, H1 in Hc. destruct (N.leb_spec (s_limit s) (N.of_nat (length q))); [lia|lia].
Qed.
