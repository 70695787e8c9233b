(** The error as a distance between words. *)
From Verif Require Import Base TrieM TrieH ErrorValuesM LevIndexM Spec_Hist Spec_Edit Spec_EV Spec_Lev EVP EVR EditP LevP Spec_Match Spec_Query.
From Coq Require Import ZifyBool ZifyN ZifyNat.
Local Open Scope Z_scope.

(** ** Zero *)
Section Zero.
Variables (P : prices) (n : nat).
Hypothesis H1 : 0 < p_ins P. Hypothesis H2 : 0 < p_del P. Hypothesis H3 : 0 < p_edel P. Hypothesis H4 : 0 < p_sins P. Hypothesis H5 : 0 < p_trans P.
Hypothesis H6 : forall a b, a <> b -> 0 < p_sub P a b.
Hypothesis H7 : forall a, p_sub P a a = 0.
Lemma zero_same i j q w c : edit P n i j q w c -> 0 <= c /\ (c = 0 -> q = w).
Proof.
  induction 1 as [i j|i j a b q w c _ [IH1 IH2]|i j a q w c _ [IH1 IH2]|i j b q w c _ [IH1 IH2]|i j a b q w c _ [IH1 IH2]].
  - split; [lia|reflexivity].
  - destruct (N.eq_dec a b) as [->|Hne]; [rewrite H7; split; [lia|intros; f_equal; apply IH2; lia]|]. pose proof (H6 Hne). split; [lia|intros; lia].
  - destruct (Nat.eqb j 0); split; try lia.
  - destruct (Nat.eqb i 0); [|destruct (Nat.eqb i n)]; split; try lia.
  - split; lia.
Qed.
Lemma same_zero w : forall i j, edit P n i j w w 0.
Proof. induction w as [|a w IH]; intros i j; [constructor|]. replace 0 with (p_sub P a a + 0) by (rewrite H7; lia). constructor. apply IH. Qed.
End Zero.
Lemma sub_price calls n a b : exists v, getSubstituteError (ev_after calls) a b = Ok v /\ p_sub (prices_of (ev_after calls) n) a b = v.
Proof. destruct (get_symmetric calls a b) as (v & Hv & _). exists v. split; [exact Hv|]. cbn. now rewrite Hv. Qed.
Lemma zero_iff calls q w : all_cost (ev_after calls) (length q) -> (forall a v, ~ In (SetError a a v) calls) ->
  (min_cost (prices_of (ev_after calls) (length q)) q w 0 <-> q = w).
Proof.
  intros (H1 & H2 & H3 & H4 & H5 & H6) Hs. set (P := prices_of (ev_after calls) (length q)).
  assert (G6 : forall a b, a <> b -> 0 < p_sub P a b) by (intros a b Hne; destruct (sub_price calls (length q) a b) as (v & Hv & He); unfold P; rewrite He; now apply (H6 a b)).
  assert (G7 : forall a, p_sub P a a = 0) by (intros a; cbn; now rewrite (@self_zero calls a (Hs a))).
  assert (Hz : forall i j a b c, edit P (length q) i j a b c -> 0 <= c /\ (c = 0 -> a = b)) by exact (@zero_same P (length q) H1 H2 H3 H4 H5 G6 G7).
  split.
  - intros [He _]. apply Hz in He. now apply He.
  - intros <-. split; [exact (@same_zero P (length q) G6 G7 q 0%nat 0%nat)|]. intros c Hc. apply Hz in Hc. apply Hc.
Qed.

(** ** Symmetry *)
Lemma edit_turn P P' n n' k : p_ins P = k -> p_del P = k -> p_edel P = k -> p_sins P = k -> p_ins P' = k -> p_del P' = k -> p_edel P' = k -> p_sins P' = k ->
  p_trans P = p_trans P' -> (forall a b, p_sub P a b = p_sub P' b a) -> forall i j q w c, edit P n i j q w c -> edit P' n' j i w q c.
Proof.
  intros A1 A2 A3 A4 B1 B2 B3 B4 Ht Hs. induction 1 as [i j|i j a b q w c _ IH|i j a q w c _ IH|i j b q w c _ IH|i j a b q w c _ IH].
  - constructor.
  - rewrite Hs. now constructor.
  - replace ((if Nat.eqb j 0 then p_del P else p_ins P) + c) with ((if Nat.eqb j 0 then p_sins P' else if Nat.eqb j n' then p_edel P' else p_del P') + c); [now constructor|].
    destruct (Nat.eqb j 0), (Nat.eqb j n'); lia.
  - replace ((if Nat.eqb i 0 then p_sins P else if Nat.eqb i n then p_edel P else p_del P) + c) with ((if Nat.eqb i 0 then p_del P' else p_ins P') + c); [now constructor|].
    destruct (Nat.eqb i 0), (Nat.eqb i n); lia.
  - rewrite Ht. now constructor.
Qed.
Lemma cost_turn calls q w k c : even_handed (ev_after calls) (length q) k -> even_handed (ev_after calls) (length w) k ->
  edit_cost (prices_of (ev_after calls) (length q)) q w c -> edit_cost (prices_of (ev_after calls) (length w)) w q c.
Proof.
  intros (A1 & A2 & A3 & A4) (B1 & B2 & B3 & B4). unfold edit_cost. apply (@edit_turn _ _ _ _ k); try assumption; [reflexivity|].
  intros a b. cbn. destruct (get_symmetric calls a b) as (v & -> & ->). reflexivity.
Qed.
Lemma symmetric calls q w k c : even_handed (ev_after calls) (length q) k -> even_handed (ev_after calls) (length w) k ->
  (min_cost (prices_of (ev_after calls) (length q)) q w c <-> min_cost (prices_of (ev_after calls) (length w)) w q c).
Proof.
  intros Hq Hw. split; intros [H1 H2]; (split; [eapply cost_turn; eassumption|]); intros c' Hc; apply H2; eapply cost_turn; eassumption.
Qed.

(** ** Lengths *)
Lemma edit_length P n k : 0 <= p_trans P -> (forall a b, 0 <= p_sub P a b) -> k <= p_ins P -> k <= p_del P -> k <= p_edel P -> k <= p_sins P -> 0 <= k ->
  forall i j q w c, edit P n i j q w c -> k * Z.abs (Z.of_nat (length q) - Z.of_nat (length w)) <= c.
Proof.
  intros A1 A2 A3 A4 A5 A6 A7. induction 1 as [i j|i j a b q w c _ IH|i j a q w c _ IH|i j b q w c _ IH|i j a b q w c _ IH]; cbn [length]; rewrite ?Nat2Z.inj_succ.
  - lia.
  - specialize (A2 a b). replace (Z.succ (Z.of_nat (length q)) - Z.succ (Z.of_nat (length w))) with (Z.of_nat (length q) - Z.of_nat (length w)) by lia. lia.
  - assert (k <= if Nat.eqb j 0 then p_del P else p_ins P) by (destruct (Nat.eqb j 0); lia). nia.
  - assert (k <= if Nat.eqb i 0 then p_sins P else if Nat.eqb i n then p_edel P else p_del P) by (destruct (Nat.eqb i 0), (Nat.eqb i n); lia). nia.
  - replace (Z.succ (Z.succ (Z.of_nat (length q))) - Z.succ (Z.succ (Z.of_nat (length w)))) with (Z.of_nat (length q) - Z.of_nat (length w)) by lia. lia.
Qed.
Lemma length_bound calls q w k c : nonneg (ev_after calls) -> letters_cost (ev_after calls) (length q) k ->
  min_cost (prices_of (ev_after calls) (length q)) q w c -> k * Z.abs (Z.of_nat (length q) - Z.of_nat (length w)) <= c.
Proof.
  intros (_ & _ & _ & _ & Ht & Hs) (A & B & C & D & F) [Hc _]. eapply edit_length; [..|exact Hc]; try assumption.
  intros a b. destruct (sub_price calls (length q) a b) as (v & Hv & ->). exact (Hs a b v Hv).
Qed.
(** ** An upper bound *)
Lemma longer_cost P n B : p_ins P <= B -> p_del P <= B -> p_edel P <= B -> p_sins P <= B -> (forall a b, p_sub P a b <= B) ->
  forall q w i j, exists c, edit P n i j q w c /\ c <= B * Z.of_nat (Nat.max (length q) (length w)).
Proof.
  intros A1 A2 A3 A4 A5. induction q as [|a q IH]; intros w i j.
  - revert j. induction w as [|b w IHw]; intros j; [exists 0; split; [constructor|cbn; lia]|]. destruct (IHw (S j)) as (c & Hc & Hb).
    eexists. split; [apply ed_add, Hc|]. assert ((if Nat.eqb i 0 then p_sins P else if Nat.eqb i n then p_edel P else p_del P) <= B) by (destruct (Nat.eqb i 0), (Nat.eqb i n); lia).
    cbn [length Nat.max] in *. rewrite Nat2Z.inj_succ. lia.
  - destruct w as [|b w].
    + destruct (IH [] (S i) j) as (c & Hc & Hb). eexists. split; [apply ed_drop, Hc|].
      assert ((if Nat.eqb j 0 then p_del P else p_ins P) <= B) by (destruct (Nat.eqb j 0); lia).
      rewrite Nat.max_0_r in *. cbn [length] in *. rewrite ?Nat.max_0_r in *. rewrite Nat2Z.inj_succ. lia.
    + destruct (IH w (S i) (S j)) as (c & Hc & Hb). eexists. split; [apply ed_sub, Hc|]. specialize (A5 a b). cbn [length Nat.max]. rewrite Nat2Z.inj_succ. lia.
Qed.
Lemma upper_bound calls q w B c : edits_cost_at_most (ev_after calls) (length q) B ->
  min_cost (prices_of (ev_after calls) (length q)) q w c -> c <= B * Z.of_nat (Nat.max (length q) (length w)).
Proof.
  intros (A1 & A2 & A3 & A4 & A5) [_ Hm]. destruct (@longer_cost (prices_of (ev_after calls) (length q)) (length q) B A1 A2 A3 A4) with (q := q) (w := w) (i := 0%nat) (j := 0%nat) as (c' & Hc & Hb).
  - intros a b. destruct (sub_price calls (length q) a b) as (v & Hv & ->). exact (A5 a b v Hv).
  - specialize (Hm c' Hc). lia.
Qed.

(** ** As the index shows it *)
Section Index.
Variables (E : env) (s0 : levindex).
Hypothesis HE : env_ok E.
Hypothesis Hnew : li_new E = Ok s0.
Lemma found_zero s ops calls q maxE m id : lev_ops ops -> lev_insert_all E ops s0 = (s, Ok tt) -> Forall nonnul q -> fits (ev_after calls) ops q ->
  all_cost (ev_after calls) (length q) -> (forall a v, ~ In (SetError a a v) calls) ->
  findWords E s q (ev_after calls) maxE [] = (m, Ok tt) -> In (id, 0) m -> assoc (real ops) q = Some id.
Proof.
  intros Ho Hr Hq Hf Hc Hs Hfi Hin. destruct (sound Hnew Ho Hr Hq Hf HE Hfi Hin) as (w & Ha & Hm & _). apply (zero_iff w Hc Hs) in Hm. now subst w.
Qed.
Lemma found_lengths s ops calls q maxE m id err k : lev_ops ops -> lev_insert_all E ops s0 = (s, Ok tt) -> Forall nonnul q -> fits (ev_after calls) ops q ->
  nonneg (ev_after calls) -> letters_cost (ev_after calls) (length q) k ->
  findWords E s q (ev_after calls) maxE [] = (m, Ok tt) -> In (id, err) m ->
  exists w, assoc (real ops) w = Some id /\ k * Z.abs (Z.of_nat (length q) - Z.of_nat (length w)) <= err.
Proof.
  intros Ho Hr Hq Hf Hn Hk Hfi Hin. destruct (sound Hnew Ho Hr Hq Hf HE Hfi Hin) as (w & Ha & Hm & _). exists w. split; [exact Ha|]. now apply (length_bound Hn Hk).
Qed.
Lemma exchange s1 s2 calls q w id k maxE m1 m2 : lev_ops [(w, id)] -> lev_insert_all E [(w, id)] s0 = (s1, Ok tt) -> lev_ops [(q, id)] -> lev_insert_all E [(q, id)] s0 = (s2, Ok tt) ->
  q <> [] -> w <> [] -> fits (ev_after calls) [(w, id)] q -> fits (ev_after calls) [(q, id)] w -> nonneg (ev_after calls) -> (forall n, swaps_not_cheap (ev_after calls) n) ->
  even_handed (ev_after calls) (length q) k -> even_handed (ev_after calls) (length w) k ->
  findWords E s1 q (ev_after calls) maxE [] = (m1, Ok tt) -> findWords E s2 w (ev_after calls) maxE [] = (m2, Ok tt) -> forall c, In (id, c) m1 <-> In (id, c) m2.
Proof.
  intros O1 R1 O2 R2 Nq Nw F1 F2 Hn Hs H1 H2 Q1 Q2.
  assert (G : forall s a b i, lev_ops [(a, id)] -> lev_insert_all E [(a, id)] s0 = (s, Ok tt) -> lev_ops [(b, id)] -> b <> [] -> a <> [] -> fits (ev_after calls) [(a, id)] b ->
    findWords E s b (ev_after calls) maxE [] = (i, Ok tt) -> forall c, In (id, c) i <-> min_cost (prices_of (ev_after calls) (length b)) b a c /\ c <= maxE).
  { intros s a b i Oa Ra Ob Nb Na Fa Hf c. assert (Hb : Forall nonnul b).
    { apply Forall_inv in Ob as [[Ob|Ob] _]; [now elim Nb|]. apply Ob. }
    assert (Ha : assoc (real [(a, id)]) a = Some id).
    { unfold real. cbn. destruct a; [now elim Na|]. cbn. unfold assoc. cbn [find fst]. now rewrite weqb_refl. }
    split.
    - intros Hin. destruct (sound Hnew Oa Ra Hb Fa HE Hf Hin) as (w' & Ha' & Hm & Hle). split; [|exact Hle].
      replace a with w'; [exact Hm|]. unfold real in Ha'. cbn in Ha'. destruct a; [now elim Na|]. cbn in Ha'. unfold assoc in Ha'. cbn [find fst] in Ha'.
      destruct (weqb_spec w' (n :: a)); [assumption|discriminate].
    - intros [Hm Hle]. exact (complete Hnew Oa Ra Hb Fa HE Hn (Hs (length b)) Hf Ha Hm Hle). }
  intros c. rewrite (G s1 w q m1), (G s2 q w m2) by assumption. apply and_iff_compat_r. now apply (symmetric (k := k)).
Qed.
End Index.
