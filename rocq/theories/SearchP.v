(** The recursive search computes, in trie order, the list of stored words of all
    subtrees that are not cut off, each with its dynamic programming value. *)
From Verif Require Import Base TrieM TrieA TrieP TrieP2 ErrorValuesM LevIndexM Spec_Edit EditP.
From Coq Require Import ZifyBool ZifyN ZifyNat.
Local Open Scope Z_scope.
Ltac Zify.zify_post_hook ::= Z.to_euclidean_division_equations.

Fixpoint rmin (f : nat -> Z) (k : nat) : Z :=
  match k with O => f O | S k' => Z.min (rmin f k') (f (S k')) end.

Lemma rmin_le f k i : (i <= k)%nat -> rmin f k <= f i.
Proof.
  induction k as [|k IH]; intros Hi; cbn [rmin]; [assert (i = 0)%nat as -> by lia; lia|].
  destruct (Nat.eq_dec i (S k)) as [->|]; [lia|]. specialize (IH ltac:(lia)). lia.
Qed.
Lemma rmin_ge f k v : (forall i, (i <= k)%nat -> v <= f i) -> v <= rmin f k.
Proof.
  induction k as [|k IH]; intros H; cbn [rmin]; [apply H; lia|].
  specialize (IH ltac:(intros; apply H; lia)). specialize (H (S k) ltac:(lia)). lia.
Qed.

Lemma iadd_ok a b : -2147483648 <= a + b <= 2147483647 -> iadd a b = Ok (a + b).
Proof. intros H. unfold iadd, in_i32. now replace (_ && _) with true by lia. Qed.
Lemma wrap_small z : -2147483648 <= z <= 2147483647 -> wrap_i32 z = z.
Proof. intros H. unfold wrap_i32. lia. Qed.

Section Search.
Variables (t : trie) (es : edges) (ids : list N) (nw : N).
Hypothesis R : rep t es ids nw.
Variable e : errvals.
Variable q : word.
Let n := length q.
Let P := prices_of e n.
Variable longest : nat.
Variable B : Z.
Hypothesis HB0 : 0 <= B.
Hypothesis Hins : - B <= p_ins P <= B.
Hypothesis Hdel : - B <= p_del P <= B.
Hypothesis Hedel : - B <= p_edel P <= B.
Hypothesis Hsins : - B <= p_sins P <= B.
Hypothesis Htrans : - B <= p_trans P <= B.
Hypothesis Hsub : forall a b, getSubstituteError e a b = Ok (p_sub P a b) /\ - B <= p_sub P a b <= B.
Hypothesis Hfit : Z.of_nat (longest + n + 2) * B + 10000 <= 2147483647.
Hypothesis Hq : Forall letter_ok q.
Hypothesis Hdepth : forall p j, awalk es 0 p = Some j -> (length p <= longest)%nat.

Notation DD := (D P q).

Lemma D_bound : forall rp i, - (Z.of_nat (length rp + i) * B) <= DD rp i <= Z.of_nat (length rp + i) * B.
Proof.
  assert (H : forall m rp i, (length rp + i <= m)%nat ->
             - (Z.of_nat (length rp + i) * B) <= DD rp i <= Z.of_nat (length rp + i) * B).
  { induction m as [|m IH]; intros rp i Hm.
    - destruct rp; cbn in Hm; [|lia]. assert (i = 0)%nat by lia. subst i. cbn. lia.
    - destruct rp as [|l rp1].
      { rewrite D_nil. cbn [length Nat.add]. nia. }
      destruct i as [|k].
      { rewrite D_0. rewrite Nat.add_0_r. nia. }
      rewrite D_S. cbv zeta. cbn [length] in *.
      pose proof (IH (l :: rp1) k ltac:(cbn [length]; lia)) as H1. cbn [length] in H1.
      pose proof (IH rp1 (S k) ltac:(lia)) as H2.
      pose proof (IH rp1 k ltac:(lia)) as H3.
      destruct (Hsub (nth k q 0%N) l) as [_ Hs].
      assert (H4 : - (Z.of_nat (S (length rp1) + S k) * B) <= tr_of P q l rp1 k (DD (l :: rp1) k + p_ins P)).
      { assert (Hx : - (Z.of_nat (S (length rp1) + S k) * B) <= DD (l :: rp1) k + p_ins P + 10000) by nia.
        unfold tr_of. destruct k as [|k2]; [exact Hx|]. destruct rp1 as [|l1 rp2]; [exact Hx|].
        destruct (_ && _); [|exact Hx]. cbn [length] in *.
        pose proof (IH rp2 k2 ltac:(lia)) as H5. nia. }
      assert (H6 : - B <= (if Nat.leb (length q) (S k) then p_edel P else p_del P) <= B) by (destruct (Nat.leb _ _); lia).
      nia. }
  intros rp i. now apply (H (length rp + i)%nat).
Qed.

Record emv (em : ematrix) (rp : list N) : Prop := {
  v_rows : em_rows em = S longest;
  v_cols : em_cols em = S n;
  v_cell : forall x s c, rp = x ++ s -> (c <= n)%nat -> em_m em (length s) c = Some (DD s c);
  v_col0 : forall d, (d <= S longest)%nat -> em_m em d 0 = Some (Z.of_nat d * p_sins P)
}.

Lemma emv_tl em l rp : emv em (l :: rp) -> emv em rp.
Proof.
  intros [H1 H2 H3 H4]. constructor; try assumption. intros x s c Hx Hc. apply (H3 (l :: x) s c); [|exact Hc].
  cbn. now rewrite Hx.
Qed.

Lemma get_ok_cell em rp s x c : emv em rp -> rp = x ++ s -> (c <= n)%nat -> (length rp <= S longest)%nat ->
  em_get em (length s) c = Ok (DD s c).
Proof.
  intros V Hx Hc Hl. unfold em_get. rewrite (v_rows V), (v_cols V).
  assert (length s <= length rp)%nat by (rewrite Hx, app_length; lia).
  replace (Nat.leb (length s) (S longest) && Nat.leb c (S n)) with true by lia.
  now rewrite (v_cell V Hx Hc).
Qed.

Definition prev_of (rp : list N) : N := match rp with l1 :: _ => l1 | [] => 0%N end.

Lemma fit1 rp k x : (S (length rp) <= longest)%nat -> (k <= n)%nat -> - B <= x <= B ->
  -2147483648 + 10000 <= DD rp k + x <= 2147483647 - 10000.
Proof. intros Hl Hk Hx. pose proof (D_bound rp k). nia. Qed.

Lemma fit2 l rp k x : (S (length rp) <= longest)%nat -> (k < n)%nat -> - B <= x <= B ->
  -2147483648 + 10000 <= DD (l :: rp) k + x <= 2147483647 - 10000.
Proof. intros Hl Hk Hx. pose proof (D_bound (l :: rp) k) as Hb. cbn [length] in Hb. nia. Qed.

Lemma foe_spec em l rp k : emv em rp -> (S (length rp) <= longest)%nat -> (k < n)%nat ->
  em_m em (S (length rp)) k = Some (DD (l :: rp) k) ->
  findOptimalError l (prev_of rp) q k (S (length rp)) em e = Ok (DD (l :: rp) (S k)).
Proof.
  intros V Hl Hk Hcell. rewrite D_S. cbv zeta.
  unfold findOptimalError. cbv zeta.
  assert (Hg : em_get em (S (length rp)) k = Ok (DD (l :: rp) k)).
  { unfold em_get. rewrite (v_rows V), (v_cols V), Hcell.
    now replace (Nat.leb (S (length rp)) (S longest) && Nat.leb k (S n)) with true by lia. }
  rewrite Hg. cbn [obind].
  pose proof (@fit2 l rp k (p_ins P) Hl Hk Hins) as F1.
  change (getInsertionError e) with (p_ins P). rewrite iadd_ok by lia. cbn [obind].
  rewrite (@get_ok_cell em rp rp [] (S k) V eq_refl) by lia. cbn [obind].
  rewrite (@get_ok_cell em rp rp [] k V eq_refl) by lia.
  pose proof (@fit1 rp (S k) (p_edel P) Hl ltac:(lia) Hedel) as F2.
  pose proof (@fit1 rp (S k) (p_del P) Hl ltac:(lia) Hdel) as F3.
  change (getEndDeletionError e) with (p_edel P). change (getDeletionError e) with (p_del P).
  assert (Hd : (if Nat.leb (length q) (S k) then iadd (DD rp (S k)) (p_edel P) else iadd (DD rp (S k)) (p_del P))
               = Ok (DD rp (S k) + (if Nat.leb (length q) (S k) then p_edel P else p_del P))).
  { destruct (Nat.leb _ _); apply iadd_ok; lia. }
  rewrite Hd. cbn [obind].
  assert (Hqk : forall i, (i < n)%nat -> qat q i = Ok (nth i q 0%N)).
  { intros i Hi. unfold qat. rewrite (nth_error_nth' q 0%N) by exact Hi. reflexivity. }
  rewrite Hqk by exact Hk. cbn [obind]. destruct (Hsub (nth k q 0%N) l) as [Hs Hsb]. rewrite Hs. cbn [obind].
  pose proof (@fit1 rp k _ Hl ltac:(lia) Hsb) as F4. rewrite iadd_ok by lia. cbn [obind].
  unfold tr_of. destruct k as [|k2].
  { rewrite iadd_ok by lia. reflexivity. }
  rewrite Hqk by lia. cbn [obind].
  destruct rp as [|l1 rp2].
  - cbn [prev_of]. assert (Hnz : (nth (S k2) q 0 =? 0)%N = false).
    { rewrite Forall_forall in Hq. assert (Hin : In (nth (S k2) q 0%N) q) by (apply nth_In; exact Hk).
      apply Hq in Hin. unfold letter_ok in Hin. lia. }
    rewrite Hnz. cbn [andb]. rewrite iadd_ok by lia. reflexivity.
  - cbn [prev_of]. destruct ((nth (S k2) q 0 =? l1)%N && (nth k2 q 0 =? l)%N).
    + cbn [length]. rewrite (@get_ok_cell em (l1 :: rp2) rp2 [l1] k2 V eq_refl) by (cbn [length] in *; lia).
      cbn [obind]. change (getTransposeError e) with (p_trans P).
      cbn [length] in Hl. pose proof (@fit1 rp2 k2 (p_trans P) ltac:(lia) ltac:(lia) Htrans).
      rewrite iadd_ok by lia. reflexivity.
    + rewrite iadd_ok by lia. reflexivity.
Qed.

(** Cells of row [S (length rp)] up to column [k] hold the row of [l :: rp]. *)
Definition upto (em : ematrix) l rp k : Prop :=
  forall c, (c <= k)%nat -> em_m em (S (length rp)) c = Some (DD (l :: rp) c).

Lemma row_loop_spec l rp : (S (length rp) <= longest)%nat -> forall n' k em ms,
  (n' + k = n)%nat -> emv em rp -> upto em l rp k ->
  exists em', row_loop n' k (S (length rp)) l (prev_of rp) q e (em, ms) = ((em', ms), Ok tt)
    /\ emv em' (l :: rp).
Proof.
  intros Hl. induction n' as [|n' IH]; intros k em ms Hk V U.
  - exists em. split; [reflexivity|]. constructor; try apply V.
    intros x s c Hx Hc. destruct x as [|y x].
    + cbn in Hx. subst s. cbn [length]. apply U. lia.
    + injection Hx as <- Hx. now apply (v_cell V Hx).
  - cbn [row_loop].
    erewrite mbind_ok by (apply reads_ok; cbn [fst]; apply foe_spec; [exact V|exact Hl|lia|apply U; lia]).
    set (v := DD (l :: rp) (S k)).
    set (em1 := mkEM (em_rows em) (em_cols em) (m_set (S (length rp)) (S k) v (em_m em))).
    assert (He : em_set (S (length rp)) (S k) v em = (em1, Ok tt)).
    { unfold em_set. rewrite (v_rows V), (v_cols V).
      replace (Nat.ltb (S longest) (S (length rp))) with false by lia.
      replace (Nat.ltb (S n) (S k)) with false by lia. unfold em1. now rewrite (v_rows V), (v_cols V). }
    erewrite mbind_ok by (cbn [fst snd]; rewrite He; reflexivity).
    apply IH; [lia| |].
    + constructor; cbn [em1 em_rows em_cols em_m]; try apply V.
      * intros x s c Hx Hc. unfold m_set.
        assert (length s <= length rp)%nat by (rewrite Hx, app_length; lia).
        replace (Nat.eqb (length s) (S (length rp))) with false by lia. cbn [andb]. now apply (v_cell V Hx).
      * intros d Hd. unfold m_set. replace (Nat.eqb 0 (S k)) with false by reflexivity. rewrite andb_false_r.
        now apply (v_col0 V).
    + intros c Hc. cbn [em1 em_m]. unfold m_set. rewrite Nat.eqb_refl. cbn [andb].
      destruct (Nat.eqb_spec c (S k)) as [->|Hne]; [reflexivity|]. apply U. lia.
Qed.

Lemma em_min_spec em rp : emv em rp -> (length rp <= S longest)%nat ->
  em_min em (length rp) = Ok (rmin (DD rp) n).
Proof.
  intros V Hl. unfold em_min. rewrite (@get_ok_cell em rp rp [] 0%nat V eq_refl) by lia. cbn [obind].
  rewrite (v_cols V). replace (S n - 1)%nat with n by lia.
  assert (H : forall m i acc, (i + m = S n)%nat -> (0 < i)%nat -> acc = rmin (DD rp) (pred i) ->
            em_min_loop em (length rp) i m acc = Ok (rmin (DD rp) n)).
  { induction m as [|m IH]; intros i acc Hi H0 ->; cbn [em_min_loop].
    - replace (pred i) with n by lia. reflexivity.
    - rewrite (@get_ok_cell em rp rp [] i V eq_refl) by lia. cbn [obind].
      apply IH; [lia|lia|]. destruct i as [|i]; [lia|]. cbn [pred rmin]. destruct (Z.ltb_spec (DD rp (S i)) (rmin (DD rp) i)); lia. }
  apply H; [lia|lia|reflexivity].
Qed.

Variable maxE : Z.

Fixpoint hits (f : nat) (j : nat) (rp : list N) : list (N * Z) :=
  match f with
  | O => []
  | S f' =>
    (if (DD rp n <=? maxE) && negb (nth j ids 0 =? INVALID_WORDID)%N then [(nth j ids 0%N, DD rp n)] else [])
    ++ (if rmin (DD rp) n <=? maxE
        then flat_map (fun k => hits f' (S k) (snd (edge es k) :: rp)) (kids es j) else [])
  end.

Lemma sib_loop_spec (I : ematrix -> Prop) visit (h : nat -> list (N * Z)) : forall ks off fuel em ms,
  chain (t_mem t) off ks -> (length ks < fuel)%nat -> Forall (fun k => (k < length es)%nat) ks ->
  (forall k em ms, In k ks -> I em -> exists em', visit (noff (S k)) (snd (edge es k)) (em, ms) = ((em', ms ++ h k), Ok tt) /\ I em') ->
  I em ->
  exists em', sib_loop fuel t visit (t_mem t (off + 8)%N) (em, ms) = ((em', ms ++ flat_map h ks), Ok tt) /\ I em'.
Proof.
  induction ks as [|k r IH]; intros off fuel em ms Hc Hf Hks Hv HI; destruct fuel as [|f]; cbn [length] in Hf; try lia.
  - cbn [chain] in Hc. cbn [sib_loop]. rewrite Hc. cbn. exists em. now rewrite app_nil_r.
  - cbn [chain] in Hc. destruct Hc as [Hc1 Hc2]. apply Forall_cons_iff in Hks as [Hk Hks].
    cbn [sib_loop]. rewrite Hc1. destruct (N.eqb_spec (poff k) 0) as [Hz|_]; [unfold poff in Hz; lia|].
    erewrite mbind_ok by (apply reads_ok; unfold getLetter; apply (rd_letter R Hk)).
    erewrite mbind_ok by (apply reads_ok; unfold getChild; apply (child_of R Hk)).
    destruct (Hv k em ms) as (em1 & He1 & HI1); [now left|exact HI|].
    erewrite mbind_ok by exact He1.
    erewrite mbind_ok by (apply reads_ok; unfold getNextSibling; apply (rd_ptr R Hk); lia).
    destruct (IH (poff k) f em1 (ms ++ h k) Hc2) as (em2 & He2 & HI2); [lia|exact Hks| |exact HI1|].
    + intros k' em' ms' Hin. apply Hv. now right.
    + exists em2. split; [|exact HI2]. etransitivity; [exact He2|]. cbn [flat_map]. now rewrite <- app_assoc.
Qed.

Lemma search_spec : forall f j rp l em ms,
  awalk es 0 (rev (l :: rp)) = Some j -> (length es - j < f)%nat -> (j <= length es)%nat -> emv em rp ->
  exists em', searchRecursive f t q e maxE (noff j) l (prev_of rp) (S (length rp)) (em, ms)
                = ((em', ms ++ hits f j (l :: rp)), Ok tt) /\ emv em' rp.
Proof.
  induction f as [|f IH]; intros j rp l em ms Hw Hf Hj V; [lia|].
  pose proof (Hdepth Hw) as Hd. rewrite rev_length in Hd. cbn [length] in Hd.
  cbn [searchRecursive hits].
  destruct (@row_loop_spec l rp Hd (length q) 0%nat em ms) as (em1 & He1 & V1); [apply Nat.add_0_r|exact V| |].
  { intros c Hc. assert (c = 0)%nat by lia. subst c. rewrite D_0. apply (v_col0 V). cbn [length]. lia. }
  erewrite mbind_ok by exact He1.
  assert (Ht : em_total em1 (S (length rp)) = Ok (DD (l :: rp) n)).
  { unfold em_total. rewrite (v_cols V1). apply (@get_ok_cell em1 (l :: rp) (l :: rp) [] n V1 eq_refl); cbn [length]; lia. }
  erewrite mbind_ok by (apply reads_ok; exact Ht).
  set (here := if (DD (l :: rp) n <=? maxE) && negb (nth j ids 0 =? INVALID_WORDID)%N
               then [(nth j ids 0%N, DD (l :: rp) n)] else []).
  assert (Hadd : (if DD (l :: rp) n <=? maxE
                  then mbind (reads (fun _ => getWordID t (noff j)))
                         (fun id => if negb (id =? INVALID_WORDID)%N
                                    then fun s => (fst s, im_addMatch q id (DD (l :: rp) n) (snd s), Ok tt)
                                    else ret tt)
                  else ret tt) (em1, ms) = ((em1, ms ++ here), Ok tt)).
  { unfold here. destruct (DD (l :: rp) n <=? maxE); cbn [andb].
    - erewrite mbind_ok by (apply reads_ok; apply (rd_id R Hj)).
      destruct (negb _); [reflexivity|]. unfold ret. now rewrite app_nil_r.
    - unfold ret. now rewrite app_nil_r. }
  erewrite mbind_ok by exact Hadd. clear Hadd.
  erewrite mbind_ok by (apply reads_ok; cbn [fst]; apply (em_min_spec V1); cbn [length]; lia).
  destruct (rmin (DD (l :: rp)) n <=? maxE) eqn:Hm.
  2:{ exists em1. rewrite app_nil_r. split; [reflexivity|]. now apply emv_tl in V1. }
  assert (Hsl : getSiblingList t (noff j) = Ok (t_mem t (noff j + 8 + 8)%N)).
  { unfold getSiblingList, SZ_NODE. replace (noff j + 8 + 8)%N with (noff j + 16)%N by lia.
    apply (rd_node R Hj); lia. }
  erewrite mbind_ok by (apply reads_ok; exact Hsl).
  destruct (@sib_loop_spec (fun em => emv em (l :: rp))
     (fun n0 l0 => searchRecursive f t q e maxE n0 l0 l (S (S (length rp))))
     (fun k => hits f (S k) (snd (edge es k) :: l :: rp)) (kids es j) (noff j + 8)%N (t_fuel t) em1 (ms ++ here))
    as (em2 & He2 & V2).
  - apply (r_chain R Hj).
  - rewrite (fuel_ge R). pose proof (@kids_len es j). lia.
  - apply Forall_forall. intros k Hk. apply kids_in in Hk. apply Hk.
  - intros k em' ms' Hk V'. apply kids_in in Hk as [Hk He].
    pose proof (wf_parent (r_wf R) Hk) as Hp. rewrite He in Hp.
    apply (IH (S k) (l :: rp)); [|lia|lia|exact V'].
    cbn [rev]. rewrite awalk_app. cbn [rev] in Hw. rewrite Hw. cbn [awalk].
    assert (Hfk : find_kid es j (snd (edge es k)) = Some k).
    { apply find_kid_iff; [apply (r_wf R)|]. split; [exact Hk|]. rewrite <- He. now destruct (edge es k). }
    now rewrite Hfk.
  - exact V1.
  - exists em2. split; [|now apply emv_tl in V2]. etransitivity; [exact He2|].
    now rewrite <- app_assoc.
Qed.

(** The matrix built by findWords. *)
Lemma em_col0_spec del : forall k i m,
  (0 < i)%nat -> (k + i <= S (S longest))%nat -> - B <= del <= B ->
  (forall d, (d < i)%nat -> m d O = Some (Z.of_nat d * del)) ->
  exists m', em_col0 k i del m = Ok m' /\
    (forall d, (d < i + k)%nat -> m' d O = Some (Z.of_nat d * del)) /\
    (forall d c, d = O \/ c <> O -> m' d c = m d c).
Proof.
  induction k as [|k IH]; intros i m Hi Hb Hdl Hm; cbn [em_col0].
  - exists m. split; [reflexivity|]. split; [|reflexivity]. intros d Hd. apply Hm. lia.
  - rewrite (Hm (pred i)) by lia. rewrite iadd_ok by nia. cbn [obind].
    destruct (IH (S i) (m_set i 0 (Z.of_nat (pred i) * del + del) m)) as (m' & He & H1 & H2); try lia.
    + intros d Hd. unfold m_set. rewrite andb_true_r. destruct (Nat.eqb_spec d i) as [->|]; [f_equal; nia|]. apply Hm. lia.
    + exists m'. split; [exact He|]. split; [intros d Hd; apply H1; lia|].
      intros d c Hdc. rewrite H2 by exact Hdc. unfold m_set.
      destruct (Nat.eqb_spec d i); destruct (Nat.eqb_spec c 0); cbn [andb]; try reflexivity; lia.
Qed.

Lemma em_new_spec : exists em, em_new (S longest) (S n) (getDeletionError e) (getStartInsertionError e (N.of_nat n)) = Ok em
  /\ emv em [].
Proof.
  unfold em_new. cbv zeta. change (getDeletionError e) with (p_del P). change (getStartInsertionError e (N.of_nat n)) with (p_sins P).
  destruct (@em_col0_spec (p_sins P) (S longest) 1
    (fun r c => if Nat.eqb r 0 && Nat.leb c (S n) then Some (wrap_i32 (Z.of_nat c * p_del P)) else None))
    as (m & He & H1 & H2); try lia.
  - intros d Hd. assert (d = 0)%nat by lia. subst d. reflexivity.
  - rewrite He. cbn [obind]. eexists. split; [reflexivity|]. constructor; cbn [em_rows em_cols em_m]; try reflexivity.
    + intros x s c Hx Hc. destruct s as [|y s]; [|destruct x; discriminate].
      cbn [length]. rewrite H2 by (now left). cbn [Nat.eqb andb].
      replace (Nat.leb c (S n)) with true by lia. rewrite D_nil, wrap_small; [reflexivity|]. nia.
    + intros d Hd. apply H1. lia.
Qed.

Definition top_hits : list (N * Z) :=
  flat_map (fun k => hits (t_fuel t) (S k) [snd (edge es k)]) (kids es 0).

Lemma findWords_spec E s ms : li_trie s = t -> li_longest s = longest ->
  e_ndebug E = true \/ q = [] \/ getInsertionError e = getDeletionError e ->
  findWords E s q e maxE ms = (e_sort E (ms ++ top_hits), Ok tt).
Proof.
  intros Ht Hlg Has. unfold findWords. rewrite Hlg, Ht. destruct em_new_spec as (em & He & V). unfold n in He. rewrite He.
  assert (R0 : (0 <= length es)%nat) by lia.
  destruct (@sib_loop_spec (fun em => emv em [])
     (fun n0 l0 => searchRecursive (t_fuel t) t q e maxE n0 l0 0%N 1)
     (fun k => hits (t_fuel t) (S k) [snd (edge es k)]) (kids es 0) (noff 0 + 8)%N (t_fuel t) em ms)
    as (em2 & He2 & V2).
  - apply (r_chain R R0).
  - rewrite (fuel_ge R). pose proof (@kids_len es 0). lia.
  - apply Forall_forall. intros k Hk. apply kids_in in Hk. apply Hk.
  - intros k em' ms' Hk V'. apply kids_in in Hk as [Hk Hp].
    apply (@search_spec (t_fuel t) (S k) []); [|rewrite (fuel_ge R); lia|lia|exact V'].
    cbn [rev app awalk].
    assert (Hfk : find_kid es 0 (snd (edge es k)) = Some k).
    { apply find_kid_iff; [apply (r_wf R)|]. split; [exact Hk|]. rewrite <- Hp. now destruct (edge es k). }
    now rewrite Hfk.
  - exact V.
  - cbv zeta.
    match goal with |- (match snd ?r with _ => _ end) = _ =>
      assert (Hr : r = ((em2, ms ++ top_hits), Ok tt)) end.
    2:{ rewrite Hr. reflexivity. }
    erewrite mbind_ok by (apply reads_ok; cbn [fst]; apply (@get_ok_cell em [] [] [] 0%nat V eq_refl); cbn [length]; lia).
    erewrite mbind_ok by (apply massert_true; rewrite D_nil; reflexivity).
    assert (Hif : (if Nat.ltb 0 (length q) then
          mbind (reads (fun st : sstate => em_get (fst st) 0 1)) (fun v => massert E (v =? getInsertionError e))
        else ret tt) (em, ms) = ((em, ms), Ok tt)).
    { destruct (Nat.ltb_spec 0 (length q)) as [Hlt|_]; [|reflexivity].
      assert (Hg : em_get em 0 1 = Ok (DD [] 1)) by (apply (@get_ok_cell em [] [] [] 1%nat V eq_refl); cbn [length]; unfold n; lia).
      erewrite mbind_ok by (apply reads_ok; exact Hg).
      rewrite D_nil. destruct Has as [Hnd|[Hnil|Heq]].
      - unfold massert. rewrite Hnd. now destruct (_ =? _).
      - rewrite Hnil in Hlt. cbn in Hlt. lia.
      - apply massert_true. rewrite Heq. change (p_del P) with (getDeletionError e). lia. }
    erewrite mbind_ok by exact Hif.
    assert (Hsl : getSiblingList t (getRoot t) = Ok (t_mem t (noff 0 + 8 + 8)%N)).
    { unfold getSiblingList, SZ_NODE, getRoot. rewrite (r_root R). change 16%N with (noff 0).
      replace (noff 0 + 8 + 8)%N with (noff 0 + 16)%N by lia. apply (rd_node R R0); lia. }
    erewrite mbind_ok by (apply reads_ok; exact Hsl).
    exact He2.
Qed.
End Search.
