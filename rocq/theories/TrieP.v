(** Refinement proofs: cell-level trie vs. edge list. *)
From Verif Require Import Base TrieM TrieA.
From Coq Require Import ZifyBool ZifyN ZifyNat.
Local Open Scope N_scope.
Ltac Zify.zify_post_hook ::= Z.to_euclidean_division_equations.

Lemma rd_ok t off : t_mapped t = true -> off mod 4 = 0 -> off + 4 <= t_len t ->
  rd t off = Ok (t_mem t off).
Proof.
  intros Hm Ha Hl. unfold rd. rewrite Hm.
  destruct (N.eqb_spec (off mod 4) 0); [|lia].
  destruct (N.leb_spec (off + 4) (t_len t)); [reflexivity|lia].
Qed.

Definition mset (m : N -> N) (off v : N) : N -> N := fun o => if o =? off then v else m o.

Lemma mset_same m off v : mset m off v off = v.
Proof. unfold mset. now rewrite N.eqb_refl. Qed.
Lemma mset_other m off v o : o <> off -> mset m off v o = m o.
Proof. intros H. unfold mset. now destruct (N.eqb_spec o off). Qed.

Definition with_mem (t : trie) (m : N -> N) : trie := mkTrie (t_mapped t) (t_len t) m (t_root t).

Lemma wr_ok t off v : t_mapped t = true -> off mod 4 = 0 -> off + 4 <= t_len t ->
  wr off v t = (with_mem t (mset (t_mem t) off v), Ok tt).
Proof.
  intros Hm Ha Hl. unfold wr, with_mem, mset. rewrite Hm.
  destruct (N.eqb_spec (off mod 4) 0); [|lia].
  destruct (N.leb_spec (off + 4) (t_len t)); [|lia].
  reflexivity.
Qed.

Lemma mbind_ok {S A B} (m : M S A) (k : A -> M S B) s s' a :
  m s = (s', Ok a) -> mbind m k s = k a s'.
Proof. intros H. unfold mbind. now rewrite H. Qed.
Lemma mbind_throw {S A B} (m : M S A) (k : A -> M S B) s s' e :
  m s = (s', Throw e) -> mbind m k s = (s', Throw e).
Proof. intros H. unfold mbind. now rewrite H. Qed.
Lemma reads_ok {S A} (f : S -> outcome A) s a : f s = Ok a -> reads f s = (s, Ok a).
Proof. intros H. unfold reads. now rewrite H. Qed.
Lemma massert_true {S} E (s : S) b : b = true -> massert E b s = (s, Ok tt).
Proof. intros ->. reflexivity. Qed.

Lemma pow_len k : 10 <= k <= 31 -> 1024 <= 2 ^ k <= 2147483648 /\ 2 ^ k mod 1024 = 0.
Proof.
  intros Hk.
  assert (k = 10 \/ k = 11 \/ k = 12 \/ k = 13 \/ k = 14 \/ k = 15 \/ k = 16 \/ k = 17
    \/ k = 18 \/ k = 19 \/ k = 20 \/ k = 21 \/ k = 22 \/ k = 23 \/ k = 24 \/ k = 25
    \/ k = 26 \/ k = 27 \/ k = 28 \/ k = 29 \/ k = 30 \/ k = 31) by lia.
  repeat (destruct H as [->|H]; [cbn; lia|]). subst k. cbn. lia.
Qed.

Lemma hdr_len t ff : hdr t ff -> 1024 <= t_len t <= 2147483648 /\ t_len t mod 1024 = 0.
Proof. intros H. destruct (h_pow H) as (k & -> & Hk). now apply pow_len. Qed.

Ltac tsimp := cbn [t_mapped t_len t_mem t_root with_mem] in *;
  unfold H_TOTAL, H_FREE, H_WORDS, H_NODES, SZ_NODE, SZ_HEADER, SZ_PTRS in *.
Ltac tlia := tsimp; solve [assumption | reflexivity | lia].

(** Growth of the mapping. *)
Lemma expand_spec E t ff : hdr t ff ->
  (grow_ok E (u32 (t_len t * 2)) = true /\
   expand E t = (mkTrie true (2 * t_len t) (mset (t_mem t) 0 (2 * t_len t)) (t_root t), Ok tt)
   /\ 2 * t_len t <= 2147483648)
  \/ (grow_ok E (u32 (t_len t * 2)) = false /\
   exists t', expand E t = (t', Throw ERuntime) /\ t_mapped t' = false).
Proof.
  intros H. pose proof (hdr_len H) as [Hlen Hmod].
  unfold expand. erewrite mbind_ok.
  2:{ apply reads_ok. apply rd_ok; [apply (h_mapped H)|unfold H_TOTAL; lia|unfold H_TOTAL; lia]. }
  change H_TOTAL with 0 in *. rewrite (h_total H).
  cbv zeta.
  destruct (grow_ok E (u32 (t_len t * 2))) eqn:Hg.
  - left. split; [reflexivity|].
    assert (Hnz : 0 < u32 (t_len t * 2)).
    { unfold grow_ok in Hg. destruct (N.ltb_spec 0 (u32 (t_len t * 2))); [assumption|discriminate]. }
    destruct (h_pow H) as (k & Hk & Hkr).
    assert (Hk31 : k <> 31). { intros ->. rewrite Hk in Hnz. vm_compute in Hnz. discriminate. }
    assert (Hsz : 2 * t_len t = 2 ^ (k + 1)). { rewrite Hk, N.add_1_r, N.pow_succ_r'. reflexivity. }
    destruct (@pow_len (k + 1)) as [Hp1 Hp2]; [lia|].
    rewrite <- Hsz in Hp1, Hp2.
    assert (Hu : u32 (t_len t * 2) = 2 * t_len t). { unfold u32. lia. }
    rewrite Hu. split; [|lia].
    erewrite mbind_ok. 2:{ apply wr_ok; tlia. }
    erewrite mbind_ok. 2:{ apply reads_ok, rd_ok; tlia. }
    erewrite mbind_ok. 2:{ apply reads_ok, rd_ok; tlia. }
    cbn [with_mem t_mem t_mapped t_len t_root].
    change H_FREE with 4. change H_TOTAL with 0. rewrite mset_same, mset_other by lia.
    rewrite (h_free H).
    rewrite massert_true; [reflexivity|]. pose proof (h_room H). lia.
  - right. split; [reflexivity|].
    eexists; split; [reflexivity|reflexivity].
Qed.

Definition grown (t : trie) (len : N) : trie :=
  mkTrie true len (mset (t_mem t) 0 len) (t_root t).

Lemma hdr_grown t ff : hdr t ff -> 2 * t_len t <= 2147483648 -> hdr (grown t (2 * t_len t)) ff.
Proof.
  intros H Hb. pose proof (hdr_len H) as [Hlen Hmod]. pose proof (h_room H).
  destruct (h_pow H) as (k & Hk & Hkr).
  constructor; cbn [grown t_mem t_mapped t_len].
  - reflexivity.
  - apply mset_same.
  - rewrite mset_other by lia. apply (h_free H).
  - lia.
  - apply (h_align H).
  - apply (h_low H).
  - exists (k + 1). rewrite Hk, N.add_1_r, N.pow_succ_r'. split; [reflexivity|].
    assert (k <> 31); [|lia]. intros ->. rewrite Hk in Hb. vm_compute in Hb. now apply Hb.
Qed.

Lemma grow_loop_spec E fuel t ff size : hdr t ff -> size <= 12 ->
  (ff + size < t_len t /\ grow_loop E (S fuel) size t = (t, Ok tt))
  \/ (t_len t <= ff + size /\ grow_ok E (u32 (t_len t * 2)) = true
      /\ 2 * t_len t <= 2147483648
      /\ grow_loop E (S (S fuel)) size t = (grown t (2 * t_len t), Ok tt)
      /\ ff + size < 2 * t_len t)
  \/ (t_len t <= ff + size /\ grow_ok E (u32 (t_len t * 2)) = false
      /\ exists t', grow_loop E (S (S fuel)) size t = (t', Throw ERuntime) /\ t_mapped t' = false).
Proof.
  intros H Hs. pose proof (hdr_len H) as [Hlen Hmod]. pose proof (h_room H) as Hr.
  pose proof (h_mapped H) as Hm.
  assert (Hbody : forall f t1, hdr t1 ff ->
     grow_loop E (S f) size t1 =
      (if t_len t1 <=? ff + size then mbind (expand E) (fun _ => grow_loop E f size) t1 else (t1, Ok tt))).
  { intros f t1 H1. pose proof (hdr_len H1) as [Hl1 Hm1]. pose proof (h_room H1).
    cbn [grow_loop].
    erewrite mbind_ok. 2:{ apply reads_ok, rd_ok; [apply (h_mapped H1)|tlia..]. }
    erewrite mbind_ok. 2:{ apply reads_ok, rd_ok; [apply (h_mapped H1)|tlia..]. }
    change H_FREE with 4. change H_TOTAL with 0.
    rewrite (h_free H1), (h_total H1).
    replace (u32 (ff + size)) with (ff + size) by (unfold u32; lia).
    destruct (t_len t1 <=? ff + size); reflexivity. }
  destruct (N.ltb_spec (ff + size) (t_len t)) as [Hlt|Hge].
  - left. split; [assumption|]. rewrite Hbody by assumption.
    destruct (N.leb_spec (t_len t) (ff + size)); [lia|reflexivity].
  - right. destruct (expand_spec E H) as [(Hg & He & Hb)|(Hg & t' & He & Hm')].
    + left. repeat split; try assumption; try lia.
      rewrite Hbody by assumption.
      destruct (N.leb_spec (t_len t) (ff + size)); [|lia].
      erewrite mbind_ok by exact He.
      fold (grown t (2 * t_len t)).
      assert (Hh : hdr (grown t (2 * t_len t)) ff) by (apply hdr_grown; assumption).
      rewrite Hbody by assumption. cbn [grown t_len].
      destruct (N.leb_spec (2 * t_len t) (ff + size)); [lia|reflexivity].
    + right. split; [assumption|]. split; [assumption|]. exists t'. split; [|assumption].
      rewrite Hbody by assumption.
      destruct (N.leb_spec (t_len t) (ff + size)); [|lia].
      now erewrite mbind_throw by exact He.
Qed.

(** Writing consecutive cells. *)
Fixpoint mcells (m : N -> N) (off : N) (cells : list N) : N -> N :=
  match cells with
  | [] => m
  | c :: r => mcells (mset m off c) (off + 4) r
  end.

Lemma wr_cells_ok cells : forall t off, t_mapped t = true -> off mod 4 = 0 ->
  off + 4 * N.of_nat (length cells) <= t_len t ->
  wr_cells off cells t = (with_mem t (mcells (t_mem t) off cells), Ok tt).
Proof.
  induction cells as [|c r IH]; intros t off Hm Ha Hl; cbn [wr_cells mcells].
  - unfold ret, with_mem. now destruct t.
  - cbn [length] in Hl.
    erewrite mbind_ok by (apply wr_ok; tlia).
    rewrite IH; tlia.
Qed.

Lemma mcells_other cells : forall m off o,
  o < off \/ off + 4 * N.of_nat (length cells) <= o -> mcells m off cells o = m o.
Proof.
  induction cells as [|c r IH]; intros m off o Ho; cbn [mcells]; [reflexivity|].
  cbn [length] in Ho. rewrite IH by lia. apply mset_other. lia.
Qed.

Lemma mcells_at cells : forall m off i, (i < length cells)%nat ->
  mcells m off cells (off + 4 * N.of_nat i) = nth i cells 0.
Proof.
  induction cells as [|c r IH]; intros m off i Hi; cbn [length] in Hi; [lia|].
  cbn [mcells]. destruct i as [|i]; cbn [nth].
  - rewrite mcells_other by lia. replace (off + 4 * N.of_nat 0) with off by lia. apply mset_same.
  - replace (off + 4 * N.of_nat (S i)) with (off + 4 + 4 * N.of_nat i) by lia.
    apply IH. lia.
Qed.

(** Trie::append. *)
Lemma append_spec E t ff cells : hdr t ff -> (0 < length cells <= 3)%nat ->
  let size := 4 * N.of_nat (length cells) in
  (exists t', append E cells t = (t', Ok ff) /\ hdr t' (ff + size)
     /\ t_root t' = t_root t
     /\ (forall o, 8 <= o -> t_mem t' o = mcells (t_mem t) ff cells o)
     /\ ((ff + size < t_len t /\ t_len t' = t_len t)
         \/ (t_len t <= ff + size /\ t_len t' = 2 * t_len t /\ grow_ok E (2 * t_len t) = true)))
  \/ (exists t', append E cells t = (t', Throw ERuntime) /\ t_mapped t' = false
     /\ t_len t <= ff + size /\ grow_ok E (u32 (t_len t * 2)) = false).
Proof.
  intros H Hc size. assert (Hsz : size <= 12) by (unfold size; lia).
  pose proof (hdr_len H) as [Hlen Hmod]. pose proof (h_room H) as Hr.
  pose proof (h_mapped H) as Hm. pose proof (h_align H) as Ha. pose proof (h_low H) as Hlow.
  assert (Hafter : forall t1, hdr t1 ff -> ff + size < t_len t1 ->
    (exists t', (mbind (reads (fun t => rd t H_FREE)) (fun free =>
        mbind (wr_cells free cells) (fun _ =>
        mbind (reads (fun t => rd t H_FREE)) (fun result =>
        mbind (wr H_FREE (u32 (result + size))) (fun _ =>
        mbind (reads (fun t => rd t H_TOTAL)) (fun tot =>
        mbind (reads (fun t => rd t H_FREE)) (fun free =>
        mbind (massert E (free <? tot)) (fun _ => ret result)))))))) t1 = (t', Ok ff)
      /\ hdr t' (ff + size) /\ t_root t' = t_root t1 /\ t_len t' = t_len t1
      /\ (forall o, 8 <= o -> t_mem t' o = mcells (t_mem t1) ff cells o))).
  { intros t1 H1 Hr1. pose proof (hdr_len H1) as [Hl1 Hm1]. pose proof (h_mapped H1) as Hmp1.
    change H_FREE with 4. change H_TOTAL with 0.
    erewrite mbind_ok by (apply reads_ok, rd_ok; [assumption|lia..]).
    rewrite (h_free H1).
    erewrite mbind_ok by (apply wr_cells_ok; [assumption|lia|unfold size in *; lia]).
    erewrite mbind_ok by (apply reads_ok, rd_ok; tlia).
    cbn [with_mem t_mem t_len t_mapped t_root].
    rewrite mcells_other by lia. rewrite (h_free H1).
    erewrite mbind_ok by (apply wr_ok; tlia).
    cbn [with_mem t_mem t_len t_mapped t_root].
    replace (u32 (ff + size)) with (ff + size) by (unfold u32; lia).
    erewrite mbind_ok by (apply reads_ok, rd_ok; tlia).
    erewrite mbind_ok by (apply reads_ok, rd_ok; tlia).
    cbn [with_mem t_mem t_len t_mapped t_root].
    rewrite mset_same, mset_other by lia. rewrite mcells_other by lia. rewrite (h_total H1).
    erewrite mbind_ok by (apply massert_true; lia).
    eexists. split; [reflexivity|]. tsimp.
    split; [|split; [reflexivity|split; [reflexivity|]]].
    - constructor; tsimp; try assumption; try lia.
      + rewrite mset_other by lia. rewrite mcells_other by lia. apply (h_total H1).
      + apply mset_same.
      + apply (h_pow H1).
    - intros o Ho. apply mset_other. lia. }
  unfold append. fold size.
  erewrite mbind_ok by (apply reads_ok, rd_ok; tlia).
  erewrite mbind_ok by (apply reads_ok, rd_ok; tlia).
  change H_FREE with 4 in *. change H_TOTAL with 0 in *.
  rewrite (h_free H), (h_total H).
  erewrite mbind_ok by (apply massert_true; lia).
  destruct (grow_loop_spec E 38 H Hsz) as [(Hlt & He)|[(Hge & Hg & Hb & He & Hlt)|(Hge & Hg & t' & He & Hm')]].
  - left. assert (He' : grow_loop E 40 size t = (t, Ok tt)).
    { destruct (grow_loop_spec E 39 H Hsz) as [(_ & He')|[(Hge & _)|(Hge & _)]]; [exact He'|lia|lia]. }
    erewrite mbind_ok by exact He'.
    destruct (Hafter t H Hlt) as (t' & He2 & Hh & Hro & Hle & Hme).
    exists t'. repeat split; try assumption; try apply Hh. left. split; assumption.
  - left. erewrite mbind_ok by exact He.
    assert (Hh : hdr (grown t (2 * t_len t)) ff) by (apply hdr_grown; assumption).
    destruct (Hafter _ Hh Hlt) as (t' & He2 & Hh2 & Hro & Hle & Hme).
    exists t'. split; [exact He2|]. split; [exact Hh2|]. split; [exact Hro|].
    split.
    + intros o Ho. rewrite (Hme o Ho). cbn [grown t_mem].
      clear -Ho Hlow. generalize (t_mem t). generalize ff Hlow. clear ff Hlow.
      induction cells as [|c r IH]; intros ff Hlow m; cbn [mcells].
      * apply mset_other; lia.
      * replace (mset (mset m 0 (2 * t_len t)) ff c) with (mset (mset m 0 (2 * t_len t)) ff c) by reflexivity.
        destruct (N.ltb_spec o (ff + 4)).
        -- rewrite !mcells_other by lia. unfold mset.
           destruct (o =? ff); [reflexivity|]. destruct (N.eqb_spec o 0); [lia|reflexivity].
        -- destruct (N.leb_spec (ff + 4 + 4 * N.of_nat (length r)) o).
           ++ rewrite !mcells_other by lia. unfold mset.
              destruct (o =? ff); [reflexivity|]. destruct (N.eqb_spec o 0); [lia|reflexivity].
           ++ assert (Hgen : forall cs m1 m2 f x, m1 x = m2 x -> mcells m1 f cs x = mcells m2 f cs x).
              { clear. induction cs as [|c cs IH]; intros m1 m2 f x Hx; cbn [mcells]; [exact Hx|].
                apply IH. unfold mset. now rewrite Hx. }
              apply Hgen. unfold mset. destruct (o =? ff); [reflexivity|].
              destruct (N.eqb_spec o 0); [lia|reflexivity].
    + right. split; [assumption|]. split; [exact Hle|].
      replace (u32 (t_len t * 2)) with (2 * t_len t) in Hg by (unfold u32; lia). exact Hg.
  - right. exists t'. erewrite mbind_throw by exact He. repeat split; assumption.
Qed.

(** ** Edge lists *)

Lemma edge_app es x k : (k < length es)%nat -> edge (es ++ x) k = edge es k.
Proof. intros H. unfold edge. now apply app_nth1. Qed.
Lemma edge_last es x : edge (es ++ [x]) (length es) = x.
Proof. unfold edge. rewrite app_nth2 by lia. now rewrite Nat.sub_diag. Qed.

Lemma kids_in es p k : In k (kids es p) <-> (k < length es)%nat /\ fst (edge es k) = p.
Proof.
  unfold kids. rewrite filter_In, in_seq, Nat.eqb_eq. intuition lia.
Qed.
Lemma kids_nodup es p : NoDup (kids es p).
Proof. unfold kids. apply NoDup_filter, seq_NoDup. Qed.

Lemma kids_snoc es q l p :
  kids (es ++ [(q, l)]) p = kids es p ++ (if Nat.eqb q p then [length es] else []).
Proof.
  unfold kids. rewrite app_length. cbn [length]. rewrite Nat.add_1_r, seq_S, filter_app.
  f_equal.
  - apply filter_ext_in. intros k Hk. apply in_seq in Hk. rewrite edge_app by lia. reflexivity.
  - cbn [filter Nat.add]. rewrite edge_last. cbn [fst]. reflexivity.
Qed.

Fixpoint last_off (off : N) (ks : list nat) : N :=
  match ks with [] => off | k :: r => last_off (poff k) r end.

Lemma chain_ext m m' ks : forall off,
  chain m off ks -> m' (off + 8) = m (off + 8) ->
  (forall k, In k ks -> m' (poff k + 8) = m (poff k + 8)) -> chain m' off ks.
Proof.
  induction ks as [|k r IH]; intros off Hc H0 Hk; cbn [chain] in *.
  - now rewrite H0.
  - destruct Hc as [H1 H2]. split; [now rewrite H0|].
    apply IH; [exact H2|apply Hk; now left|intros; apply Hk; now right].
Qed.

Lemma last_off_cases ks : forall off, last_off off ks = off \/ exists k, In k ks /\ last_off off ks = poff k.
Proof.
  induction ks as [|k r IH]; intros off; cbn [last_off]; [now left|].
  right. destruct (IH (poff k)) as [->|(k' & Hk & ->)].
  - exists k. split; [now left|reflexivity].
  - exists k'. split; [now right|reflexivity].
Qed.

Lemma chain_snoc m m' n ks : forall off,
  chain m off ks -> NoDup ks -> ~ In n ks ->
  (forall k, In k ks -> off <> poff k) -> off <> poff n ->
  m' (last_off off ks + 8) = poff n -> m' (poff n + 8) = 0 ->
  (forall o, o <> last_off off ks + 8 -> o = off + 8 \/ (exists k, In k ks /\ o = poff k + 8) -> m' o = m o) ->
  chain m' off (ks ++ [n]).
Proof.
  induction ks as [|k r IH]; intros off Hc Hnd Hn Hoff Hoffn Hl Hz Hs; cbn [chain last_off app] in *.
  - split; assumption.
  - destruct Hc as [H1 H2]. apply NoDup_cons_iff in Hnd as [Hk Hnd]. split.
    + rewrite Hs; [exact H1| |now left].
      intros Heq. destruct (last_off_cases r (poff k)) as [He|(k' & Hk' & He)]; rewrite He in Heq.
      * apply (Hoff k); [now left|lia].
      * apply (Hoff k'); [now right|lia].
    + apply IH; try assumption.
      * intros Hin. apply Hn. now right.
      * intros k' Hk' Heq. unfold poff in Heq. assert (k = k') by lia. subst. contradiction.
      * intros Heq. apply Hn. left. unfold poff in Heq. lia.
      * intros o Ho Hor. apply Hs; [exact Ho|]. right. destruct Hor as [->|(k' & Hk' & ->)].
        -- exists k. split; [now left|reflexivity].
        -- exists k'. split; [now right|reflexivity].
Qed.

(** ** addNewSibling *)

Definition refused (E : env) (n : nat) : Prop :=
  exists s, 1024 < s /\ s <= 2 * (36 + 32 * N.of_nat n) /\ grow_ok E (u32 s) = false.

Lemma mcells3 m off a b c o : mcells m off [a; b; c] o =
  if o =? off + 8 then c else if o =? off + 4 then b else if o =? off then a else m o.
Proof.
  cbn [mcells]. replace (off + 4 + 4) with (off + 8) by lia. reflexivity.
Qed.
Lemma mcells2 m off a b o : mcells m off [a; b] o =
  if o =? off + 4 then b else if o =? off then a else m o.
Proof. reflexivity. Qed.

Lemma addNewNode_spec E t ff parent : hdr t ff ->
  (exists t', addNewNode E parent t = (t', Ok ff) /\ hdr t' (ff + 20)
     /\ t_root t' = t_root t
     /\ t_mem t' 12 = u32 (t_mem t 12 + 1) /\ t_mem t' 8 = t_mem t 8
     /\ (forall o, 16 <= o -> t_mem t' o =
           mcells (mcells (t_mem t) ff [INVALID_WORDID; parent]) (ff + 8) [0; 0; 0] o))
  \/ (exists t' s, addNewNode E parent t = (t', Throw ERuntime) /\ t_mapped t' = false
     /\ 1024 < s /\ s <= 2 * (ff + 20) /\ grow_ok E (u32 s) = false).
Proof.
  intros H. unfold addNewNode. pose proof (hdr_len H) as [Hlen _]. pose proof (h_low H) as Hlow.
  destruct (@append_spec E t ff [INVALID_WORDID; parent] H) as
    [(t1 & He1 & H1 & Hr1 & Hm1 & Hl1)|(t1 & He1 & Hm1 & Hge & Hg)]; [cbn; lia| |].
  2:{ right. exists t1, (t_len t * 2). erewrite mbind_throw by exact He1.
      split; [reflexivity|]. cbn in Hge. split; [assumption|]. repeat split; try lia. exact Hg. }
  cbn [length] in *. replace (ff + 4 * N.of_nat 2) with (ff + 8) in * by lia.
  erewrite mbind_ok by exact He1.
  pose proof (hdr_len H1) as [Hlen1 _].
  destruct (@append_spec E t1 (ff + 8) [0; 0; 0] H1) as
    [(t2 & He2 & H2 & Hr2 & Hm2 & Hl2)|(t2 & He2 & Hm2 & Hge & Hg)]; [cbn; lia| |].
  2:{ right. exists t2, (t_len t1 * 2). erewrite mbind_throw by exact He2.
      cbn in Hge. repeat split; try assumption; lia. }
  cbn [length] in *. replace (ff + 8 + 4 * N.of_nat 3) with (ff + 20) in * by lia.
  erewrite mbind_ok by exact He2.
  pose proof (hdr_len H2) as [Hlen2 _]. pose proof (h_mapped H2) as Hmp2.
  erewrite mbind_ok by (apply reads_ok, rd_ok; tlia).
  erewrite mbind_ok by (apply wr_ok; tlia).
  left. eexists. split; [reflexivity|]. tsimp.
  assert (Hm : forall o, 8 <= o -> t_mem t2 o =
     mcells (mcells (t_mem t) ff [INVALID_WORDID; parent]) (ff + 8) [0; 0; 0] o).
  { intros o Ho. rewrite Hm2 by lia. rewrite !mcells3.
    destruct (o =? ff + 8 + 8), (o =? ff + 8 + 4), (o =? ff + 8); try reflexivity.
    now rewrite Hm1 by lia. }
  split; [|split; [congruence|split; [|split]]].
  - constructor; tsimp; try assumption.
    + rewrite mset_other by lia. apply (h_total H2).
    + rewrite mset_other by lia. apply (h_free H2).
    + apply (h_room H2).
    + apply (h_align H2).
    + apply (h_low H2).
    + apply (h_pow H2).
  - rewrite mset_same. rewrite Hm by lia. rewrite !mcells_other by (cbn; lia). reflexivity.
  - rewrite mset_other by lia. rewrite Hm by lia. rewrite !mcells_other by (cbn; lia). reflexivity.
  - intros o Ho. rewrite mset_other by lia. apply Hm. lia.
Qed.

Lemma find_kid_none es p l : find_kid es p l = None ->
  forall k, (k < length es)%nat -> edge es k <> (p, l).
Proof.
  unfold find_kid. intros H k Hk Heq.
  assert (Hin : In k (kids es p)) by (apply kids_in; rewrite Heq; auto).
  pose proof (find_none _ _ H _ Hin) as Hf. cbv beta in Hf. rewrite Heq in Hf. cbn [snd] in Hf. lia.
Qed.

Lemma find_kid_some es p l k : find_kid es p l = Some k ->
  (k < length es)%nat /\ edge es k = (p, l).
Proof.
  unfold find_kid. intros H. apply find_some in H as [Hin Hl]. apply kids_in in Hin as [Hk Hp].
  split; [assumption|]. destruct (edge es k) as [a b]. cbn in *. f_equal; [assumption|lia].
Qed.

Lemma wf_snoc es i l : wf_edges es -> (i <= length es)%nat -> 0 < l < 65536 ->
  find_kid es i l = None -> wf_edges (es ++ [(i, l)]).
Proof.
  intros H Hi Hl Hf. constructor.
  - intros k Hk. rewrite app_length in Hk. cbn in Hk.
    destruct (Nat.eq_dec k (length es)) as [->|]; [rewrite edge_last; cbn; lia|].
    rewrite edge_app by lia. apply (wf_parent H). lia.
  - intros k Hk. rewrite app_length in Hk. cbn in Hk.
    destruct (Nat.eq_dec k (length es)) as [->|]; [rewrite edge_last; cbn; lia|].
    rewrite edge_app by lia. apply (wf_letter H). lia.
  - eapply Permutation_NoDup; [apply Permutation_cons_append|].
    constructor; [|apply (wf_nodup H)].
    intros Hin. destruct (In_nth _ _ (O, 0) Hin) as (k & Hk & Heq).
    eapply find_kid_none; eassumption.
Qed.

Lemma noff_lt (es : edges) i : (i <= length es)%nat -> noff i + 20 <= 36 + 32 * N.of_nat (length es).
Proof. intros H. destruct i; cbn [noff]; lia. Qed.
Lemma noff_inj i j : noff i = noff j -> i = j.
Proof. destruct i, j; cbn [noff]; lia. Qed.
Lemma noff_align i : noff i mod 4 = 0 /\ 16 <= noff i.
Proof. destruct i; cbn [noff]; lia. Qed.

Lemma addNewSibling_spec E t es ids nw i l :
  rep t es ids nw -> (i <= length es)%nat -> 0 < l < 65536 -> find_kid es i l = None ->
  let sib := last_off (noff i + 8) (kids es i) in
  (exists t', addNewSibling E (noff i) sib l t = (t', Ok (noff (S (length es))))
     /\ rep t' (es ++ [(i, l)]) (ids ++ [INVALID_WORDID]) nw)
  \/ (exists t', addNewSibling E (noff i) sib l t = (t', Throw ERuntime) /\ t_mapped t' = false
     /\ refused E (S (length es))).
Proof.
  intros R Hi Hl Hf sib.
  set (n := length es) in *. set (ff := 36 + 32 * N.of_nat n).
  pose proof (r_hdr R) as H. fold n ff in H.
  pose proof (hdr_len H) as [Hlen _].
  unfold addNewSibling.
  destruct (addNewNode_spec E (noff i) H) as
    [(t1 & He1 & H1 & Hr1 & Hnn1 & Hnw1 & Hm1)|(t1 & s & He1 & Hm1 & Hs1 & Hs2 & Hg)].
  2:{ right. exists t1. erewrite mbind_throw by exact He1. split; [reflexivity|].
      split; [assumption|]. exists s. repeat split; try assumption. fold n. lia. }
  erewrite mbind_ok by exact He1.
  pose proof (hdr_len H1) as [Hlen1 _].
  destruct (@append_spec E t1 (ff + 20) [l; ff; 0] H1) as
    [(t2 & He2 & H2 & Hr2 & Hm2 & Hl2)|(t2 & He2 & Hm2 & Hge & Hg)]; [cbn; lia| |].
  2:{ right. exists t2. erewrite mbind_throw by exact He2. split; [reflexivity|].
      split; [assumption|]. exists (t_len t1 * 2). cbn [length] in Hge. fold n; unfold ff in *. split; [lia|split; [lia|assumption]]. }
  cbn [length] in *. replace (ff + 20 + 4 * N.of_nat 3) with (ff + 32) in * by lia.
  erewrite mbind_ok by exact He2.
  assert (Hsib : sib + 12 <= ff /\ sib mod 4 = 0 /\ 24 <= sib).
  { unfold sib. pose proof (@noff_lt es _ Hi) as Hno. fold n ff in Hno. pose proof (noff_align i) as [Ha1 Ha2].
    destruct (last_off_cases (kids es i) (noff i + 8)) as [->|(k & Hk & ->)]; [lia|].
    apply kids_in in Hk as [Hk _]. fold n in Hk. unfold poff, ff. lia. }
  destruct Hsib as (Hs1 & Hs2 & Hs3).
  assert (Hm : forall o, 16 <= o -> t_mem t2 o =
     if o =? ff + 28 then 0 else if o =? ff + 24 then ff else if o =? ff + 20 then l
     else if o =? ff + 16 then 0 else if o =? ff + 12 then 0 else if o =? ff + 8 then 0
     else if o =? ff + 4 then noff i else if o =? ff then INVALID_WORDID else t_mem t o).
  { intros o Ho. rewrite Hm2 by lia. rewrite mcells3.
    replace (ff + 20 + 8) with (ff + 28) by lia. replace (ff + 20 + 4) with (ff + 24) by lia.
    destruct (o =? ff + 28), (o =? ff + 24), (o =? ff + 20); try reflexivity.
    rewrite Hm1 by lia. rewrite mcells3, mcells2.
    replace (ff + 8 + 8) with (ff + 16) by lia. replace (ff + 8 + 4) with (ff + 12) by lia.
    reflexivity. }
  assert (Hmold : forall o, 16 <= o < ff -> t_mem t2 o = t_mem t o).
  { intros o Ho. rewrite Hm by lia.
    repeat (match goal with |- (if ?a =? ?b then _ else _) = _ => destruct (N.eqb_spec a b); [lia|] end).
    reflexivity. }
  pose proof (hdr_len H2) as [Hlen2 _]. pose proof (h_mapped H2) as Hmp2. pose proof (h_room H2) as Hroom2.
  erewrite mbind_ok by (apply reads_ok, rd_ok; tlia).
  assert (Hlast : forall ks off, chain (t_mem t) off ks -> t_mem t (last_off off ks + 8) = 0).
  { induction ks as [|k r IH]; intros off Hc; cbn [chain last_off] in *; [exact Hc|]. apply IH, Hc. }
  rewrite Hmold by lia.
  erewrite mbind_ok.
  2:{ apply massert_true. unfold sib. rewrite (Hlast _ _ (r_chain R Hi)). reflexivity. }
  erewrite mbind_ok by (apply wr_ok; tlia).
  left. eexists. split; [reflexivity|].
  set (m' := mset (t_mem t2) (sib + 8) (ff + 20)).
  assert (Hpn : poff n = ff + 20) by (unfold poff, ff; lia).
  assert (Hnn : noff (S n) = ff) by reflexivity.
  assert (Hnew : forall o, ff <= o -> m' o = t_mem t2 o).
  { intros o Ho. unfold m'. apply mset_other. lia. }
  assert (Hold : forall o, 16 <= o < ff -> o <> sib + 8 -> m' o = t_mem t o).
  { intros o Ho Hne. unfold m'. rewrite mset_other by assumption. now apply Hmold. }
  assert (Hsib8 : forall j, sib + 8 <> noff j /\ sib + 8 <> noff j + 4 /\ sib + 8 <> noff j + 8 /\ sib + 8 <> noff j + 12).
  { intros j. unfold sib. destruct (last_off_cases (kids es i) (noff i + 8)) as [->|(k & Hk & ->)];
    destruct i, j; unfold noff, poff; lia. }
  assert (Hsibp : forall j, sib + 8 <> poff j /\ sib + 8 <> poff j + 4).
  { intros j. unfold sib. destruct (last_off_cases (kids es i) (noff i + 8)) as [->|(k & Hk & ->)];
    destruct i; unfold noff, poff; lia. }
  assert (Hcell : forall a b, a = b -> (a =? b) = true) by (intros; lia).
  assert (Hfin : forall d v, t_mem t2 (ff + d) = v -> m' (ff + d) = v).
  { intros d v Hv. rewrite Hnew by lia. exact Hv. }
  constructor; tsimp; fold m'; rewrite ?app_length; cbn [length]; fold n.
  - (* hdr *)
    replace (36 + 32 * N.of_nat (n + 1)) with (ff + 32) by (unfold ff; lia).
    constructor; tsimp; try assumption.
    + unfold m', mset. destruct (N.eqb_spec 0 (sib + 8)); [lia|]. apply (h_total H2).
    + unfold m', mset. destruct (N.eqb_spec 4 (sib + 8)); [lia|]. apply (h_free H2).
    + apply (h_align H2).
    + lia.
    + apply (h_pow H2).
  - rewrite Hr2, Hr1. apply (r_root R).
  - unfold m'. rewrite mset_other by lia. rewrite Hm2 by lia. rewrite mcells_other by (cbn; lia).
    rewrite Hnw1. apply (r_words R).
  - unfold m'. rewrite mset_other by lia. rewrite Hm2 by lia. rewrite mcells_other by (cbn; lia).
    rewrite Hnn1, (r_nodes R). fold n. unfold u32. pose proof (h_room H). unfold ff in *. lia.
  - rewrite (r_len R). fold n. lia.
  - intros j Hj. destruct (Nat.eq_dec j (S n)) as [->|Hne].
    + rewrite Hnn. rewrite app_nth2 by (rewrite (r_len R); fold n; lia).
      rewrite (r_len R). fold n. rewrite Nat.sub_diag. cbn [nth].
      replace ff with (ff + 0) by lia. apply Hfin. rewrite Hm by lia.
      replace (ff + 0) with ff by lia.
      repeat (match goal with |- (if ?a =? ?b then _ else _) = _ => destruct (N.eqb_spec a b); [lia || reflexivity|] end).
      all: lia.
    + assert (Hjn : (j <= n)%nat) by lia.
      pose proof (@noff_lt es j Hjn) as Hb. fold n ff in Hb. pose proof (noff_align j) as [_ Hj16].
      rewrite Hold; [|lia|intros Hx; symmetry in Hx; revert Hx; apply Hsib8].
      rewrite app_nth1 by (rewrite (r_len R); fold n; lia). now apply (r_id R).
  - intros j Hj. destruct (Nat.eq_dec j (S n)) as [->|Hne].
    + rewrite Hnn. cbn [parent_off]. unfold n at 1. rewrite edge_last. cbn [fst].
      apply Hfin. rewrite Hm by lia.
      repeat (match goal with |- (if ?a =? ?b then _ else _) = _ => destruct (N.eqb_spec a b); [lia || reflexivity|] end).
      all: lia.
    + assert (Hjn : (j <= n)%nat) by lia.
      pose proof (@noff_lt es j Hjn) as Hb. fold n ff in Hb. pose proof (noff_align j) as [_ Hj16].
      rewrite Hold; [|lia|intros Hx; symmetry in Hx; revert Hx; apply Hsib8].
      rewrite (r_par R) by assumption. destruct j as [|k]; [reflexivity|]. cbn [parent_off].
      rewrite edge_app by (fold n; lia). reflexivity.
  - intros j Hj. destruct (Nat.eq_dec j (S n)) as [->|Hne].
    + rewrite Hnn. apply Hfin. rewrite Hm by lia.
      repeat (match goal with |- (if ?a =? ?b then _ else _) = _ => destruct (N.eqb_spec a b); [lia || reflexivity|] end).
      all: lia.
    + assert (Hjn : (j <= n)%nat) by lia.
      pose proof (@noff_lt es j Hjn) as Hb. fold n ff in Hb. pose proof (noff_align j) as [_ Hj16].
      rewrite Hold; [|lia|intros Hx; symmetry in Hx; revert Hx; apply Hsib8].
      now apply (r_dl R).
  - intros j Hj. destruct (Nat.eq_dec j (S n)) as [->|Hne].
    + rewrite Hnn. apply Hfin. rewrite Hm by lia.
      repeat (match goal with |- (if ?a =? ?b then _ else _) = _ => destruct (N.eqb_spec a b); [lia || reflexivity|] end).
      all: lia.
    + assert (Hjn : (j <= n)%nat) by lia.
      pose proof (@noff_lt es j Hjn) as Hb. fold n ff in Hb. pose proof (noff_align j) as [_ Hj16].
      rewrite Hold; [|lia|intros Hx; symmetry in Hx; revert Hx; apply Hsib8].
      now apply (r_dc R).
  - intros k Hk. destruct (Nat.eq_dec k n) as [->|Hne].
    + rewrite Hpn. unfold n at 1. rewrite edge_last. cbn [snd]. apply Hfin. rewrite Hm by lia.
      repeat (match goal with |- (if ?a =? ?b then _ else _) = _ => destruct (N.eqb_spec a b); [lia || reflexivity|] end).
      all: lia.
    + assert (Hkn : (k < n)%nat) by lia.
      rewrite Hold; [|unfold poff, ff; lia|intros Hx; symmetry in Hx; revert Hx; apply Hsibp].
      rewrite edge_app by assumption. now apply (r_pl R).
  - intros k Hk. destruct (Nat.eq_dec k n) as [->|Hne].
    + rewrite Hpn, Hnn. replace (ff + 20 + 4) with (ff + 24) by lia. apply Hfin. rewrite Hm by lia.
      repeat (match goal with |- (if ?a =? ?b then _ else _) = _ => destruct (N.eqb_spec a b); [lia || reflexivity|] end).
      all: lia.
    + assert (Hkn : (k < n)%nat) by lia.
      rewrite Hold; [|unfold poff, ff; lia|intros Hx; symmetry in Hx; revert Hx; apply Hsibp].
      now apply (r_pc R).
  - intros j Hj. rewrite kids_snoc. fold n. destruct (Nat.eq_dec j (S n)) as [->|Hne].
    + destruct (Nat.eqb_spec i (S n)); [lia|].
      assert (Hk0 : kids es (S n) = []).
      { destruct (kids es (S n)) as [|k r] eqn:Hk; [reflexivity|]. exfalso.
        assert (Hin : In k (kids es (S n))) by (rewrite Hk; now left).
        apply kids_in in Hin as [Hin1 Hin2]. pose proof (wf_parent (r_wf R) Hin1). fold n in Hin1. lia. }
      rewrite Hk0. cbn [app chain]. rewrite Hnn. replace (ff + 8 + 8) with (ff + 16) by lia.
      apply Hfin. rewrite Hm by lia.
      repeat (match goal with |- (if ?a =? ?b then _ else _) = _ => destruct (N.eqb_spec a b); [lia || reflexivity|] end).
      all: lia.
    + assert (Hjn : (j <= n)%nat) by lia.
      pose proof (@noff_lt es j Hjn) as Hb. fold n ff in Hb. pose proof (noff_align j) as [_ Hj16].
      destruct (Nat.eqb_spec i j) as [->|Hij].
      * apply chain_snoc with (m := t_mem t).
        -- now apply (r_chain R).
        -- apply kids_nodup.
        -- intros Hin. apply kids_in in Hin as [Hin _]. fold n in Hin. lia.
        -- intros k _. destruct j; unfold noff, poff; lia.
        -- destruct j; unfold noff, poff; lia.
        -- fold sib. rewrite Hpn. unfold m'. apply mset_same.
        -- rewrite Hpn. replace (ff + 20 + 8) with (ff + 28) by lia. apply Hfin. rewrite Hm by lia.
           destruct (N.eqb_spec (ff + 28) (ff + 28)); [reflexivity|lia].
        -- fold sib. intros o Ho [->|(k & Hk & ->)].
           ++ apply Hold; [lia|assumption].
           ++ apply kids_in in Hk as [Hk _]. fold n in Hk. apply Hold; [unfold poff, ff; lia|assumption].
      * rewrite app_nil_r. apply chain_ext with (m := t_mem t).
        -- now apply (r_chain R).
        -- apply Hold; [lia|]. unfold sib.
           destruct (last_off_cases (kids es i) (noff i + 8)) as [->|(k & Hk & ->)].
           ++ intros Hx. assert (noff j = noff i) by lia. apply Hij. symmetry. now apply noff_inj.
           ++ destruct j; unfold noff, poff; lia.
        -- intros k Hk. apply kids_in in Hk as [Hk1 Hk2]. fold n in Hk1.
           apply Hold; [unfold poff, ff; lia|]. unfold sib.
           destruct (last_off_cases (kids es i) (noff i + 8)) as [->|(k' & Hk' & ->)].
           ++ destruct i; unfold noff, poff; lia.
           ++ apply kids_in in Hk' as [_ Hk'2]. intros Hx. unfold poff in Hx. assert (k = k') by lia. subst k'. congruence.
  - apply wf_snoc; try assumption. apply (r_wf R).
Qed.
