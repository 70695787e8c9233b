(** queryindex as a whole. *)
From Verif Require Import Base TrieM TrieP WordM WordStoreM ErrorValuesM LevIndexM DataFileM QIndexM
  Spec_Hist TrieD TrieH WordStoreP Spec_Edit Spec_EV Spec_Lev EVR LevP EditP Spec_Match MatchP Spec_CApi Spec_Word WordP WordQ CApiP Spec_Tool QIndexP QIndexQ.
From Coq Require Import ZifyBool ZifyN ZifyNat.
Local Open Scope N_scope.
Local Open Scope m_scope.

(** A word that comes back from the store and fits into the buffer. *)
Definition printable (E : env) (w : word) : Prop :=
  exists c, w = letters_of c /\ constructible E w /\ Forall scalar c /\ Forall (fun x => x <> 0) c /\ N.of_nat (length (bytes_of c)) < 1024.
(** The rows printed for the matches [m]. *)
Definition row_of (E : env) (D : list word) (p : N * Z) (row : printed) : Prop :=
  exists k c, fst p = N.of_nat k /\ nth_error D k = Some (letters_of c) /\ constructible E (letters_of c) /\
     Forall scalar c /\ Forall (fun x => x <> 0) c /\ N.of_nat (length (bytes_of c)) < 1024 /\ row = PMatch (bytes_of c) (snd p).

Lemma longest_le ops B : Forall (fun w : word => (length w <= B)%nat) (map fst ops) -> (longest ops <= B)%nat.
Proof. induction ops as [|[w i] r IH]; intros H; [cbn; lia|]. cbn [map fst] in H. apply Forall_cons_iff in H as [H1 H]. cbn [longest fold_right fst]. specialize (IH H). unfold longest in IH. lia. Qed.

Section answers.
Variable E : env.
Hypothesis HO : env_ok E.
Variable i0 : levindex.
Hypothesis Hi0 : li_new E = Ok i0.
Variable ws : list word.
Variable ops : list (word * N).
Variable s : qstate.
Hypothesis H : loaded E i0 ws ops s.
Notation D := (distinct [] ws).

Lemma known w id : assoc (real ops) w = Some id <-> exists k, id = N.of_nat k /\ nth_error D k = Some w.
Proof.
  destruct (ld_store H) as (es & ids & HW). rewrite real_id by (rewrite (ld_words H); apply (ld_ins H)). split.
  - intros Ha. apply assoc_some_in in Ha. destruct (ld_ids H Ha) as (k & Hk & ->). exists k. split; [reflexivity|]. now apply position_some.
  - intros (k & -> & Hk). destruct (assoc ops w) as [i|] eqn:Ha.
    + apply assoc_some_in in Ha. destruct (ld_ids H Ha) as (k' & Hk' & ->). apply (position_nth (WS_nodup HW)) in Hk. congruence.
    + exfalso. apply assoc_none in Ha. apply Ha. rewrite (ld_words H). apply nth_error_In, distinct_in in Hk as [[]|Hk]. exact Hk.
Qed.

Lemma ask q maxE : Forall nonnul q -> (Z.of_nat (longest ops + length q + 2) * 100 + 10000 <= 2147483647)%Z -> Forall (printable E) ws ->
  exists m rows, queryAndPrint E q maxE s = (mkQ (q_ind s) (q_store s) (match m with [] => [PNone] | _ => rows end), Ok tt) /\
    Forall2 (row_of E D) m rows /\ NoDup (map fst m) /\ Sorted (fun a b => (snd a <= snd b)%Z) m /\
    (forall id err, In (id, err) m <-> exists k w, id = N.of_nat k /\ nth_error D k = Some w /\
       min_cost (prices_of ev_new (length q)) q w err /\ (err <= maxE)%Z).
Proof.
  intros Hq Hfit Hpr. destruct (default_prices (calls := [])) as (Hnn & Hsw & Hft); [constructor|].
  specialize (Hft ops q Hfit). destruct (ld_store H) as (es & ids & HW).
  destruct (@safe E i0 (q_ind s) ops [] q Hi0 (ld_ops H) (ld_run H) Hq Hft maxE []) as [Hs _].
  destruct Hs as [m Hm]; [right; right; reflexivity|].
  pose proof (fun id err => @sound E i0 (q_ind s) ops [] q Hi0 (ld_ops H) (ld_run H) Hq Hft maxE m id err HO Hm) as Hsound.
  pose proof (fun w id c => @complete E i0 (q_ind s) ops [] q Hi0 (ld_ops H) (ld_run H) Hq Hft maxE m w id c HO Hnn (Hsw _) Hm) as Hcomp.
  destruct (@unique_sorted E i0 (q_ind s) ops [] q Hi0 (ld_ops H) (ld_run H) Hq Hft maxE [] m HO Hm) as (new & Hn & _ & Hsort & Hu).
  assert (new = m) as -> by congruence. change (ev_after []) with ev_new in *.
  assert (Hin : forall id err, In (id, err) m <-> exists k w, id = N.of_nat k /\ nth_error D k = Some w /\
       min_cost (prices_of ev_new (length q)) q w err /\ (err <= maxE)%Z).
  { intros id err. split.
    - intros Hx. destruct (Hsound _ _ Hx) as (w & Ha & Hc & Hle). apply known in Ha as (k & -> & Hk). eauto 10.
    - intros (k & w & -> & Hk & Hc & Hle). apply (Hcomp w); [|exact Hc|exact Hle]. apply known. eauto. }
  assert (Hrows : exists rows, Forall2 (row_of E D) m rows).
  { assert (Hall : forall p, In p m -> exists row, row_of E D p row).
    { intros [id err] Hp. apply Hin in Hp as (k & w & -> & Hk & _). rewrite Forall_forall in Hpr.
      assert (Hw : In w ws) by (apply nth_error_In, distinct_in in Hk as [[]|Hk]; exact Hk).
      destruct (Hpr w Hw) as (c & -> & Hcon & Hsc & Hnz & Hlen). exists (PMatch (bytes_of c) err). exists k, c. cbn [fst snd]. auto 10. }
    clear -Hall. induction m as [|p m IH]; [exists []; constructor|].
    destruct IH as [rows HF]; [intros x Hx; apply Hall; now right|]. destruct (Hall p) as [row Hr]; [now left|]. exists (row :: rows). now constructor. }
  destruct Hrows as [rows HF]. exists m, rows. split; [|split; [exact HF|]].
  - unfold queryAndPrint. erewrite mbind_ok by (rewrite Hm; reflexivity). destruct m as [|p m'].
    + cbn [im_size length N.of_nat N.eqb]. unfold print. now rewrite (ld_out H).
    + replace (im_size (p :: m') =? 0) with false by (unfold im_size; cbn [length]; lia).
      pose proof (@print_all E (p :: m') [] rows s D) as Hp. cbn [app length N.of_nat] in Hp |- *. rewrite Hp; [now rewrite (ld_out H)|eauto|exact HF].
  - split; [|split; [exact Hsort|exact Hin]]. apply Hu. intros w1 w2 id H1 H2. apply known in H1 as (k & -> & H1). apply known in H2 as (k' & He & H2).
    apply Nat2N.inj in He. congruence.
Qed.
End answers.

(** The first steps. *)
Lemma started E : grow_ok E 1024 = true -> exists i0 s0, li_new E = Ok i0 /\ ws_new E = Ok s0.
Proof.
  intros Hg. pose proof (new_index E) as Hn. destruct (li_new E) as [i| | | |]; try contradiction.
  - destruct Hn as (_ & st & Hst). eauto.
  - destruct Hn as [Hx _]. congruence.
Qed.
Lemma word_nonnul E s w : lower_ok E -> c_text s -> word_of_utf8 E s = Ok w -> Forall nonnul w.
Proof. intros HE Hs Hw. destruct (text_insertable HE Hs Hw) as [->|(_ & Hn & _)]; [constructor|exact Hn]. Qed.
Lemma fold_length E cs : lower_ok E -> Forall scalar cs -> length (letters_of (map (fold E) cs)) = length (letters_of cs).
Proof.
  intros HE Hs. induction Hs as [|c cs Hc _ IH]; [reflexivity|]. cbn [map]. rewrite !letters_cons, !app_length, IH. f_equal.
  unfold utf16, fold. destruct (c <? 65536) eqn:Hx; [|now rewrite Hx]. pose proof (lo_range HE (l := c) ltac:(lia)) as Hy. now replace (e_lower E c <? 65536) with true by lia.
Qed.
Lemma text_printable E s w : lower_ok E -> c_text s -> word_of_utf8 E s = Ok w -> w <> [] ->
  (forall cs, Forall scalar cs -> s = bytes_of cs -> N.of_nat (length (bytes_of (map (fold E) cs))) < 1024) -> printable E w.
Proof.
  intros HE Hs Hw Hne Hlen. destruct (word_inv HE Hw) as (cs & Hc & He & _ & ->). exists (map (fold E) cs). split; [reflexivity|].
  split; [apply field_constructible; [exact HE|now exists s|exact Hne]|]. split; [now apply fold_scalars|]. split; [|now apply Hlen].
  apply fold_nonnul; [exact HE|]. apply ctext_nonnul. now rewrite <- He.
Qed.

(** ** C103: the answer *)
Section main.
Variable E : env.
Hypothesis HE : lower_ok E.
Hypothesis HO : env_ok E.
Variable file : list N -> option (list N).
Variables prog name number : list N.
Variable more : list (list N).

Lemma word_line_good cs : word_line E cs -> good_line cs.
Proof. intros (H1 & H2 & H3 & H4 & _). repeat split; try assumption; now apply H3. Qed.

Lemma after_lines lines rest q limit : Forall good_line lines ->
  file name = Some (text_file lines ++ rest) -> room_for E (length (text_file lines)) ->
  query_text q -> reads_as number limit -> in_i32 limit = true ->
  exists i0 s ops fuel, li_new E = Ok i0 /\ loaded E i0 (map (as_word E) lines) ops s /\ (length rest < fuel)%nat /\
    queryindex E file (prog :: name :: bytes_of q :: number :: more) =
    match load_loop E fuel rest s with
    | (s, Throw EInvalidArg) => Ok (q_out s ++ [PBadFile], 1%Z)
    | (s, Throw _) => failed (q_out s)
    | (_, Abort) => Abort | (_, UB) => UB | (_, Fuel) => Fuel
    | (s, Ok _) =>
    match queryAndPrint E (as_word E q) limit s with
    | (s, Throw _) => Ok (q_out s ++ [PQueryFailed], 99%Z)
    | (_, Abort) => Abort | (_, UB) => UB | (_, Fuel) => Fuel
    | (s, Ok _) => Ok (q_out s, 0%Z)
    end end.
Proof.
  intros Hg Hfile [Hos Hmax] (Hq1 & Hq2 & Hq3) Hn Hi. destruct (@started E) as (i0 & s0 & Hi0 & Hs0); [apply Hos; lia|].
  unfold queryindex. rewrite Hi0, Hs0. rewrite word_valid; [|exact HE|exact Hq1|intros c Hc; now apply Hq2].
  rewrite (atoi_reads Hn), Hi. cbn [obind]. rewrite Hfile. unfold load_data.
  destruct (@loop_good E HE i0 Hi0 lines rest (S (length (text_file lines ++ rest))) [] [] (mkQ i0 s0 []) Hg (loaded_new i0 Hs0))
    as (f' & s' & ops' & Hf & Hl & He); try (change (word_letters []) with 0; cbn [N.add]; assumption || lia).
  exists i0, s', ops', f'. split; [reflexivity|]. split; [exact Hl|]. split; [exact Hf|]. rewrite He. reflexivity.
Qed.

Lemma row_inj c1 c2 e1 e2 : Forall scalar c1 -> Forall scalar c2 -> PMatch (bytes_of c1) e1 = PMatch (bytes_of c2) e2 -> c1 = c2.
Proof. intros H1 H2 [= H3 _]. now apply bytes_inj. Qed.

Lemma rows_nodup D m rows : NoDup D -> Forall2 (row_of E D) m rows -> NoDup (map fst m) -> NoDup rows.
Proof.
  intros HD HF. induction HF as [|p row m rows Hp HF IH]; intros Hn; [constructor|]. cbn [map] in Hn. apply NoDup_cons_iff in Hn as [Hn1 Hn].
  constructor; [|now apply IH]. intros Hin. destruct (in_split _ _ Hin) as (a & b & ->).
  apply Forall2_app_inv_r in HF as (m1 & m2 & HF1 & HF2 & ->). inversion HF2 as [|p' row' m2' b' Hp' HF2']; subst.
  destruct Hp as (k & c & Hk & Hd & _ & Hs & _ & _ & ->). destruct Hp' as (k' & c' & Hk' & Hd' & _ & Hs' & _ & _ & Hrow).
  apply (row_inj Hs Hs') in Hrow as Hc. subst c'.
  apply Hn1. rewrite map_app. apply in_or_app. right. left. rewrite Hk, Hk'. f_equal.
  apply (position_nth HD) in Hd. apply (position_nth HD) in Hd'. congruence.
Qed.
Lemma rows_sorted D m rows : Forall2 (row_of E D) m rows -> Sorted (fun a b => (snd a <= snd b)%Z) m ->
  Sorted (fun a b => match a, b with PMatch _ x, PMatch _ y => (x <= y)%Z | _, _ => True end) rows.
Proof.
  induction 1 as [|p row m rows Hp HF IH]; intros Hs; [constructor|]. apply Sorted_inv in Hs as [Hs Hh]. constructor; [now apply IH|].
  clear IH. destruct HF as [|p2 row2 m rows Hp2 HF]; constructor. apply HdRel_inv in Hh.
  destruct Hp as (_ & _ & _ & _ & _ & _ & _ & _ & ->). destruct Hp2 as (_ & _ & _ & _ & _ & _ & _ & _ & ->). exact Hh.
Qed.

Lemma prints lines q limit : Forall (word_line E) lines -> file name = Some (text_file lines) -> room_for E (length (text_file lines)) ->
  query_text q -> reads_as number limit -> in_i32 limit = true ->
  exists out, queryindex E file (prog :: name :: bytes_of q :: number :: more) = Ok (out, 0%Z) /\ answer E lines q limit out.
Proof.
  intros Hwl Hfile Hroom Hq Hn Hi. assert (Hg : Forall good_line lines) by (eapply Forall_impl; [|exact Hwl]; apply word_line_good).
  destruct (@after_lines lines [] q limit Hg) as (i0 & s & ops & fuel & Hi0 & Hl & Hf & He); try assumption.
  { now rewrite app_nil_r. }
  destruct fuel as [|f]; [lia|]. cbn [load_loop ret] in He. unfold ret in He.
  assert (Hnn : Forall nonnul (as_word E q)).
  { destruct Hq as (Hq1 & Hq2 & _). apply (@word_nonnul E (bytes_of q)); [exact HE|now apply line_bytes|]. apply word_valid; [exact HE|exact Hq1|intros c Hc; now apply Hq2]. }
  assert (Hql : N.of_nat (length (as_word E q)) <= 20000000) by (destruct Hq as (Hq1 & _ & Hq3); unfold as_word; now rewrite fold_length).
  assert (Hlong : (longest ops <= N.to_nat 1022)%nat).
  { apply longest_le. rewrite (ld_words Hl). apply Forall_forall. intros w Hw. apply in_map_iff in Hw as (cs & <- & Hcs). rewrite Forall_forall in Hg.
    specialize (Hg cs Hcs). destruct (as_word_ok HE Hg) as (_ & _ & Hx). destruct Hg as (_ & _ & _ & Hy). lia. }
  assert (Hpr : Forall (printable E) (map (as_word E) lines)).
  { apply Forall_forall. intros w Hw. apply in_map_iff in Hw as (cs & <- & Hcs). rewrite Forall_forall in Hg, Hwl. specialize (Hg cs Hcs). specialize (Hwl cs Hcs).
    destruct (as_word_ok HE Hg) as (Hx & Hy & _). destruct Hg as (_ & Hs & Hc & _). destruct (line_bytes Hs Hc) as [Hct _]. apply (@text_printable E (bytes_of cs)); try assumption.
    intros cs' Hs' Hb. apply bytes_inj in Hb; [|exact Hs|exact Hs']. subst cs'. apply Hwl. }
  destruct (@ask E HO i0 Hi0 _ _ _ Hl (as_word E q) limit Hnn) as (m & rows & Hask & HF & Hnd & Hsort & Hin); [lia|exact Hpr|].
  rewrite Hask in He. cbn [q_out] in He. eexists. split; [exact He|].
  set (D := distinct [] (map (as_word E) lines)) in *.
  assert (HD : forall cs, In cs lines -> exists k, nth_error D k = Some (as_word E cs)).
  { intros cs Hcs. apply In_nth_error. unfold D. apply distinct_in. right. now apply in_map. }
  assert (HDn : NoDup D) by (destruct (ld_store Hl) as (es & ids & HW); exact (WS_nodup HW)).
  assert (Hsc : forall cs, In cs lines -> Forall scalar (map (fold E) cs)) by (intros cs Hcs; rewrite Forall_forall in Hg; apply fold_scalars; [exact HE|]; now apply (Hg cs Hcs)).
  (* the rows are the lines within the limit *)
  assert (Hrow : forall row, In row rows <-> exists cs err, row = PMatch (bytes_of (map (fold E) cs)) err /\ In cs lines /\ line_error E q cs err /\ (err <= limit)%Z).
  { assert (Hsame : forall k c cs, nth_error D k = Some (letters_of c) -> Forall scalar c -> In cs lines -> as_word E cs = letters_of c -> c = map (fold E) cs).
    { intros k c cs _ Hc Hcs Heq. unfold as_word in Heq. symmetry. apply letters_inj; [now apply Hsc|exact Hc|exact Heq]. }
    intros row. split.
    - intros Hr. destruct (in_split _ _ Hr) as (a & b & ->). apply Forall2_app_inv_r in HF as (m1 & m2 & _ & HF2 & ->). inversion HF2 as [|[id err] row' m2' b' Hp _]; subst.
      destruct Hp as (k & c & Hk & Hd & _ & Hs & _ & _ & Hrow). cbn [fst snd] in *. subst id.
      assert (Hx : In (N.of_nat k, err) (m1 ++ (N.of_nat k, err) :: m2')) by (apply in_or_app; right; now left).
      apply Hin in Hx as (k' & w & Hk' & Hw & Hc & Hle). apply Nat2N.inj in Hk'. subst k'. assert (w = letters_of c) as -> by congruence.
      assert (Hd' : In (letters_of c) D) by (now apply nth_error_In in Hd). apply distinct_in in Hd' as [[]|Hd']. apply in_map_iff in Hd' as (cs & Hcs & Hl').
      exists cs, err. pose proof (Hsame k c cs Hd Hs Hl' Hcs) as ->. split; [exact Hrow|]. split; [exact Hl'|]. split; [exact Hc|exact Hle].
    - intros (cs & err & -> & Hcs & Hc & Hle). destruct (HD cs Hcs) as [k Hk].
      assert (Hx : In (N.of_nat k, err) m) by (apply Hin; exists k, (as_word E cs); auto).
      destruct (in_split _ _ Hx) as (a & b & ->). apply Forall2_app_inv_l in HF as (r1 & r2 & _ & HF2 & ->). inversion HF2 as [|p row' m2' b' Hp _]; subst.
      destruct Hp as (k' & c & Hk' & Hd & _ & Hs & _ & _ & ->). cbn [fst snd] in *. apply Nat2N.inj in Hk'. subst k'.
      assert (as_word E cs = letters_of c) by congruence. rewrite <- (Hsame k c cs Hd Hs Hcs) by assumption. apply in_or_app. right. now left. }
  destruct m as [|p m].
  - assert (rows = []) as -> by now inversion HF. constructor.
    + reflexivity.
    + intros cs err Hcs Hc Hle. exfalso. apply (Hrow (PMatch (bytes_of (map (fold E) cs)) err)). eauto 10.
    + intros x [<-|[]]. now left.
    + constructor; [intros []|constructor].
    + constructor; constructor.
  - constructor.
    + intros Hno. exfalso. inversion HF as [|p' row m' rows' Hp HF']; subst. destruct (proj1 (Hrow row)) as (cs & err & _ & Hcs & Hc & Hle); [now left|]. specialize (Hno cs err Hcs Hc). lia.
    + intros cs err Hcs Hc Hle. split; [apply Hrow; eauto 10|]. intros Hx. apply Hrow in Hx as (? & ? & Hx & _). discriminate.
    + intros x Hx. right. apply Hrow in Hx as (cs & err & Hx). eauto.
    + exact (rows_nodup HDn HF Hnd).
    + exact (rows_sorted HF Hsort).
Qed.
End main.
