(** ErrorMatrix lemmas and concrete runs for Thm_Lev. *)
From Verif Require Import Base TrieM TrieH ErrorValuesM LevIndexM Spec_Hist Spec_Edit Spec_EV Spec_Lev EditP EVP EVR LevP Demo StoreX.
From Coq Require Import ZifyBool ZifyN ZifyNat.
Local Open Scope Z_scope.

(** ** ErrorMatrix *)
Lemma set_spec r c v em :
  ((r <= em_rows em)%nat /\ (c <= em_cols em)%nat ->
     exists em', em_set r c v em = (em', Ok tt) /\ em_rows em' = em_rows em /\ em_cols em' = em_cols em /\
       em_get em' r c = Ok v /\ forall r' c', (r', c') <> (r, c) -> em_get em' r' c' = em_get em r' c') /\
  (~ ((r <= em_rows em)%nat /\ (c <= em_cols em)%nat) -> em_set r c v em = (em, Throw EOutOfRange)).
Proof.
  unfold em_set. split.
  - intros [Hr Hc]. replace (Nat.ltb (em_rows em) r) with false by lia. replace (Nat.ltb (em_cols em) c) with false by lia.
    eexists. split; [reflexivity|]. split; [reflexivity|]. split; [reflexivity|]. split.
    + unfold em_get. cbn. unfold m_set. rewrite !Nat.eqb_refl. replace (Nat.leb r (em_rows em) && Nat.leb c (em_cols em)) with true by lia. reflexivity.
    + intros r' c' Hne. unfold em_get. cbn. destruct (_ && _); [|reflexivity]. unfold m_set.
      replace (Nat.eqb r' r && Nat.eqb c' c) with false; [reflexivity|].
      symmetry. apply andb_false_iff. destruct (Nat.eqb_spec r' r) as [->|Hr']; [|now left].
      destruct (Nat.eqb_spec c' c) as [->|Hc']; [congruence|now right].
  - intros Hn. destruct (Nat.ltb (em_rows em) r) eqn:Hr; [reflexivity|].
    destruct (Nat.ltb (em_cols em) c) eqn:Hc; [reflexivity|]. lia.
Qed.

Lemma min_loop_spec em r : forall n i res,
  (forall c, (i <= c < i + n)%nat -> exists x, em_get em r c = Ok x) ->
  exists v, em_min_loop em r i n res = Ok v /\ v <= res /\
    (forall c x, (i <= c < i + n)%nat -> em_get em r c = Ok x -> v <= x) /\
    (v = res \/ exists c, (i <= c < i + n)%nat /\ em_get em r c = Ok v).
Proof.
  induction n as [|n IH]; intros i res H; cbn [em_min_loop].
  - exists res. repeat split; [lia|intros; lia|now left].
  - destruct (H i ltac:(lia)) as [x Hx]. rewrite Hx. cbn [obind].
    destruct (IH (S i) (if x <? res then x else res)) as (v & Hv & Hle & Hall & Hin); [intros c Hc; apply H; lia|].
    exists v. split; [exact Hv|]. destruct (Z.ltb_spec x res) as [Hlt|Hge].
    + split; [lia|]. split.
      * intros c y Hc Hy. destruct (Nat.eq_dec c i) as [->|Hne]; [rewrite Hx in Hy; injection Hy as <-; lia|apply (Hall c); [lia|exact Hy]].
      * right. destruct Hin as [->|(c & Hc & Hy)]; [exists i; split; [lia|exact Hx]|exists c; split; [lia|exact Hy]].
    + split; [lia|]. split.
      * intros c y Hc Hy. destruct (Nat.eq_dec c i) as [->|Hne]; [rewrite Hx in Hy; injection Hy as <-; lia|apply (Hall c); [lia|exact Hy]].
      * destruct Hin as [->|(c & Hc & Hy)]; [now left|right; exists c; split; [lia|exact Hy]].
Qed.

Lemma total_min_spec em r : (0 < em_cols em)%nat ->
  (forall c, (c < em_cols em)%nat -> exists x, em_get em r c = Ok x) ->
  em_total em r = em_get em r (em_cols em - 1) /\
  exists v, em_min em r = Ok v /\
    (forall c x, (c < em_cols em)%nat -> em_get em r c = Ok x -> v <= x) /\
    (exists c, (c < em_cols em)%nat /\ em_get em r c = Ok v).
Proof.
  intros Hc H. split.
  - unfold em_total. destruct (em_cols em) as [|k] eqn:Hk; [lia|]. f_equal. lia.
  - unfold em_min. destruct (H 0%nat Hc) as [x0 Hx0]. rewrite Hx0. cbn [obind].
    destruct (@min_loop_spec em r (em_cols em - 1) 1 x0) as (v & Hv & Hle & Hall & Hin); [intros c Hcc; apply H; lia|].
    exists v. split; [exact Hv|]. split.
    + intros c x Hcc Hx. destruct c as [|c]; [rewrite Hx0 in Hx; injection Hx as <-; exact Hle|apply (Hall (S c)); [lia|exact Hx]].
    + destruct Hin as [->|(c & Hcc & Hy)]; [exists 0%nat; split; [exact Hc|exact Hx0]|exists c; split; [lia|exact Hy]].
Qed.

(** ** The query word of a match *)
Lemma getQuery_empty (m : imatches) num : (num < im_size m)%N -> im_getQuery m num = Ok [].
Proof.
  intros H. unfold im_getQuery, im_size in *. destruct (nth_error m (N.to_nat num)) eqn:Hn; [reflexivity|].
  apply nth_error_None in Hn. lia.
Qed.

(** ** Concrete runs *)
Definition dli : levindex := mkLI [] 0 0 dtrie.
Definition li0 (E : env) : levindex := get_ok dli (li_new E).
Lemma li0_demo : li_new demo = Ok (li0 demo).
Proof. apply get_ok_eq. vm_compute. reflexivity. Qed.
Lemma li0_release : li_new demo_release = Ok (li0 demo_release).
Proof. apply get_ok_eq. vm_compute. reflexivity. Qed.

Definition lev_ex : list (word * N) :=
  [([97; 98; 99], 1); ([98; 97; 99; 100], 2); ([], 9); ([97; 98], 3); ([120; 121; 122; 120; 121; 122], 4); ([97; 98; 99], 1)]%N.
Ltac levops := repeat (constructor; [split; [first [now left|right; ins1]|discriminate]|]); constructor.
Lemma lev_ex_ok : lev_ops lev_ex.
Proof. unfold lev_ex. levops. Qed.
Definition lev_s : levindex := fst (lev_insert_all demo lev_ex (li0 demo)).
Lemma lev_ex_run : lev_insert_all demo lev_ex (li0 demo) = (lev_s, Ok tt).
Proof. apply run_eq. vm_compute. reflexivity. Qed.

Definition q_abc : word := [98; 97; 99]%N.
Lemma q_abc_ok : Forall nonnul q_abc.
Proof. repeat (constructor; [unfold nonnul; lia|]). constructor. Qed.
Definition calls_ex : list ev_call := [SetSubstringMode; AddKeyboardErrors; SetGroupError [99; 100; 700]%N 30].
Lemma calls_ex_default : default_like calls_ex.
Proof. repeat (constructor; [cbn; lia|]). constructor. Qed.
Lemma new_default : default_like [].
Proof. constructor. Qed.

(** C12 *)
Definition c12_ops : list (word * N) := [([97; 98], 1)]%N.
Definition c12_s : levindex := fst (lev_insert_all demo c12_ops (li0 demo)).
Definition c12_q : word := [98; 97]%N.
Lemma c12_ops_ok : lev_ops c12_ops. Proof. unfold c12_ops. levops. Qed.
Lemma c12_q_ok : Forall nonnul c12_q. Proof. repeat (constructor; [unfold nonnul; lia|]). constructor. Qed.
Lemma c12_fits : fits (ev_after [SetTransposeError 10]) c12_ops c12_q.
Proof. apply (@fits_bounded _ 100); [lia|repeat (constructor; [cbn; lia|]); constructor|cbn; lia]. Qed.
Lemma c12_refuted : exists E s0 ops s calls q maxE m w id c,
  env_ok E /\ li_new E = Ok s0 /\ lev_ops ops /\ lev_insert_all E ops s0 = (s, Ok tt) /\
  Forall nonnul q /\ fits (ev_after calls) ops q /\ nonneg (ev_after calls) /\
  findWords E s q (ev_after calls) maxE [] = (m, Ok tt) /\
  assoc (real ops) w = Some id /\ min_cost (prices_of (ev_after calls) (length q)) q w c /\ c <= maxE /\
  ~ In id (map fst m).
Proof.
  exists demo, (li0 demo), c12_ops, c12_s, [SetTransposeError 10], c12_q, 10, [], [97; 98]%N, 1%N, 10.
  split; [apply demo_ok|]. split; [apply li0_demo|]. split; [unfold c12_ops; levops|].
  split; [apply run_eq; vm_compute; reflexivity|].
  split; [repeat (constructor; [unfold nonnul; lia|]); constructor|].
  assert (Hv : Forall (value_in 0 100) [SetTransposeError 10]) by (repeat (constructor; [cbn; lia|]); constructor).
  split; [apply (@fits_bounded _ 100); [lia|repeat (constructor; [cbn; lia|]); constructor|cbn; lia]|].
  split.
  { pose proof (fun n => @prices_ranged 0 100 ltac:(lia) ltac:(lia) _ n Hv) as Hp. cbv zeta in Hp.
    destruct (Hp 0%N) as (H1 & H2 & H3 & _ & H5 & H6). split; [lia|]. split; [lia|]. split; [lia|]. split; [|split; [lia|]].
    + intros n. destruct (Hp n) as (_ & _ & _ & [H4 _] & _). exact H4.
    + intros a b v Hx. apply H6 in Hx. lia. }
  split; [rewrite (@run_eq _ _ (findWords demo c12_s c12_q (ev_after [SetTransposeError 10]) 10) [] (Ok tt)) by (vm_compute; reflexivity); f_equal; vm_compute; reflexivity|].
  split; [reflexivity|]. split; [|split; [lia|intros []]].
  assert (Hd : D (prices_of (ev_after [SetTransposeError 10]) 2) c12_q (rev [97; 98]%N) 2 = 10) by (vm_compute; reflexivity).
  pose proof (@D_min (prices_of (ev_after [SetTransposeError 10]) 2) c12_q [97; 98]%N) as Hm.
  cbn [length c12_q] in *. rewrite Hd in Hm. exact Hm.
Qed.

(** C17 *)
Lemma c17_refuted : exists E s0 ops s q,
  env_ok E /\ li_new E = Ok s0 /\ lev_ops ops /\ lev_insert_all E ops s0 = (s, Ok tt) /\
  constructible E q /\ fits (ev_after []) ops q /\
  snd (findWords E s q (ev_after []) 200 []) = UB.
Proof.
  exists demo, (li0 demo), c12_ops, c12_s, [97; 0; 98]%N.
  split; [apply demo_ok|]. split; [apply li0_demo|]. split; [unfold c12_ops; levops|].
  split; [apply run_eq; vm_compute; reflexivity|].
  split; [exists [97; 0; 98]%N; reflexivity|].
  split; [apply (@fits_bounded [] 100); [lia|constructor|cbn; lia]|]. vm_compute. reflexivity.
Qed.

(** C18 *)
Definition c18_ops : list (word * N) := [([97], 1)]%N.
Definition c18_calls : list ev_call := [SetInsertionError 10].
Definition c18_q : word := [98; 97]%N.
Definition c18_s (E : env) : levindex := fst (lev_insert_all E c18_ops (li0 E)).
Lemma c18_refuted :
  (exists E s0 ops s calls q, env_ok E /\ li_new E = Ok s0 /\ lev_ops ops /\ lev_insert_all E ops s0 = (s, Ok tt) /\
     Forall nonnul q /\ fits (ev_after calls) ops q /\ findWords E s q (ev_after calls) 200 [] = ([], Abort)) /\
  (exists E s0 ops s calls, env_ok E /\ li_new E = Ok s0 /\ lev_ops ops /\ lev_insert_all E ops s0 = (s, Ok tt) /\
     ops = [([97], 1)]%N /\ getInsertionError (ev_after calls) = 10 /\
     findWords E s [98; 97]%N (ev_after calls) 200 [] = ([(1%N, 100)], Ok tt)).
Proof.
  split.
  - exists demo, (li0 demo), c18_ops, (c18_s demo), c18_calls, c18_q.
    split; [apply demo_ok|]. split; [apply li0_demo|]. split; [unfold c18_ops; levops|].
    split; [apply run_eq; vm_compute; reflexivity|].
    split; [repeat (constructor; [unfold nonnul; lia|]); constructor|].
    split; [apply (@fits_bounded _ 100); [lia|repeat (constructor; [cbn; lia|]); constructor|cbn; lia]|].
    rewrite (@run_eq _ _ (findWords demo (c18_s demo) c18_q (ev_after c18_calls) 200) [] Abort) by (vm_compute; reflexivity).
    f_equal; vm_compute; reflexivity.
  - exists demo_release, (li0 demo_release), c18_ops, (c18_s demo_release), c18_calls.
    split; [constructor; intros l; cbn; [apply isort_perm|apply isort_sorted|reflexivity]|].
    split; [apply li0_release|]. split; [unfold c18_ops; levops|].
    split; [apply run_eq; vm_compute; reflexivity|]. split; [reflexivity|]. split; [reflexivity|].
    rewrite (@run_eq _ _ (findWords demo_release (c18_s demo_release) [98; 97]%N (ev_after c18_calls) 200) [] (Ok tt)) by (vm_compute; reflexivity).
    f_equal; vm_compute; reflexivity.
Qed.

(** IndexMatches *)
Lemma im_access (m : imatches) num :
  (forall id err, nth_error m (N.to_nat num) = Some (id, err) -> (num < im_size m)%N /\ im_getMatch m num = Ok id /\ im_getMatchError m num = Ok err) /\
  ((im_size m <= num)%N -> im_getMatch m num = Throw EOutOfRange /\ im_getMatchError m num = Throw EOutOfRange /\ im_getQuery m num = Throw EOutOfRange) /\
  im_size (im_clear m) = 0%N.
Proof.
  unfold im_getMatch, im_getMatchError, im_getQuery, im_size. split; [|split; [|reflexivity]].
  - intros id err H. rewrite H. split; [|auto]. assert (Hl : (N.to_nat num < length m)%nat) by (apply nth_error_Some; congruence). lia.
  - intros H. assert (Hn : nth_error m (N.to_nat num) = None) by (apply nth_error_None; lia). rewrite Hn. auto.
Qed.
