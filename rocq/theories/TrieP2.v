(** Refinement of whole-word operations to the edge list. *)
From Verif Require Import Base TrieM TrieA TrieP.
From Coq Require Import ZifyBool ZifyN ZifyNat.
Local Open Scope N_scope.
Ltac Zify.zify_post_hook ::= Z.to_euclidean_division_equations.

Definition letter_ok (l : N) : Prop := 0 < l < 65536.

(** ** Facts about edge lists *)

Lemma nodup_edge es k k' : wf_edges es -> (k < length es)%nat -> (k' < length es)%nat ->
  edge es k = edge es k' -> k = k'.
Proof. intros H Hk Hk' He. exact (proj1 (NoDup_nth es (O, 0)) (wf_nodup H) k k' Hk Hk' He). Qed.

Lemma find_kid_iff es p l k : wf_edges es ->
  find_kid es p l = Some k <-> (k < length es)%nat /\ edge es k = (p, l).
Proof.
  intros H. split; [apply find_kid_some|]. intros [Hk He].
  destruct (find_kid es p l) as [k'|] eqn:Hf.
  - apply find_kid_some in Hf as [Hk' He']. f_equal. apply nodup_edge with es; congruence.
  - exfalso. eapply find_kid_none; eassumption.
Qed.

Lemma wf_prefix es x : wf_edges (es ++ x) -> wf_edges es.
Proof.
  intros H. constructor.
  - intros k Hk. rewrite <- (@edge_app es x k Hk). apply (wf_parent H). rewrite app_length. lia.
  - intros k Hk. rewrite <- (@edge_app es x k Hk). apply (wf_letter H). rewrite app_length. lia.
  - assert (Hn := wf_nodup H). clear H. induction es as [|e es IH]; [constructor|].
    cbn in Hn. apply NoDup_cons_iff in Hn as [H1 H2]. constructor; [|now apply IH].
    intros Hin. apply H1. apply in_or_app. now left.
Qed.

Lemma find_kid_mono es x p l k : wf_edges (es ++ x) -> find_kid es p l = Some k ->
  find_kid (es ++ x) p l = Some k.
Proof.
  intros H Hf. apply find_kid_some in Hf as [Hk He]. apply find_kid_iff; [assumption|].
  rewrite app_length, edge_app by assumption. split; [lia|assumption].
Qed.

Lemma awalk_mono es x w : wf_edges (es ++ x) -> forall i j, awalk es i w = Some j ->
  awalk (es ++ x) i w = Some j.
Proof.
  intros H. induction w as [|l r IH]; intros i j Hw; cbn [awalk] in *; [assumption|].
  destruct (find_kid es i l) as [k|] eqn:Hf; [|discriminate].
  rewrite (find_kid_mono H Hf). now apply IH.
Qed.

Lemma awalk_app es v w : forall i, awalk es i (v ++ w) =
  match awalk es i v with Some j => awalk es j w | None => None end.
Proof.
  induction v as [|l r IH]; intros i; cbn [awalk app]; [reflexivity|].
  destruct (find_kid es i l); [apply IH|reflexivity].
Qed.

Lemma awalk_bound es w : forall i j, (i <= length es)%nat -> awalk es i w = Some j -> (j <= length es)%nat.
Proof.
  induction w as [|l r IH]; intros i j Hi Hw; cbn [awalk] in Hw; [congruence|].
  destruct (find_kid es i l) as [k|] eqn:Hf; [|discriminate].
  apply find_kid_some in Hf as [Hk _]. eapply IH; [|eassumption]. lia.
Qed.

Lemma awalk_inj es w : forall v j, awalk es 0 w = Some j -> awalk es 0 v = Some j -> v = w.
Proof.
  induction w as [|l r IH] using rev_ind; intros v j Hw Hv.
  - cbn in Hw. injection Hw as <-. destruct v as [|l' v] using rev_ind; [reflexivity|].
    rewrite awalk_app in Hv. destruct (awalk es 0 v); [|discriminate]. cbn in Hv.
    destruct (find_kid es n l'); discriminate.
  - rewrite awalk_app in Hw. destruct (awalk es 0 r) as [p|] eqn:Hr; [|discriminate].
    cbn in Hw. destruct (find_kid es p l) as [k|] eqn:Hk; [|discriminate]. injection Hw as <-.
    destruct v as [|l' v _] using rev_ind; [discriminate|].
    rewrite awalk_app in Hv. destruct (awalk es 0 v) as [p'|] eqn:Hv'; [|discriminate]. cbn in Hv.
    destruct (find_kid es p' l') as [k'|] eqn:Hk'; [|discriminate]. injection Hv as ->.
    apply find_kid_some in Hk as [_ He]. apply find_kid_some in Hk' as [_ He'].
    rewrite He in He'. injection He' as <- <-. f_equal. eapply IH; [reflexivity|exact Hv'].
Qed.

Lemma awalk_exists es : wf_edges es -> forall j, (j <= length es)%nat -> exists w, awalk es 0 w = Some j.
Proof.
  intros H j. induction j as [j IH] using lt_wf_ind. intros Hj.
  destruct j as [|k]; [exists []; reflexivity|].
  assert (Hp := wf_parent H (k := k)).
  destruct (IH (fst (edge es k))) as [w Hw]; [lia|lia|].
  exists (w ++ [snd (edge es k)]). rewrite awalk_app, Hw. cbn [awalk].
  assert (Hf : find_kid es (fst (edge es k)) (snd (edge es k)) = Some k).
  { apply find_kid_iff; [assumption|]. split; [lia|apply surjective_pairing]. }
  now rewrite Hf.
Qed.

Lemma aext_spec w : forall es i es' j, wf_edges es -> (i <= length es)%nat -> Forall letter_ok w ->
  aext es i w = (es', j) ->
  wf_edges es' /\ (exists x, es' = es ++ x) /\ awalk es' i w = Some j /\ (j <= length es')%nat.
Proof.
  induction w as [|l r IH]; intros es i es' j H Hi Hl He; cbn [aext] in He.
  - injection He as <- <-. split; [assumption|]. split; [exists []; now rewrite app_nil_r|].
    split; [reflexivity|assumption].
  - apply Forall_cons_iff in Hl as [Hl Hr].
    destruct (find_kid es i l) as [k|] eqn:Hf.
    + pose proof (find_kid_some Hf) as [Hk _].
      destruct (IH es (S k) es' j H) as (H' & (x & Hx) & Hw & Hj); [lia|assumption|assumption|].
      split; [assumption|]. split; [now exists x|]. split; [|assumption].
      cbn [awalk]. rewrite Hx in *. rewrite (find_kid_mono H' Hf). assumption.
    + pose proof (wf_snoc H Hi Hl Hf) as Hwf.
      destruct (IH (es ++ [(i, l)]) (S (length es)) es' j Hwf) as (H' & (x & Hx) & Hw & Hj);
        [rewrite app_length; cbn; lia|assumption|assumption|].
      split; [assumption|]. split; [exists ((i, l) :: x); now rewrite Hx, <- app_assoc|].
      split; [|assumption]. cbn [awalk].
      assert (Hk : find_kid (es ++ [(i, l)]) i l = Some (length es)).
      { apply find_kid_iff; [assumption|]. rewrite app_length, edge_last. cbn. split; [lia|reflexivity]. }
      rewrite Hx in *. rewrite (find_kid_mono H' Hk). assumption.
Qed.

(** Nodes created by [aext] spell prefixes of the inserted word. *)
Lemma aext_new w : forall es i es' j u v m, wf_edges es -> (i <= length es)%nat -> Forall letter_ok w ->
  aext es i w = (es', j) -> awalk es 0 u = Some i ->
  awalk es' 0 v = Some m -> (length es < m)%nat ->
  exists p s, w = p ++ s /\ p <> [] /\ v = u ++ p.
Proof.
  induction w as [|l r IH]; intros es i es' j u v m H Hi Hl He Hu Hv Hm; cbn [aext] in He.
  - injection He as <- <-. exfalso. pose proof (awalk_bound (Nat.le_0_l (length es)) Hv). lia.
  - apply Forall_cons_iff in Hl as [Hl Hr].
    destruct (find_kid es i l) as [k|] eqn:Hf.
    + pose proof (find_kid_some Hf) as [Hk _].
      destruct (IH es (S k) es' j (u ++ [l]) v m) as (p & s & Hw & Hp & Hv'); try assumption.
      { rewrite awalk_app, Hu. cbn [awalk]. now rewrite Hf. }
      exists (l :: p), s. split; [cbn; congruence|]. split; [discriminate|].
      rewrite Hv', <- app_assoc. reflexivity.
    + pose proof (wf_snoc H Hi Hl Hf) as Hwf.
      assert (Hul : awalk (es ++ [(i, l)]) 0 (u ++ [l]) = Some (S (length es))).
      { rewrite awalk_app, (awalk_mono Hwf Hu). cbn [awalk].
        assert (Hk : find_kid (es ++ [(i, l)]) i l = Some (length es)).
        { apply find_kid_iff; [assumption|]. rewrite app_length, edge_last. cbn. split; [lia|reflexivity]. }
        now rewrite Hk. }
      destruct (Nat.eq_dec m (S (length es))) as [->|Hne].
      * pose proof (aext_spec Hwf (i := S (length es)) (es' := es') (j := j) (w := r)) as Hx.
        rewrite app_length in Hx. cbn in Hx.
        destruct Hx as (H' & (x & Hx) & _); [lia|assumption|assumption|].
        subst es'. exists [l], r. split; [reflexivity|]. split; [discriminate|].
        eapply awalk_inj; [|exact Hv]. apply awalk_mono; assumption.
      * destruct (IH (es ++ [(i, l)]) (S (length es)) es' j (u ++ [l]) v m) as (p & s & Hw & Hp & Hv');
          try assumption; [rewrite app_length; cbn; lia..|].
        exists (l :: p), s. split; [cbn; congruence|]. split; [discriminate|].
        rewrite Hv', <- app_assoc. reflexivity.
Qed.

Lemma aext_walked es i w j : awalk es i w = Some j -> aext es i w = (es, j).
Proof.
  revert i. induction w as [|l r IH]; intros i Hw; cbn [aext awalk] in *.
  - injection Hw as <-. reflexivity.
  - destruct (find_kid es i l); [now apply IH|discriminate].
Qed.

Lemma aext_len w : forall es i, (length (fst (aext es i w)) <= length es + length w)%nat.
Proof.
  induction w as [|l r IH]; intros es i; cbn [aext length]; [cbn; lia|].
  destruct (find_kid es i l) as [k|].
  - specialize (IH es (S k)). lia.
  - specialize (IH (es ++ [(i, l)]) (S (length es))). rewrite app_length in IH. cbn in IH. lia.
Qed.

(** ** Sibling walk *)

Section Rep.
Variables (t : trie) (es : edges) (ids : list N) (nw : N).
Hypothesis R : rep t es ids nw.

Lemma rep_len : 36 + 32 * N.of_nat (length es) < t_len t /\ 1024 <= t_len t <= 2147483648.
Proof. pose proof (r_hdr R) as H. pose proof (hdr_len H). pose proof (h_room H). lia. Qed.

Lemma rep_mapped : t_mapped t = true.
Proof. exact (h_mapped (r_hdr R)). Qed.

Lemma rd_node i d : (i <= length es)%nat -> d mod 4 = 0 -> d <= 16 -> rd t (noff i + d) = Ok (t_mem t (noff i + d)).
Proof.
  intros Hi Hd Hd2. pose proof rep_len. pose proof (@noff_lt es _ Hi). pose proof (noff_align i).
  apply rd_ok; [exact rep_mapped|lia|lia].
Qed.

Lemma rd_ptr k d : (k < length es)%nat -> d mod 4 = 0 -> d <= 8 -> rd t (poff k + d) = Ok (t_mem t (poff k + d)).
Proof.
  intros Hi Hd Hd2. pose proof rep_len. unfold poff.
  apply rd_ok; [exact rep_mapped|lia|lia].
Qed.

Lemma rd_letter k : (k < length es)%nat -> rd_l t (poff k) = Ok (snd (edge es k)).
Proof.
  intros Hk. unfold rd_l. replace (poff k) with (poff k + 0) by lia.
  rewrite rd_ptr by (assumption || lia). cbn [obind].
  replace (poff k + 0) with (poff k) by lia. rewrite (r_pl R Hk).
  pose proof (wf_letter (r_wf R) Hk). f_equal. lia.
Qed.

Lemma find_sib_chain l : forall ks off fuel,
  chain (t_mem t) off ks -> Forall (fun k => (k < length es)%nat) ks ->
  off mod 4 = 0 -> off + 12 <= t_len t -> (length ks < fuel)%nat ->
  t_mem t off mod 65536 <> l ->
  find_sib fuel t l off =
    Ok (match find (fun k => snd (edge es k) =? l) ks with
        | Some k => poff k | None => last_off off ks end).
Proof.
  induction ks as [|k r IH]; intros off fuel Hc Hks Ha Hb Hf Hl; destruct fuel as [|f]; cbn [length] in Hf; try lia.
  - cbn [find_sib chain find last_off] in *.
    rewrite rd_ok by (exact rep_mapped || lia). cbn [obind]. rewrite Hc. reflexivity.
  - cbn [find_sib chain find last_off] in *. destruct Hc as [Hc1 Hc2].
    apply Forall_cons_iff in Hks as [Hk Hks].
    rewrite rd_ok by (exact rep_mapped || lia). cbn [obind]. rewrite Hc1.
    destruct (N.eqb_spec (poff k) 0) as [Hz|_]; [unfold poff in Hz; lia|].
    unfold rd_l. rewrite rd_ok by (exact rep_mapped || lia). cbn [obind].
    destruct (N.eqb_spec (t_mem t off mod 65536) l) as [|_]; [contradiction|].
    destruct (N.eqb_spec (snd (edge es k)) l) as [Heq|Hne].
    + destruct f as [|f]; [lia|]. cbn [find_sib].
      rewrite rd_ptr by (assumption || lia). cbn [obind].
      destruct (t_mem t (poff k + 8) =? 0); [reflexivity|].
      rewrite rd_letter by assumption. cbn [obind]. rewrite Heq, N.eqb_refl. reflexivity.
    + pose proof rep_len. apply IH; try assumption; try lia.
      * unfold poff. lia.
      * unfold poff. lia.
      * rewrite (r_pl R Hk). pose proof (wf_letter (r_wf R) Hk).
        replace (snd (edge es k) mod 65536) with (snd (edge es k)) by lia. assumption.
Qed.

Lemma kids_len p : (length (kids es p) <= length es)%nat.
Proof.
  rewrite <- (seq_length (length es) 0) at 1. apply NoDup_incl_length; [apply kids_nodup|].
  intros k Hk. apply kids_in in Hk as [Hk _]. apply in_seq. lia.
Qed.

Lemma fuel_ge : t_fuel t = (3 + length es)%nat.
Proof. unfold t_fuel. change H_NODES with 12. rewrite (r_nodes R). lia. Qed.

Lemma find_sib_node i l : (i <= length es)%nat -> letter_ok l ->
  find_sib (t_fuel t) t l (u32 (noff i + SZ_NODE)) =
    Ok (match find_kid es i l with Some k => poff k | None => last_off (noff i + 8) (kids es i) end).
Proof.
  intros Hi Hl. pose proof rep_len. pose proof (@noff_lt es _ Hi). pose proof (noff_align i) as [Ha Hb].
  unfold SZ_NODE. replace (u32 (noff i + 8)) with (noff i + 8) by (unfold u32; lia).
  unfold find_kid. apply find_sib_chain.
  - now apply (r_chain R).
  - apply Forall_forall. intros k Hk. apply kids_in in Hk. apply Hk.
  - lia.
  - lia.
  - rewrite fuel_ge. pose proof (kids_len i). lia.
  - rewrite (r_dl R Hi). unfold letter_ok in Hl. lia.
Qed.

Lemma last_letter i l : (i <= length es)%nat -> letter_ok l -> find_kid es i l = None ->
  exists l', rd_l t (last_off (noff i + 8) (kids es i)) = Ok l' /\ l' <> l.
Proof.
  intros Hi Hl Hf. destruct (last_off_cases (kids es i) (noff i + 8)) as [->|(k & Hk & ->)].
  - exists 0. unfold rd_l. rewrite rd_node by (assumption || lia). cbn [obind].
    rewrite (r_dl R Hi). split; [reflexivity|]. unfold letter_ok in Hl. lia.
  - apply kids_in in Hk as [Hk Hp]. exists (snd (edge es k)). rewrite rd_letter by assumption.
    split; [reflexivity|]. intros He. eapply find_kid_none; [exact Hf|exact Hk|].
    destruct (edge es k); cbn in *; congruence.
Qed.

Lemma child_of k : (k < length es)%nat -> rd t (poff k + 4) = Ok (noff (S k)).
Proof. intros Hk. rewrite rd_ptr by (assumption || lia). now rewrite (r_pc R Hk). Qed.

Lemma find_loop_spec w : Forall letter_ok w -> forall i, (i <= length es)%nat ->
  find_loop t (noff i) w = Ok (match awalk es i w with Some j => noff j | None => 0 end).
Proof.
  induction w as [|l r IH]; intros Hw i Hi; cbn [find_loop awalk]; [reflexivity|].
  apply Forall_cons_iff in Hw as [Hl Hr].
  rewrite find_sib_node by assumption. cbn [obind].
  destruct (find_kid es i l) as [k|] eqn:Hf.
  - pose proof (find_kid_some Hf) as [Hk He].
    rewrite rd_letter by assumption. cbn [obind]. rewrite He. cbn [snd]. rewrite N.eqb_refl.
    rewrite child_of by assumption. cbn [obind]. apply IH; [assumption|lia].
  - destruct (last_letter Hi Hl Hf) as (l' & -> & Hne). cbn [obind].
    destruct (N.eqb_spec l' l); [contradiction|reflexivity].
Qed.

Lemma findWord_spec w : Forall letter_ok w ->
  findWord t w = Ok (match awalk es 0 w with Some j => noff j | None => 0 end).
Proof.
  intros Hw. unfold findWord. rewrite (r_root R). change 16 with (noff 0).
  apply find_loop_spec; [assumption|lia].
Qed.

(** Word id stored for [w], if any. *)
Definition lookup (w : word) : option N :=
  match awalk es 0 w with
  | Some j => let id := nth j ids 0 in if id =? INVALID_WORDID then None else Some id
  | None => None
  end.

Lemma rd_id j : (j <= length es)%nat -> rd t (noff j) = Ok (nth j ids 0).
Proof.
  intros Hj. replace (noff j) with (noff j + 0) by lia. rewrite rd_node by (assumption || lia).
  replace (noff j + 0) with (noff j) by lia. now rewrite (r_id R Hj).
Qed.

Lemma hasWord_spec w : Forall letter_ok w ->
  hasWord t w = Ok (match lookup w with Some _ => true | None => false end).
Proof.
  intros Hw. unfold hasWord, lookup. rewrite findWord_spec by assumption. cbn [obind].
  destruct (awalk es 0 w) as [j|] eqn:Hj; [|reflexivity].
  pose proof (awalk_bound (Nat.le_0_l (length es)) Hj) as Hb. pose proof (noff_align j) as [_ Hn].
  destruct (N.eqb_spec (noff j) 0); [lia|].
  rewrite rd_id by assumption. cbn [obind]. destruct (nth j ids 0 =? INVALID_WORDID); reflexivity.
Qed.

(** ** Spelling a node back *)

Lemma sibling_to_spec child : forall ks k0 fuel,
  chain (t_mem t) (poff k0) ks -> (k0 < length es)%nat ->
  Forall (fun k => (k < length es)%nat) ks -> (length ks < fuel)%nat ->
  In child (k0 :: ks) -> NoDup (k0 :: ks) ->
  sibling_to fuel t (poff k0) (noff (S child)) = Ok (poff child).
Proof.
  induction ks as [|k r IH]; intros k0 fuel Hc Hk0 Hks Hf Hin Hnd; destruct fuel as [|f]; cbn [length] in Hf; try lia.
  - cbn [sibling_to]. unfold getChild. rewrite child_of by assumption. cbn [obind].
    destruct Hin as [->|[]]. rewrite N.eqb_refl. reflexivity.
  - cbn [sibling_to]. unfold getChild. rewrite child_of by assumption. cbn [obind].
    destruct (N.eqb_spec (noff (S k0)) (noff (S child))) as [Heq|Hne].
    + apply noff_inj in Heq. injection Heq as ->. reflexivity.
    + destruct Hin as [->|Hin]; [contradiction|].
      cbn [chain] in Hc. destruct Hc as [Hc1 Hc2]. apply Forall_cons_iff in Hks as [Hk Hks].
      unfold getNextSibling. rewrite rd_ptr by (assumption || lia). cbn [obind]. rewrite Hc1.
      destruct (N.eqb_spec (poff k) 0) as [Hz|_]; [unfold poff in Hz; lia|].
      apply IH; try assumption; [lia|]. now apply NoDup_cons_iff in Hnd.
Qed.

Lemma getSiblingTo_spec i k : (k < length es)%nat -> fst (edge es k) = i ->
  getSiblingTo t (noff i) (noff (S k)) = Ok (poff k).
Proof.
  intros Hk Hp. pose proof (wf_parent (r_wf R) Hk) as Hpar.
  assert (Hi : (i <= length es)%nat) by lia.
  assert (Hin : In k (kids es i)) by (apply kids_in; auto).
  unfold getSiblingTo, getSiblingList, SZ_NODE.
  replace (noff i + 8 + 8) with (noff i + 16) by lia.
  rewrite rd_node by (assumption || lia). cbn [obind].
  replace (noff i + 16) with (noff i + 8 + 8) by lia.
  pose proof (r_chain R Hi) as Hc. pose proof (kids_nodup es i) as Hnd. pose proof (kids_len i) as Hkl.
  assert (Hall : Forall (fun k => (k < length es)%nat) (kids es i)).
  { apply Forall_forall. intros k' Hk'. apply kids_in in Hk'. apply Hk'. }
  destruct (kids es i) as [|k0 ks]; [destruct Hin|].
  cbn [chain] in Hc. destruct Hc as [-> Hc]. apply Forall_cons_iff in Hall as [Hk0 Hall].
  cbn [length] in Hkl.
  apply sibling_to_spec with (ks := ks); try assumption. rewrite fuel_ge. lia.
Qed.

Lemma word_loop_spec w : forall j fuel acc, awalk es 0 w = Some j -> (length w < fuel)%nat ->
  word_loop fuel t (noff j) (parent_off es j) acc = Ok (w ++ acc).
Proof.
  induction w as [|l r IH] using rev_ind; intros j fuel acc Hw Hf.
  - cbn in Hw. injection Hw as <-. destruct fuel; [cbn in Hf; lia|]. reflexivity.
  - rewrite app_length in Hf. cbn in Hf. destruct fuel as [|f]; [lia|].
    rewrite awalk_app in Hw. destruct (awalk es 0 r) as [p|] eqn:Hr; [|discriminate]. cbn in Hw.
    destruct (find_kid es p l) as [k|] eqn:Hk; [|discriminate]. injection Hw as <-.
    apply find_kid_some in Hk as [Hk He].
    cbn [word_loop]. cbn [parent_off]. rewrite He. cbn [fst].
    pose proof (noff_align p) as [_ Hp16]. destruct (N.eqb_spec (noff p) 0); [lia|].
    rewrite getSiblingTo_spec by (assumption || now rewrite He). cbn [obind].
    unfold getLetter. rewrite rd_letter by assumption. cbn [obind]. rewrite He. cbn [snd].
    pose proof (awalk_bound (Nat.le_0_l (length es)) Hr) as Hpb.
    unfold getParent. rewrite rd_node by (assumption || lia). cbn [obind].
    rewrite (r_par R Hpb). rewrite IH by (reflexivity || lia). now rewrite <- app_assoc.
Qed.

Lemma awalk_len w : forall j, awalk es 0 w = Some j -> (length w <= j)%nat.
Proof.
  induction w as [|l r IH] using rev_ind; intros j Hw; [cbn; lia|].
  rewrite awalk_app in Hw. destruct (awalk es 0 r) as [p|] eqn:Hr; [|discriminate]. cbn in Hw.
  destruct (find_kid es p l) as [k|] eqn:Hk; [|discriminate]. injection Hw as <-.
  apply find_kid_some in Hk as [Hk He]. pose proof (wf_parent (r_wf R) Hk) as Hp. rewrite He in Hp. cbn in Hp.
  rewrite app_length. cbn. specialize (IH _ eq_refl). lia.
Qed.

Lemma getWord_spec E w j : awalk es 0 w = Some j ->
  getWord E t (noff j) = word_of_letters E (w ++ [0]).
Proof.
  intros Hw. unfold getWord. pose proof (noff_align j) as [_ Hj16].
  destruct (N.eqb_spec (noff j) 0); [lia|].
  pose proof (awalk_bound (Nat.le_0_l (length es)) Hw) as Hjb.
  unfold getParent. rewrite rd_node by (assumption || lia). cbn [obind]. rewrite (r_par R Hjb).
  pose proof (awalk_len Hw). pose proof rep_len.
  rewrite word_loop_spec with (w := w) by (assumption || rewrite fuel_ge; lia).
  cbn [obind]. now rewrite app_nil_r.
Qed.
End Rep.

(** ** Insertion *)

Lemma refused_mono E n m : refused E n -> (n <= m)%nat -> refused E m.
Proof. intros (s & H1 & H2 & H3) Hnm. exists s. repeat split; try assumption. lia. Qed.

Lemma insert_loop_spec E w : forall t es ids nw i,
  rep t es ids nw -> (i <= length es)%nat -> Forall letter_ok w ->
  let (es', j) := aext es i w in
  (exists t' k, insert_loop E (noff i) w t = (t', Ok (noff j))
     /\ rep t' es' (ids ++ repeat INVALID_WORDID k) nw)
  \/ (exists t', insert_loop E (noff i) w t = (t', Throw ERuntime) /\ t_mapped t' = false
     /\ (length es < length es')%nat /\ refused E (length es')).
Proof.
  induction w as [|l r IH]; intros t es ids nw i R Hi Hw; cbn [aext insert_loop].
  - left. exists t, O. cbn [repeat]. rewrite app_nil_r. split; [reflexivity|assumption].
  - apply Forall_cons_iff in Hw as [Hl Hr].
    erewrite mbind_ok by (apply reads_ok; apply (find_sib_node R Hi Hl)).
    destruct (find_kid es i l) as [k|] eqn:Hf.
    + pose proof (find_kid_some Hf) as [Hk He].
      erewrite mbind_ok by (apply reads_ok; apply (rd_letter R Hk)).
      rewrite He. cbn [snd]. rewrite N.eqb_refl.
      erewrite mbind_ok by (apply reads_ok; apply (child_of R Hk)).
      apply IH; [assumption|lia|assumption].
    + destruct (last_letter R Hi Hl Hf) as (l' & Hl' & Hne).
      erewrite mbind_ok by (apply reads_ok; exact Hl').
      destruct (N.eqb_spec l' l); [contradiction|].
      destruct (addNewSibling_spec E R Hi Hl Hf) as [(t1 & He1 & R1)|(t1 & He1 & Hm1 & Hrf)].
      * erewrite mbind_ok by exact He1.
        specialize (IH t1 _ _ _ (S (length es)) R1). rewrite app_length in IH. cbn [length] in IH.
        specialize (IH ltac:(lia) Hr).
        destruct (aext (es ++ [(i, l)]) (S (length es)) r) as [es' j].
        destruct IH as [(t' & k & He & R')|(t' & He & Hm & Hlt & Hrf)].
        -- left. exists t', (S k). split; [exact He|].
           cbn [repeat]. rewrite <- app_assoc in R'. exact R'.
        -- right. exists t'. repeat split; try assumption. lia.
      * erewrite mbind_throw by exact He1.
        pose proof (wf_snoc (r_wf R) Hi Hl Hf) as Hwf.
        destruct (aext (es ++ [(i, l)]) (S (length es)) r) as [es' j] eqn:Hax.
        right. exists t1. split; [reflexivity|]. split; [assumption|].
        destruct (@aext_spec r _ (S (length es)) es' j Hwf) as (_ & (x & ->) & _);
          [rewrite app_length; cbn; lia|assumption|assumption|].
        rewrite !app_length. cbn [length]. split; [lia|].
        eapply refused_mono; [exact Hrf|]. lia.
Qed.

Lemma nth_app_repeat (ids : list N) k j d : (j < length ids + k)%nat ->
  nth j (ids ++ repeat d k) 0 = if Nat.ltb j (length ids) then nth j ids 0 else d.
Proof.
  intros H. destruct (Nat.ltb_spec j (length ids)).
  - now apply app_nth1.
  - rewrite app_nth2 by lia. rewrite nth_indep with (d' := d) by (rewrite repeat_length; lia). apply nth_repeat.
Qed.

Lemma upd_len A n (v : A) l : length (upd n v l) = length l.
Proof. revert n. induction l as [|x r IH]; intros [|n]; cbn; auto. Qed.
Lemma nth_upd A n m (v d : A) l : (n < length l)%nat ->
  nth m (upd n v l) d = if Nat.eqb m n then v else nth m l d.
Proof.
  revert n m. induction l as [|x r IH]; intros [|n] [|m] H; cbn in *; try lia; try reflexivity.
  rewrite IH by lia. reflexivity.
Qed.

Lemma rep_set_id t es ids nw j id : rep t es ids nw -> (j <= length es)%nat ->
  rep (with_mem t (mset (mset (t_mem t) (noff j) id) 8 (u32 (nw + 1)))) es (upd j id ids) (u32 (nw + 1)).
Proof.
  intros R Hj. pose proof (noff_align j) as [_ Hj16].
  assert (Hm : forall o, 16 <= o -> o <> noff j ->
    mset (mset (t_mem t) (noff j) id) 8 (u32 (nw + 1)) o = t_mem t o).
  { intros o Ho Hne. rewrite mset_other by lia. now rewrite mset_other. }
  assert (Hlow : forall o, o < 16 -> o <> 8 ->
    mset (mset (t_mem t) (noff j) id) 8 (u32 (nw + 1)) o = t_mem t o).
  { intros o Ho Hne. rewrite mset_other by lia. rewrite mset_other by lia. reflexivity. }
  pose proof (r_hdr R) as H.
  assert (Hchain : forall i, (i <= length es)%nat -> forall k, noff i + 8 + 8 <> noff j /\ poff k + 8 <> noff j).
  { intros i Hi k. destruct i, j; unfold noff, poff; lia. }
  constructor; cbn [with_mem t_mem t_len t_mapped t_root].
  - constructor; cbn [with_mem t_mem t_len t_mapped t_root]; rewrite ?Hlow by lia; apply H.
  - apply (r_root R).
  - apply mset_same.
  - rewrite Hlow by lia. apply (r_nodes R).
  - rewrite upd_len. apply (r_len R).
  - intros i Hi. rewrite nth_upd by (rewrite (r_len R); lia). pose proof (noff_align i).
    destruct (Nat.eqb_spec i j) as [->|Hne].
    + rewrite mset_other by lia. apply mset_same.
    + rewrite Hm; [now apply (r_id R)|lia|]. intros Hx. apply Hne. now apply noff_inj.
  - intros i Hi. pose proof (noff_align i). rewrite Hm; [now apply (r_par R)|lia|].
    destruct i, j; unfold noff; lia.
  - intros i Hi. pose proof (noff_align i). rewrite Hm; [now apply (r_dl R)|lia|].
    destruct i, j; unfold noff; lia.
  - intros i Hi. pose proof (noff_align i). rewrite Hm; [now apply (r_dc R)|lia|].
    destruct i, j; unfold noff; lia.
  - intros k Hk. rewrite Hm; [now apply (r_pl R)|unfold poff; lia|].
    destruct j; unfold noff, poff; lia.
  - intros k Hk. rewrite Hm; [now apply (r_pc R)|unfold poff; lia|].
    destruct j; unfold noff, poff; lia.
  - intros i Hi. pose proof (noff_align i). apply chain_ext with (m := t_mem t).
    + now apply (r_chain R).
    + apply Hm; [lia|]. apply (Hchain i Hi O).
    + intros k Hk. apply Hm; [unfold poff; lia|]. apply (Hchain i Hi k).
  - apply (r_wf R).
Qed.

(** Complete effect of Trie::insertWord on the abstract state. *)
Lemma insertWord_spec E t es ids nw w wid :
  rep t es ids nw -> w <> [] -> Forall letter_ok w ->
  is_low (hd 0 w) = false ->
  let (es', j) := aext es 0 w in
  let k := (length es' - length es)%nat in
  let ids1 := ids ++ repeat INVALID_WORDID k in
  let old := nth j ids1 0 in
  (exists t', insertWord E w wid t =
       (t', if (old =? INVALID_WORDID) || (old =? wid) || e_ndebug E then Ok (noff j) else Abort)
     /\ rep t' es' (if old =? INVALID_WORDID then upd j wid ids1 else ids1)
               (if old =? INVALID_WORDID then u32 (nw + 1) else nw))
  \/ (exists t', insertWord E w wid t = (t', Throw ERuntime) /\ t_mapped t' = false
     /\ (length es < length es')%nat /\ refused E (length es')).
Proof.
  intros R Hne Hw Hlow.
  destruct (aext es 0 w) as [es' j] eqn:Hax. intros k ids1 old.
  pose proof (aext_spec (r_wf R) (Nat.le_0_l _) Hw Hax) as (Hwf' & (x & Hx) & Hwk & Hj).
  unfold insertWord. destruct w as [|lw r]; [contradiction|]. cbn [hd] in Hlow.
  assert (Hsur : negb (is_surrogate lw && negb (is_high lw)) = true).
  { unfold is_surrogate. rewrite Hlow. destruct (is_high lw); reflexivity. }
  erewrite mbind_ok by (apply massert_true; exact Hsur).
  erewrite mbind_ok by (apply reads_ok; reflexivity).
  rewrite (r_root R). change 16 with (noff 0).
  pose proof (@insert_loop_spec E (lw :: r) t es ids nw 0 R (Nat.le_0_l _) Hw) as Hil.
  rewrite Hax in Hil.
  destruct Hil as [(t1 & k1 & He1 & R1)|(t1 & He1 & Hm1 & Hlt & Hrf)].
  2:{ right. exists t1. erewrite mbind_throw by exact He1. auto. }
  left. erewrite mbind_ok by exact He1.
  assert (Hk1 : k1 = k).
  { pose proof (r_len R1) as Hl1. pose proof (r_len R) as Hl0.
    rewrite app_length, repeat_length in Hl1. unfold k. lia. }
  subst k1. fold ids1 in R1.
  erewrite mbind_ok by (apply reads_ok; apply (rd_id R1 Hj)). fold old.
  pose proof (rep_len R1) as [Hlen1 Hlen1']. pose proof (rep_mapped R1) as Hmp1.
  pose proof (@noff_lt es' _ Hj) as Hjb. pose proof (noff_align j) as [Hja Hj16].
  destruct (N.eqb_spec old INVALID_WORDID) as [Hold|Hold]; cbn [orb].
  - erewrite mbind_ok.
    2:{ erewrite mbind_ok by (apply wr_ok; tlia).
        erewrite mbind_ok by (apply reads_ok, rd_ok; tlia).
        apply wr_ok; tlia. }
    cbn [with_mem t_mem t_len t_mapped t_root]. change H_WORDS with 8.
    rewrite (mset_other (t_mem t1)) by lia. rewrite (r_words R1).
    pose proof (rep_set_id wid R1 Hj) as R2.
    fold (with_mem t1 (mset (mset (t_mem t1) (noff j) wid) 8 (u32 (nw + 1)))).
    erewrite mbind_ok by (apply reads_ok; apply (rd_id R2 Hj)).
    rewrite nth_upd by (rewrite (r_len R1); lia). rewrite Nat.eqb_refl, N.eqb_refl.
    eexists. split; [reflexivity|exact R2].
  - erewrite mbind_ok by reflexivity.
    erewrite mbind_ok by (apply reads_ok; apply (rd_id R1 Hj)). fold old.
    exists t1. split; [|exact R1].
    unfold mbind, massert, ret. destruct (old =? wid); [reflexivity|].
    destruct (e_ndebug E); reflexivity.
Qed.

Lemma insertWord_empty E t wid : insertWord E [] wid t = (t, Throw EOutOfRange).
Proof. reflexivity. Qed.

(** ** The new trie *)
Lemma trie_new_spec E : grow_ok E 1024 = true ->
  exists t, trie_new E = Ok t /\ rep t [] [INVALID_WORDID] 0.
Proof.
  intros Hg. unfold trie_new. rewrite Hg.
  set (t0 := mkTrie true 1024 (fun o => if o =? H_TOTAL then 1024 else 0) 0).
  erewrite mbind_ok by (apply reads_ok, rd_ok; [reflexivity|reflexivity|vm_compute; discriminate]).
  erewrite mbind_ok by (apply reads_ok, rd_ok; [reflexivity|reflexivity|vm_compute; discriminate]).
  erewrite mbind_ok by (apply massert_true; reflexivity).
  erewrite mbind_ok by (apply wr_ok; [reflexivity|reflexivity|vm_compute; discriminate]).
  erewrite mbind_ok by (apply reads_ok, rd_ok; [reflexivity|reflexivity|vm_compute; discriminate]).
  erewrite mbind_ok by reflexivity.
  erewrite mbind_ok by (apply wr_ok; [reflexivity|reflexivity|vm_compute; discriminate]).
  cbn [with_mem t_mem t_len t_mapped t_root].
  set (t1 := with_mem _ _).
  assert (H1 : hdr t1 16).
  { constructor; try reflexivity; cbn; try lia. exists 10. split; [reflexivity|lia]. }
  destruct (addNewNode_spec E 0 H1) as
    [(t2 & He & H2 & Hr & Hnn & Hnw & Hm)|(t2 & s & He & Hm & Hs1 & Hs2 & Hg2)].
  2:{ exfalso. lia. }
  rewrite He. cbn [obind]. exists t2. split; [reflexivity|].
  assert (Hcell : forall o, 16 <= o < 36 -> t_mem t2 o = if o =? 16 then INVALID_WORDID else 0).
  { intros o Ho. rewrite Hm by lia. rewrite mcells3, mcells2.
    change (16 + 8 + 8) with 32. change (16 + 8 + 4) with 28. change (16 + 8) with 24. change (16 + 4) with 20.
    destruct (N.eqb_spec o 32); [destruct (N.eqb_spec o 16); [lia|reflexivity]|].
    destruct (N.eqb_spec o 28); [destruct (N.eqb_spec o 16); [lia|reflexivity]|].
    destruct (N.eqb_spec o 24); [destruct (N.eqb_spec o 16); [lia|reflexivity]|].
    destruct (N.eqb_spec o 20); [destruct (N.eqb_spec o 16); [lia|reflexivity]|].
    destruct (N.eqb_spec o 16); [reflexivity|].
    unfold t1, t0. cbn [with_mem t_mem]. unfold mset, H_TOTAL, H_FREE, H_WORDS.
    destruct (N.eqb_spec o 8); [lia|]. destruct (N.eqb_spec o 4); [lia|]. destruct (N.eqb_spec o 0); [lia|reflexivity]. }
  constructor; cbn [length N.of_nat].
  - exact H2.
  - rewrite Hr. reflexivity.
  - rewrite Hnw. reflexivity.
  - rewrite Hnn. reflexivity.
  - reflexivity.
  - intros i Hi. assert (i = O) by lia. subst. cbn [noff]. rewrite Hcell by lia. reflexivity.
  - intros i Hi. assert (i = O) by lia. subst. cbn [noff]. rewrite Hcell by lia. reflexivity.
  - intros i Hi. assert (i = O) by lia. subst. cbn [noff]. rewrite Hcell by lia. reflexivity.
  - intros i Hi. assert (i = O) by lia. subst. cbn [noff]. rewrite Hcell by lia. reflexivity.
  - intros k Hk. lia.
  - intros k Hk. lia.
  - intros i Hi. assert (i = O) by lia. subst.
    change (t_mem t2 32 = 0). rewrite Hcell by lia. reflexivity.
  - constructor; cbn [length]; intros; try lia. constructor.
Qed.
