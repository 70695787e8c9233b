(** Proofs about ErrorValues. *)
From Verif Require Import Base ErrorValuesM Spec_EV.
From Coq Require Import ZifyBool ZifyN ZifyNat.
Local Open Scope N_scope.
Ltac Zify.zify_post_hook ::= Z.to_euclidean_division_equations.

Lemma LUT_OFFSET_eq a b : b < 512 -> LUT_OFFSET a b = 512 * a + b.
Proof.
  intros Hb. unfold LUT_OFFSET.
  assert (H0 : N.land (N.shiftl a 9) b = 0).
  { apply N.bits_inj. intros n. rewrite N.land_spec, N.bits_0.
    destruct (N.lt_ge_cases n 9) as [Hn|Hn].
    - now rewrite N.shiftl_spec_low.
    - replace (N.testbit b n) with false; [apply andb_false_r|]. symmetry.
      destruct (N.eq_dec b 0) as [->|Hz]; [apply N.bits_0|]. apply N.bits_above_log2.
      apply N.log2_lt_pow2; [lia|]. apply N.lt_le_trans with 512; [exact Hb|].
      change 512 with (2 ^ 9). now apply N.pow_le_mono_r. }
  rewrite <- N.lxor_lor by exact H0. rewrite <- N.add_nocarry_lxor by exact H0.
  rewrite N.shiftl_mul_pow2. change (2 ^ 9) with 512. lia.
Qed.

Ltac bb := repeat match goal with
  | H : context [memb ?x ?y] |- _ => let m := fresh "m" in set (m := memb x y) in *; clearbody m; destruct m
  | |- context [memb ?x ?y] => let m := fresh "m" in set (m := memb x y) in *; clearbody m; destruct m
  end; cbn [andb orb negb] in *; lia.

Ltac ift b := match goal with |- context [if ?c then _ else _] => replace c with b by lia end.

(** ** The table *)
Definition lut_at (e : errvals) (a b : N) : Z := ev_lut e (LUT_OFFSET a b).

Lemma get_fast e a b : a < 512 -> b < 512 -> getSubstituteError e a b = Ok (lut_at e a b).
Proof.
  intros Ha Hb. unfold getSubstituteError, LUT_LETTERS, lut_at, LUT_SIZE.
  replace ((a <? 512) && (b <? 512)) with true by lia.
  rewrite LUT_OFFSET_eq by exact Hb. now replace (_ <? 262144) with true by lia.
Qed.
Lemma get_slow e a b : 512 <= a \/ 512 <= b -> getSubstituteError e a b = substituteErrorSlow e a b.
Proof. intros H. unfold getSubstituteError, LUT_LETTERS. now replace ((a <? 512) && (b <? 512)) with false by lia. Qed.

Lemma lut_at_add e x y v a b : a < 512 -> b < 512 ->
  lut_at (addToLUT x y v e) a b = if (x <? 512) && (y <? 512) && same_pair a b x y then v else lut_at e a b.
Proof.
  intros Ha Hb. unfold addToLUT, LUT_LETTERS, lut_at, same_pair.
  destruct ((x <? 512) && (y <? 512)) eqn:Hxy; [|reflexivity]. cbn [with_lut ev_lut andb]. unfold lut_set.
  rewrite !LUT_OFFSET_eq by lia.
  destruct (N.eqb_spec (512 * a + b) (512 * y + x)) as [H1|H1].
  - replace ((a =? x) && (b =? y) || (a =? y) && (b =? x)) with true by lia. reflexivity.
  - destruct (N.eqb_spec (512 * a + b) (512 * x + y)) as [H2|H2].
    + replace ((a =? x) && (b =? y) || (a =? y) && (b =? x)) with true by lia. reflexivity.
    + replace ((a =? x) && (b =? y) || (a =? y) && (b =? x)) with false by lia. reflexivity.
Qed.

Lemma lut_at_clear e a b : a < 512 -> b < 512 ->
  lut_at (clearErrors e) a b = if a =? b then 0%Z else ev_sub e.
Proof.
  intros Ha Hb. unfold lut_at, clearErrors. cbn. unfold clear_lut, LUT_SIZE, LUT_LETTERS.
  rewrite LUT_OFFSET_eq by exact Hb. replace (512 * a + b <? 262144) with true by lia.
  replace ((512 * a + b) / 512) with a by lia. now replace ((512 * a + b) mod 512) with b by lia.
Qed.
Lemma lut_at_new a b : a < 512 -> b < 512 -> lut_at ev_new a b = if a =? b then 0%Z else 100%Z.
Proof.
  intros Ha Hb. unfold lut_at, ev_new. cbn [ev_lut]. unfold clear_lut, LUT_SIZE, LUT_LETTERS, DEFAULT_ERROR.
  rewrite LUT_OFFSET_eq by exact Hb. replace (512 * a + b <? 262144) with true by lia.
  replace ((512 * a + b) / 512) with a by lia. now replace ((512 * a + b) mod 512) with b by lia.
Qed.

(** addToLUT touches nothing but the table. *)
Definition same_maps (e e' : errvals) : Prop :=
  ev_single e' = ev_single e /\ ev_gmap e' = ev_gmap e /\ ev_gerr e' = ev_gerr e /\ ev_sub e' = ev_sub e /\
  ev_ins e' = ev_ins e /\ ev_del e' = ev_del e /\ ev_edel e' = ev_edel e /\ ev_sins e' = ev_sins e /\
  ev_trans e' = ev_trans e /\ ev_limit e' = ev_limit e.
Lemma same_maps_refl e : same_maps e e. Proof. repeat split. Qed.
Lemma same_maps_trans a b c : same_maps a b -> same_maps b c -> same_maps a c.
Proof. unfold same_maps. intuition congruence. Qed.
Lemma addToLUT_maps x y v e : same_maps e (addToLUT x y v e).
Proof. unfold addToLUT. destruct (_ && _); repeat split. Qed.
Lemma lut_pairs_maps l1 v : forall ls e, same_maps e (lut_pairs l1 ls v e).
Proof.
  induction ls as [|l2 r IH]; intros e; cbn [lut_pairs]; [apply same_maps_refl|].
  eapply same_maps_trans; [|apply IH]. destruct (l1 =? l2); [apply same_maps_refl|apply addToLUT_maps].
Qed.
Lemma addGroup_maps v : forall ls e, same_maps e (addGroupErrorToLUT ls v e).
Proof.
  induction ls as [|l r IH]; intros e; cbn [addGroupErrorToLUT]; [apply same_maps_refl|].
  eapply same_maps_trans; [|apply IH]. apply lut_pairs_maps.
Qed.

Lemma lut_pairs_at l1 v a b : a < 512 -> b < 512 -> forall ls e,
  lut_at (lut_pairs l1 ls v e) a b =
  if negb (a =? b) && (((a =? l1) && memb b ls) || ((b =? l1) && memb a ls)) then v else lut_at e a b.
Proof.
  intros Ha Hb. induction ls as [|l2 r IH]; intros e; cbn [lut_pairs memb existsb].
  - now rewrite !andb_false_r.
  - rewrite IH. clear IH. fold (memb b r) (memb a r).
    destruct (negb (a =? b) && (((a =? l1) && memb b r) || ((b =? l1) && memb a r))) eqn:H1.
    + now replace (negb (a =? b) && ((a =? l1) && ((b =? l2) || memb b r) || (b =? l1) && ((a =? l2) || memb a r))) with true by bb.
    + destruct (N.eqb_spec l1 l2) as [<-|Hne].
      * now replace (negb (a =? b) && ((a =? l1) && ((b =? l1) || memb b r) || (b =? l1) && ((a =? l1) || memb a r))) with false by bb.
      * rewrite lut_at_add by assumption. unfold same_pair.
        replace ((l1 <? 512) && (l2 <? 512) && ((a =? l1) && (b =? l2) || (a =? l2) && (b =? l1)))
          with (negb (a =? b) && ((a =? l1) && ((b =? l2) || memb b r) || (b =? l1) && ((a =? l2) || memb a r))) by bb.
        reflexivity.
Qed.
Lemma addGroup_at v a b : a < 512 -> b < 512 -> forall ls e,
  lut_at (addGroupErrorToLUT ls v e) a b =
  if memb a ls && memb b ls && negb (a =? b) then v else lut_at e a b.
Proof.
  intros Ha Hb. induction ls as [|l r IH]; intros e; [reflexivity|].
  cbn [addGroupErrorToLUT]. rewrite IH, lut_pairs_at by assumption. clear IH.
  cbn [memb existsb]. fold (memb b r) (memb a r).
  destruct (memb a r && memb b r && negb (a =? b)) eqn:H1.
  - now replace (((a =? l) || memb a r) && ((b =? l) || memb b r) && negb (a =? b)) with true by bb.
  - replace (negb (a =? b) && ((a =? l) && ((b =? l) || memb b r) || (b =? l) && ((a =? l) || memb a r)))
      with (((a =? l) || memb a r) && ((b =? l) || memb b r) && negb (a =? b)) by bb.
    reflexivity.
Qed.

(** ** Well-formed states *)
Record ev_wf (e : errvals) : Prop := {
  wf_gid : forall l g, find_group (ev_gmap e) l = Some g -> (g < length (ev_gerr e))%nat;
  wf_sub : ev_sub e = 100%Z;
  wf_sym : forall a b, a < 512 -> b < 512 -> lut_at e a b = lut_at e b a
}.

Lemma same_pair_sym a b x y : same_pair a b x y = same_pair b a x y.
Proof. unfold same_pair. lia. Qed.

Lemma find_group_cons l g m k : find_group ((l, g) :: m) k = if l =? k then Some g else find_group m k.
Proof. unfold find_group. cbn [find fst]. destruct (l =? k); reflexivity. Qed.

(** What the loop of setGroupError does. *)
Record grouped (e e' : errvals) (id : nat) (ls : list N) : Prop := {
  gr_lut : ev_lut e' = ev_lut e;
  gr_single : ev_single e' = ev_single e;
  gr_gerr : ev_gerr e' = ev_gerr e;
  gr_sub : ev_sub e' = ev_sub e;
  gr_map : forall l, find_group (ev_gmap e') l =
    match find_group (ev_gmap e) l with Some g => Some g | None => if memb l ls then Some id else None end
}.
Lemma group_loop_spec id : forall ls e,
  exists e' r done, group_loop id ls e = (e', r) /\ (forall l, memb l done = true -> memb l ls = true) /\
    grouped e e' id done /\
    ((r = Ok tt /\ done = ls /\ forall l g, memb l ls = true -> find_group (ev_gmap e) l = Some g -> g = id) \/
     (r = Throw ERuntime /\ exists l g, memb l ls = true /\ find_group (ev_gmap e) l = Some g /\ g <> id)).
Proof.
  induction ls as [|l r IH]; intros e; cbn [group_loop].
  - exists e, (Ok tt), []. split; [reflexivity|]. split; [auto|]. split; [|left; repeat split; discriminate].
    constructor; try reflexivity. intros k. cbn. now destruct (find_group _ k).
  - destruct (find_group (ev_gmap e) l) as [g|] eqn:Hg.
    + destruct (Nat.eqb_spec g id) as [->|Hne].
      * destruct (IH e) as (e' & o & done & He & Hd & G & Hc). exists e', o, (l :: done). split; [exact He|].
        split; [|split].
        -- intros k. cbn [memb existsb]. fold (memb k done) (memb k r). specialize (Hd k). bb.
        -- constructor; try apply G. intros k. rewrite (gr_map G). destruct (find_group (ev_gmap e) k) eqn:Hk; [reflexivity|].
           cbn [memb existsb]. destruct (N.eqb_spec k l) as [->|]; [congruence|reflexivity].
        -- destruct Hc as [(-> & -> & Hc)|(-> & k & g & Hk & Hf & Hne)].
           ++ left. repeat split. intros k g. cbn [memb existsb]. destruct (N.eqb_spec k l) as [->|]; [congruence|]. apply Hc.
           ++ right. split; [reflexivity|]. exists k, g. split; [|auto]. cbn [memb existsb]. fold (memb k r). bb.
      * exists e, (Throw ERuntime), []. split; [reflexivity|]. split; [discriminate|]. split.
        -- constructor; try reflexivity. intros k. cbn. now destruct (find_group _ k).
        -- right. split; [reflexivity|]. exists l, g. cbn [memb existsb]. rewrite N.eqb_refl. auto.
    + set (e1 := with_gmap ((l, id) :: ev_gmap e) e).
      destruct (IH e1) as (e' & o & done & He & Hd & G & Hc). exists e', o, (l :: done). split; [exact He|].
      split; [|split].
      * intros k. cbn [memb existsb]. fold (memb k done) (memb k r). specialize (Hd k). bb.
      * constructor; try apply G. intros k. rewrite (gr_map G). cbn [e1 with_gmap ev_gmap]. rewrite find_group_cons.
        cbn [memb existsb]. fold (memb k done). destruct (N.eqb_spec l k) as [->|Hne].
        -- rewrite Hg, N.eqb_refl. reflexivity.
        -- replace (k =? l) with false by lia. reflexivity.
      * destruct Hc as [(-> & -> & Hc)|(-> & k & g & Hk & Hf & Hne)].
        -- left. repeat split. intros k g. cbn [memb existsb]. destruct (N.eqb_spec k l) as [->|Hn]; [congruence|].
           intros Hk Hf. apply (Hc k g Hk). cbn [e1 with_gmap ev_gmap]. rewrite find_group_cons. now replace (l =? k) with false by lia.
        -- right. split; [reflexivity|]. exists k, g. cbn [e1 with_gmap ev_gmap] in Hf. rewrite find_group_cons in Hf.
           destruct (N.eqb_spec l k) as [->|Hn]; [congruence|]. split; [|auto]. cbn [memb existsb]. fold (memb k r). bb.
Qed.

(** setGroupError in one go. *)
Lemma setGroupError_spec e g v : ev_wf e ->
  exists e', 
    ((setGroupError g v e = (e', Ok tt) /\ (forall l, memb l g = true -> isInGroup e l = false) /\
      (forall a b, a < 512 -> b < 512 -> lut_at e' a b = if memb a g && memb b g && negb (a =? b) then v else lut_at e a b) /\
      (forall l, find_group (ev_gmap e') l =
        match find_group (ev_gmap e) l with Some k => Some k | None => if memb l g then Some (length (ev_gerr e)) else None end)) \/
     (setGroupError g v e = (e', Throw ERuntime) /\ (exists l, memb l g = true /\ isInGroup e l = true) /\
      ev_lut e' = ev_lut e /\
      exists done, (forall l, memb l done = true -> memb l g = true) /\
        forall l, find_group (ev_gmap e') l =
        match find_group (ev_gmap e) l with Some k => Some k | None => if memb l done then Some (length (ev_gerr e)) else None end)) /\
    ev_single e' = ev_single e /\ ev_gerr e' = ev_gerr e ++ [v] /\ ev_sub e' = ev_sub e /\ ev_wf e'.
Proof.
  intros W. unfold setGroupError, mbind, reads.
  set (e1 := with_gerr (ev_gerr e ++ [v]) e).
  destruct (group_loop_spec (length (ev_gerr e)) g e1) as (e2 & r & done & He & Hd & G & Hc). rewrite He.
  assert (Hold : forall l k, find_group (ev_gmap e) l = Some k -> k <> length (ev_gerr e)).
  { intros l k Hk. pose proof (wf_gid W Hk). lia. }
  destruct Hc as [(-> & -> & Hc)|(-> & l & k & Hl & Hk & Hne)].
  - pose proof (addGroup_maps v g e2) as (M1 & M2 & M3 & M4 & _).
    assert (Hlut : forall a b, a < 512 -> b < 512 ->
       lut_at (addGroupErrorToLUT g v e2) a b = if memb a g && memb b g && negb (a =? b) then v else lut_at e a b).
    { intros a b Ha Hb. rewrite addGroup_at by assumption. unfold lut_at at 1. now rewrite (gr_lut G). }
    assert (Hmap : forall l, find_group (ev_gmap (addGroupErrorToLUT g v e2)) l =
        match find_group (ev_gmap e) l with Some k => Some k | None => if memb l g then Some (length (ev_gerr e)) else None end).
    { intros l. rewrite M2, (gr_map G). reflexivity. }
    eexists. split; [left; split; [reflexivity|]; split; [|split; [exact Hlut|exact Hmap]]|].
    + intros l Hl. unfold isInGroup. destruct (find_group (ev_gmap e) l) as [k|] eqn:Hk; [|reflexivity].
      specialize (Hold l k Hk). specialize (Hc l k Hl Hk). congruence.
    + rewrite M1, M3, M4, (gr_single G), (gr_gerr G), (gr_sub G). repeat split.
      * intros l k. rewrite M3, (gr_gerr G), Hmap. cbn [e1 with_gerr ev_gerr]. rewrite app_length. cbn [length].
        destruct (find_group (ev_gmap e) l) as [k'|] eqn:Hk.
        -- intros [= <-]. pose proof (wf_gid W Hk). lia.
        -- destruct (memb l g); [|discriminate]. intros [= <-]. lia.
      * rewrite M4, (gr_sub G). apply (wf_sub W).
      * intros a b Ha Hb. rewrite !Hlut by assumption. rewrite (wf_sym W Ha Hb).
        replace (memb b g && memb a g && negb (b =? a)) with (memb a g && memb b g && negb (a =? b)) by bb. reflexivity.
  - exists e2. split; [right; split; [reflexivity|]; split; [|split; [apply (gr_lut G)|]]|].
    + exists l. split; [exact Hl|]. unfold isInGroup. cbn [e1 with_gerr ev_gmap] in Hk. now rewrite Hk.
    + exists done. split; [exact Hd|]. apply (gr_map G).
    + rewrite (gr_single G), (gr_gerr G), (gr_sub G). repeat split.
      * intros m k'. rewrite (gr_gerr G), (gr_map G). cbn [e1 with_gerr ev_gerr ev_gmap]. rewrite app_length. cbn [length].
        destruct (find_group (ev_gmap e) m) as [k2|] eqn:Hk2.
        -- intros [= <-]. pose proof (wf_gid W Hk2). lia.
        -- destruct (memb m done); [|discriminate]. intros [= <-]. lia.
      * rewrite (gr_sub G). apply (wf_sub W).
      * intros a b Ha Hb. unfold lut_at. rewrite (gr_lut G). apply (wf_sym W Ha Hb).
Qed.

(** setError in one go. *)
Lemma find_single_cons x y v s a b :
  find_single (((x, y), v) :: s) a b = if (x =? a) && (y =? b) then Some v else find_single s a b.
Proof. unfold find_single. cbn [find fst snd]. destruct (_ && _); reflexivity. Qed.

Lemma setError_lut e x y v a b : a < 512 -> b < 512 ->
  lut_at (setError x y v e) a b = if (x <? 512) && (y <? 512) && same_pair a b x y then v else lut_at e a b.
Proof.
  intros Ha Hb. unfold setError. cbv zeta. rewrite lut_at_add by assumption. unfold same_pair.
  destruct (N.ltb_spec y x); [|reflexivity].
  replace ((y <? 512) && (x <? 512) && ((a =? y) && (b =? x) || (a =? x) && (b =? y)))
    with ((x <? 512) && (y <? 512) && ((a =? x) && (b =? y) || (a =? y) && (b =? x))) by lia. reflexivity.
Qed.
Lemma setError_maps e x y v :
  let e' := setError x y v e in
  ev_single e' = ((N.min x y, N.max x y), v) :: ev_single e /\
  ev_gmap e' = ev_gmap e /\ ev_gerr e' = ev_gerr e /\ ev_sub e' = ev_sub e.
Proof.
  cbv zeta. unfold setError. cbv zeta.
  destruct (addToLUT_maps (if y <? x then y else x) (if y <? x then x else y) v
     (with_single (((if y <? x then y else x, if y <? x then x else y), v) :: ev_single e) e)) as (M1 & M2 & M3 & M4 & _).
  rewrite M1, M2, M3, M4. cbn [with_single ev_single ev_gmap ev_gerr ev_sub]. repeat split.
  destruct (N.ltb_spec y x); repeat f_equal; lia.
Qed.

Lemma setError_wf e x y v : ev_wf e -> ev_wf (setError x y v e).
Proof.
  intros W. destruct (setError_maps e x y v) as (_ & M2 & M3 & M4). constructor.
  - rewrite M2, M3. apply (wf_gid W).
  - rewrite M4. apply (wf_sub W).
  - intros a b Ha Hb. rewrite !setError_lut by assumption. now rewrite same_pair_sym, (wf_sym W Ha Hb).
Qed.

Lemma clear_wf e : ev_wf e -> ev_wf (clearErrors e).
Proof.
  intros W. constructor.
  - discriminate.
  - apply (wf_sub W).
  - intros a b Ha Hb. rewrite !lut_at_clear by assumption. rewrite N.eqb_sym. reflexivity.
Qed.
Lemma new_wf : ev_wf ev_new.
Proof.
  constructor; try reflexivity; [discriminate|].
  intros a b Ha Hb. rewrite !lut_at_new by assumption. rewrite N.eqb_sym. reflexivity.
Qed.
Lemma group_wf e g v : ev_wf e -> ev_wf (fst (setGroupError g v e)).
Proof.
  intros W. destruct (setGroupError_spec g v W) as (e' & [(He & _)|(He & _)] & _ & _ & _ & W'); now rewrite He.
Qed.

(** ** Composite calls are sequences of the two basic ones *)
Definition pair_call (p : N * N * Z) : ev_call := SetError (fst (fst p)) (snd (fst p)) (snd p).
Definition kb_calls_at (i j1 : nat) : list (N * N * Z) :=
  let l1 := kb_key i j1 in
  (if Nat.ltb (S j1) (kb_len i) then [(l1, kb_key i (S j1), DEFAULT_TYPO_ERROR)] else []) ++
  (if Nat.ltb 0 j1 && Nat.ltb (j1 - 1) (kb_len (S i)) then [(l1, kb_key (S i) (j1 - 1), DEFAULT_TYPO_ERROR)] else []) ++
  (if Nat.ltb j1 (kb_len (S i)) then [(l1, kb_key (S i) j1, DEFAULT_TYPO_ERROR)] else []).
Definition kb_calls : list (N * N * Z) :=
  flat_map (fun i => flat_map (kb_calls_at i) (seq 0 (kb_len i))) (seq 0 3).
Definition pad_calls_at (j i : nat) : list (N * N * Z) :=
  let n := pad_num j i in
  let to ls v := map (fun l => (n, l, v)) ls in
  to (pad_at j i) 0%Z ++
  (if (Z.of_nat i - 1 >? 0)%Z then to (pad_at j (i - 1)) 50%Z else []) ++
  (if (Z.of_nat i + 1 <? 3)%Z then to (pad_at j (i + 1)) 50%Z else []) ++
  (if (Z.of_nat j - 1 >? 0)%Z then to (pad_at (j - 1) i) 50%Z else []) ++
  (if (Z.of_nat j + 1 <? 3)%Z then to (pad_at (j + 1) i) 50%Z else []).
Definition pad_calls : list (N * N * Z) :=
  flat_map (fun j => flat_map (pad_calls_at j) (seq 0 3)) (seq 0 3).

Definition set_pairs (ps : list (N * N * Z)) (e : errvals) : errvals :=
  fold_left (fun e p => setError (fst (fst p)) (snd (fst p)) (snd p) e) ps e.
Lemma set_pairs_app a b e : set_pairs (a ++ b) e = set_pairs b (set_pairs a e).
Proof. apply fold_left_app. Qed.
Lemma fold_set_pairs (A : Type) (f : errvals -> A -> errvals) (g : A -> list (N * N * Z)) :
  (forall e x, f e x = set_pairs (g x) e) -> forall l e, fold_left f l e = set_pairs (flat_map g l) e.
Proof.
  intros H. induction l as [|x l IH]; intros e; [reflexivity|].
  cbn [fold_left flat_map]. now rewrite set_pairs_app, IH, H.
Qed.
Lemma kb_pairs e : addKeyboardErrors e = set_pairs kb_calls e.
Proof.
  unfold addKeyboardErrors, kb_calls. apply fold_set_pairs. intros e1 i. apply fold_set_pairs. intros e2 j.
  unfold kb_step, kb_calls_at. cbv zeta. rewrite !set_pairs_app.
  destruct (Nat.ltb (S j) _), (_ && _), (Nat.ltb j _); reflexivity.
Qed.
Lemma pad_set n ls v e : setPadError n ls v e = set_pairs (map (fun l => (n, l, v)) ls) e.
Proof. revert e. induction ls as [|l r IH]; intros e; [reflexivity|]. cbn. apply IH. Qed.
Lemma pad_pairs e : addNumberpadErrors e = set_pairs pad_calls e.
Proof.
  unfold addNumberpadErrors, pad_calls. apply fold_set_pairs. intros e1 j. apply fold_set_pairs. intros e2 i.
  unfold pad_step, pad_calls_at. cbv zeta. rewrite !set_pairs_app.
  destruct (_ >? _)%Z, (_ <? _)%Z, (_ >? _)%Z, (_ <? _)%Z; rewrite ?pad_set; reflexivity.
Qed.
Lemma set_pairs_run ps e : set_pairs ps e = ev_run (map pair_call ps) e.
Proof. revert e. induction ps as [|[[a b] v] r IH]; intros e; [reflexivity|]. cbn. apply IH. Qed.

Lemma pairs_wf ps : forall e, ev_wf e -> ev_wf (set_pairs ps e).
Proof. induction ps as [|p r IH]; intros e W; [exact W|]. cbn. apply IH. now apply setError_wf. Qed.

Lemma mbind_fst_inv (S A B : Type) (P : S -> Prop) (m : M S A) (k : A -> M S B) s :
  P (fst (m s)) -> (forall a s', P s' -> P (fst (k a s'))) -> P (fst (mbind m k s)).
Proof. unfold mbind. intros H1 H2. destruct (m s) as [s' [a| | | |]]; cbn in *; auto. Qed.

Lemma accents_wf ls : forall e, ev_wf e -> ev_wf (fst (addAccents ls e)).
Proof.
  induction ls as [|g r IH]; intros e W; cbn [addAccents]; [exact W|].
  apply mbind_fst_inv; [|intros _ s' W'; now apply IH]. destruct g; [exact W|now apply group_wf].
Qed.
Lemma standard_wf l g e : ev_wf e -> ev_wf (fst (addStandardErrors l g e)).
Proof.
  intros W. unfold addStandardErrors. apply mbind_fst_inv; [now apply accents_wf|]. intros _ s1 W1.
  apply mbind_fst_inv; [now apply accents_wf|]. intros _ s2 W2. cbn [fst]. rewrite kb_pairs. now apply pairs_wf.
Qed.

Lemma do_wf c e : ev_wf e -> ev_wf (fst (ev_do c e)).
Proof.
  intros W. destruct c; cbn [ev_do]; unfold pure; cbn [fst];
    try (destruct W; constructor; assumption).
  - now apply setError_wf.
  - now apply group_wf.
  - now apply accents_wf.
  - rewrite kb_pairs. now apply pairs_wf.
  - rewrite pad_pairs. now apply pairs_wf.
  - now apply standard_wf.
  - now apply clear_wf.
Qed.
Lemma run_wf calls : forall e, ev_wf e -> ev_wf (ev_run calls e).
Proof. induction calls as [|c r IH]; intros e W; [exact W|]. apply IH. now apply do_wf. Qed.
Lemma after_wf calls : ev_wf (ev_after calls).
Proof. apply run_wf, new_wf. Qed.

(** ** Slow path on well-formed states *)
Definition slow_val (e : errvals) (a b : N) : Z :=
  if a =? b then 0%Z else
  match find_single (ev_single e) (N.min a b) (N.max a b) with
  | Some v => v
  | None =>
    match find_group (ev_gmap e) (N.max a b), find_group (ev_gmap e) (N.min a b) with
    | Some g1, Some g2 => if Nat.eqb g1 g2 then nth g1 (ev_gerr e) 0%Z else ev_sub e
    | _, _ => ev_sub e
    end
  end.
Lemma slow_ok e a b : ev_wf e -> substituteErrorSlow e a b = Ok (slow_val e a b).
Proof.
  intros W. unfold substituteErrorSlow, slow_val. destruct (a =? b); [reflexivity|]. cbv zeta.
  replace (if b <? a then b else a) with (N.min a b) by (destruct (N.ltb_spec b a); lia).
  replace (if b <? a then a else b) with (N.max a b) by (destruct (N.ltb_spec b a); lia).
  destruct (find_single _ _ _); [reflexivity|].
  destruct (find_group (ev_gmap e) (N.max a b)) as [g1|] eqn:H1; [|reflexivity].
  destruct (find_group (ev_gmap e) (N.min a b)) as [g2|]; [|reflexivity].
  destruct (Nat.eqb g1 g2); [|reflexivity].
  pose proof (wf_gid W H1) as Hlt. rewrite (nth_error_nth' (ev_gerr e) 0%Z Hlt). reflexivity.
Qed.
Lemma slow_sym e a b : slow_val e a b = slow_val e b a.
Proof. unfold slow_val. now rewrite N.eqb_sym, N.min_comm, N.max_comm. Qed.

Definition ev_val (e : errvals) (a b : N) : Z :=
  if (a <? 512) && (b <? 512) then lut_at e a b else slow_val e a b.
Lemma get_val e a b : ev_wf e -> getSubstituteError e a b = Ok (ev_val e a b).
Proof.
  intros W. unfold ev_val. destruct ((a <? 512) && (b <? 512)) eqn:H.
  - apply get_fast; lia.
  - rewrite get_slow by lia. now apply slow_ok.
Qed.

Lemma get_symmetric calls a b :
  exists v, getSubstituteError (ev_after calls) a b = Ok v /\ getSubstituteError (ev_after calls) b a = Ok v.
Proof.
  pose proof (after_wf calls) as W. rewrite !get_val by exact W. eexists. split; [reflexivity|]. f_equal.
  unfold ev_val. rewrite andb_comm. destruct ((a <? 512) && (b <? 512)) eqn:H.
  - apply (wf_sym W); lia.
  - symmetry. apply slow_sym.
Qed.

(** ** setError is exact *)
Lemma slow_val_setError e x y v a b :
  slow_val (setError x y v e) a b =
  if a =? b then 0%Z else if same_pair a b x y then v else slow_val e a b.
Proof.
  destruct (setError_maps e x y v) as (M1 & M2 & M3 & M4). unfold slow_val, same_pair.
  destruct (N.eqb_spec a b) as [|Hab]; [reflexivity|]. rewrite M1, M2, M3, M4, find_single_cons.
  replace ((N.min x y =? N.min a b) && (N.max x y =? N.max a b)) with ((a =? x) && (b =? y) || (a =? y) && (b =? x)) by lia.
  destruct (_ || _); reflexivity.
Qed.

Lemma setError_exact calls x y v a b : x <> y ->
  getSubstituteError (ev_after (calls ++ [SetError x y v])) a b =
  if same_pair a b x y then Ok v else getSubstituteError (ev_after calls) a b.
Proof.
  intros Hxy. unfold ev_after, ev_run. rewrite fold_left_app. cbn [fold_left ev_do pure fst].
  fold (ev_run calls ev_new). fold (ev_after calls). pose proof (after_wf calls) as W.
  rewrite !get_val by (try apply setError_wf; exact W). unfold ev_val.
  destruct ((a <? 512) && (b <? 512)) eqn:H.
  - rewrite setError_lut by lia. unfold same_pair.
    destruct ((a =? x) && (b =? y) || (a =? y) && (b =? x)) eqn:Hs.
    + now replace ((x <? 512) && (y <? 512)) with true by lia.
    + now rewrite andb_false_r.
  - rewrite slow_val_setError. unfold same_pair.
    destruct (N.eqb_spec a b) as [->|Hne].
    + replace ((b =? x) && (b =? y) || (b =? y) && (b =? x)) with false by lia. unfold slow_val. now rewrite N.eqb_refl.
    + now destruct (_ || _).
Qed.

(** ** History rules *)
Definition fastP (e : errvals) (f : N -> N -> Z) : Prop := forall a b, a < 512 -> b < 512 -> lut_at e a b = f a b.

Lemma latest_run calls : forall e, ev_wf e -> Forall basic calls -> all_ok calls e ->
  forall a b, a < 512 -> b < 512 -> lut_at (ev_run calls e) a b = latest calls a b (lut_at e a b).
Proof.
  induction calls as [|c r IH]; intros e W Hb Hok a b Ha Hb'; [reflexivity|].
  apply Forall_cons_iff in Hb as [Hc Hb]. cbn [all_ok] in Hok. destruct Hok as [Hok Hr].
  cbn [ev_run fold_left]. fold (ev_run r (fst (ev_do c e))).
  rewrite IH by (try apply do_wf; assumption). clear IH.
  destruct c; cbn [basic] in Hc; try destruct Hc; cbn [latest names ev_do pure fst] in *; f_equal.
  - rewrite setError_lut by assumption. unfold same_pair.
    destruct ((a =? a0) && (b =? b0) || (a =? b0) && (b =? a0)) eqn:Hs.
    + now replace ((a0 <? 512) && (b0 <? 512)) with true by lia.
    + now rewrite andb_false_r.
  - destruct (setGroupError_spec g v W) as (e' & [(He & _ & Hl & _)|(He & _)] & _); rewrite He in *; [|discriminate].
    cbn [fst]. rewrite Hl by assumption. now destruct (_ && _).
  - rewrite lut_at_clear by assumption. now rewrite (wf_sub W).
Qed.

Lemma latest_price_ok calls a b : Forall basic calls -> all_ok calls ev_new -> a < 512 -> b < 512 ->
  getSubstituteError (ev_after calls) a b = Ok (latest_price calls a b).
Proof.
  intros Hb Hok Ha Hb'. rewrite get_fast by assumption. f_equal. unfold ev_after.
  rewrite latest_run by (try apply new_wf; assumption). unfold latest_price. now rewrite lut_at_new.
Qed.

(** Slow side: relation of the maps with the rules. *)
Definition groups_are (e : errvals) (f : N -> N -> option Z) : Prop :=
  forall a b, a <> b ->
  match find_group (ev_gmap e) a, find_group (ev_gmap e) b with
  | Some g1, Some g2 => if Nat.eqb g1 g2 then f a b = Some (nth g1 (ev_gerr e) 0%Z) else f a b = None
  | _, _ => f a b = None
  end.
Definition singles_are (e : errvals) (f : N -> N -> option Z) : Prop :=
  forall a b, find_single (ev_single e) (N.min a b) (N.max a b) = f a b.

Lemma explicit_ext calls a b acc : explicit calls a b acc =
  match explicit calls a b None with Some v => Some v | None => if existsb (fun c => match c with ClearErrors => true | _ => false end) calls then None else acc end.
Proof.
  revert acc. induction calls as [|c r IH]; intros acc; cbn; [reflexivity|].
  destruct c; cbn [orb]; try apply IH.
  - rewrite IH. rewrite (IH (if same_pair a b a0 b0 then Some v else None)).
    destruct (explicit r a b None); [reflexivity|]. destruct (existsb _ r); [reflexivity|]. now destruct (same_pair _ _ _ _).
  - destruct (explicit r a b None); reflexivity.
Qed.

Lemma slow_run calls : forall e fs fg, ev_wf e -> Forall basic calls -> all_ok calls e ->
  singles_are e fs -> groups_are e fg ->
  singles_are (ev_run calls e) (fun a b => explicit calls a b (fs a b)) /\
  groups_are (ev_run calls e) (fun a b => common_group calls a b (fg a b)).
Proof.
  induction calls as [|c r IH]; intros e fs fg W Hb Hok Hs Hg; [split; [exact Hs|exact Hg]|].
  apply Forall_cons_iff in Hb as [Hc Hb]. cbn [all_ok] in Hok. destruct Hok as [Hok Hr].
  cbn [ev_run fold_left]. fold (ev_run r (fst (ev_do c e))).
  pose proof (do_wf c W) as W'.
  destruct c; cbn [basic] in Hc; try destruct Hc; cbn [explicit common_group ev_do pure fst] in *;
    try (apply IH; assumption).
  - destruct (setError_maps e a b v) as (M1 & M2 & M3 & M4).
    apply (IH (setError a b v e) (fun a' b' => if same_pair a' b' a b then Some v else fs a' b') fg); try assumption.
    + intros a' b'. rewrite M1, find_single_cons, (Hs a' b'). unfold same_pair.
      replace ((N.min a b =? N.min a' b') && (N.max a b =? N.max a' b')) with ((a' =? a) && (b' =? b) || (a' =? b) && (b' =? a)) by lia.
      reflexivity.
    + intros a' b' Hne. rewrite M2, M3. now apply Hg.
  - destruct (setGroupError_spec g v W) as (e' & [(He & Hnew & _ & Hmap)|(He & _)] & HS & HG & _); rewrite He in *; [|discriminate].
    cbn [fst] in *.
    apply (IH e' fs (fun a b => if memb a g && memb b g then Some v else fg a b)); try assumption.
    + intros a b. rewrite HS. apply Hs.
    + assert (Hno : forall l, memb l g = true -> find_group (ev_gmap e) l = None).
      { intros l Hl. specialize (Hnew l Hl). unfold isInGroup in Hnew. destruct (find_group _ l); [discriminate|reflexivity]. }
      assert (Hold : forall l k, find_group (ev_gmap e) l = Some k -> memb l g = false /\ (k < length (ev_gerr e))%nat).
      { intros l k Hk. split; [|apply (wf_gid W Hk)]. destruct (memb l g) eqn:Hl; [|reflexivity]. rewrite Hno in Hk by exact Hl. discriminate. }
      intros a b Hne. rewrite !Hmap, HG. specialize (Hg a b Hne).
      destruct (find_group (ev_gmap e) a) as [ka|] eqn:Hka; destruct (find_group (ev_gmap e) b) as [kb|] eqn:Hkb.
      * destruct (Hold a ka Hka) as [Ha Hla]. destruct (Hold b kb Hkb) as [Hbm Hlb]. rewrite Ha. cbn [andb].
        rewrite app_nth1 by exact Hla. exact Hg.
      * destruct (Hold a ka Hka) as [Ha Hla]. rewrite Ha. cbn [andb]. destruct (memb b g); [|exact Hg].
        replace (Nat.eqb ka (length (ev_gerr e))) with false by lia. exact Hg.
      * destruct (Hold b kb Hkb) as [Hbm Hlb]. rewrite Hbm, andb_false_r. destruct (memb a g); [|exact Hg].
        replace (Nat.eqb (length (ev_gerr e)) kb) with false by lia. exact Hg.
      * destruct (memb a g), (memb b g); cbn [andb]; try exact Hg.
        rewrite Nat.eqb_refl, app_nth2, Nat.sub_diag by lia. reflexivity.
  - apply (IH (clearErrors e) (fun _ _ => None) (fun _ _ => None)); try assumption.
    + intros a b. reflexivity.
    + intros a b _. reflexivity.
Qed.

Lemma run_sub calls : forall e, ev_wf e -> ev_sub (ev_run calls e) = 100%Z.
Proof. intros e W. apply (wf_sub (run_wf calls W)). Qed.

Lemma rule_slow calls a b : Forall basic calls -> all_ok calls ev_new ->
  slow_val (ev_after calls) a b = rule_price calls a b.
Proof.
  intros Hb Hok.
  destruct (@slow_run calls ev_new (fun _ _ => None) (fun _ _ => None) new_wf Hb Hok) as [Hs Hg].
  { intros x y. reflexivity. } { intros x y _. reflexivity. }
  fold (ev_after calls) in *. unfold slow_val, rule_price. destruct (N.eqb_spec a b) as [|Hne]; [reflexivity|].
  rewrite (Hs a b). destruct (explicit calls a b None); [reflexivity|].
  specialize (Hg a b Hne). rewrite (wf_sub (after_wf calls)).
  assert (Hx : forall k1 k2, find_group (ev_gmap (ev_after calls)) a = k1 -> find_group (ev_gmap (ev_after calls)) b = k2 ->
     match k1, k2 with Some g1, Some g2 => if Nat.eqb g1 g2 then nth g1 (ev_gerr (ev_after calls)) 0%Z else 100%Z | _, _ => 100%Z end
     = match common_group calls a b None with Some v => v | None => 100%Z end /\
     match k2, k1 with Some g1, Some g2 => if Nat.eqb g1 g2 then nth g1 (ev_gerr (ev_after calls)) 0%Z else 100%Z | _, _ => 100%Z end
     = match common_group calls a b None with Some v => v | None => 100%Z end).
  { intros k1 k2 H1 H2. rewrite H1, H2 in Hg. destruct k1 as [k1|], k2 as [k2|]; try (rewrite Hg; now split).
    rewrite (Nat.eqb_sym k2 k1). destruct (Nat.eqb_spec k1 k2) as [->|]; rewrite Hg; now split. }
  destruct (Hx _ _ eq_refl eq_refl) as [Hx1 Hx2].
  destruct (N.le_ge_cases a b) as [Hle|Hle].
  - rewrite N.max_r, N.min_l by exact Hle. exact Hx2.
  - rewrite N.max_l, N.min_r by exact Hle. exact Hx1.
Qed.

(** The two rules agree when pairs stay. *)
Lemma latest_rule calls a b : a <> b -> pairs_stay calls -> forall (fs fg : option Z),
  (fs <> None -> forall g v, In (SetGroupError g v) calls -> memb a g && memb b g = false) ->
  latest calls a b (match fs with Some v => v | None => match fg with Some v => v | None => 100%Z end end) =
  match explicit calls a b fs with Some v => v | None => match common_group calls a b fg with Some v => v | None => 100%Z end end.
Proof.
  intros Hab. induction calls as [|c r IH]; intros Hp fs fg Hno; [reflexivity|].
  assert (Hno' : fs <> None -> forall g v, In (SetGroupError g v) r -> memb a g && memb b g = false).
  { intros Hx g v Hin. apply (Hno Hx g v). now right. }
  destruct c; cbn [latest names explicit common_group pairs_stay] in *; try (apply IH; assumption).
  - destruct Hp as (Hxy & Hg & Hp).
    specialize (IH Hp (if same_pair a b a0 b0 then Some v else fs) fg). unfold same_pair in *.
    destruct ((a =? a0) && (b =? b0) || (a =? b0) && (b =? a0)) eqn:Hs.
    + apply IH. intros _ g v' Hin. specialize (Hg g v' Hin).
      assert (Hcase : (a = a0 /\ b = b0) \/ (a = b0 /\ b = a0)) by lia. destruct Hcase as [[-> ->]|[-> ->]]; [exact Hg|].
      now rewrite andb_comm.
    + apply IH. exact Hno'.
  - specialize (IH Hp fs (if memb a g && memb b g then Some v else fg)).
    replace (negb (a =? b)) with true by lia. rewrite andb_true_r.
    destruct (memb a g && memb b g) eqn:Hm; [|apply IH; exact Hno'].
    destruct fs as [v0|]; [|apply IH; exact Hno'].
    specialize (Hno ltac:(discriminate) g v (or_introl eq_refl)). congruence.
  - replace (a =? b) with false by lia. apply (IH Hp None None). congruence.
Qed.

Lemma latest_self calls a acc : (forall v, ~ In (SetError a a v) calls) -> acc = 0%Z -> latest calls a a acc = 0%Z.
Proof.
  revert acc. induction calls as [|c r IH]; intros acc Hn Hacc; [exact Hacc|].
  assert (Hr : forall v, ~ In (SetError a a v) r) by (intros v Hin; apply (Hn v); now right).
  destruct c; cbn [latest names]; try (apply IH; [exact Hr|exact Hacc]).
  - apply IH; [exact Hr|]. unfold same_pair. destruct ((a =? a0) && (a =? b) || (a =? b) && (a =? a0)) eqn:Hs; [|exact Hacc].
    exfalso. apply (Hn v). left. f_equal; lia.
  - apply IH; [exact Hr|]. rewrite N.eqb_refl, andb_false_r. exact Hacc.
  - apply IH; [exact Hr|]. now rewrite N.eqb_refl.
Qed.

Lemma pairs_stay_self calls a v : pairs_stay calls -> ~ In (SetError a a v) calls.
Proof.
  induction calls as [|c r IH]; intros Hp Hin; [destruct Hin|].
  destruct Hin as [->|Hin].
  - cbn in Hp. destruct Hp as (Hne & _). congruence.
  - apply IH; [|exact Hin]. destruct c; cbn in Hp; try exact Hp. apply Hp.
Qed.

Lemma rule_all calls a b : Forall basic calls -> all_ok calls ev_new -> pairs_stay calls ->
  getSubstituteError (ev_after calls) a b = Ok (rule_price calls a b).
Proof.
  intros Hb Hok Hp. rewrite get_val by apply after_wf. f_equal. unfold ev_val.
  destruct ((a <? 512) && (b <? 512)) eqn:Hlt; [|now apply rule_slow].
  unfold ev_after. rewrite latest_run by (try apply new_wf; try assumption; lia). rewrite lut_at_new by lia.
  unfold rule_price. destruct (N.eqb_spec a b) as [->|Hne].
  - apply latest_self; [|reflexivity]. intros v. now apply pairs_stay_self.
  - apply (@latest_rule calls a b Hne Hp None None). congruence.
Qed.

Lemma price_large calls a b : Forall basic calls -> all_ok calls ev_new -> 512 <= a \/ 512 <= b ->
  getSubstituteError (ev_after calls) a b = Ok (rule_price calls a b).
Proof.
  intros Hb Hok Hl. rewrite get_slow by exact Hl. rewrite slow_ok by apply after_wf. f_equal. now apply rule_slow.
Qed.

(** ** Self price in every history *)
Definition self0 (e : errvals) (a : N) : Prop := a < 512 -> lut_at e a a = 0%Z.
Lemma setError_self0 e x y v a : (x <> a \/ y <> a) -> self0 e a -> self0 (setError x y v e) a.
Proof. intros Hn H Ha. rewrite setError_lut by exact Ha. unfold same_pair. ift false. now apply H. Qed.
Lemma group_self0 e g v a : ev_wf e -> self0 e a -> self0 (fst (setGroupError g v e)) a.
Proof.
  intros W H Ha. destruct (setGroupError_spec g v W) as (e' & [(He & _ & Hl & _)|(He & _ & Hl & _)] & _); rewrite He; cbn [fst].
  - rewrite Hl by exact Ha. rewrite N.eqb_refl, andb_false_r. now apply H.
  - unfold lut_at. rewrite Hl. now apply H.
Qed.
Lemma pairs_self0 ps a : forallb (fun p => negb (fst (fst p) =? snd (fst p))) ps = true ->
  forall e, self0 e a -> self0 (set_pairs ps e) a.
Proof.
  induction ps as [|p r IH]; intros Hf e H; [exact H|]. cbn in Hf |- *. apply andb_true_iff in Hf as [Hp Hf]. apply IH; [exact Hf|]. apply setError_self0; [lia|exact H].
Qed.
Lemma accents_self0 a ls : forall e, ev_wf e /\ self0 e a -> ev_wf (fst (addAccents ls e)) /\ self0 (fst (addAccents ls e)) a.
Proof.
  induction ls as [|g r IH]; intros e W; cbn [addAccents]; [exact W|].
  apply (@mbind_fst_inv _ _ _ (fun e => ev_wf e /\ self0 e a)); [|intros _ s' W'; now apply IH].
  destruct g; [exact W|]. split; [now apply group_wf|now apply group_self0].
Qed.
Lemma do_self0 c e a : (forall v, c <> SetError a a v) -> ev_wf e /\ self0 e a ->
  ev_wf (fst (ev_do c e)) /\ self0 (fst (ev_do c e)) a.
Proof.
  intros Hc [W H]. split; [now apply do_wf|]. destruct c; cbn [ev_do]; unfold pure; cbn [fst]; try exact H.
  - apply setError_self0; [|exact H].
    destruct (N.eq_dec a0 a) as [->|]; [|now left]. destruct (N.eq_dec b a) as [->|]; [|now right].
    exfalso. now apply (Hc v).
  - now apply group_self0.
  - now apply accents_self0.
  - rewrite kb_pairs. apply pairs_self0; [reflexivity|exact H].
  - rewrite pad_pairs. apply pairs_self0; [reflexivity|exact H].
  - unfold addStandardErrors.
    assert (Hx : ev_wf (fst (addStandardErrors latin greek e)) /\ self0 (fst (addStandardErrors latin greek e)) a).
    { unfold addStandardErrors.
      apply (@mbind_fst_inv _ _ _ (fun e => ev_wf e /\ self0 e a)); [now apply accents_self0|]. intros _ s1 W1.
      apply (@mbind_fst_inv _ _ _ (fun e => ev_wf e /\ self0 e a)); [now apply accents_self0|]. intros _ s2 [W2 H2].
      cbn [fst]. rewrite kb_pairs. split; [now apply pairs_wf|apply pairs_self0; [reflexivity|exact H2]]. }
    apply Hx.
  - intros Ha. rewrite lut_at_clear by exact Ha. now rewrite N.eqb_refl.
Qed.
Lemma run_self0 calls a : (forall v, ~ In (SetError a a v) calls) -> forall e, ev_wf e /\ self0 e a ->
  ev_wf (ev_run calls e) /\ self0 (ev_run calls e) a.
Proof.
  induction calls as [|c r IH]; intros Hn e H; [exact H|].
  apply IH; [intros v Hin; apply (Hn v); now right|]. apply do_self0; [|exact H].
  intros v ->. apply (Hn v). now left.
Qed.
Lemma self_zero calls a : (forall v, ~ In (SetError a a v) calls) ->
  getSubstituteError (ev_after calls) a a = Ok 0%Z.
Proof.
  intros Hn. destruct (@run_self0 calls a Hn ev_new) as [W H].
  { split; [apply new_wf|]. intros Ha. rewrite lut_at_new by exact Ha. now rewrite N.eqb_refl. }
  fold (ev_after calls) in *. rewrite get_val by exact W. f_equal. unfold ev_val.
  destruct ((a <? 512) && (a <? 512)) eqn:Hl; [apply H; lia|]. unfold slow_val. now rewrite N.eqb_refl.
Qed.
(** With an explicit self price the code answers it for small letters only. *)
Lemma self_small calls a v : a < 512 -> getSubstituteError (ev_after (calls ++ [SetError a a v])) a a = Ok v.
Proof.
  intros Ha. rewrite get_fast by exact Ha. unfold ev_after, ev_run. rewrite fold_left_app. cbn [fold_left ev_do pure fst].
  rewrite setError_lut by exact Ha. unfold same_pair. now ift true.
Qed.
Lemma self_large calls a : 512 <= a -> getSubstituteError (ev_after calls) a a = Ok 0%Z.
Proof. intros Ha. rewrite get_slow by lia. unfold substituteErrorSlow. now rewrite N.eqb_refl. Qed.

(** ** clearErrors *)
Lemma clear_forgets calls a b :
  getSubstituteError (ev_after (calls ++ [ClearErrors])) a b = getSubstituteError ev_new a b
  /\ isInGroup (ev_after (calls ++ [ClearErrors])) a = false.
Proof.
  pose proof (after_wf calls) as W. unfold ev_after, ev_run. rewrite fold_left_app. cbn [fold_left ev_do pure fst].
  fold (ev_run calls ev_new). fold (ev_after calls). split; [|reflexivity].
  rewrite !get_val by (try apply clear_wf; try exact W; apply new_wf). f_equal. unfold ev_val.
  destruct ((a <? 512) && (b <? 512)) eqn:Hl.
  - rewrite lut_at_clear, lut_at_new by lia. now rewrite (wf_sub W).
  - unfold slow_val. destruct (a =? b); [reflexivity|]. cbn [clearErrors with_lut with_gmap with_gerr with_single ev_single ev_gmap ev_sub find_single find_group find].
    apply (wf_sub W).
Qed.
(** ... and behaves like a new object ever after, as far as substitutions go. *)
Definition sub_equiv (e e' : errvals) : Prop :=
  ev_single e = ev_single e' /\ ev_gmap e = ev_gmap e' /\ ev_gerr e = ev_gerr e' /\ ev_sub e = ev_sub e' /\
  (forall a b, a < 512 -> b < 512 -> lut_at e a b = lut_at e' a b).
Lemma sub_equiv_get e e' a b : sub_equiv e e' -> getSubstituteError e a b = getSubstituteError e' a b.
Proof.
  intros (H1 & H2 & H3 & H4 & H5). unfold getSubstituteError, LUT_LETTERS.
  destruct ((a <? 512) && (b <? 512)) eqn:Hl.
  - specialize (H5 a b ltac:(lia) ltac:(lia)). unfold lut_at in H5. now rewrite H5.
  - unfold substituteErrorSlow. now rewrite H1, H2, H3, H4.
Qed.

(** ** Groups *)
Lemma group_call calls g v :
  (snd (ev_do (SetGroupError g v) (ev_after calls)) = Throw ERuntime <-> exists l, In l g /\ isInGroup (ev_after calls) l = true) /\
  (snd (ev_do (SetGroupError g v) (ev_after calls)) = Ok tt <-> forall l, In l g -> isInGroup (ev_after calls) l = false).
Proof.
  assert (Hm : forall l, memb l g = true <-> In l g).
  { intros l. unfold memb. rewrite existsb_exists. split; [intros (x & Hx & He); apply N.eqb_eq in He; now subst|].
    intros H. exists l. split; [exact H|apply N.eqb_refl]. }
  cbn [ev_do].
  destruct (setGroupError_spec g v (after_wf calls)) as (e' & [(He & Hn & _)|(He & (l & Hl & Hin) & _)] & _); rewrite He; cbn [snd].
  - split; split; intros H; try discriminate; try reflexivity.
    + destruct H as (l & Hl & Hi). apply Hm in Hl. rewrite Hn in Hi by exact Hl. discriminate.
    + intros l Hl. apply Hn. now apply Hm.
  - split; split; intros H; try discriminate; try reflexivity.
    + exists l. split; [now apply Hm|exact Hin].
    + apply Hm in Hl. rewrite H in Hin by exact Hl. discriminate.
Qed.

(** Once grouped, grouped until the next clearErrors. *)
Lemma mono_map e e' : (forall l, isInGroup e l = true -> isInGroup e' l = true) ->
  forall e'', (forall l, isInGroup e' l = true -> isInGroup e'' l = true) -> forall l, isInGroup e l = true -> isInGroup e'' l = true.
Proof. auto. Qed.
Lemma group_keeps e g v l : ev_wf e -> isInGroup e l = true -> isInGroup (fst (setGroupError g v e)) l = true.
Proof.
  intros W. unfold isInGroup. destruct (find_group (ev_gmap e) l) as [k|] eqn:Hk; [|discriminate]. intros _.
  destruct (setGroupError_spec g v W) as (e' & [(He & _ & _ & Hm)|(He & _ & _ & done & _ & Hm)] & _); rewrite He; cbn [fst];
    rewrite Hm, Hk; reflexivity.
Qed.
Lemma pairs_gmap ps : forall e, ev_gmap (set_pairs ps e) = ev_gmap e.
Proof.
  induction ps as [|p r IH]; intros e; [reflexivity|]. cbn. rewrite IH.
  now destruct (setError_maps e (fst (fst p)) (snd (fst p)) (snd p)) as (_ & H & _).
Qed.
Lemma accents_keeps l ls : forall e, ev_wf e /\ isInGroup e l = true ->
  ev_wf (fst (addAccents ls e)) /\ isInGroup (fst (addAccents ls e)) l = true.
Proof.
  induction ls as [|g r IH]; intros e W; cbn [addAccents]; [exact W|].
  apply (@mbind_fst_inv _ _ _ (fun e => ev_wf e /\ isInGroup e l = true)); [|intros _ s' W'; now apply IH].
  destruct g; [exact W|]. split; [now apply group_wf|now apply group_keeps].
Qed.
Lemma do_keeps c e l : c <> ClearErrors -> ev_wf e -> isInGroup e l = true -> isInGroup (fst (ev_do c e)) l = true.
Proof.
  intros Hc W H. destruct c; cbn [ev_do]; unfold pure; cbn [fst]; try exact H; try congruence.
  - unfold isInGroup. destruct (setError_maps e a b v) as (_ & M & _). rewrite M. exact H.
  - now apply group_keeps.
  - now apply accents_keeps.
  - assert (Hx : ev_wf (fst (addStandardErrors latin greek e)) /\ isInGroup (fst (addStandardErrors latin greek e)) l = true).
    { unfold addStandardErrors.
      apply (@mbind_fst_inv _ _ _ (fun e => ev_wf e /\ isInGroup e l = true)); [now apply accents_keeps|]. intros _ s1 W1.
      apply (@mbind_fst_inv _ _ _ (fun e => ev_wf e /\ isInGroup e l = true)); [now apply accents_keeps|]. intros _ s2 [W2 H2].
      cbn [fst]. rewrite kb_pairs. split; [now apply pairs_wf|]. unfold isInGroup. rewrite pairs_gmap. exact H2. }
    apply Hx.
Qed.
Lemma run_app a b e : ev_run (a ++ b) e = ev_run b (ev_run a e).
Proof. apply fold_left_app. Qed.
Lemma grouped_stays calls more l : ~ In ClearErrors more -> isInGroup (ev_after calls) l = true ->
  isInGroup (ev_after (calls ++ more)) l = true.
Proof.
  intros Hn H. unfold ev_after in *. rewrite run_app. pose proof (run_wf calls new_wf) as W. revert Hn W H.
  generalize (ev_run calls ev_new). induction more as [|c r IH]; intros e Hn W H; [exact H|].
  apply IH; [intros Hx; apply Hn; now right|now apply do_wf|]. apply do_keeps; [|exact W|exact H].
  intros ->. apply Hn. now left.
Qed.

(** A successful call prices the pairs of its letters. *)
Lemma memb_in l g : memb l g = true <-> In l g.
Proof.
  unfold memb. rewrite existsb_exists. split; [intros (x & Hx & He); apply N.eqb_eq in He; now subst|].
  intros H. exists l. split; [exact H|apply N.eqb_refl].
Qed.

Lemma pairs_single ps a b : forallb (fun p => (fst (fst p) <? 512) && (snd (fst p) <? 512)) ps = true ->
  512 <= a \/ 512 <= b -> forall e,
  find_single (ev_single (set_pairs ps e)) (N.min a b) (N.max a b) = find_single (ev_single e) (N.min a b) (N.max a b).
Proof.
  intros Hf Hl. induction ps as [|p r IH]; intros e; [reflexivity|]. cbn in Hf |- *. apply andb_true_iff in Hf as [Hp Hf].
  rewrite IH by exact Hf. destruct (setError_maps e (fst (fst p)) (snd (fst p)) (snd p)) as (M & _). rewrite M, find_single_cons.
  now ift false.
Qed.
Lemma accents_single (P : list (N * N * Z) -> Prop) ls : forall e, ev_wf e /\ P (ev_single e) ->
  ev_wf (fst (addAccents ls e)) /\ P (ev_single (fst (addAccents ls e))).
Proof.
  induction ls as [|g r IH]; intros e W; cbn [addAccents]; [exact W|].
  apply (@mbind_fst_inv _ _ _ (fun e => ev_wf e /\ P (ev_single e))); [|intros _ s' W'; now apply IH].
  destruct g as [|l g]; [exact W|].
  destruct (setGroupError_spec (l :: g) DEFAULT_GROUP_ERROR (proj1 W)) as (e' & [(He & _)|(He & _)] & Hs & _ & _ & W'); rewrite He;
    cbn [fst]; rewrite Hs; (split; [exact W'|apply W]).
Qed.
Lemma no_single calls a b : 512 <= a \/ 512 <= b -> no_explicit calls a b -> forall e, ev_wf e ->
  find_single (ev_single e) (N.min a b) (N.max a b) = None ->
  find_single (ev_single (ev_run calls e)) (N.min a b) (N.max a b) = None.
Proof.
  intros Hl. induction calls as [|c r IH]; intros Hn e W H; [exact H|].
  cbn [ev_run fold_left]. apply IH; [intros v; specialize (Hn v); cbn in Hn; tauto|now apply do_wf|].
  destruct c; cbn [ev_do]; unfold pure; cbn [fst]; try exact H.
  - destruct (setError_maps e a0 b0 v) as (M & _). rewrite M, find_single_cons.
    destruct (_ && _) eqn:Hm; [|exact H]. exfalso.
    destruct (Hn v) as [H1 H2]. assert (Hcase : (a = a0 /\ b = b0) \/ (a = b0 /\ b = a0)) by lia.
    destruct Hcase as [[-> ->]|[-> ->]]; [apply H1|apply H2]; now left.
  - destruct (setGroupError_spec g v W) as (e' & [(He & _)|(He & _)] & Hs & _); rewrite He; cbn [fst]; now rewrite Hs.
  - now apply (accents_single (P := fun s => find_single s (N.min a b) (N.max a b) = None)).
  - rewrite kb_pairs, pairs_single; [exact H|reflexivity|exact Hl].
  - rewrite pad_pairs, pairs_single; [exact H|reflexivity|exact Hl].
  - unfold addStandardErrors.
    assert (Hx : ev_wf (fst (addStandardErrors latin greek e)) /\ find_single (ev_single (fst (addStandardErrors latin greek e))) (N.min a b) (N.max a b) = None).
    { set (P := fun s => find_single s (N.min a b) (N.max a b) = None). unfold addStandardErrors.
      apply (@mbind_fst_inv _ _ _ (fun e => ev_wf e /\ P (ev_single e))); [now apply accents_single|]. intros _ s1 W1.
      apply (@mbind_fst_inv _ _ _ (fun e => ev_wf e /\ P (ev_single e))); [now apply accents_single|]. intros _ s2 [W2 H2].
      cbn [fst]. rewrite kb_pairs. split; [now apply pairs_wf|]. unfold P. rewrite pairs_single; [exact H2|reflexivity|exact Hl]. }
    apply Hx.
  - reflexivity.
Qed.

Lemma group_prices calls g v a b : snd (ev_do (SetGroupError g v) (ev_after calls)) = Ok tt ->
  In a g -> In b g -> a <> b -> (a < 512 /\ b < 512) \/ no_explicit calls a b ->
  getSubstituteError (ev_after (calls ++ [SetGroupError g v])) a b = Ok v.
Proof.
  intros Hok Ha Hb Hne Hc. pose proof (after_wf calls) as W.
  unfold ev_after. rewrite run_app. fold (ev_after calls). cbn [ev_run fold_left ev_do] in *.
  destruct (setGroupError_spec g v W) as (e' & [(He & Hnew & Hl & Hm)|(He & _)] & Hs & Hge & Hsub & W'); rewrite He in *; [|discriminate].
  cbn [fst]. apply memb_in in Ha. apply memb_in in Hb. rewrite get_val by exact W'. f_equal. unfold ev_val.
  destruct ((a <? 512) && (b <? 512)) eqn:Hlt.
  - rewrite Hl by lia. rewrite Ha, Hb. now replace (negb (a =? b)) with true by lia.
  - destruct Hc as [Hc|Hc]; [lia|]. unfold slow_val. replace (a =? b) with false by lia.
    rewrite Hs. unfold ev_after at 1. rewrite (@no_single calls a b) by (try exact Hc; try apply new_wf; try reflexivity; lia).
    assert (Hg : forall l, memb l g = true -> find_group (ev_gmap e') l = Some (length (ev_gerr (ev_after calls)))).
    { intros l Hx. rewrite Hm, Hx. specialize (Hnew l Hx). unfold isInGroup in Hnew. now destruct (find_group _ l). }
    assert (H1 : memb (N.max a b) g = true) by (destruct (N.max_spec a b) as [[_ ->]|[_ ->]]; assumption).
    assert (H2 : memb (N.min a b) g = true) by (destruct (N.min_spec a b) as [[_ ->]|[_ ->]]; assumption).
    rewrite !Hg by assumption. rewrite Nat.eqb_refl, Hge, app_nth2, Nat.sub_diag by lia. reflexivity.
Qed.

(** A setGroupError that throws changes no price of letters below 512. *)
Lemma throw_keeps calls g v a b : snd (ev_do (SetGroupError g v) (ev_after calls)) <> Ok tt -> a < 512 -> b < 512 ->
  getSubstituteError (ev_after (calls ++ [SetGroupError g v])) a b = getSubstituteError (ev_after calls) a b.
Proof.
  intros Hok Ha Hb. rewrite !get_fast by assumption. f_equal. pose proof (after_wf calls) as W.
  unfold ev_after. rewrite run_app. fold (ev_after calls). cbn [ev_run fold_left ev_do] in *.
  destruct (setGroupError_spec g v W) as (e' & [(He & _)|(He & _ & Hl & _)] & _); rewrite He in *; [cbn in Hok; congruence|].
  cbn [fst]. unfold lut_at. now rewrite Hl.
Qed.

(** ** Keyboard and number pad *)
Lemma keyboard_is_pairs calls : ev_after (calls ++ [AddKeyboardErrors]) = ev_after (calls ++ map pair_call kb_calls).
Proof. unfold ev_after. rewrite !run_app. cbn [ev_run fold_left ev_do pure fst]. rewrite kb_pairs. apply set_pairs_run. Qed.
Lemma pad_is_pairs calls : ev_after (calls ++ [AddNumberpadErrors]) = ev_after (calls ++ map pair_call pad_calls).
Proof. unfold ev_after. rewrite !run_app. cbn [ev_run fold_left ev_do pure fst]. rewrite pad_pairs. apply set_pairs_run. Qed.

Lemma key_prices_ok : exists l : list (N * N * Z), forall calls,
  ev_after (calls ++ [AddKeyboardErrors]) = ev_after (calls ++ map (fun x => SetError (fst (fst x)) (snd (fst x)) (snd x)) l).
Proof. exists kb_calls. intros calls. apply keyboard_is_pairs. Qed.
Lemma pad_prices_ok : exists l : list (N * N * Z), forall calls,
  ev_after (calls ++ [AddNumberpadErrors]) = ev_after (calls ++ map (fun x => SetError (fst (fst x)) (snd (fst x)) (snd x)) l).
Proof. exists pad_calls. intros calls. apply pad_is_pairs. Qed.

Lemma pairs_get ps : forallb (fun p => negb (fst (fst p) =? snd (fst p))) ps = true -> forall e a b, ev_wf e ->
  getSubstituteError (set_pairs ps e) a b =
  fold_left (fun o p => if same_pair a b (fst (fst p)) (snd (fst p)) then Ok (snd p) else o) ps (getSubstituteError e a b).
Proof.
  induction ps as [|p r IH]; intros Hf e a b W; [reflexivity|]. cbn [forallb fold_left set_pairs] in *.
  apply andb_true_iff in Hf as [Hp Hf].
  fold (set_pairs r (setError (fst (fst p)) (snd (fst p)) (snd p) e)). rewrite IH by (try apply setError_wf; assumption).
  f_equal. rewrite !get_val by (try apply setError_wf; exact W). unfold ev_val.
  destruct ((a <? 512) && (b <? 512)) eqn:Hl.
  - rewrite setError_lut by lia. unfold same_pair. destruct (_ || _) eqn:Hs; [|now rewrite andb_false_r].
    now replace ((fst (fst p) <? 512) && (snd (fst p) <? 512)) with true by lia.
  - rewrite slow_val_setError. destruct (N.eqb_spec a b) as [->|Hne].
    + unfold same_pair. ift false. unfold slow_val. now rewrite N.eqb_refl.
    + now destruct (same_pair _ _ _ _).
Qed.
