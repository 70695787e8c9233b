(** Proofs about ErrorValues objects that run out of memory. *)
From Verif Require Import Base TrieM WordM MapM DoubleM ContM OwnM OomM ErrorValuesM Spec_EV EVP EVE EVK EvOomM Spec_EvOom.
From Coq Require Import ZifyBool ZifyN ZifyNat.
Local Open Scope N_scope.

Lemma need_cases e m : (exists m', need e m = (e, m', Val tt) /\ live m' = live m /\ (plan m = [] -> m' = m)) \/
  (exists m', need e m = (e, m', Fail OutOfMemory) /\ live m' = live m /\ plan m <> []).
Proof.
  unfold need, apart, tbind, alloc, free. destruct m as [[|[|] p] n]; cbn [plan live].
  - left. eexists. split; [reflexivity|]. cbn. split; [lia|]. intros _. f_equal. lia.
  - left. eexists. split; [reflexivity|]. cbn. split; [lia|discriminate].
  - right. eexists. split; [reflexivity|]. cbn. split; [lia|discriminate].
Qed.

(** ** setError *)
Lemma set_cases x y v e m :
  (exists m', v_setError x y v e m = (setError x y v e, m', Val tt) /\ live m' = live m /\ (plan m = [] -> m' = m)) \/
  (exists m', v_setError x y v e m = (e, m', Fail OutOfMemory) /\ live m' = live m /\ plan m <> []).
Proof.
  unfold v_setError, vbind, vread. cbv zeta. destruct (find_single _ _ _).
  - left. exists m. auto.
  - destruct (need_cases e m) as [(m' & -> & H)|(m' & -> & H)]; [left|right]; exists m'; auto.
Qed.

(** ** Calls that are sequences of setError *)
Definition each_pair (f : V unit) (ps : list (N * N * Z)) : Prop := forall e m,
  (exists m', f e m = (set_pairs ps e, m', Val tt) /\ live m' = live m /\ (plan m = [] -> m' = m)) \/
  (exists k m', f e m = (set_pairs (firstn k ps) e, m', Fail OutOfMemory) /\ live m' = live m /\ plan m <> []).
Lemma ep_ret : each_pair (vret tt) [].
Proof. intros e m. left. exists m. auto. Qed.
Lemma ep_set x y v : each_pair (v_setError x y v) [(x, y, v)].
Proof.
  intros e m. destruct (set_cases x y v e m) as [(m' & H & H2)|(m' & H & H2)]; rewrite H; [left; exists m'; auto|].
  right. exists 0%nat, m'. auto.
Qed.
Lemma ep_seq f g ps qs : each_pair f ps -> each_pair g qs -> each_pair (vbind f (fun _ => g)) (ps ++ qs).
Proof.
  intros F G e m. unfold vbind. destruct (F e m) as [(m1 & -> & L1 & P1)|(k & m1 & -> & L1 & P1)].
  - destruct (G (set_pairs ps e) m1) as [(m2 & -> & L2 & P2)|(k & m2 & -> & L2 & P2)].
    + left. exists m2. rewrite set_pairs_app. split; [reflexivity|]. split; [lia|]. intros H. rewrite (P1 H) in *. auto.
    + right. exists (length ps + k)%nat, m2. rewrite firstn_app_2, set_pairs_app. split; [reflexivity|]. split; [lia|].
      intros H. apply P2. now rewrite (P1 H).
  - right. exists (Nat.min k (length ps)), m1. rewrite firstn_app. replace (Nat.min k (length ps) - length ps)%nat with 0%nat by lia.
    rewrite app_nil_r. split; [|auto]. destruct (Nat.le_gt_cases k (length ps)).
    + now rewrite Nat.min_l by lia.
    + rewrite Nat.min_r by lia. now rewrite firstn_all, (firstn_all2 ps) by lia.
Qed.
Lemma ep_when b f ps : each_pair f ps -> each_pair (v_when b f) (if b then ps else []).
Proof. destruct b; [auto|intros _; apply ep_ret]. Qed.
Lemma ep_each (A : Type) (f : A -> V unit) g l : (forall x, In x l -> each_pair (f x) (g x)) -> each_pair (v_each f l) (flat_map g l).
Proof.
  induction l as [|x r IH]; intros H; [apply ep_ret|]. cbn [v_each flat_map]. apply ep_seq; [apply H; now left|].
  apply IH. intros y Hy. apply H. now right.
Qed.
Lemma ep_pad n ls v : each_pair (v_pad n ls v) (map (fun l => (n, l, v)) ls).
Proof.
  unfold v_pad. replace (map (fun l => (n, l, v)) ls) with (flat_map (fun l => [(n, l, v)]) ls) by (induction ls; cbn; congruence).
  apply ep_each. intros. apply ep_set.
Qed.
Lemma ep_keyboard : each_pair v_keyboard kb_calls.
Proof.
  apply ep_each. intros i _. apply ep_each. intros j _. unfold v_key, kb_calls_at. cbv zeta.
  apply ep_seq; [apply ep_when, ep_set|]. apply ep_seq; [apply ep_when, ep_set|]. apply ep_when, ep_set.
Qed.
Lemma ep_numberpad : each_pair v_numberpad pad_calls.
Proof.
  apply ep_each. intros i _. apply ep_each. intros j _. unfold v_button, pad_calls_at. cbv zeta.
  apply ep_seq; [apply ep_pad|]. repeat (apply ep_seq; [apply ep_when, ep_pad|]). apply ep_when, ep_pad.
Qed.

(** ** Groups *)
Lemma grouped_refl e id : grouped e e id [].
Proof. constructor; try reflexivity. intros k. cbn. now destruct (find_group _ k). Qed.
Lemma loop_cases id : forall ls e m, exists e' m' r done, v_group_loop id ls e m = (e', m', r) /\ live m' = live m /\
  (forall l, memb l done = true -> memb l ls = true) /\ grouped e e' id done /\
  ((r = Val tt /\ group_loop id ls e = (e', Ok tt) /\ (plan m = [] -> m' = m)) \/
   (r = Fail (Thrown ERuntime) /\ group_loop id ls e = (e', Throw ERuntime) /\ (plan m = [] -> m' = m)) \/
   (r = Fail OutOfMemory /\ plan m <> [])).
Proof.
  induction ls as [|l r IH]; intros e m; cbn [v_group_loop group_loop].
  - exists e, m, (Val tt), []. split; [reflexivity|]. split; [reflexivity|]. split; [auto|]. split; [apply grouped_refl|]. left. auto.
  - unfold vbind, vread. destruct (find_group (ev_gmap e) l) as [g|] eqn:Hg.
    + destruct (Nat.eqb_spec g id) as [->|Hne].
      * destruct (IH e m) as (e' & m' & o & done & He & Hl & Hd & G & Hc). exists e', m', o, done.
        split; [exact He|]. split; [exact Hl|]. split; [|auto].
        intros k Hk. cbn [memb existsb]. fold (memb k r). rewrite (Hd k Hk). apply orb_true_r.
      * exists e, m, (Fail (Thrown ERuntime)), []. split; [reflexivity|]. split; [reflexivity|]. split; [discriminate|]. split; [apply grouped_refl|].
        right. left. auto.
    + destruct (need_cases e m) as [(m1 & -> & L1 & P1)|(m1 & -> & L1 & P1)].
      2: { exists e, m1, (Fail OutOfMemory), []. split; [reflexivity|]. split; [exact L1|]. split; [discriminate|]. split; [apply grouped_refl|]. right. right. auto. }
      unfold plainly. set (e1 := with_gmap ((l, id) :: ev_gmap e) e).
      destruct (IH e1 m1) as (e' & m' & o & done & He & Hl & Hd & G & Hc). exists e', m', o, (l :: done).
      split; [exact He|]. split; [lia|]. split; [|split].
      * intros k. cbn [memb existsb]. fold (memb k done) (memb k r). specialize (Hd k). destruct (memb k done); [rewrite Hd by reflexivity; lia|].
        rewrite !orb_false_r. intros ->. reflexivity.
      * constructor; try apply G. intros k. rewrite (gr_map G). cbn [e1 with_gmap ev_gmap]. rewrite find_group_cons.
        cbn [memb existsb]. fold (memb k done). destruct (N.eqb_spec l k) as [->|Hne].
        -- rewrite Hg, N.eqb_refl. reflexivity.
        -- replace (k =? l) with false by lia. reflexivity.
      * assert (Hp : plan m1 <> [] -> plan m <> []) by (intros H1 H2; apply H1; now rewrite (P1 H2)).
        assert (Hq : (plan m1 = [] -> m' = m1) -> plan m = [] -> m' = m) by (intros H1 H2; rewrite (P1 H2) in *; auto).
        destruct Hc as [(-> & H & H3)|[(-> & H & H3)|(-> & H)]]; auto 8.
Qed.

Lemma readable_utf8 g s e m : asUtf8 g = Ok s ->
  (exists m', apart (o_asUtf8 (mkOW (TOwn (g ++ [0])) (N.of_nat (length g)))) e m = (e, m', Val s) /\ live m' = live m /\ (plan m = [] -> m' = m)) \/
  (exists m', apart (o_asUtf8 (mkOW (TOwn (g ++ [0])) (N.of_nat (length g)))) e m = (e, m', Fail OutOfMemory) /\ (live m <= live m' <= live m + 1)%Z /\ plan m <> []).
Proof.
  intros Hs. unfold apart.
  assert (Hr : forall m1, o_read (mkOW (TOwn (g ++ [0])) (N.of_nat (length g))) m1 = (m1, Val g)).
  { intros m1. unfold o_read. cbn [o_len o_text]. destruct (N.eqb_spec (N.of_nat (length g)) 0) as [H|H].
    - destruct g; [reflexivity|cbn in H; lia].
    - rewrite app_length. cbn [length]. replace (_ <? _) with true by lia. unfold val. now rewrite Nat2N.id, firstn_app, Nat.sub_diag, firstn_all, firstn_O, app_nil_r. }
  assert (F : o_asUtf8 (mkOW (TOwn (g ++ [0])) (N.of_nat (length g))) m = (alloc ;;; alloc ;;; free ;;; free ;;; val s)%t m).
  { unfold o_asUtf8, tbind. unfold alloc at 1 3. destruct m as [[|[|] p] n]; cbn [plan live]; try rewrite Hr, Hs; reflexivity. }
  rewrite F. clear Hr F. unfold tbind, alloc, free, val. destruct m as [[|[|] [|[|] p]] n]; cbn [plan live].
  all: first [left; eexists; split; [reflexivity|]; cbn; split; [lia|]; first [discriminate|intros _; f_equal; lia] | right; eexists; split; [reflexivity|]; cbn; split; [lia|discriminate]].
Qed.

(** What is known of an object in whatever state a group call has left it. *)
Record partly (e e' : errvals) (g : word) (v : Z) : Prop := {
  pa_lut : ev_lut e' = ev_lut e;
  pa_single : ev_single e' = ev_single e;
  pa_gerr : ev_gerr e' = ev_gerr e ++ [v];
  pa_sub : ev_sub e' = ev_sub e;
  pa_map : exists done, (forall l, memb l done = true -> memb l g = true) /\ forall l, find_group (ev_gmap e') l =
    match find_group (ev_gmap e) l with Some k => Some k | None => if memb l done then Some (length (ev_gerr e)) else None end
}.
Lemma partly_wf e e' g v : ev_wf e -> partly e e' g v -> ev_wf e'.
Proof.
  intros W [Hl Hs Hg Hu (done & Hd & Hm)]. constructor.
  - intros l k. rewrite Hg, Hm, app_length. cbn [length]. destruct (find_group (ev_gmap e) l) as [k2|] eqn:Hk2.
    + intros [= <-]. pose proof (wf_gid W Hk2). lia.
    + destruct (memb l done); [|discriminate]. intros [= <-]. lia.
  - rewrite Hu. apply (wf_sub W).
  - intros a b Ha Hb. unfold lut_at. rewrite Hl. apply (wf_sym W Ha Hb).
Qed.

(** setGroupError. *)
Lemma vgroup_cases g v s e m : asUtf8 g = Ok s -> exists e' m' r, v_setGroupError g v e m = (e', m', r) /\
  ((r = ended (snd (setGroupError g v e)) /\ e' = fst (setGroupError g v e) /\ live m' = live m /\ (plan m = [] -> m' = m)) \/
   (r = Fail OutOfMemory /\ plan m <> [] /\ e' = fst (setGroupError g v e) /\ snd (setGroupError g v e) = Ok tt /\ (live m <= live m' <= live m + 1)%Z) \/
   (r = Fail OutOfMemory /\ plan m <> [] /\ live m' = live m /\ (e' = e \/ partly e e' g v))).
Proof.
  intros Hs. unfold v_setGroupError, setGroupError, vbind, vread, plainly, mbind, reads.
  destruct (need_cases e m) as [(m1 & -> & L1 & P1)|(m1 & -> & L1 & P1)].
  2: { exists e, m1, (Fail OutOfMemory). split; [reflexivity|]. right. right. auto. }
  set (e1 := with_gerr (ev_gerr e ++ [v]) e).
  destruct (loop_cases (length (ev_gerr e)) g e1 m1) as (e2 & m2 & r & done & -> & L2 & Hd & G & [(-> & -> & P2)|[(-> & -> & P2)|(-> & P2)]]).
  - assert (P : plan m = [] -> m2 = m) by (intros H; rewrite (P1 H) in *; auto).
    destruct (@readable_utf8 g s (addGroupErrorToLUT g v e2) m2 Hs) as [(m3 & -> & L3 & P3)|(m3 & -> & L3 & P3)].
    + exists (addGroupErrorToLUT g v e2), m3, (Val tt). split; [reflexivity|]. left. cbn. split; [reflexivity|]. split; [reflexivity|]. split; [lia|].
      intros H. rewrite (P H) in *. auto.
    + exists (addGroupErrorToLUT g v e2), m3, (Fail OutOfMemory). split; [reflexivity|]. right. left. split; [reflexivity|]. split; [|cbn; repeat split; lia].
      intros H. apply P3. now rewrite (P H).
  - exists e2, m2, (Fail (Thrown ERuntime)). split; [reflexivity|]. left. cbn. split; [reflexivity|]. split; [reflexivity|]. split; [lia|].
    intros H. rewrite (P1 H) in *. auto.
  - exists e2, m2, (Fail OutOfMemory). split; [reflexivity|]. right. right. split; [reflexivity|]. split; [intros H; apply P2; now rewrite (P1 H)|]. split; [lia|]. right.
    constructor; [apply (gr_lut G)|apply (gr_single G)|apply (gr_gerr G)|apply (gr_sub G)|]. exists done. split; [exact Hd|]. apply (gr_map G).
Qed.
