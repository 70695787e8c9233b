(** onlineMatch: the document that is what was typed comes first. *)
From Verif Require Import Base TrieM TrieA TrieP TrieP2 TrieD WordStoreM Spec_Hist TrieH WordStoreP ErrorValuesM LevIndexM
  Spec_Edit Spec_EV Spec_Lev EVP EditP HitsP LevP WordM MapM DoubleM FloatP ContM MatcherM MapP Spec_Cont ContP Spec_Match MatchP MatchQ MatchR MatchS MatchT MatchU MatchW MatchZ Spec_First.
From Coq Require Import Reals Lra Permutation.
From Flocq Require Import Core.Core IEEE754.BinarySingleNaN.
From Verif Require Import DoubleM FloatQ FloatR FloatS.
From Coq Require Import ZifyBool ZifyN ZifyNat.
Local Open Scope N_scope.

(** A larger relevancy is at an earlier place. *)
Lemma ranked_before view i j a b : ranked view -> nth_error view i = Some a -> nth_error view j = Some b -> d_lt (fst b) (fst a) = true -> (i < j)%nat.
Proof.
  intros Hr. revert i j. induction Hr as [|x l Hl IH Hx]; intros i j Hi Hj Hlt; [destruct i; discriminate|].
  assert (Nan : forall u v : DoubleM.double, d_lt u v = true -> is_nan u = false /\ is_nan v = false).
  { intros u v. destruct u as [s|s| |s k e], v as [s'|s'| |s' k' e']; try (now split); try destruct s; try destruct s'; try discriminate; now split. }
  assert (Asym : forall u v : DoubleM.double, d_lt u v = true -> d_lt v u = true -> False).
  { intros u v H1 H2. destruct (Nan _ _ H1) as [Hu Hv]. pose proof (@fine_asym (u, 0) (v, 0)) as F. cbn in F. rewrite F in H2; [discriminate|exact Hu|exact Hv|exact H1]. }
  destruct i as [|i], j as [|j]; cbn in Hi, Hj.
  - injection Hi as <-. injection Hj as <-. destruct (Asym _ _ Hlt Hlt).
  - lia.
  - exfalso. injection Hj as <-. rewrite Forall_forall in Hx. specialize (Hx _ (nth_error_In _ _ Hi)). destruct Hx as [Hx|(Hx & Hx' & _)]; [exact (Asym _ _ Hx Hlt)|congruence].
  - specialize (IH i j Hi Hj Hlt). lia.
Qed.

Section First.
Variables (E : env) (calls : list m_call).
Hypothesis SS : sound_setup E calls.
Hypothesis RW : real_weights calls.
Let o := occ calls.
Let wt := weight_after calls.
Lemma scored_light order q d y : light calls q d -> scored o order (hit (prices_after calls) sp_new) q sp_new wt d y -> exists s, val y s /\ (0 <= s <= 99)%R.
Proof.
  intros (K & hits & Hh & HW & HK & Hl) (x & xs & [Sx Px] & ->).
  assert (Hin : forall f w err, In (f, w, err) (x :: xs) -> In (f, w) hits).
  { intros f w err Hi. apply Px in Hi as (H1 & _ & (qw & Hq & H3) & _). exact (Hh f w qw err H1 Hq (hit_near H3)). }
  assert (Hlen : (length (x :: xs) <= length hits)%nat).
  { rewrite <- (map_length fst (x :: xs)). apply NoDup_incl_length; [exact (sorted_nodup Sx)|]. intros [f w] Hi. apply in_map_iff in Hi as ([[f' w'] err] & He & Hi).
    cbn in He. injection He as -> ->. exact (Hin _ _ _ Hi). }
  cbn [length] in Hlen.
  assert (HK53 : (K <= 2 ^ 53)%Z) by nia.
  assert (VK : val (d_of_Z K) (IZR K)) by (apply of_Z_val; rewrite Z.abs_eq; [exact HK53|exact HK]).
  assert (G : forall z, In z (x :: xs) -> exists r, val (contribution o wt z) r /\ (0 <= r <= IZR K)%R).
  { intros [[f w] err] Hz. pose proof (Hin _ _ _ Hz) as Hi. apply Px in Hz as (H1 & H2 & (qw & Hq & H3) & _). destruct (weight_ok SS RW f) as [Hg Hd].
    destruct (weight_val Hg Hd) as (s & Hs & H0). destruct (@contribution_val o wt f w err s (hit_range_calls SS H3) (max_small SS f) Hs H0) as [V B].
    eexists. split; [exact V|]. destruct (HW f w Hi) as (_ & _ & Hlt). rewrite (val_lt VK Hs) in Hlt. destruct (Rlt_bool_spec (IZR K) s); [discriminate|]. lra. }
  destruct (G x (or_introl eq_refl)) as (r0 & V0 & B0).
  assert (Hl2 : (K * (1 + Z.of_nat (length xs)) <= 99)%Z) by nia.
  destruct (@sum_bound (contribution o wt) K xs HK (fun z Hz => G z (or_intror Hz)) _ r0 1%Z V0) as (s & Vs & Bs); [lia|now rewrite Z.mul_1_r|lia|].
  exists s. split; [exact Vs|]. split; [lra|]. apply Rle_trans with (1 := proj2 Bs). now apply IZR_le.
Qed.
Lemma scored_pos order q d y : scored o order (hit (prices_after calls) sp_new) q sp_new wt d y -> pos y.
Proof.
  intros (x & xs & [Sx Px] & ->).
  assert (G : forall z, In z (x :: xs) -> pos (contribution o wt z)).
  { intros [[f w] err] Hz. apply Px in Hz as (_ & _ & (qw & Hq & H3) & _). exact (contribution_pos SS RW f w (hit_range_calls SS H3)). }
  clear Sx Px. assert (F : forall zs a, (forall z, In z zs -> pos (contribution o wt z)) -> pos a -> pos (fold_left (fun s z => d_add s (contribution o wt z)) zs a)).
  { induction zs as [|z zs IH]; intros a Hz Ha; [exact Ha|]. cbn. apply IH; [intros u Hu; apply Hz; now right|].
    exact (ple_r (proj1 (@ple_more _ _ Ha (Hz z (or_introl eq_refl))))). }
  apply F; [intros z Hz; apply G; now right|apply G; now left].
Qed.
(** Points for exact words. *)
Lemma points n : (0 <= n <= 2 ^ 51)%Z -> val (d_of_Z (2 * n)) (IZR (2 * n)) /\ val (d_add (d_of_Z (2 * n)) (d_of_Z 100)) (IZR (2 * n + 100)).
Proof.
  intros Hn. assert (V : val (d_of_Z (2 * n)) (IZR (2 * n))) by (apply of_Z_val; lia). split; [exact V|].
  assert (R : rnd (IZR (2 * n) + IZR 100) = IZR (2 * n + 100)) by (rewrite <- plus_IZR; apply fmt_small; lia).
  rewrite <- R. apply val_add; [exact V|apply of_Z_val; lia|]. rewrite R. apply (@val_big (d_of_Z (2 * n + 100))). apply of_Z_val. lia.
Qed.
Lemma filter_short {A} (g : A -> bool) l : (length (filter g l) <= length l)%nat.
Proof. induction l as [|x l IH]; cbn; [lia|destruct (g x); cbn; lia]. Qed.
Lemma filter_none {A} (g : A -> bool) l : (forall x, In x l -> g x = false) -> filter g l = [].
Proof. induction l as [|x l IH]; intros H; [reflexivity|]. cbn. rewrite (H x) by now left. apply IH. intros y Hy. apply H. now right. Qed.

Variables (m : matcher) (q : list word) (f : word) (D : document).
Hypothesis SQ : sound_query calls q.
Hypothesis HH : history E calls m.
Hypothesis Hw : Forall whole calls.
Hypothesis Hids : NoDup (map doc_getID (corpora calls)).
Hypothesis Hq : q <> [].
Hypothesis Hnd : NoDup q.
Hypothesis Hlen : (Z.of_nat (length q) <= 2 ^ 51)%Z.
Let part d := exact_part (last_size (indexed calls) d f None) (N.of_nat (length q)) (exact_count o f q d).
Lemma text_of_occ D' w : In D' (corpora calls) -> In (doc_getID D', f, w) o -> exists t, doc_getText D' f = Ok t.
Proof.
  intros HD Hin. unfold o, occ in Hin. rewrite indexed_whole in Hin by exact Hw. apply occs_in in Hin. apply in_flat_map in Hin as (D'' & HD'' & Hin).
  assert (D'' = D').
  { apply plan_ids in Hin. clear - Hin HD'' HD Hids. induction (corpora calls) as [|x l IH]; [destruct HD|]. cbn [map] in Hids. apply NoDup_cons_iff in Hids as [Hx Hn'].
    destruct HD as [->|H1], HD'' as [->|H2]; [reflexivity|destruct Hx; rewrite Hin; now apply in_map|destruct Hx; rewrite <- Hin; now apply in_map|now apply IH]. }
  subst D''. apply in_plan in Hin as (_ & _ & t & Ht & _). now exists t.
Qed.
Lemma other_part D' : In D' (corpora calls) -> ~ reads_as D' f q -> exists s, val (part (doc_getID D')) s /\ (0 <= s <= IZR (2 * Z.of_nat (length q)))%R.
Proof.
  intros HD Hno. unfold part. destruct (N.eq_dec (exact_count o f q (doc_getID D')) 0) as [Hz|Hz].
  - rewrite Hz. exists 0%R. split; [exact zero_val|]. split; [lra|]. apply IZR_le. lia.
  - destruct (@exact_count_pos q f o (doc_getID D') Hz) as (w & _ & Ho). destruct (text_of_occ HD Ho) as (t & Ht).
    destruct (online_bonus Hw (ss_clean SS) Hids HD Ht Hq Hnd) as [[Hp _]|[_ Hx]]; [destruct Hno; now exists t|].
    fold o in Hx. rewrite Hx. set (k := filter _ q). pose proof (filter_short (fun w => existsb (weqb w) t) q) as Hk. fold k in Hk.
    destruct (@points (Z.of_nat (length k))) as [V _]; [lia|]. eexists. split; [exact V|]. split; apply IZR_le; lia.
Qed.
Lemma typed_part : In D (corpora calls) -> reads_as D f q -> val (part (doc_getID D)) (IZR (2 * Z.of_nat (length q) + 100)) /\ exact_count o f q (doc_getID D) <> 0.
Proof.
  intros HD (t & Ht & Hp). unfold part.
  destruct (online_bonus Hw (ss_clean SS) Hids HD Ht Hq Hnd) as [[_ Hx]|[Hn _]]; [|contradiction]. fold o in Hx.
  assert (Hk : filter (fun w => existsb (weqb w) t) q = q).
  { assert (Hi : forall w, In w q -> existsb (weqb w) t = true) by (intros w Hin; apply existsb_exists; exists w; split; [exact (Permutation_in _ Hp Hin)|apply weqb_refl]).
    clear - Hi. induction q as [|x l IH]; [reflexivity|]. cbn. rewrite (Hi x) by now left. f_equal. apply IH. intros y Hy. apply Hi. now right. }
  rewrite Hx. rewrite Hk. split; [apply points; lia|]. intros Hz. rewrite Hz in Hx. rewrite Hk in Hx. unfold exact_part in Hx. rewrite N.eqb_refl in Hx.
  destruct (@points (Z.of_nat (length q))) as [_ V]; [lia|]. rewrite <- Hx in V. pose proof zero_val as V0. pose proof (val_lt V0 V) as HL.
  rewrite Rlt_bool_true in HL; [discriminate|]. apply IZR_lt. lia.
Qed.
Lemma typed_first : In D (corpora calls) -> reads_as D f q ->
  exists r i, mt_onlineMatch E q f m = (m, Ok r) /\ at_place r i (doc_getID D) /\
    forall D' j, In D' (corpora calls) -> ~ reads_as D' f q -> light calls q (doc_getID D') -> at_place r j (doc_getID D') -> i < j.
Proof.
  intros HD Hr. destruct (typed_part HD Hr) as [VD Hc]. destruct (the_log SS HH) as [l H].
  assert (Hf : In f (map said (indexed calls))).
  { destruct (@exact_count_pos q f o (doc_getID D) Hc) as (w & _ & Ho). destruct (text_of_occ HD Ho) as (t & Ht).
    rewrite indexed_whole by exact Hw. pose proof (corpus_ok (ss_clean SS) HD) as Hok. apply in_map_iff. exists (SField (doc_getID D) f (N.of_nat (length t))). split; [reflexivity|].
    apply in_flat_map. exists D. split; [exact HD|]. unfold plan_doc, doc_getFieldNames. cbn [fst app]. apply in_flat_map. exists f. split; [exact (text_named Hok Ht)|]. rewrite Ht. now left. }
  destruct (online_known H SS SQ (known_said H Hf)) as (r & Hon & view & Hs & Hk & _ & Hm).
  assert (Hx : exists x, In (x, doc_getID D) view).
  { destruct (rel_spec H SS sp_new SQ) as (docs & _ & Hsd & Hd & _). destruct (mp_find N.ltb (doc_getID D) docs) as [y|] eqn:Hy.
    - apply (find_in nltb_order) in Hy; [|exact Hsd]. apply Hd in Hy. eexists. apply Hm. left. exists y. split; [exact Hy|reflexivity].
    - eexists. apply Hm. right. split; [|split; [exact Hc|reflexivity]]. intros y Hn. apply Hd in Hn. apply (find_in nltb_order) in Hn; [congruence|exact Hsd]. }
  destruct Hx as [x Hx]. destruct (In_nth_error _ _ Hx) as [i Hi]. exists r, (N.of_nat i). split; [exact Hon|].
  assert (Hplace : forall k, snd (mr_getDocumentID k r) = match nth_error view (N.to_nat k) with Some z => Ok (snd z) | None => Throw EOutOfRange end).
  { intros k. destruct Hs as [_ Hs]. destruct (Hs k) as (r' & -> & _). reflexivity. }
  unfold at_place. split; [now rewrite Hplace, Nat2N.id, Hi|]. intros D' j HD' Hno Hlight Hj.
  rewrite Hplace in Hj. destruct (nth_error view (N.to_nat j)) as [[x' d']|] eqn:Hn; [|discriminate]. cbn in Hj. injection Hj as ->.
  cut (i < N.to_nat j)%nat; [lia|]. apply (ranked_before Hk Hi Hn). cbn [fst].
  assert (Bx : ple (part (doc_getID D)) x).
  { assert (Pp : pos (part (doc_getID D))) by (right; eexists; split; [exact VD|]; apply IZR_le; lia).
    apply Hm in Hx as [(y & Hy & ->)|(_ & _ & ->)]; [|now apply ple_refl]. apply ple_more; [exact Pp|exact (scored_pos Hy)]. }
  assert (Bx' : exists s, val x' s /\ (0 <= s <= IZR (2 * Z.of_nat (length q) + 99))%R).
  { destruct (other_part HD' Hno) as (s & Vs & Bs). assert (B99 : (IZR (2 * Z.of_nat (length q)) + 99 = IZR (2 * Z.of_nat (length q) + 99))%R) by now rewrite plus_IZR.
    apply nth_error_In in Hn. apply Hm in Hn as [(y & Hy & ->)|(_ & _ & ->)]; [|exists s; split; [exact Vs|lra]].
    destruct (scored_light Hlight Hy) as (u & Vu & Bu).
    assert (Br : (0 <= rnd (s + u) <= IZR (2 * Z.of_nat (length q) + 99))%R).
    { split; [rewrite <- rnd_0; apply rnd_le; lra|]. rewrite <- (@fmt_small (2 * Z.of_nat (length q) + 99)) by lia. apply rnd_le. lra. }
    exists (rnd (s + u)). split; [|exact Br]. apply val_add; [exact Vs|exact Vu|]. rewrite Rabs_pos_eq by lra.
    apply Rle_lt_trans with (1 := proj2 Br). rewrite <- (Rabs_pos_eq (IZR (2 * Z.of_nat (length q) + 99))) by lra. apply (@val_big (d_of_Z (2 * Z.of_nat (length q) + 99))). apply of_Z_val. lia. }
  destruct Bx' as (s' & Vs' & Bs'). destruct Bx as [[_ ->]|(a & b & Va & Vb & Hab)].
  - destruct Vs' as (c & -> & Fc & _). destruct c as [c|c| |c k e He]; try discriminate; try reflexivity; destruct c; reflexivity.
  - rewrite (val_lt Vs' Vb). apply Rlt_bool_true. assert (a = IZR (2 * Z.of_nat (length q) + 100)).
    { destruct Va as (c & Hc1 & _ & <-), VD as (c' & Hc2 & _ & <-). rewrite Hc1 in Hc2. now rewrite (B2SF_inj _ _ _ _ Hc2). }
    subst a. assert (IZR (2 * Z.of_nat (length q) + 99) < IZR (2 * Z.of_nat (length q) + 100))%R by (apply IZR_lt; lia). lra.
Qed.
End First.
