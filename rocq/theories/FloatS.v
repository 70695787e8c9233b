(** Relevancies bounded from above and below. *)
From Verif Require Import Base TrieM TrieA TrieP TrieP2 TrieD WordStoreM Spec_Hist TrieH WordStoreP ErrorValuesM LevIndexM
  Spec_Edit Spec_EV Spec_Lev EVP EditP HitsP LevP WordM MapM DoubleM FloatP ContM MatcherM MapP Spec_Cont ContP Spec_Match MatchP MatchQ MatchR MatchS MatchT MatchU MatchZ.
From Coq Require Import Reals Lra.
From Flocq Require Import Core.Core IEEE754.BinarySingleNaN.
From Verif Require Import DoubleM FloatQ FloatR.
From Coq Require Import ZifyBool ZifyN ZifyNat.
Local Open Scope N_scope.

Lemma fmt_bpow e : (-1074 <= e)%Z -> generic_format radix2 fx (bpow radix2 e).
Proof. intros H. apply generic_format_bpow. unfold SpecFloat.fexp, SpecFloat.emin. lia. Qed.
Lemma rnd_bpow e r : (-1074 <= e)%Z -> (bpow radix2 e <= r)%R -> (bpow radix2 e <= rnd r)%R.
Proof. intros H Hr. rewrite <- (rnd_id (fmt_bpow H)). now apply rnd_le. Qed.
Lemma ulp1 : (IZR 9007199254740992 * bpow radix2 (-53) = 1)%R.
Proof. change 9007199254740992%Z with (Zpower radix2 53). rewrite IZR_Zpower by lia. now rewrite <- bpow_plus. Qed.
Lemma below_one : rnd (1 - bpow radix2 (-53)) = (1 - bpow radix2 (-53))%R.
Proof.
  apply rnd_id. apply generic_format_FLT. apply FLT_spec with (f := Float radix2 9007199254740991 (-53)); [|cbn; lia|vm_compute; discriminate].
  unfold F2R. cbn [Fnum Fexp]. rewrite <- ulp1. replace 9007199254740991%Z with (9007199254740992 - 1)%Z by reflexivity. rewrite minus_IZR. ring.
Qed.
Lemma cnt_least c m : (0 <= c < m)%Z -> (m <= 2 ^ 53)%Z -> (bpow radix2 (-53) <= cnt_part c m)%R.
Proof.
  intros Hc Hm. change (2 ^ 53)%Z with 9007199254740992%Z in Hm. unfold cnt_part. apply rnd_bpow; [lia|].
  assert (H : (rnd (IZR c / IZR m) <= 1 - bpow radix2 (-53))%R); [|lra]. rewrite <- below_one. apply rnd_le.
  assert (Hp : (0 < IZR m)%R) by (apply IZR_lt; lia). apply Rmult_le_reg_r with (IZR m); [exact Hp|].
  unfold Rdiv. rewrite Rmult_assoc, Rinv_l, Rmult_1_r by lra.
  assert (H1 : (IZR c <= IZR m - 1)%R) by (rewrite <- minus_IZR; apply IZR_le; lia).
  assert (H2 : (IZR m * bpow radix2 (-53) <= 1)%R) by (rewrite <- ulp1; apply Rmult_le_compat_r; [apply bpow_ge_0|apply IZR_le; lia]). lra.
Qed.
Lemma err_least e : (0 <= e < 2147483648)%Z -> (bpow radix2 (-25) <= err_part e)%R.
Proof.
  intros He. unfold err_part. apply rnd_bpow; [lia|]. rewrite sum_err by (change (2 ^ 52)%Z with 4503599627370496%Z; lia).
  assert (Hp : (0 < IZR (100 + e))%R) by (apply IZR_lt; lia). apply Rmult_le_reg_r with (IZR (100 + e)); [exact Hp|].
  unfold Rdiv. rewrite Rmult_assoc, Rinv_l, Rmult_1_r by lra.
  assert (H : (bpow radix2 (-25) * IZR (100 * 33554432) = 100)%R).
  { rewrite mult_IZR. change 33554432%Z with (Zpower radix2 25). rewrite IZR_Zpower by lia.
    replace (bpow radix2 (-25) * (100 * bpow radix2 25))%R with (100 * (bpow radix2 (-25) * bpow radix2 25))%R by ring. rewrite <- bpow_plus. cbn. ring. }
  rewrite <- H. apply Rmult_le_compat_l; [apply bpow_ge_0|apply IZR_le; lia].
Qed.
Lemma contrib_least e c m w k : (0 <= e < 2147483648)%Z -> (0 <= c < m)%Z -> (m <= 2 ^ 53)%Z -> (-900 <= k)%Z -> (bpow radix2 k <= w)%R ->
  (0 < contrib e c m w)%R.
Proof.
  intros He Hc Hm Hk Hw. unfold contrib, share.
  assert (H1 : (bpow radix2 (-78) <= rnd (err_part e * cnt_part c m))%R).
  { apply rnd_bpow; [lia|]. change (-78)%Z with (-25 + -53)%Z. rewrite bpow_plus. apply Rmult_le_compat; try apply bpow_ge_0; [now apply err_least|now apply cnt_least]. }
  apply Rlt_le_trans with (bpow radix2 (-78 + k)); [apply bpow_gt_0|]. apply rnd_bpow; [lia|]. rewrite bpow_plus.
  apply Rmult_le_compat; try apply bpow_ge_0; assumption.
Qed.
Lemma millionth_val : exists r, val millionth r /\ (bpow radix2 (-20) <= r)%R.
Proof.
  exists (rnd (1 / 1000000))%R. assert (H : (0 <= rnd (1 / 1000000) <= 1)%R) by (apply rnd_unit; lra). split.
  - apply val_div; [apply of_Z_val; cbv; discriminate|apply of_Z_val; cbv; discriminate|lra|now apply below_big].
  - apply rnd_bpow; [lia|]. cbn. lra.
Qed.

(** ** Sums of few things that are not large are exact enough *)
Lemma sum_bound (g : word * word * Z -> DoubleM.double) K xs : (0 <= K)%Z -> (forall y, In y xs -> exists r, val (g y) r /\ (0 <= r <= IZR K)%R) ->
  forall a ra k, val a ra -> (0 <= k)%Z -> (0 <= ra <= IZR (K * k))%R -> (K * (k + Z.of_nat (length xs)) <= 2 ^ 53)%Z ->
  exists s, val (fold_left (fun s y => d_add s (g y)) xs a) s /\ (0 <= s <= IZR (K * (k + Z.of_nat (length xs))))%R.
Proof.
  intros HK. induction xs as [|y xs IH]; intros Hg a ra k Ha Hk Hra Hl.
  - cbn. exists ra. rewrite Z.add_0_r. now split.
  - cbn [fold_left length] in *. destruct (Hg y (or_introl eq_refl)) as (r & Hr & Hb).
    assert (Hs : (K * (k + 1) <= 2 ^ 53)%Z) by nia.
    assert (Hu : (0 <= rnd (ra + r) <= IZR (K * (k + 1)))%R).
    { split; [rewrite <- rnd_0; apply rnd_le; lra|]. rewrite <- (@fmt_small (K * (k + 1))) by (rewrite Z.abs_eq; [exact Hs|nia]). apply rnd_le.
      rewrite Z.mul_add_distr_l, Z.mul_1_r, plus_IZR. lra. }
    assert (Hv : val (d_add a (g y)) (rnd (ra + r))).
    { apply val_add; [exact Ha|exact Hr|]. rewrite Rabs_pos_eq by lra. apply Rle_lt_trans with (IZR (K * (k + 1))); [lra|].
      rewrite <- (Rabs_pos_eq (IZR (K * (k + 1)))) by lra. apply (@val_big (d_of_Z (K * (k + 1)))). apply of_Z_val. rewrite Z.abs_eq; [exact Hs|nia]. }
    destruct (IH (fun z Hz => Hg z (or_intror Hz)) _ _ (k + 1)%Z Hv ltac:(lia) Hu) as (s & Hsv & Hsb); [nia|].
    exists s. split; [exact Hsv|]. replace (k + Z.of_nat (S (length xs)))%Z with (k + 1 + Z.of_nat (length xs))%Z by lia. exact Hsb.
Qed.
Lemma sorted_nodup order (xs : list (word * word * Z)) : StronglySorted (earlier order) xs -> NoDup (map fst xs).
Proof.
  induction 1 as [|x xs _ IH Hf]; [constructor|]. cbn. constructor; [|exact IH]. rewrite in_map_iff. intros (y & Hy & Hi).
  rewrite Forall_forall in Hf. apply Hf in Hi. apply (@earlier_irr order x). unfold earlier in *. now rewrite Hy in Hi.
Qed.

Section Bound.
Variables (E : env) (calls : list m_call).
Hypothesis SS : sound_setup E calls.
Hypothesis RW : real_weights calls.
Let o := occ calls.
Let wt := weight_after calls.
Lemma match_bounded m q p m' r : sound_query calls q -> history E calls m -> clean (MMatch q p) -> mt_match E q p m = (m', Ok r) ->
  forall view x d K hits, shows r view -> In (x, d) view ->
  (forall f, at_least (d_of_Z K) (weight_after calls f)) ->
  (forall f w qw err, In (d, f, w) (occ calls) -> searching p f -> In qw q -> near (prices_after calls) p qw w err -> In (f, w) hits) ->
  (0 <= K)%Z -> (K * Z.of_nat (length hits) <= 2 ^ 53)%Z ->
  finite x /\ at_least (d_of_Z (K * Z.of_nat (length hits))) x.
Proof.
  intros SQ HH Hc Hr view x d K hits Hv Hx HW Hh HK Hl. destruct (history_HI (ss_env SS) (ss_clean SS) HH) as (l & H).
  destruct (answer_fine H SS (match_answer H SS SQ Hc Hr) Hv) as (_ & _ & M). apply M in Hx as [(y & ys & [Sy Py] & ->) _].
  assert (Hlen : (length (y :: ys) <= length hits)%nat).
  { rewrite <- (map_length fst (y :: ys)). apply NoDup_incl_length; [exact (sorted_nodup Sy)|]. intros [f w] Hi. apply in_map_iff in Hi as ([[f' w'] err] & He & Hi).
    cbn in He. injection He as -> ->. apply Py in Hi as (H1 & H2 & (qw & Hq & H3) & _). exact (Hh f w qw err H1 H2 Hq (hit_near H3)). }
  cbn [length] in Hlen.
  assert (HK53 : (K <= 2 ^ 53)%Z) by nia.
  assert (VK : val (d_of_Z K) (IZR K)) by (apply of_Z_val; rewrite Z.abs_eq; [exact HK53|exact HK]).
  assert (G : forall z, In z (y :: ys) -> exists r, val (contribution o wt z) r /\ (0 <= r <= IZR K)%R).
  { intros [[f w] err] Hz. apply Py in Hz as (H1 & H2 & (qw & Hq & H3) & _). destruct (weight_ok SS RW f) as [Hg Hd].
    destruct (weight_val Hg Hd) as (s & Hs & H0). destruct (@contribution_val o wt f w err s (hit_range_calls SS H3) (max_small SS f) Hs H0) as [V B].
    eexists. split; [exact V|]. destruct (HW f) as (_ & _ & Hlt). rewrite (val_lt VK Hs) in Hlt. destruct (Rlt_bool_spec (IZR K) s); [discriminate|]. lra. }
  destruct (G y (or_introl eq_refl)) as (r0 & V0 & B0).
  assert (Hl2 : (K * (1 + Z.of_nat (length ys)) <= K * Z.of_nat (length hits))%Z) by nia.
  destruct (@sum_bound (contribution o wt) K ys HK (fun z Hz => G z (or_intror Hz)) _ r0 1%Z V0) as (s & Vs & Bs); [lia|now rewrite Z.mul_1_r|lia|].
  split; [exact (val_finite Vs)|]. apply ple_at_least. right. exists s, (IZR (K * Z.of_nat (length hits))). split; [exact Vs|]. split.
  - apply of_Z_val. rewrite Z.abs_eq; [exact Hl|nia].
  - split; [lra|]. apply Rle_trans with (1 := proj2 Bs). now apply IZR_le.
Qed.
Lemma match_positive m q p m' r : sound_query calls q -> history E calls m -> clean (MMatch q p) -> mt_match E q p m = (m', Ok r) ->
  forall view x d, shows r view -> In (x, d) view -> (forall f, at_least (weight_after calls f) millionth) -> d_lt (S754_zero false) x = true.
Proof.
  intros SQ HH Hc Hr view x d Hv Hx HW. destruct (history_HI (ss_env SS) (ss_clean SS) HH) as (l & H).
  destruct (answer_fine H SS (match_answer H SS SQ Hc Hr) Hv) as (_ & _ & M). apply M in Hx as [(y & ys & [Sy Py] & ->) _].
  assert (G : forall z, In z (y :: ys) -> exists r, val (contribution o wt z) r /\ (0 < r)%R).
  { intros [[f w] err] Hz. apply Py in Hz as (H1 & H2 & (qw & Hq & H3) & _). destruct (weight_ok SS RW f) as [Hg Hd].
    destruct (weight_val Hg Hd) as (s & Hs & H0). pose proof (hit_range_calls SS H3) as He. pose proof (max_small SS f) as Hm.
    destruct (@contribution_val o wt f w err s He Hm Hs H0) as [V B]. eexists. split; [exact V|].
    destruct millionth_val as (mr & Vm & Bm). destruct (HW f) as (_ & _ & Hlt). rewrite (val_lt Hs Vm) in Hlt. destruct (Rlt_bool_spec s mr); [discriminate|].
    pose proof (@count_max_in o f w). fold o in Hm. apply contrib_least with (k := (-20)%Z); try assumption; try lia; try lra. }
  destruct (G y (or_introl eq_refl)) as (r0 & V0 & B0).
  assert (P : ple (contribution o wt y) (fold_left (fun s z => d_add s (contribution o wt z)) ys (contribution o wt y))).
  { change (contribution o wt y) with (fold_left (fun s z => d_add s (contribution o wt z)) [] (contribution o wt y)) at 1. apply fold_within.
    - constructor.
    - rewrite Forall_forall. intros z Hz. destruct (G z (or_intror Hz)) as (rz & Vz & Bz). right. exists rz. split; [exact Vz|lra].
    - apply ple_refl. right. exists r0. split; [exact V0|lra]. }
  fold o wt. destruct P as [[_ ->]|(r1 & s & V1 & Vs & B)]; [reflexivity|]. rewrite (val_lt zero_val Vs). apply Rlt_bool_true.
  assert (r1 = r0); [|lra]. destruct V1 as (b & Hb & _ & <-), V0 as (c & Hc0 & _ & <-). rewrite Hb in Hc0. now rewrite (B2SF_inj _ _ _ _ Hc0).
Qed.
End Bound.
