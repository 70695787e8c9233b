(** What one word adds to a relevancy, through the real numbers (Flocq). *)
From Verif Require Import Base DoubleM.
From Coq Require Import Reals Lra ZArith.
From Flocq Require Import Core.Core IEEE754.BinarySingleNaN.
Local Open Scope Z_scope.

#[local] Instance Hprec : FLX.Prec_gt_0 53 := eq_refl _.
#[local] Instance Hmax : Prec_lt_emax 53 1024 := eq_refl _.
Notation bf := (binary_float 53 1024).
Notation fx := (SpecFloat.fexp 53 1024).
Notation rnd := (round radix2 fx ZnearestE).
#[local] Instance fx_valid : Valid_exp fx := FLT_exp_valid (emin 53 1024) 53.
#[local] Instance fx_mono : Monotone_exp fx := FLT_exp_monotone (emin 53 1024) 53.

(** ** The standard library's operations are Flocq's *)
Lemma nearest_even_equiv s m l : round_nearest_even m l = choice_mode mode_NE s m l.
Proof. case l; [reflexivity|intro c]. case c; [|reflexivity..]. now simpl; unfold Round.cond_incr; case Z.even. Qed.
Lemma round_aux_equiv sx mx ex lx : SpecFloat.binary_round_aux 53 1024 sx mx ex lx = binary_round_aux 53 1024 mode_NE sx mx ex lx.
Proof.
  unfold SpecFloat.binary_round_aux, binary_round_aux. set (mrse' := shr_fexp _ _ _ _ _). case mrse'; intros mrs' e'; simpl.
  now rewrite (nearest_even_equiv sx).
Qed.
Lemma round_equiv s m e : SpecFloat.binary_round 53 1024 s m e = binary_round 53 1024 mode_NE s m e.
Proof. unfold SpecFloat.binary_round, binary_round, shl_align_fexp. set (mez := shl_align _ _ _); case mez as [mz ez]. apply round_aux_equiv. Qed.
Lemma normalize_equiv m e z : SpecFloat.binary_normalize 53 1024 m e z = B2SF (binary_normalize 53 1024 Hprec Hmax mode_NE m e z).
Proof. case m as [|p|p]; [now simpl| |]; simpl; rewrite B2SF_SF2B; apply round_equiv. Qed.
Lemma mul_equiv (x y : bf) : d_mul (B2SF x) (B2SF y) = B2SF (Bmult mode_NE x y).
Proof.
  unfold d_mul. case x as [sx|sx| |sx mx ex Bx]; case y as [sy|sy| |sy my ey By]; [now trivial..|].
  simpl. rewrite B2SF_SF2B. apply round_aux_equiv.
Qed.
Lemma add_equiv (x y : bf) : d_add (B2SF x) (B2SF y) = B2SF (Bplus mode_NE x y).
Proof.
  unfold d_add. case x as [sx|sx| |sx mx ex Bx]; case y as [sy|sy| |sy my ey By]; [now (trivial || simpl; case Bool.eqb)..|].
  apply normalize_equiv.
Qed.
Lemma sub_equiv (x y : bf) : d_sub (B2SF x) (B2SF y) = B2SF (Bminus mode_NE x y).
Proof.
  unfold d_sub. case x as [sx|sx| |sx mx ex Bx]; case y as [sy|sy| |sy my ey By]; [now (trivial || simpl; case Bool.eqb)..|].
  simpl. unfold Zminus. rewrite <- cond_Zopp_negb. apply normalize_equiv.
Qed.
Lemma div_equiv (x y : bf) : d_div (B2SF x) (B2SF y) = B2SF (Bdiv mode_NE x y).
Proof.
  unfold d_div. case x as [sx|sx| |sx mx ex Bx]; case y as [sy|sy| |sy my ey By]; [now (trivial || simpl; case Bool.eqb)..|].
  simpl. rewrite B2SF_SF2B. set (melz := SFdiv_core_binary _ _ _ _ _ _). case melz as [[mz ez] lz]. apply round_aux_equiv.
Qed.

(** ** Doubles with a real value *)
Definition val (x : DoubleM.double) (r : R) : Prop := exists b : bf, x = B2SF b /\ is_finite b = true /\ B2R b = r.
Definition big : R := bpow radix2 1024.
Lemma val_format x r : val x r -> generic_format radix2 fx r.
Proof. intros (b & _ & _ & <-). apply generic_format_B2R. Qed.
Lemma val_big x r : val x r -> (Rabs r < big)%R.
Proof. intros (b & _ & _ & <-). apply abs_B2R_lt_emax. Qed.
Lemma val_lt x y r s : val x r -> val y s -> d_lt x y = Rlt_bool r s.
Proof. intros (b & -> & Fb & <-) (c & -> & Fc & <-). unfold d_lt. now apply (Bltb_correct 53 1024 b c). Qed.
Lemma val_of_valid x : SpecFloat.valid_binary 53 1024 x = true -> (match x with S754_zero _ | S754_finite _ _ _ => True | _ => False end) ->
  val x (SF2R radix2 x).
Proof.
  intros H F. exists (SF2B x H). split; [now rewrite B2SF_SF2B|]. split; [|apply B2R_SF2B].
  destruct x; try contradiction; reflexivity.
Qed.
Lemma fmt_Z z : (Z.abs z <= 2 ^ 53) -> generic_format radix2 fx (IZR z).
Proof.
  intros H. destruct (Z.eq_dec (Z.abs z) (2 ^ 53)) as [He|Hne].
  - assert (Hp : generic_format radix2 fx (IZR (2 ^ 53))).
    { change (2 ^ 53) with (Zpower radix2 53). rewrite IZR_Zpower by lia. apply generic_format_bpow. cbv. discriminate. }
    destruct (Z_le_gt_dec 0 z) as [Hz|Hz].
    + replace z with (2 ^ 53) by lia. exact Hp.
    + replace z with (- 2 ^ 53) by lia. rewrite opp_IZR. now apply generic_format_opp.
  - apply generic_format_FLT. apply FLT_spec with (f := Float radix2 z 0); [|simpl; change (2 ^ 53) with 9007199254740992 in *; lia|vm_compute; discriminate].
    unfold F2R. simpl. ring.
Qed.
Lemma of_Z_val z : (Z.abs z <= 2 ^ 53) -> val (d_of_Z z) (IZR z).
Proof.
  intros H. exists (binary_normalize 53 1024 Hprec Hmax mode_NE z 0 false). split; [apply normalize_equiv|].
  pose proof (binary_normalize_correct 53 1024 Hprec Hmax mode_NE z 0 false) as C. cbn zeta in C.
  assert (E : F2R (Float radix2 z 0) = IZR z) by (unfold F2R; simpl; ring). rewrite E in C.
  rewrite round_generic in C by (try apply fmt_Z; try exact H; auto with typeclass_instances).
  rewrite Rlt_bool_true in C; [now destruct C as (C1 & C2 & _)|].
  rewrite <- abs_IZR. apply Rle_lt_trans with (IZR (2 ^ 53)); [now apply IZR_le|].
  change (2 ^ 53) with (Zpower radix2 53). rewrite IZR_Zpower by lia. apply bpow_lt. reflexivity.
Qed.
Lemma rnd_le a b : (a <= b -> rnd a <= rnd b)%R.
Proof. apply round_le; auto with typeclass_instances. Qed.
Lemma rnd_id r : generic_format radix2 fx r -> rnd r = r.
Proof. apply round_generic; auto with typeclass_instances. Qed.
Lemma fmt_small z : (Z.abs z <= 2 ^ 53) -> rnd (IZR z) = IZR z.
Proof. intros H. apply rnd_id. now apply fmt_Z. Qed.
Lemma big_1 : (1 < big)%R.
Proof. change 1%R with (bpow radix2 0). apply bpow_lt. reflexivity. Qed.
Lemma rnd_0 : rnd 0 = 0%R.
Proof. apply (@fmt_small 0). cbv. discriminate. Qed.
Lemma rnd_1 : rnd 1 = 1%R.
Proof. apply (@fmt_small 1). cbv. discriminate. Qed.
Lemma rnd_unit r : (0 <= r <= 1 -> 0 <= rnd r <= 1)%R.
Proof. intros [H0 H1]. apply rnd_le in H0, H1. rewrite rnd_0 in H0. rewrite rnd_1 in H1. now split. Qed.

Lemma val_mul x y r s : val x r -> val y s -> (Rabs (rnd (r * s)) < big)%R -> val (d_mul x y) (rnd (r * s)).
Proof.
  intros (b & -> & Fb & <-) (c & -> & Fc & <-) H. exists (Bmult mode_NE b c). split; [apply mul_equiv|].
  pose proof (Bmult_correct 53 1024 Hprec Hmax mode_NE b c) as C. rewrite Rlt_bool_true in C by exact H.
  destruct C as (C1 & C2 & _). rewrite C2, Fb, Fc. now split.
Qed.
Lemma val_add x y r s : val x r -> val y s -> (Rabs (rnd (r + s)) < big)%R -> val (d_add x y) (rnd (r + s)).
Proof.
  intros (b & -> & Fb & <-) (c & -> & Fc & <-) H. exists (Bplus mode_NE b c). split; [apply add_equiv|].
  pose proof (Bplus_correct 53 1024 Hprec Hmax mode_NE b c Fb Fc) as C. rewrite Rlt_bool_true in C by exact H.
  destruct C as (C1 & C2 & _). now split.
Qed.
Lemma val_sub x y r s : val x r -> val y s -> (Rabs (rnd (r - s)) < big)%R -> val (d_sub x y) (rnd (r - s)).
Proof.
  intros (b & -> & Fb & <-) (c & -> & Fc & <-) H. exists (Bminus mode_NE b c). split; [apply sub_equiv|].
  pose proof (Bminus_correct 53 1024 Hprec Hmax mode_NE b c Fb Fc) as C. rewrite Rlt_bool_true in C by exact H.
  destruct C as (C1 & C2 & _). now split.
Qed.
Lemma val_div x y r s : val x r -> val y s -> s <> 0%R -> (Rabs (rnd (r / s)) < big)%R -> val (d_div x y) (rnd (r / s)).
Proof.
  intros (b & -> & Fb & <-) (c & -> & Fc & <-) Hs H. exists (Bdiv mode_NE b c). split; [apply div_equiv|].
  pose proof (Bdiv_correct 53 1024 Hprec Hmax mode_NE b c Hs) as C. rewrite Rlt_bool_true in C by exact H.
  destruct C as (C1 & C2 & _). now rewrite C2, Fb.
Qed.

(** ** The parts of a contribution *)
Definition err_part (e : Z) : R := rnd (100 / rnd (100 + IZR e)).
Definition cnt_part (c m : Z) : R := rnd (1 - rnd (IZR c / IZR m)).
Definition err_double (e : Z) : DoubleM.double := d_div (d_of_Z 100) (d_add (d_of_Z 100) (d_of_Z e)).
Definition cnt_double (c m : Z) : DoubleM.double := d_sub (d_of_Z 1) (d_div (d_of_Z c) (d_of_Z m)).
Lemma below_big r : (0 <= r <= 1)%R -> (Rabs r < big)%R.
Proof. intros H. rewrite Rabs_pos_eq by lra. pose proof big_1. lra. Qed.
Lemma sum_err e : 0 <= e < 2 ^ 52 -> rnd (100 + IZR e) = IZR (100 + e).
Proof. intros H. rewrite <- plus_IZR. apply fmt_small. change (2 ^ 52) with 4503599627370496 in H. change (2 ^ 53) with 9007199254740992. lia. Qed.
Lemma ratio_unit a b : (0 <= a)%R -> (a <= b)%R -> (0 < b)%R -> (0 <= a / b <= 1)%R.
Proof.
  intros Ha Hab Hb. split; [apply Rmult_le_pos; [exact Ha|left; now apply Rinv_0_lt_compat]|].
  apply Rmult_le_reg_r with b; [exact Hb|]. unfold Rdiv. rewrite Rmult_assoc, Rinv_l by lra. lra.
Qed.
Lemma err_val e : 0 <= e < 2 ^ 52 -> val (err_double e) (err_part e) /\ (0 <= err_part e <= 1)%R.
Proof.
  intros H. assert (H100 : val (d_of_Z 100) 100) by (apply of_Z_val; cbv; discriminate).
  assert (He : val (d_of_Z e) (IZR e)) by (apply of_Z_val; change (2 ^ 52) with 4503599627370496 in H; change (2 ^ 53) with 9007199254740992; lia).
  assert (Hs : val (d_add (d_of_Z 100) (d_of_Z e)) (rnd (100 + IZR e))).
  { apply val_add; [exact H100|exact He|]. rewrite sum_err by exact H. apply (@val_big (d_of_Z (100 + e))). apply of_Z_val.
    change (2 ^ 52) with 4503599627370496 in H; change (2 ^ 53) with 9007199254740992; lia. }
  assert (Hu : (0 <= err_part e <= 1)%R).
  { unfold err_part. apply rnd_unit. rewrite sum_err by exact H. assert (100 <= IZR (100 + e))%R by (apply IZR_le; lia). apply ratio_unit; lra. }
  split; [|exact Hu]. unfold err_double. apply val_div; [exact H100|exact Hs| |apply below_big; exact Hu].
  rewrite sum_err by exact H. apply not_0_IZR. lia.
Qed.
Lemma err_anti e e' : 0 <= e <= e' -> e' < 2 ^ 52 -> (err_part e' <= err_part e)%R.
Proof.
  intros H H'. unfold err_part. apply rnd_le. rewrite !sum_err by lia. unfold Rdiv. apply Rmult_le_compat_l; [lra|].
  apply Rinv_le; [apply IZR_lt; lia|apply IZR_le; lia].
Qed.
Lemma err_zero : err_part 0 = 1%R.
Proof. unfold err_part. rewrite sum_err by (cbv; split; [discriminate|reflexivity]). replace (100 / IZR (100 + 0))%R with 1%R; [apply rnd_1|]. simpl. lra. Qed.
Lemma cnt_val c m : 0 <= c <= m -> 0 < m <= 2 ^ 53 -> val (cnt_double c m) (cnt_part c m) /\ (0 <= cnt_part c m <= 1)%R.
Proof.
  intros Hc Hm. change (2 ^ 53) with 9007199254740992 in Hm.
  assert (Vc : val (d_of_Z c) (IZR c)) by (apply of_Z_val; change (2 ^ 53) with 9007199254740992; lia).
  assert (Vm : val (d_of_Z m) (IZR m)) by (apply of_Z_val; change (2 ^ 53) with 9007199254740992; lia).
  assert (V1 : val (d_of_Z 1) 1) by (apply of_Z_val; cbv; discriminate).
  assert (Hq : (0 <= IZR c / IZR m <= 1)%R) by (apply ratio_unit; [apply IZR_le; lia|apply IZR_le; lia|apply IZR_lt; lia]).
  pose proof (rnd_unit Hq) as Hr. assert (Hu : (0 <= cnt_part c m <= 1)%R) by (unfold cnt_part; apply rnd_unit; lra).
  split; [|exact Hu]. unfold cnt_double. apply val_sub; [exact V1| |apply below_big; exact Hu].
  apply val_div; [exact Vc|exact Vm|apply not_0_IZR; lia|apply below_big; exact Hr].
Qed.
Lemma cnt_anti c c' m : 0 <= c <= c' -> c' <= m -> 0 < m <= 2 ^ 53 -> (cnt_part c' m <= cnt_part c m)%R.
Proof.
  intros H H' Hm. unfold cnt_part. apply rnd_le. apply Rplus_le_compat_l, Ropp_le_contravar, rnd_le. unfold Rdiv. apply Rmult_le_compat_r; [|apply IZR_le; lia].
  left. apply Rinv_0_lt_compat. apply IZR_lt. lia.
Qed.

Lemma mul_unit a b : (0 <= a <= 1)%R -> (0 <= b <= 1)%R -> (0 <= a * b <= 1)%R.
Proof. intros Ha Hb. split; [apply Rmult_le_pos; lra|]. replace 1%R with (1 * 1)%R by ring. apply Rmult_le_compat; lra. Qed.
(** A part of a weight. *)
Definition share (u w : R) : R := rnd (u * w).
Lemma share_bounds u w : (0 <= u <= 1)%R -> (0 <= w)%R -> generic_format radix2 fx w -> (0 <= share u w <= w)%R.
Proof.
  intros Hu Hw Hf. unfold share. split.
  - rewrite <- rnd_0. apply rnd_le. apply Rmult_le_pos; lra.
  - rewrite <- (@rnd_id w Hf) at 2. apply rnd_le. rewrite <- (Rmult_1_l w) at 2. apply Rmult_le_compat_r; lra.
Qed.
Definition contrib (e c m : Z) (w : R) : R := share (rnd (err_part e * cnt_part c m)) w.
Definition contrib_double (e c m : Z) (w : DoubleM.double) : DoubleM.double := d_mul (d_mul (err_double e) (cnt_double c m)) w.
Lemma contrib_val e c m wd w : 0 <= e < 2 ^ 52 -> 0 <= c <= m -> 0 < m <= 2 ^ 53 -> val wd w -> (0 <= w)%R ->
  val (contrib_double e c m wd) (contrib e c m w) /\ (0 <= contrib e c m w <= w)%R.
Proof.
  intros He Hc Hm Hw H0. destruct (err_val He) as [Ve Ue]. destruct (cnt_val Hc Hm) as [Vc Uc].
  pose proof (rnd_unit (mul_unit Ue Uc)) as Hu. pose proof (share_bounds Hu H0 (val_format Hw)) as Hb.
  split; [|exact Hb]. unfold contrib_double, contrib. apply val_mul; [|exact Hw|].
  - apply val_mul; [exact Ve|exact Vc|now apply below_big].
  - fold (share (rnd (err_part e * cnt_part c m)) w). rewrite Rabs_pos_eq by lra. pose proof (val_big Hw) as Hbg. rewrite Rabs_pos_eq in Hbg by lra. lra.
Qed.
Lemma contrib_mono e e' c c' m w w' : 0 <= e <= e' -> e' < 2 ^ 52 -> 0 <= c <= c' -> c' <= m -> 0 < m <= 2 ^ 53 -> (0 <= w <= w')%R ->
  (contrib e' c' m w <= contrib e c m w')%R.
Proof.
  intros He He' Hc Hc' Hm Hw. unfold contrib, share. apply rnd_le.
  assert (Hm2 : forall e c, 0 <= e < 2 ^ 52 -> 0 <= c <= m -> (0 <= err_part e <= 1)%R /\ (0 <= cnt_part c m <= 1)%R).
  { intros e0 c0 H0 H1. split; [now apply err_val|now apply cnt_val]. }
  destruct (Hm2 e c) as [U1 U2]; [lia..|]. destruct (Hm2 e' c') as [U3 U4]; [lia..|].
  pose proof (rnd_unit (mul_unit U1 U2)). pose proof (rnd_unit (mul_unit U3 U4)).
  apply Rmult_le_compat; [lra|lra| |lra]. apply rnd_le. apply Rmult_le_compat; [lra|lra| |].
  - apply err_anti; lia.
  - apply cnt_anti; lia.
Qed.

(** ** Sums, which may overflow *)
Definition inf : DoubleM.double := S754_infinity false.
Definition pos (x : DoubleM.double) : Prop := x = inf \/ exists r, val x r /\ (0 <= r)%R.
Definition ple (x y : DoubleM.double) : Prop := (pos x /\ y = inf) \/ exists r s, val x r /\ val y s /\ (0 <= r <= s)%R.
Lemma ple_lt x y : ple x y -> d_lt y x = false.
Proof.
  intros [[_ ->]|(r & s & Hr & Hs & H)].
  - destruct x as [b|b| |b k e]; try reflexivity; destruct b; reflexivity.
  - rewrite (val_lt Hs Hr). apply Rlt_bool_false. lra.
Qed.
Lemma ple_l x y : ple x y -> pos x.
Proof. intros [[H _]|(r & s & Hr & Hs & H)]; [exact H|right; exists r; split; [exact Hr|lra]]. Qed.
Lemma ple_r x y : ple x y -> pos y.
Proof. intros [[_ H]|(r & s & Hr & Hs & H)]; [now left|right; exists s; split; [exact Hs|lra]]. Qed.
Lemma ple_refl x : pos x -> ple x x.
Proof. intros [->|(r & Hr & H)]; [left; split; [now left|reflexivity]|right; exists r, r; repeat split; try assumption; lra]. Qed.
Lemma ple_trans x y z : ple x y -> ple y z -> ple x z.
Proof.
  intros H [[_ ->]|(r & s & Hr & Hs & Hrs)]; [left; split; [exact (ple_l H)|reflexivity]|].
  destruct H as [[_ ->]|(r' & s' & Hr' & Hs' & Hrs')].
  - exfalso. destruct Hr as (b & Hb & Fb & _). destruct b; discriminate.
  - right. exists r', s. repeat split; try assumption; [lra|]. assert (s' = r); [|lra].
    destruct Hs' as (b & -> & _ & <-), Hr as (c & Hbc & _ & <-). now rewrite (B2SF_inj _ _ _ _ Hbc).
Qed.
Lemma sign_pos (b : bf) : (0 < B2R b)%R -> Bsign b = false.
Proof.
  destruct b as [s|s| |s k e Hb]; cbn; try lra. destruct s; [|reflexivity]. intros H. exfalso. revert H.
  apply Rle_not_lt. apply F2R_le_0. cbn. lia.
Qed.
Lemma inf_add x : pos x -> d_add inf x = inf /\ d_add x inf = inf.
Proof.
  intros [->|(r & (b & -> & Fb & _) & _)]; [now split|]. destruct b; try discriminate; now split.
Qed.
Lemma add_pos x y r s : val x r -> val y s -> (0 <= r)%R -> (0 <= s)%R ->
  (val (d_add x y) (rnd (r + s)) /\ (Rabs (rnd (r + s)) < big)%R) \/ (d_add x y = inf /\ (big <= rnd (r + s))%R).
Proof.
  intros Hx Hy Hr Hs. destruct (Rlt_le_dec (Rabs (rnd (r + s))) big) as [Hlt|Hge]; [left; split; [now apply val_add|exact Hlt]|right].
  assert (H0 : (0 <= rnd (r + s))%R) by (rewrite <- rnd_0; apply rnd_le; lra). rewrite Rabs_pos_eq in Hge by exact H0. split; [|exact Hge].
  destruct Hx as (b & -> & Fb & <-), Hy as (c & -> & Fc & <-). rewrite add_equiv.
  pose proof (Bplus_correct 53 1024 Hprec Hmax mode_NE b c Fb Fc) as C. rewrite Rlt_bool_false in C by (rewrite Rabs_pos_eq; [exact Hge|exact H0]).
  destruct C as [C1 C2]. rewrite C1. unfold inf. assert (Hsg : Bsign b = false); [|now rewrite Hsg].
  destruct (Rlt_le_dec 0 (B2R b)) as [H1|H1]; [now apply sign_pos|]. rewrite C2. apply sign_pos.
  destruct (Rlt_le_dec 0 (B2R c)) as [H2|H2]; [exact H2|]. exfalso.
  replace (B2R b + B2R c)%R with 0%R in Hge by lra. rewrite rnd_0 in Hge. pose proof big_1. lra.
Qed.
Lemma ple_add x x' y y' : ple x x' -> ple y y' -> ple (d_add x y) (d_add x' y').
Proof.
  intros Hx Hy.
  assert (Hp : pos (d_add x y)).
  { destruct (ple_l Hx) as [->|(r & Hr & H)]; [left; apply inf_add; exact (ple_l Hy)|].
    destruct (ple_l Hy) as [->|(s & Hs & H')]; [left; apply inf_add; right; exists r; now split|].
    destruct (add_pos Hr Hs H H') as [[Hv _]|[Hv _]]; [right|now left]. eexists. split; [exact Hv|]. rewrite <- rnd_0. apply rnd_le. lra. }
  destruct Hx as [[Hx ->]|(r & r' & Hr & Hr' & H)]; [left; split; [exact Hp|apply inf_add; exact (ple_r Hy)]|].
  destruct Hy as [[Hy ->]|(s & s' & Hs & Hs' & H')]; [left; split; [exact Hp|apply inf_add; right; exists r'; split; [exact Hr'|lra]]|].
  destruct (@add_pos _ _ _ _ Hr' Hs') as [[Hv Hb]|[Hv _]]; [lra|lra| |left; now split].
  right. assert (Hle : (rnd (r + s) <= rnd (r' + s'))%R) by (apply rnd_le; lra). assert (H0 : (0 <= rnd (r + s))%R) by (rewrite <- rnd_0; apply rnd_le; lra).
  exists (rnd (r + s)), (rnd (r' + s')). split; [|split; [exact Hv|lra]].
  apply val_add; [exact Hr|exact Hs|]. rewrite Rabs_pos_eq in * by lra. lra.
Qed.
Lemma zero_val : val (S754_zero false) 0.
Proof. exists (B754_zero false). now repeat split. Qed.
Lemma ple_more x y : pos x -> pos y -> ple x (d_add x y) /\ ple y (d_add x y).
Proof.
  intros [->|(r & Hr & H)] Hy.
  - destruct (@inf_add y Hy) as [-> _]. split; left; (split; [|reflexivity]); [now left|exact Hy].
  - destruct Hy as [->|(s & Hs & H')].
    + destruct (@inf_add x) as [_ ->]; [right; exists r; now split|]. split; left; (split; [|reflexivity]); [right; exists r; now split|now left].
    + destruct (add_pos Hr Hs H H') as [[Hv _]|[-> _]].
      * split; right; [exists r|exists s]; exists (rnd (r + s)); (split; [assumption|split; [exact Hv|split; [assumption|]]]).
        -- rewrite <- (@rnd_id r (val_format Hr)) at 1. apply rnd_le. lra.
        -- rewrite <- (@rnd_id s (val_format Hs)) at 1. apply rnd_le. lra.
      * split; left; (split; [|reflexivity]); right; eexists; split; eassumption.
Qed.
