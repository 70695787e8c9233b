(** Facts about the doubles that relevancies are made of. *)
From Verif Require Import Base DoubleM.
From Coq Require Import ZifyBool ZifyN ZifyNat.
Local Open Scope Z_scope.

(** Between 0 and 1. *)
Definition unit_double (x : double) : Prop :=
  match x with S754_zero false => True | S754_finite false m e => e <= 0 /\ Zpos m <= 2 ^ (- e) | _ => False end.
(** Not negative, maybe infinite. *)
Definition nonneg_double (x : double) : Prop :=
  match x with S754_zero false | S754_finite false _ _ | S754_infinity false => True | _ => False end.

Lemma digits_pos p : 2 ^ (Zpos (digits2_pos p) - 1) <= Zpos p < 2 ^ Zpos (digits2_pos p).
Proof.
  induction p as [p IH|p IH|]; [| |cbn; lia]; cbn [digits2_pos];
    rewrite Pos2Z.inj_succ; replace (Z.succ (Zpos (digits2_pos p)) - 1) with (Z.succ (Zpos (digits2_pos p) - 1)) by lia;
    rewrite !Z.pow_succ_r by lia; lia.
Qed.
Lemma digits_le m k : 0 <= k -> 0 <= m < 2 ^ k -> Zdigits2 m <= k.
Proof.
  intros Hk Hm. destruct m as [|p|p]; cbn; [lia| |lia]. pose proof (digits_pos p) as [H _].
  destruct (Z_le_gt_dec (Zpos (digits2_pos p)) k) as [|Hg]; [assumption|]. exfalso.
  assert (2 ^ k <= 2 ^ (Zpos (digits2_pos p) - 1)) by (apply Z.pow_le_mono_r; lia). lia.
Qed.
Lemma digits_nonneg m : 0 <= Zdigits2 m.
Proof. destruct m; cbn; lia. Qed.

(** Shifting right. *)
Lemma shr_1_m r : 0 <= shr_m r -> shr_m (shr_1 r) = shr_m r / 2.
Proof.
  destruct r as [m r s]. cbn [shr_m]. intros H. destruct m as [|[p|p|]|p]; cbn [shr_1 shr_m]; try reflexivity; [| |lia].
  - rewrite (Pos2Z.inj_xI p). rewrite Z.mul_comm, Z.div_add_l by lia. cbn. lia.
  - rewrite (Pos2Z.inj_xO p). now rewrite Z.mul_comm, Z.div_mul by lia.
Qed.
Lemma iter_shr_m p : forall r, 0 <= shr_m r -> shr_m (iter_pos shr_1 p r) = shr_m r / 2 ^ Zpos p.
Proof.
  induction p as [p IH|p IH|]; intros r H; cbn [iter_pos].
  - assert (H1 : 0 <= shr_m (shr_1 r)) by (rewrite shr_1_m by exact H; apply Z.div_pos; lia).
    assert (H2 : 0 <= shr_m (iter_pos shr_1 p (shr_1 r))) by (rewrite IH by exact H1; apply Z.div_pos; [exact H1|apply Z.pow_pos_nonneg; lia]).
    rewrite !IH by assumption. rewrite shr_1_m by exact H. rewrite !Z.div_div by (try apply Z.pow_nonzero; try apply Z.pow_pos_nonneg; lia).
    f_equal. rewrite <- !Z.pow_add_r by lia. rewrite <- Z.pow_succ_r by lia. f_equal. lia.
  - assert (H2 : 0 <= shr_m (iter_pos shr_1 p r)) by (rewrite IH by exact H; apply Z.div_pos; [exact H|apply Z.pow_pos_nonneg; lia]).
    rewrite !IH by assumption. rewrite !Z.div_div by (try apply Z.pow_nonzero; try apply Z.pow_pos_nonneg; lia).
    f_equal. rewrite <- Z.pow_add_r by lia. f_equal. lia.
  - rewrite shr_1_m by exact H. reflexivity.
Qed.
Definition exact_rec (m : Z) : shr_record := {| shr_m := m; shr_r := false; shr_s := false |}.
Lemma shr_1_exact k : 0 <= k -> shr_1 (exact_rec (2 * k)) = exact_rec k.
Proof. intros H. destruct k as [|p|p]; [reflexivity|reflexivity|lia]. Qed.
Lemma iter_exact p : forall k, 0 <= k -> iter_pos shr_1 p (exact_rec (k * 2 ^ Zpos p)) = exact_rec k.
Proof.
  induction p as [p IH|p IH|]; intros k H; cbn [iter_pos].
  - replace (k * 2 ^ Zpos p~1) with (2 * (k * 2 ^ Zpos p * 2 ^ Zpos p)).
    + rewrite shr_1_exact by (repeat apply Z.mul_nonneg_nonneg; try apply Z.pow_nonneg; lia).
      rewrite IH by (apply Z.mul_nonneg_nonneg; [exact H|apply Z.pow_nonneg; lia]). now apply IH.
    + replace (Zpos p~1) with (Z.succ (Zpos p + Zpos p)) by lia. rewrite Z.pow_succ_r, Z.pow_add_r by lia. ring.
  - replace (k * 2 ^ Zpos p~0) with (k * 2 ^ Zpos p * 2 ^ Zpos p).
    + rewrite IH by (apply Z.mul_nonneg_nonneg; [exact H|apply Z.pow_nonneg; lia]). now apply IH.
    + replace (Zpos p~0) with (Zpos p + Zpos p) by lia. rewrite Z.pow_add_r by lia. ring.
  - change (2 ^ 1) with 2. replace (k * 2) with (2 * k) by lia. now apply shr_1_exact.
Qed.
Lemma loc_rec m l : shr_m (shr_record_of_loc m l) = m /\ (l = loc_Exact -> shr_record_of_loc m l = exact_rec m).
Proof. destruct l as [|[]]; cbn; (split; [reflexivity|]); intros [=]; reflexivity. Qed.

(** One shift to the target exponent. *)
Lemma shr_unit m e l r e1 : 0 <= m -> e <= 0 -> m <= 2 ^ (- e) -> (m = 2 ^ (- e) -> l = loc_Exact) ->
  shr_fexp 53 1024 m e l = (r, e1) ->
  0 <= shr_m r /\ e1 <= 0 /\ shr_m r <= 2 ^ (- e1) /\ (shr_m r = 2 ^ (- e1) -> loc_of_shr_record r = loc_Exact).
Proof.
  intros Hm He Hle Hex Hs. unfold shr_fexp in Hs. set (f := fexp 53 1024 (Zdigits2 m + e)) in *.
  assert (Hd : Zdigits2 m <= - e + 1). { apply digits_le; [lia|]. split; [exact Hm|]. rewrite Z.pow_add_r by lia. change (2 ^ 1) with 2. assert (0 < 2 ^ (- e)) by (apply Z.pow_pos_nonneg; lia). lia. }
  assert (Hf : f <= -52) by (unfold f, fexp, emin; lia). clearbody f. destruct (loc_rec m l) as [Hr1 Hr2].
  unfold shr in Hs. destruct (f - e) as [|p|p] eqn:Hn; injection Hs as <- <-.
  - rewrite Hr1. repeat split; try assumption. intros Heq. now rewrite Hr2 by now apply Hex.
  - rewrite iter_shr_m by now rewrite Hr1. rewrite Hr1.
    assert (Hp : 2 ^ (- e) = 2 ^ (- (e + Zpos p)) * 2 ^ Zpos p) by (rewrite <- Z.pow_add_r by lia; f_equal; lia).
    assert (Hpp : 0 < 2 ^ Zpos p) by (apply Z.pow_pos_nonneg; lia).
    split; [apply Z.div_pos; lia|]. split; [lia|]. split.
    + apply Z.div_le_upper_bound; [lia|]. rewrite Hp in Hle. lia.
    + intros Heq. assert (Hme : m = 2 ^ (- e)).
      { apply Z.le_antisymm; [exact Hle|]. rewrite Hp, <- Heq. pose proof (Z.mul_div_le m (2 ^ Zpos p) Hpp). lia. }
      rewrite Hr2 by now apply Hex. rewrite Hme, Hp, iter_exact by (apply Z.pow_nonneg; lia). reflexivity.
  - rewrite Hr1. repeat split; try assumption. intros Heq. now rewrite Hr2 by now apply Hex.
Qed.
Lemma round_unit m e l : 0 <= m -> e <= 0 -> m <= 2 ^ (- e) -> (m = 2 ^ (- e) -> l = loc_Exact) -> unit_double (binary_round_aux 53 1024 false m e l).
Proof.
  intros Hm He Hle Hex. unfold binary_round_aux. destruct (shr_fexp 53 1024 m e l) as [r1 e1] eqn:H1.
  destruct (shr_unit Hm He Hle Hex H1) as (A & B & C & D).
  set (k := round_nearest_even (shr_m r1) (loc_of_shr_record r1)).
  assert (Hk : 0 <= k <= 2 ^ (- e1)).
  { unfold k, round_nearest_even. destruct (loc_of_shr_record r1) as [|[]] eqn:Hl; [lia| |lia|].
    - assert (shr_m r1 <> 2 ^ (- e1)) by (intros Hx; apply D in Hx; discriminate). destruct (Z.even (shr_m r1)); lia.
    - assert (shr_m r1 <> 2 ^ (- e1)) by (intros Hx; apply D in Hx; discriminate). lia. }
  destruct (shr_fexp 53 1024 k e1 loc_Exact) as [r2 e2] eqn:H2.
  destruct (@shr_unit k e1 loc_Exact r2 e2 ltac:(lia) B ltac:(lia) ltac:(reflexivity) H2) as (A' & B' & C' & _).
  destruct (shr_m r2) as [|p|p]; [exact I| |lia]. destruct (Zle_bool e2 (1024 - 53)) eqn:Hb; [split; [exact B'|exact C']|lia].
Qed.
(** Rounding a number that is not negative. *)
Lemma shr_nonneg m e l r e1 : 0 <= m -> shr_fexp 53 1024 m e l = (r, e1) -> 0 <= shr_m r.
Proof.
  intros Hm Hs. unfold shr_fexp, shr in Hs. destruct (loc_rec m l) as [Hr _].
  destruct (_ - e) as [|p|p]; injection Hs as <- <-; rewrite ?iter_shr_m; rewrite ?Hr; try lia. apply Z.div_pos; [lia|apply Z.pow_pos_nonneg; lia].
Qed.
Lemma round_nonneg m e l : 0 <= m -> nonneg_double (binary_round_aux 53 1024 false m e l).
Proof.
  intros Hm. unfold binary_round_aux. destruct (shr_fexp 53 1024 m e l) as [r1 e1] eqn:H1. apply shr_nonneg in H1; [|exact Hm].
  set (k := round_nearest_even (shr_m r1) (loc_of_shr_record r1)).
  assert (Hk : 0 <= k) by (unfold k, round_nearest_even; destruct (loc_of_shr_record r1) as [|[]]; try lia; destruct (Z.even (shr_m r1)); lia).
  destruct (shr_fexp 53 1024 k e1 loc_Exact) as [r2 e2] eqn:H2. apply shr_nonneg in H2; [|exact Hk].
  destruct (shr_m r2) as [|p|p]; [exact I| |lia]. destruct (Zle_bool e2 (1024 - 53)); exact I.
Qed.

(** Shifting left. *)
Lemma shift_pos_val d m : Zpos (shift_pos d m) = Zpos m * 2 ^ Zpos d.
Proof. rewrite Zpower.shift_pos_correct. change (2 ^ Zpos d) with (Z.pow_pos 2 d). apply Z.mul_comm. Qed.
Lemma shl_val m e e' : let '(m', e1) := shl_align m e e' in e1 = Z.min e e' /\ Zpos m' = Zpos m * 2 ^ (e - e1).
Proof.
  unfold shl_align. destruct (e' - e) as [|d|d] eqn:Hd.
  - split; [lia|]. rewrite Z.sub_diag. cbn. lia.
  - split; [lia|]. rewrite Z.sub_diag. cbn. lia.
  - split; [lia|]. rewrite shift_pos_val. do 2 f_equal. lia.
Qed.
Lemma bround_unit m e : e <= 0 -> Zpos m <= 2 ^ (- e) -> unit_double (binary_round 53 1024 false m e).
Proof.
  intros He Hm. unfold binary_round. pose proof (shl_val m e (fexp 53 1024 (Zpos (digits2_pos m) + e))) as H.
  destruct (shl_align m e _) as [m' e1]. destruct H as [H1 H2]. apply round_unit; try lia; [|reflexivity].
  rewrite H2. replace (- e1) with (- e + (e - e1)) by lia. rewrite Z.pow_add_r by lia. apply Z.mul_le_mono_nonneg_r; [apply Z.pow_nonneg; lia|exact Hm].
Qed.
Lemma bround_nonneg m e : nonneg_double (binary_round 53 1024 false m e).
Proof. unfold binary_round. destruct (shl_align m e _) as [m' e1]. apply round_nonneg. lia. Qed.

(** ** The operations *)
Lemma mul_unit x y : unit_double x -> unit_double y -> unit_double (d_mul x y).
Proof.
  destruct x as [[]|[]| |[] m e], y as [[]|[]| |[] n f]; cbn; try tauto. intros [H1 H2] [H3 H4]. apply round_unit; try lia; [|reflexivity].
  replace (- (e + f)) with (- e + - f) by lia. rewrite Z.pow_add_r by lia. rewrite Pos2Z.inj_mul. apply Z.mul_le_mono_nonneg; lia.
Qed.
Lemma mul_nonneg x y : unit_double x -> (match y with S754_zero _ => True | S754_finite false _ _ => True | _ => False end) ->
  is_nan (d_mul x y) = false /\ (nonneg_double (d_mul x y) \/ exists s, d_mul x y = S754_zero s).
Proof.
  intros Hx Hy. assert (G : nonneg_double (d_mul x y) \/ exists s, d_mul x y = S754_zero s).
  { destruct x as [[]|[]| |[] m e], y as [s|[]| |[] n f]; cbn in *; try tauto; try (right; eexists; reflexivity). left. apply round_nonneg. lia. }
  split; [|exact G]. destruct G as [G|[s ->]]; [|reflexivity]. destruct (d_mul x y) as [[]|[]| |[]]; cbn in *; tauto.
Qed.
(** Not negative, but perhaps the negative zero. *)
Definition weakly_nonneg (x : double) : Prop :=
  match x with S754_zero _ | S754_finite false _ _ | S754_infinity false => True | _ => False end.
Lemma add_weak x y : weakly_nonneg x -> weakly_nonneg y -> weakly_nonneg (d_add x y).
Proof.
  destruct x as [a|[]| |[] m e], y as [b|[]| |[] n f]; cbn; try tauto; [now destruct a, b|]. intros _ _.
  destruct (shl_align m e _) as [m' e1], (shl_align n f _) as [n' f1]. cbn.
  pose proof (bround_nonneg (m' + n') (Z.min e f)) as H. destruct (binary_round _ _ _ _ _) as [[]|[]| |[]]; cbn in *; tauto.
Qed.
Lemma weak_nan x : weakly_nonneg x -> is_nan x = false.
Proof. destruct x as [|[]| |[]]; cbn; tauto. Qed.

(** Small integers are exact. *)
Lemma of_Z_exact p : Zpos p < 2 ^ 53 -> exists m, d_of_Z (Zpos p) = S754_finite false m (Zpos (digits2_pos p) - 53) /\
  Zpos m = Zpos p * 2 ^ (53 - Zpos (digits2_pos p)) /\ Zpos (digits2_pos m) = 53 /\ Zpos (digits2_pos p) <= 53.
Proof.
  intros Hp. unfold d_of_Z, binary_normalize, binary_round. rewrite Z.add_0_r.
  assert (Hd : Zpos (digits2_pos p) <= 53) by (apply (@digits_le (Zpos p)); lia).
  assert (Hf : fexp 53 1024 (Zpos (digits2_pos p)) = Zpos (digits2_pos p) - 53) by (unfold fexp, emin; lia).
  rewrite Hf. pose proof (shl_val p 0 (Zpos (digits2_pos p) - 53)) as H.
  destruct (shl_align p 0 _) as [m e1]. destruct H as [H1 H2]. assert (He1 : e1 = Zpos (digits2_pos p) - 53) by lia. clear H1. subst e1.
  replace (0 - (Zpos (digits2_pos p) - 53)) with (53 - Zpos (digits2_pos p)) in H2 by lia.
  assert (Hm : Zpos (digits2_pos m) = 53).
  { pose proof (digits_pos p) as [P1 P2]. pose proof (digits_pos m) as [M1 M2].
    assert (A : 2 ^ 52 <= Zpos m < 2 ^ 53).
    { rewrite H2. set (k := Zpos (digits2_pos p)) in *.
      assert (E1 : 2 ^ 52 = 2 ^ (k - 1) * 2 ^ (53 - k)) by (rewrite <- Z.pow_add_r by lia; f_equal; lia).
      assert (E2 : 2 ^ 53 = 2 ^ k * 2 ^ (53 - k)) by (rewrite <- Z.pow_add_r by lia; f_equal; lia). rewrite E1, E2.
      assert (0 < 2 ^ (53 - k)) by (apply Z.pow_pos_nonneg; lia). split; [apply Z.mul_le_mono_nonneg_r; lia|]. apply Z.mul_lt_mono_pos_r; lia. }
    apply Z.le_antisymm; [apply (@digits_le (Zpos m)); lia|].
    destruct (Z_lt_le_dec (Zpos (digits2_pos m)) 53) as [Hlt|]; [|assumption]. exfalso.
    assert (2 ^ Zpos (digits2_pos m) <= 2 ^ 52) by (apply Z.pow_le_mono_r; lia). lia. }
  exists m. split; [|now repeat split].
  assert (Hs : shr_fexp 53 1024 (Zpos m) (Zpos (digits2_pos p) - 53) loc_Exact = (exact_rec (Zpos m), Zpos (digits2_pos p) - 53)).
  { unfold shr_fexp. cbn [Zdigits2]. rewrite Hm. replace (fexp 53 1024 _ - _) with 0; [reflexivity|]. unfold fexp, emin. lia. }
  unfold binary_round_aux. rewrite Hs. cbn [exact_rec shr_m loc_of_shr_record round_nearest_even]. fold (exact_rec (Zpos m)). rewrite Hs. cbn [exact_rec shr_m].
  destruct (Zle_bool _ _) eqn:Hb; [reflexivity|lia].
Qed.
Lemma div_unit a b : 0 <= a < b -> b < 2 ^ 53 -> unit_double (d_div (d_of_Z a) (d_of_Z b)).
Proof.
  intros Ha Hb. destruct b as [|b|b]; try lia. destruct (of_Z_exact Hb) as (n & -> & N1 & N2 & N3).
  destruct a as [|a|a]; [exact I| |lia]. destruct (@of_Z_exact a) as (m & -> & M1 & M2 & M3); [lia|].
  set (ka := Zpos (digits2_pos a)) in *. set (kb := Zpos (digits2_pos b)) in *.
  unfold d_div, SFdiv, SFdiv_core_binary. cbn [Zdigits2]. rewrite M2, N2. cbn [xorb].
  set (e' := Z.min _ _). set (s := ka - 53 - (kb - 53) - e').
  assert (Hk : ka <= kb). { apply (@digits_le (Zpos a)); [lia|]. pose proof (digits_pos b). fold kb in H. lia. }
  assert (He : e' <= -53) by (unfold e', fexp, emin; lia).
  assert (Hs : 0 <= s) by (unfold s, e'; lia).
  assert (Hm : match s with Z0 => Zpos m | Zpos _ => Z.shiftl (Zpos m) s | Zneg _ => 0 end = Zpos m * 2 ^ s).
  { destruct s as [|p|p] eqn:Hx; [cbn; lia|now rewrite Z.shiftl_mul_pow2 by lia|lia]. }
  rewrite Hm. pose proof (Z.div_eucl (Zpos m * 2 ^ s) (Zpos n)) as _.
  assert (Hdm := Z_div_mod (Zpos m * 2 ^ s) (Zpos n) ltac:(lia)). destruct (Z.div_eucl (Zpos m * 2 ^ s) (Zpos n)) as [q r]. destruct Hdm as [Hq Hr].
  assert (H0 : 0 <= Zpos m * 2 ^ s) by (apply Z.mul_nonneg_nonneg; [lia|apply Z.pow_nonneg; lia]).
  assert (Hq0 : 0 <= q) by nia.
  assert (Hlt : q < 2 ^ (- e')).
  { apply (Zmult_lt_reg_r _ _ (Zpos n)); [lia|]. rewrite N1, M1 in *.
    assert (Hpw : Zpos a * 2 ^ (53 - ka) * 2 ^ s = Zpos a * 2 ^ (- e') * 2 ^ (53 - kb)).
    { rewrite <- !Z.mul_assoc, <- !Z.pow_add_r by lia. do 2 f_equal. unfold s. lia. }
    assert (0 < 2 ^ (- e')) by (apply Z.pow_pos_nonneg; lia). assert (0 < 2 ^ (53 - kb)) by (apply Z.pow_pos_nonneg; lia).
    assert (Hx : Zpos a * 2 ^ (- e') * 2 ^ (53 - kb) < 2 ^ (- e') * (Zpos b * 2 ^ (53 - kb))).
    { replace (2 ^ (- e') * (Zpos b * 2 ^ (53 - kb))) with (Zpos b * (2 ^ (- e') * 2 ^ (53 - kb))) by ring. rewrite <- Z.mul_assoc.
      apply Z.mul_lt_mono_pos_r; [nia|lia]. }
    lia. }
  apply round_unit; lia.
Qed.
Lemma one_minus_unit q : unit_double q -> unit_double (d_sub (d_of_Z 1) q).
Proof.
  change (d_of_Z 1) with (S754_finite false 4503599627370496 (-52)). destruct q as [[]|[]| |[] m e]; cbn [unit_double]; try tauto.
  - intros _. cbn. lia.
  - intros [He Hm]. unfold d_sub, SFsub. set (ez := Z.min (-52) e).
    pose proof (shl_val 4503599627370496 (-52) ez) as H1. pose proof (shl_val m e ez) as H2.
    destruct (shl_align 4503599627370496 (-52) ez) as [a ea], (shl_align m e ez) as [b eb]. destruct H1 as [A1 A2], H2 as [B1 B2].
    assert (ea = ez) by (unfold ez in *; lia). assert (eb = ez) by (unfold ez in *; lia). clear A1 B1. subst ea eb. cbn [fst cond_Zopp].
    assert (Ha : Zpos a = 2 ^ (- ez)). { rewrite A2. change 4503599627370496 with (2 ^ 52). rewrite <- Z.pow_add_r by (unfold ez; lia). f_equal. lia. }
    assert (Hb : Zpos b <= 2 ^ (- ez)).
    { rewrite B2. replace (- ez) with (- e + (e - ez)) by lia. rewrite Z.pow_add_r by (unfold ez; lia). apply Z.mul_le_mono_nonneg_r; [apply Z.pow_nonneg; lia|exact Hm]. }
    unfold binary_normalize. destruct (Zpos a - Zpos b) as [|d|d] eqn:Hd; [exact I| |lia]. apply bround_unit; [unfold ez; lia|lia].
Qed.

(** ** Contributions *)
Definition unitb (x : double) : bool :=
  match x with S754_zero false => true | S754_finite false m e => (e <=? 0) && (Zpos m <=? 2 ^ (- e)) | _ => false end.
Lemma unitb_unit x : unitb x = true -> unit_double x.
Proof. destruct x as [[]|[]| |[] m e]; cbn; try discriminate; auto. intros H. lia. Qed.
Definition error_factor (err : Z) : double := d_div (d_of_Z 100) (d_add (d_of_Z 100) (d_of_Z err)).
Lemma error_table : forallb (fun i => unitb (error_factor (Z.of_nat i))) (seq 0 201) = true.
Proof. vm_compute. reflexivity. Qed.
Lemma error_unit err : 0 <= err <= 200 -> unit_double (error_factor err).
Proof.
  intros H. apply unitb_unit. pose proof error_table as T. rewrite forallb_forall in T. specialize (T (Z.to_nat err)). rewrite Z2Nat.id in T by lia.
  apply T. apply in_seq. lia.
Qed.
