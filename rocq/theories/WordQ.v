(** Proofs about Word values: validity, order, join, hash, split. *)
From Verif Require Import Base TrieM WordM Spec_Word WordP Demo.
From Coq Require Import ZifyBool ZifyN ZifyNat.
Local Open Scope N_scope.
Ltac Zify.zify_post_hook ::= Z.to_euclidean_division_equations.

(** ** No whitespace *)
Lemma validate_ok E w w' : validate E w = Ok w' -> w' = w /\ has_ws w = false /\ has_broken E w = Ok false.
Proof.
  unfold validate. destruct (has_ws w); [discriminate|]. destruct (has_broken E w) as [[]| | | |]; try discriminate.
  intros [= <-]. now repeat split.
Qed.
Lemma buffer_ok E buf w : word_of_letters E buf = Ok w -> has_ws w = false /\ has_broken E w = Ok false /\ (forall l, In l w -> In l buf).
Proof.
  unfold word_of_letters. destruct (rev buf) as [|last front] eqn:Hr; [discriminate|].
  assert (Hbuf : buf = rev front ++ [last]) by (rewrite <- (rev_involutive buf), Hr; reflexivity).
  set (v := if last =? 0 then rev front else buf). intros H.
  assert (Hv : validate E v = Ok w) by exact H. apply validate_ok in Hv as (-> & H1 & H2).
  repeat split; [exact H1|exact H2|]. intros l Hin. subst v. destruct (last =? 0); [|exact Hin].
  rewrite Hbuf. apply in_or_app. now left.
Qed.
Lemma no_ws E w : made E w -> forall l, In l w -> ~ blank l.
Proof.
  assert (Hx : forall w, has_ws w = false -> forall l, In l w -> ~ blank l).
  { intros w' Hw l Hin Hb. assert (has_ws w' = true) by (apply has_ws_in; eauto). congruence. }
  induction 1 as [|s w Hw|buf w Hw|a b _ IHa _ IHb].
  - intros l [].
  - unfold word_of_utf8 in Hw. destruct (utf8ToInternal E s); try discriminate. cbn in Hw.
    apply validate_ok in Hw as (-> & H & _). now apply Hx.
  - apply buffer_ok in Hw as (H & _). now apply Hx.
  - intros l Hin. apply in_app_or in Hin as [Hin|Hin]; [now apply IHa|now apply IHb].
Qed.
Lemma ws_refused E buf : (exists l, In l buf /\ blank l) -> word_of_letters E buf = Throw EInvalidArg.
Proof.
  intros (l & Hin & Hb). unfold word_of_letters. destruct (rev buf) as [|last front] eqn:Hr.
  - apply (f_equal (@rev N)) in Hr. rewrite rev_involutive in Hr. subst buf. destruct Hin.
  - assert (Hbuf : buf = rev front ++ [last]) by (rewrite <- (rev_involutive buf), Hr; reflexivity).
    cbv zeta. replace (has_ws _) with true; [reflexivity|]. symmetry. apply has_ws_in. exists l. split; [|exact Hb].
    destruct (last =? 0) eqn:H0; [|exact Hin]. rewrite Hbuf in Hin. apply in_app_or in Hin as [Hin|[<-|[]]]; [exact Hin|].
    unfold blank in Hb. lia.
Qed.

(** ** Surrogates *)
Lemma broken_accepts E : e_ndebug E = false -> forall w, Forall (fun l => l < 65536) w ->
  (broken_loop E false true w = Ok false -> nearly w) /\
  (broken_loop E true false w = Ok false -> w = [] \/ exists l r, w = l :: r /\ is_low l = true /\ nearly r).
Proof.
  intros Hd. induction 1 as [|l w Hl _ [IH1 IH2]].
  - split; [|now left]. intros _. exists []. split; [constructor|now left].
  - split; cbn [broken_loop].
    + cbn [andb negb orb]. destruct (is_surrogate l) eqn:Hs.
      * destruct (is_high l) eqn:Hh; cbn [andb negb]; [|discriminate]. unfold oassert at 1. cbn [obind].
        intros H. apply IH2 in H as [->|(l2 & r & -> & Hlo & cs & Hcs & Hr)].
        -- exists []. split; [constructor|]. right. exists l. unfold is_high in Hh. split; [lia|reflexivity].
        -- unfold is_high, is_low in *.
           assert (Hc : scalar (65536 + (l - 55296) * 1024 + (l2 - 56320))) by (unfold scalar; lia).
           assert (He : letters_of (65536 + (l - 55296) * 1024 + (l2 - 56320) :: cs) = l :: l2 :: letters_of cs).
           { rewrite letters_cons. unfold utf16. ift false. cbn [app]. f_equal; [lia|f_equal; lia]. }
           exists (65536 + (l - 55296) * 1024 + (l2 - 56320) :: cs). split; [now constructor|]. rewrite He.
           destruct Hr as [->|(h & Hh' & ->)]; [now left|right; exists h; split; [exact Hh'|reflexivity]].
      * intros H. apply IH1 in H as (cs & Hcs & Hr). unfold is_surrogate, is_high, is_low in Hs.
        assert (Hc : scalar l) by (unfold scalar; lia).
        assert (He : letters_of (l :: cs) = l :: letters_of cs) by (rewrite letters_cons; unfold utf16; ift true; reflexivity).
        exists (l :: cs). split; [now constructor|]. rewrite He.
        destruct Hr as [->|(h & Hh' & ->)]; [now left|right; exists h; split; [exact Hh'|reflexivity]].
    + cbn [andb negb orb]. destruct (is_surrogate l) eqn:Hs; cbn [negb]; [|discriminate].
      unfold oassert. rewrite Hd. destruct (is_low l) eqn:Hlo; cbn [obind]; [|discriminate].
      intros H. right. exists l, w. split; [reflexivity|]. split; [exact Hlo|]. now apply IH1.
Qed.
Lemma constructor_wf E buf w : e_ndebug E = false -> Forall (fun l => l < 65536) buf -> word_of_letters E buf = Ok w -> nearly w.
Proof.
  intros Hd Hr Hw. apply buffer_ok in Hw as (_ & Hb & Hin). apply (proj1 (@broken_accepts E Hd w ltac:(apply Forall_forall; intros l Hl; rewrite Forall_forall in Hr; now apply Hr, Hin))).
  exact Hb.
Qed.
(** Every word is characters followed by nothing, or by the first fault. *)
Lemma split_fault w : Forall (fun l => l < 65536) w -> exists cs rest, Forall scalar cs /\ w = letters_of cs ++ rest /\
  (rest = [] \/ (exists h, high_surrogate h /\ rest = [h]) \/ (exists l r, low_surrogate l /\ rest = l :: r) \/
   (exists h l r, high_surrogate h /\ ~ high_surrogate l /\ ~ low_surrogate l /\ rest = h :: l :: r) \/
   (exists h h' r, high_surrogate h /\ high_surrogate h' /\ rest = h :: h' :: r)).
Proof.
  remember (length w) as n eqn:Hn. assert (Hle : (length w <= n)%nat) by lia. clear Hn. revert w Hle.
  induction n as [|n IH]; intros [|l w] Hle HF; cbn in Hle; try lia; try (exists [], []; split; [constructor|]; split; [reflexivity|now left]).
  inversion HF as [|? ? Hl HF']; subst. unfold high_surrogate, low_surrogate in *.
  assert (Hcase : scalar l \/ 55296 <= l <= 56319 \/ 56320 <= l <= 57343) by (unfold scalar; lia).
  destruct Hcase as [Hs|[Hh|Hlo]].
  - destruct (IH w ltac:(lia) HF') as (cs & rest & Hcs & -> & Hr). exists (l :: cs), rest. split; [now constructor|]. split; [|exact Hr].
    rewrite letters_cons. unfold utf16. ift true. reflexivity.
  - destruct w as [|l2 w]; [exists [], [l]; split; [constructor|]; split; [reflexivity|]; right; left; now exists l|].
    inversion HF' as [|? ? Hl2 HF'']; subst.
    assert (Hcase : scalar l2 \/ 55296 <= l2 <= 56319 \/ 56320 <= l2 <= 57343) by (unfold scalar; lia).
    destruct Hcase as [Hs2|[Hh2|Hlo2]].
    + exists [], (l :: l2 :: w). split; [constructor|]. split; [reflexivity|]. do 3 right. left. exists l, l2, w. unfold scalar in Hs2. split; [lia|]. split; [lia|]. split; [lia|reflexivity].
    + exists [], (l :: l2 :: w). split; [constructor|]. split; [reflexivity|]. do 4 right. now exists l, l2, w.
    + destruct (IH w ltac:(cbn in Hle; lia) HF'') as (cs & rest & Hcs & -> & Hr).
      exists (65536 + (l - 55296) * 1024 + (l2 - 56320) :: cs), rest. split; [constructor; [unfold scalar; lia|exact Hcs]|]. split; [|exact Hr].
      rewrite letters_cons. unfold utf16. ift false. cbn [app]. f_equal; [lia|f_equal; lia].
  - exists [], (l :: w). split; [constructor|]. split; [reflexivity|]. right. right. left. now exists l, w.
Qed.
Lemma loop_chars E cs rest : Forall scalar cs -> broken_loop E false true (letters_of cs ++ rest) = broken_loop E false true rest.
Proof.
  induction 1 as [|c cs Hc _ IH]; [reflexivity|]. rewrite letters_cons, <- app_assoc. unfold utf16. destruct (N.ltb_spec c 65536) as [Hlt|Hge]; cbn [app].
  - cbn [broken_loop]. cbn [andb negb orb]. replace (is_surrogate c) with false by (unfold is_surrogate, is_high, is_low, scalar in *; lia). exact IH.
  - assert (H1 : is_high (55296 + (c - 65536) / 1024) = true) by (unfold is_high, scalar in *; lia).
    assert (H2 : is_low (56320 + (c - 65536) mod 1024) = true) by (unfold is_low, scalar in *; lia).
    assert (H3 : is_surrogate (55296 + (c - 65536) / 1024) = true) by (unfold is_surrogate; now rewrite H1).
    assert (H4 : is_surrogate (56320 + (c - 65536) mod 1024) = true) by (unfold is_surrogate; rewrite H2; apply orb_true_r).
    cbn [broken_loop]. cbn [andb negb orb]. rewrite H3, H1, H4, H2. cbn [andb negb orb oassert obind]. exact IH.
Qed.
Lemma loop_rest E rest : Forall (fun l => l < 65536) rest ->
  (rest = [] \/ (exists h, high_surrogate h /\ rest = [h]) -> broken_loop E false true rest = Ok false) /\
  ((exists l r, low_surrogate l /\ rest = l :: r) \/ (exists h l r, high_surrogate h /\ ~ high_surrogate l /\ ~ low_surrogate l /\ rest = h :: l :: r) ->
     broken_loop E false true rest = Ok true) /\
  ((exists h h' r, high_surrogate h /\ high_surrogate h' /\ rest = h :: h' :: r) -> e_ndebug E = false -> broken_loop E false true rest = Abort).
Proof.
  intros _. assert (HH : forall l, high_surrogate l -> is_high l = true) by (unfold high_surrogate, is_high; intros; lia).
  assert (HN : forall l, ~ high_surrogate l -> is_high l = false) by (unfold high_surrogate, is_high; intros; lia).
  assert (LL : forall l, low_surrogate l -> is_low l = true) by (unfold low_surrogate, is_low; intros; lia).
  assert (LN : forall l, ~ low_surrogate l -> is_low l = false) by (unfold low_surrogate, is_low; intros; lia).
  assert (X : forall l, high_surrogate l -> ~ low_surrogate l) by (unfold high_surrogate, low_surrogate; intros; lia).
  split; [|split].
  - intros [->|(h & Hh & ->)]; [reflexivity|]. cbn [broken_loop]. unfold is_surrogate. rewrite (HH _ Hh). reflexivity.
  - intros [(l & r & Hl & ->)|(h & l & r & Hh & H1 & H2 & ->)].
    + cbn [broken_loop]. unfold is_surrogate. rewrite (LL _ Hl), orb_true_r. cbn [andb negb].
      rewrite HN; [reflexivity|]. intros H. now apply X in H.
    + cbn [broken_loop]. unfold is_surrogate. rewrite (HH _ Hh), (HN _ H1), (LN _ H2). reflexivity.
  - intros (h & h' & r & Hh & Hh' & ->) Hd. cbn [broken_loop]. unfold is_surrogate. rewrite (HH _ Hh), (HH _ Hh'), (LN _ (X _ Hh')).
    unfold oassert. rewrite Hd. reflexivity.
Qed.
Lemma content_run E buf w : content buf w -> word_of_letters E buf = validate E w.
Proof.
  intros H. assert (Hr : exists last front, rev buf = last :: front /\ (if last =? 0 then rev front else buf) = w).
  { destruct H as [->|(-> & Hn)].
    - exists 0, (rev w). rewrite rev_app_distr. cbn. rewrite rev_involutive. now split.
    - destruct (rev w) as [|last front] eqn:Hr.
      + apply (f_equal (@rev N)) in Hr. rewrite rev_involutive in Hr. now rewrite Hr in Hn.
      + exists last, front. split; [reflexivity|]. assert (Hw : w = rev front ++ [last]) by (rewrite <- (rev_involutive w), Hr; reflexivity).
        rewrite Hw, last_last in Hn. replace (last =? 0) with false by lia. reflexivity. }
  destruct Hr as (x & front & Hr & Hw). unfold word_of_letters. rewrite Hr. cbv zeta. rewrite Hw. reflexivity.
Qed.
Lemma letters_exact E buf w : e_ndebug E = false -> Forall (fun l => l < 65536) buf -> content buf w -> (forall l, In l w -> ~ blank l) ->
  (word_of_letters E buf = Ok w <-> nearly w) /\ (word_of_letters E buf = Throw EInvalidArg <-> lone_surrogate w) /\
  (word_of_letters E buf = Abort <-> two_high w).
Proof.
  intros Hd HF Hc Hb. rewrite (content_run E Hc). unfold validate.
  replace (has_ws w) with false by (symmetry; apply not_true_is_false; rewrite has_ws_in; intros (l & Hin & Hl); now apply Hb in Hl).
  unfold has_broken. assert (Hw : Forall (fun l => l < 65536) w).
  { destruct Hc as [->|[-> _]]; [now apply Forall_app in HF|exact HF]. }
  assert (R : forall cs rest, Forall scalar cs -> w = letters_of cs ++ rest -> broken_loop E false true w = broken_loop E false true rest /\ Forall (fun l => l < 65536) rest).
  { intros cs rest Hcs ->. split; [now apply loop_chars|]. now apply Forall_app in Hw. }
  assert (A : nearly w -> broken_loop E false true w = Ok false).
  { intros (cs & Hcs & H). assert (H' : exists rest, w = letters_of cs ++ rest /\ (rest = [] \/ exists h, high_surrogate h /\ rest = [h])).
    { destruct H as [H|(h & Hh & H)]; [exists []; rewrite app_nil_r; now auto|]. exists [h]. split; [exact H|]. right. exists h. unfold high_surrogate. split; [lia|reflexivity]. }
    destruct H' as (rest & Hr & Hx). destruct (R cs rest Hcs Hr) as [-> Hf]. now apply (proj1 (loop_rest E Hf)). }
  assert (B : lone_surrogate w -> broken_loop E false true w = Ok true).
  { intros (cs & rest & Hcs & Hr & Hx). destruct (R cs rest Hcs Hr) as [-> Hf]. now apply (proj1 (proj2 (loop_rest E Hf))). }
  assert (C : two_high w -> broken_loop E false true w = Abort).
  { intros (cs & h & h' & r & Hcs & H1 & H2 & Hr). destruct (R cs _ Hcs Hr) as [-> Hf]. apply (proj2 (proj2 (loop_rest E Hf))); [|exact Hd]. now exists h, h', r. }
  assert (D : nearly w \/ lone_surrogate w \/ two_high w).
  { destruct (split_fault Hw) as (cs & rest & Hcs & Hr & Hx). destruct Hx as [->|[(h & Hh & ->)|[Hx|[Hx|(h & h' & r & H1 & H2 & ->)]]]].
    - left. exists cs. split; [exact Hcs|]. left. now rewrite app_nil_r in Hr.
    - left. exists cs. split; [exact Hcs|]. right. exists h. unfold high_surrogate in Hh. split; [lia|exact Hr].
    - right. left. exists cs, rest. auto.
    - right. left. exists cs, rest. auto.
    - right. right. exists cs, h, h', r. auto. }
  split; [|split]; (split; [|intros H; first [rewrite (A H)|rewrite (B H)|rewrite (C H)]; reflexivity]);
    (destruct D as [D|[D|D]]; [rewrite (A D)|rewrite (B D)|rewrite (C D)]; cbn [obind]; intros H; try discriminate; exact D).
Qed.
Lemma text_wf E s w : lower_ok E -> word_of_utf8 E s = Ok w -> well_formed w.
Proof.
  intros HE Hw. apply word_inv in Hw as (cs & Hs & _ & _ & ->); [|exact HE]. exists (map (fold E) cs). split; [now apply fold_scalars|reflexivity].
Qed.
Lemma not_wf w : utf16_decode w = None -> ~ well_formed w.
Proof. intros H (cs & Hs & ->). now rewrite utf16_encode_decode in H. Qed.
Lemma broken_refuted :
  (exists E buf w, e_ndebug E = false /\ Forall (fun l => l < 65536) buf /\ word_of_letters E buf = Ok w /\ ~ well_formed w) /\
  (exists E buf w, e_ndebug E = true /\ Forall (fun l => l < 65536) buf /\ word_of_letters E buf = Ok w /\ ~ well_formed w /\ ~ nearly w) /\
  (exists E buf, e_ndebug E = false /\ Forall (fun l => l < 65536) buf /\ word_of_letters E buf = Abort).
Proof.
  split; [|split].
  - exists demo, [97; 55296], [97; 55296]. split; [reflexivity|]. split; [repeat (constructor; [lia|]); constructor|]. split; [reflexivity|]. now apply not_wf.
  - exists demo_release, [55296; 55297; 97], [55296; 55297; 97]. split; [reflexivity|]. split; [repeat (constructor; [lia|]); constructor|]. split; [reflexivity|].
    split; [now apply not_wf|]. intros (cs & Hs & [H|(h & Hh & H)]).
    + assert (Hn : ~ well_formed [55296; 55297; 97]) by (now apply not_wf). apply Hn. now exists cs.
    + assert (Hl : last [55296; 55297; 97] 0 = last (letters_of cs ++ [h]) 0) by now rewrite H. rewrite last_last in Hl. cbn in Hl. lia.
  - exists demo, [55296; 55297]. split; [reflexivity|]. split; [repeat (constructor; [lia|]); constructor|]. reflexivity.
Qed.
Lemma join_wf a b : well_formed a -> well_formed b -> well_formed (w_join a b).
Proof.
  intros (ca & Ha & ->) (cb & Hb & ->). exists (ca ++ cb). split; [now apply Forall_app|]. unfold w_join, letters_of. now rewrite flat_map_app.
Qed.

(** ** Order *)
Lemma wlt_irrefl a : wltb a a = false.
Proof. induction a as [|x a IH]; [reflexivity|]. cbn. now rewrite N.ltb_irrefl. Qed.
Lemma wlt_trans a : forall b c, wltb a b = true -> wltb b c = true -> wltb a c = true.
Proof.
  induction a as [|x a IH]; intros [|y b] [|z c]; cbn; try discriminate; try reflexivity.
  destruct (N.ltb_spec x y); destruct (N.ltb_spec y x); destruct (N.ltb_spec y z); destruct (N.ltb_spec z y);
    destruct (N.ltb_spec x z); destruct (N.ltb_spec z x); try discriminate; try reflexivity; try lia; try apply IH.
Qed.
Lemma wlt_total a : forall b, wltb a b = false -> wltb b a = false -> a = b.
Proof.
  induction a as [|x a IH]; intros [|y b]; cbn; try discriminate; try reflexivity.
  destruct (N.ltb_spec x y); destruct (N.ltb_spec y x); try discriminate. intros H1 H2. f_equal; [lia|now apply IH].
Qed.
Lemma wlt_strict_total : 
  (forall a, wltb a a = false) /\
  (forall a b c, wltb a b = true -> wltb b c = true -> wltb a c = true) /\
  (forall a b, wltb a b = true -> wltb b a = false) /\
  (forall a b, wltb a b = false /\ wltb b a = false <-> weqb a b = true) /\
  (forall a b, weqb a b = true <-> a = b).
Proof.
  split; [exact wlt_irrefl|]. split; [exact wlt_trans|]. split; [|split].
  - intros a b H. destruct (wltb b a) eqn:H2; [|reflexivity]. pose proof (wlt_trans H H2). now rewrite wlt_irrefl in H0.
  - intros a b. destruct (weqb_spec a b) as [->|Hne]; [rewrite wlt_irrefl; tauto|].
    split; [|discriminate]. intros [H1 H2]. destruct Hne. now apply wlt_total.
  - intros a b. destruct (weqb_spec a b); [tauto|]. split; [discriminate|contradiction].
Qed.

(** ** join *)
Lemma join_spec : (forall a b c, w_join a (w_join b c) = w_join (w_join a b) c) /\
  (forall a, w_join [] a = a /\ w_join a [] = a) /\
  (forall a b, length (w_join a b) = (length a + length b)%nat) /\
  (forall a b i, w_at (w_join a b) i = if i <? N.of_nat (length a) then w_at a i else w_at b (i - N.of_nat (length a))).
Proof.
  unfold w_join. split; [intros; apply app_assoc|]. split; [intros; split; [reflexivity|apply app_nil_r]|].
  split; [intros; apply app_length|]. intros a b i. unfold w_at. destruct (i <? N.of_nat (length a)) eqn:H.
  - rewrite nth_error_app1 by lia. reflexivity.
  - rewrite nth_error_app2 by lia. now replace (N.to_nat i - length a)%nat with (N.to_nat (i - N.of_nat (length a))) by lia.
Qed.

(** ** Assignment *)
Lemma assign_spec E s o :
  match word_of_utf8 E s with
  | Ok w => wo_assign E s o = (wo_of w, Ok tt)
  | Throw ERuntime => wo_assign E s o = (mkWO None 0, Throw ERuntime)
  | Throw x => x = EInvalidArg /\ exists n, 0 < n /\ wo_assign E s o = (mkWO None n, Throw EInvalidArg)
  | Abort => exists w, wo_assign E s o = (wo_of w, Abort)
  | _ => False
  end.
Proof.
  unfold word_of_utf8, wo_assign. destruct (internal_cases E s) as [[w ->]| ->]; cbn [obind]; [|reflexivity].
  unfold validate. destruct (has_ws w) eqn:Hw.
  - split; [reflexivity|]. exists (N.of_nat (length w)). split; [|reflexivity]. destruct w; [discriminate|cbn; lia].
  - assert (Hb : forall w b1 b2, broken_loop E b1 b2 w = Ok false \/ broken_loop E b1 b2 w = Ok true \/ broken_loop E b1 b2 w = Abort).
    { clear. induction w as [|l w IH]; intros b1 b2; cbn [broken_loop]; [tauto|].
      destruct (b1 && negb (is_surrogate l)); [tauto|]. destruct (is_surrogate l); [|apply IH].
      destruct (b2 && negb (is_high l)); [tauto|]. unfold oassert. destruct (_ || _); cbn [obind].
      - destruct b2; apply IH.
      - destruct (e_ndebug E); cbn [obind]; [destruct b2; apply IH|tauto]. }
    assert (Hne : forall b, has_broken E [] = Ok b -> b = false) by (intros b; cbn; congruence).
    destruct (Hb w false true) as [Hx|[Hx|Hx]]; unfold has_broken in *; rewrite Hx; cbn [obind].
    + reflexivity.
    + split; [reflexivity|]. exists (N.of_nat (length w)). split; [|reflexivity]. destruct w; [discriminate|cbn; lia].
    + now exists w.
Qed.

(** ** hash *)
Definition ascii_small (l : N) : Prop := 97 <= l <= 122.
Lemma rnd_high i : 64 <= i < 256 -> rnd i = 0.
Proof. intros H. unfold rnd. apply nth_overflow. unfold randomNumbers. cbn [length]. lia. Qed.
Lemma hash_same : forall a b i res, Forall ascii_small a -> Forall ascii_small b -> length a = length b ->
  i mod 2 = 0 -> i + 2 * N.of_nat (length a) <= 134 ->
  hash_loop i (letter_bytes a) res = hash_loop i (letter_bytes b) res.
Proof.
  induction a as [|x a IH]; intros [|y b] i res Ha Hb Hl Hi Hn; try discriminate; [reflexivity|].
  apply Forall_cons_iff in Ha as [Hx Ha]. apply Forall_cons_iff in Hb as [Hy Hb]. unfold ascii_small in Hx, Hy.
  cbn [length] in Hl, Hn. unfold letter_bytes. cbn [flat_map app hash_loop].
  rewrite !(rnd_high (i := (_ mod 256 + i mod 256) mod 256)) by lia.
  replace (x / 256 mod 256) with 0 by lia. replace (y / 256 mod 256) with 0 by lia.
  apply (IH b (i + 1 + 1)); try assumption; lia.
Qed.
Lemma hash_collide a b : Forall ascii_small a -> Forall ascii_small b -> length a = length b -> (length a <= 67)%nat ->
  w_hash a = w_hash b.
Proof. intros Ha Hb Hl Hn. apply hash_same; try assumption; [reflexivity|lia]. Qed.

(** ** The order of words *)
Lemma dictionary a b : wltb a b = true <->
  exists p, (exists y r, a = p /\ b = p ++ y :: r) \/ (exists x y r r', a = p ++ x :: r /\ b = p ++ y :: r' /\ x < y).
Proof.
  revert b. induction a as [|x a IH]; intros [|y b]; cbn [wltb].
  - split; [discriminate|]. intros (p & [(y & r & <- & H)|(x & y & r & r' & H & _)]); [discriminate|now destruct p].
  - split; [|reflexivity]. intros _. exists []. left. now exists y, b.
  - split; [discriminate|]. intros (p & [(y & r & <- & H)|(x' & y & r & r' & _ & H & _)]); [discriminate|now destruct p].
  - destruct (N.ltb_spec x y) as [Hlt|Hle]; [split; [|reflexivity]; intros _; exists []; right; now exists x, y, a, b|].
    destruct (N.ltb_spec y x) as [Hgt|Hge].
    + split; [discriminate|]. intros (p & [(y' & r & Ha & Hb)|(x' & y' & r & r' & Ha & Hb & Hxy)]); destruct p as [|z p]; try discriminate;
        cbn in Ha, Hb; injection Hb as Hb1 Hb2; injection Ha as Ha1 Ha2; subst; lia.
    + assert (x = y) as <- by lia. rewrite IH. clear. split.
      * intros (p & [(y & r & Ha & Hb)|(x' & y & r & r' & Ha & Hb & H)]); exists (x :: p); [left; exists y, r|right; exists x', y, r, r']; subst; now cbn.
      * intros (p & [(y' & r & Ha & Hb)|(x' & y' & r & r' & Ha & Hb & H)]); (destruct p as [|z p]; [try discriminate; cbn in Ha, Hb; injection Ha as Ha _; injection Hb as Hb _; lia|]);
          cbn in Ha, Hb; injection Ha as Ha1 Ha; injection Hb as Hb1 Hb; exists p; [left; exists y', r|right; exists x', y', r, r']; auto.
Qed.

(** ** Letters *)
Lemma at_exact w i : (i < N.of_nat (length w) -> exists p l r, w = p ++ l :: r /\ N.of_nat (length p) = i /\ w_at w i = Ok l) /\
  (N.of_nat (length w) <= i -> w_at w i = Throw EOutOfRange).
Proof.
  unfold w_at. split; intros H.
  - destruct (nth_error w (N.to_nat i)) as [l|] eqn:Hn; [|apply nth_error_None in Hn; lia].
    apply nth_error_split in Hn as (p & r & -> & Hp). exists p, l, r. split; [reflexivity|]. split; [lia|reflexivity].
  - replace (nth_error w (N.to_nat i)) with (@None N); [reflexivity|]. symmetry. apply nth_error_None. lia.
Qed.
Lemma obj_at : (forall w i, wo_at (wo_of w) i = w_at w i) /\
  forall o, usable o -> forall i, (i < wo_len o -> exists l, wo_at o i = Ok l) /\ (wo_len o <= i -> wo_at o i = Throw EOutOfRange).
Proof.
  split.
  - intros w i. unfold wo_at, wo_of, w_at. cbn [wo_len wo_text]. destruct (N.leb_spec (N.of_nat (length w)) i) as [H|H].
    + replace (nth_error w (N.to_nat i)) with (@None N); [reflexivity|]. symmetry. apply nth_error_None. lia.
    + rewrite nth_error_app1 by lia. destruct (nth_error w (N.to_nat i)) eqn:Hn; [reflexivity|]. apply nth_error_None in Hn. lia.
  - intros o Ho i. unfold wo_at, usable in *. destruct (N.leb_spec (wo_len o) i) as [H|H]; (split; [intros Hi|intros Hi]); try lia; [reflexivity|].
    destruct (wo_text o) as [buf|]; [|lia]. destruct (nth_error buf (N.to_nat i)) as [l|] eqn:Hn; [now exists l|]. apply nth_error_None in Hn. lia.
Qed.
