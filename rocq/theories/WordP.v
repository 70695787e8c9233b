(** Proofs about encodings and Word values. *)
From Verif Require Import Base TrieM WordM Spec_Word.
From Coq Require Import ZifyBool ZifyN ZifyNat.
Local Open Scope N_scope.
Ltac Zify.zify_post_hook ::= Z.to_euclidean_division_equations.

Ltac ift b := match goal with |- context [if ?c then _ else _] => replace c with b by (symmetry; lia) end; cbv iota.

Lemma bytes_cons c cs : bytes_of (c :: cs) = utf8 c ++ bytes_of cs. Proof. reflexivity. Qed.
Lemma letters_cons c cs : letters_of (c :: cs) = utf16 c ++ letters_of cs. Proof. reflexivity. Qed.

(** ** UTF-8 *)
Lemma utf8_step c r : scalar c -> utf8_decode (utf8 c ++ r) = ocons c (utf8_decode r).
Proof.
  unfold scalar, utf8. intros Hs.
  destruct (c <? 128) eqn:H1; [cbn [app utf8_decode]; rewrite H1; reflexivity|].
  destruct (c <? 2048) eqn:H2.
  { cbn [app utf8_decode]. ift false. ift true. unfold cont. ift true. f_equal. lia. }
  destruct (c <? 65536) eqn:H3.
  { cbn [app utf8_decode]. ift false. ift false. ift true. cbv zeta. unfold cont. ift true. f_equal. lia. }
  cbn [app utf8_decode]. ift false. ift false. ift false. ift true. cbv zeta. unfold cont. ift true. f_equal. lia.
Qed.
Lemma utf8_encode_decode cs : Forall scalar cs -> utf8_decode (bytes_of cs) = Some cs.
Proof.
  induction 1 as [|c cs Hc _ IH]; [reflexivity|]. unfold bytes_of. cbn [flat_map].
  rewrite utf8_step by exact Hc. fold (bytes_of cs). now rewrite IH.
Qed.
Lemma ocons_some A (a : A) o l : ocons a o = Some l -> exists l', o = Some l' /\ l = a :: l'.
Proof. destruct o as [l'|]; [|discriminate]. intros [= <-]. eauto. Qed.

Lemma utf8_decode_sound : forall s cs, utf8_decode s = Some cs -> Forall scalar cs /\ s = bytes_of cs.
Proof.
  assert (H : forall n s cs, (length s <= n)%nat -> utf8_decode s = Some cs -> Forall scalar cs /\ s = bytes_of cs).
  { induction n as [|n IH]; intros s cs Hn Hd.
    - destruct s; [|cbn in Hn; lia]. injection Hd as <-. split; [constructor|reflexivity].
    - destruct s as [|b0 r0]; [injection Hd as <-; split; [constructor|reflexivity]|].
      cbn [utf8_decode] in Hd. cbn [length] in Hn.
      destruct (b0 <? 128) eqn:H1.
      { apply ocons_some in Hd as (cs' & Hd & ->). apply IH in Hd as [Hs ->]; [|lia].
        split; [constructor; [unfold scalar; lia|exact Hs]|]. rewrite bytes_cons. unfold utf8. rewrite H1. reflexivity. }
      destruct ((194 <=? b0) && (b0 <=? 223)) eqn:H2.
      { destruct r0 as [|b1 r1]; [discriminate|]. destruct (cont b1) eqn:Hc; [|discriminate]. unfold cont in Hc.
        apply ocons_some in Hd as (cs' & Hd & ->). cbn [length] in Hn. apply IH in Hd as [Hs ->]; [|lia].
        split; [constructor; [unfold scalar; lia|exact Hs]|]. rewrite bytes_cons. unfold utf8. ift false. ift true. cbn [app]. f_equal; [lia|f_equal; lia]. }
      destruct ((224 <=? b0) && (b0 <=? 239)) eqn:H3.
      { destruct r0 as [|b1 [|b2 r2]]; [discriminate|discriminate|]. cbv zeta in Hd.
        destruct (_ && _ && _ && _) eqn:Hc in Hd; [|discriminate]. unfold cont in Hc.
        apply ocons_some in Hd as (cs' & Hd & ->). cbn [length] in Hn. apply IH in Hd as [Hs ->]; [|lia].
        split; [constructor; [unfold scalar; lia|exact Hs]|]. rewrite bytes_cons. unfold utf8. ift false. ift false. ift true. cbn [app]. f_equal; [lia|f_equal; [lia|f_equal; lia]]. }
      destruct ((240 <=? b0) && (b0 <=? 244)) eqn:H4; [|discriminate].
      destruct r0 as [|b1 [|b2 [|b3 r3]]]; [discriminate..|]. cbv zeta in Hd.
      destruct (_ && _ && _ && _ && _) eqn:Hc in Hd; [|discriminate]. unfold cont in Hc.
      apply ocons_some in Hd as (cs' & Hd & ->). cbn [length] in Hn. apply IH in Hd as [Hs ->]; [|lia].
      split; [constructor; [unfold scalar; lia|exact Hs]|]. rewrite bytes_cons. unfold utf8. ift false. ift false. ift false. cbn [app]. f_equal; [lia|f_equal; [lia|f_equal; [lia|f_equal; lia]]]. }
  intros s cs. now apply (H (length s)).
Qed.

(** ** UTF-16 *)
Lemma utf16_step c r : scalar c -> utf16_decode (utf16 c ++ r) = ocons c (utf16_decode r).
Proof.
  unfold scalar, utf16. intros Hs. destruct (c <? 65536) eqn:H1.
  - cbn [app utf16_decode]. unfold is_high, is_low. ift false. ift false. reflexivity.
  - cbn [app utf16_decode]. unfold is_high, is_low. ift true. ift true. f_equal. lia.
Qed.
Lemma utf16_encode_decode cs : Forall scalar cs -> utf16_decode (letters_of cs) = Some cs.
Proof.
  induction 1 as [|c cs Hc _ IH]; [reflexivity|]. unfold letters_of. cbn [flat_map].
  rewrite utf16_step by exact Hc. fold (letters_of cs). now rewrite IH.
Qed.
Lemma utf16_decode_sound : forall w cs, Forall (fun l => l < 65536) w -> utf16_decode w = Some cs ->
  Forall scalar cs /\ w = letters_of cs.
Proof.
  assert (H : forall n s cs, (length s <= n)%nat -> Forall (fun l => l < 65536) s -> utf16_decode s = Some cs -> Forall scalar cs /\ s = letters_of cs).
  { induction n as [|n IH]; intros s cs Hn Hr Hd.
    - destruct s; [|cbn in Hn; lia]. injection Hd as <-. split; [constructor|reflexivity].
    - destruct s as [|l r]; [injection Hd as <-; split; [constructor|reflexivity]|].
      cbn [utf16_decode] in Hd. cbn [length] in Hn. apply Forall_cons_iff in Hr as [Hl Hr].
      destruct (is_high l) eqn:H1; unfold is_high in H1.
      + destruct r as [|l2 r2]; [discriminate|]. destruct (is_low l2) eqn:H2; [|discriminate]. unfold is_low in H2.
        apply Forall_cons_iff in Hr as [Hl2 Hr]. cbn [length] in Hn.
        apply ocons_some in Hd as (cs' & Hd & ->). apply IH in Hd as [Hs ->]; [|lia|exact Hr].
        split; [constructor; [unfold scalar; lia|exact Hs]|]. rewrite letters_cons. unfold utf16. ift false. cbn [app]. f_equal; [lia|f_equal; lia].
      + destruct (is_low l) eqn:H2; [discriminate|]. unfold is_low in H2.
        apply ocons_some in Hd as (cs' & Hd & ->). apply IH in Hd as [Hs ->]; [|lia|exact Hr].
        split; [constructor; [unfold scalar; lia|exact Hs]|]. rewrite letters_cons. unfold utf16. ift true. reflexivity. }
  intros w cs Hr. now apply (H (length w)).
Qed.

(** ** Sizes *)
Lemma sizes1 c : (1 <= length (utf16 c) <= 2)%nat /\ (length (utf16 c) <= length (utf8 c))%nat /\ (length (utf8 c) <= 3 * length (utf16 c))%nat.
Proof.
  unfold utf16, utf8. destruct (c <? 65536) eqn:H1; destruct (c <? 128) eqn:H2; destruct (c <? 2048) eqn:H3; cbn [length]; lia.
Qed.
Lemma sizes cs : (length (letters_of cs) <= length (bytes_of cs))%nat /\ (length (bytes_of cs) <= 3 * length (letters_of cs))%nat.
Proof.
  induction cs as [|c cs IH]; [cbn; lia|]. unfold letters_of, bytes_of in *. cbn [flat_map]. rewrite !app_length.
  pose proof (sizes1 c). lia.
Qed.

(** ** Folding *)
Lemma lower_letter E l : lower_ok E -> l < 65536 -> lowerLetter E l = e_lower E l.
Proof. intros H Hl. unfold lowerLetter, u16. apply N.mod_small. now apply (lo_range H). Qed.
Lemma lower_utf16 E c : lower_ok E -> scalar c -> map (lowerLetter E) (utf16 c) = utf16 (fold E c).
Proof.
  intros H Hs. unfold utf16, fold. destruct (c <? 65536) eqn:H1.
  - cbn [map]. rewrite lower_letter by (try assumption; lia). pose proof (@lo_range E H c ltac:(lia)).
    ift true. reflexivity.
  - rewrite H1. cbn [map]. unfold scalar in Hs. rewrite !lower_letter by (try assumption; lia).
    f_equal; [apply (lo_sur H); lia|f_equal; apply (lo_sur H); lia].
Qed.
Lemma lower_letters E cs : lower_ok E -> Forall scalar cs -> map (lowerLetter E) (letters_of cs) = letters_of (map (fold E) cs).
Proof.
  intros H. induction 1 as [|c cs Hc _ IH]; [reflexivity|]. unfold letters_of. cbn [flat_map map].
  rewrite map_app, lower_utf16 by assumption. f_equal. exact IH.
Qed.
Lemma fold_scalar E c : lower_ok E -> scalar c -> scalar (fold E c).
Proof. intros H Hs. unfold fold. destruct (c <? 65536) eqn:H1; [apply (lo_scalar H); [lia|exact Hs]|exact Hs]. Qed.
Lemma fold_scalars E cs : lower_ok E -> Forall scalar cs -> Forall scalar (map (fold E) cs).
Proof. intros H. induction 1; constructor; [now apply fold_scalar|assumption]. Qed.
Lemma fold_idem E c : lower_ok E -> scalar c -> fold E (fold E c) = fold E c.
Proof.
  intros H Hs. unfold fold at 2 3. destruct (c <? 65536) eqn:H1; [|unfold fold; now rewrite H1].
  unfold fold. pose proof (@lo_range E H c ltac:(lia)). ift true. apply (lo_idem H). lia.
Qed.
Lemma fold_blank E c : lower_ok E -> blank (fold E c) -> blank c.
Proof. intros H. unfold fold. destruct (c <? 65536) eqn:H1; [apply (lo_blank H); lia|easy]. Qed.
Lemma fold_nul E c : lower_ok E -> fold E c = 0 -> c = 0.
Proof. intros H. unfold fold. destruct (c <? 65536) eqn:H1; [apply (lo_nul H); lia|lia]. Qed.

(** ** Validation *)
Lemma is_ws_blank l : is_ws l = true <-> blank l.
Proof. unfold is_ws, blank. lia. Qed.
Lemma has_ws_in w : has_ws w = true <-> exists l, In l w /\ blank l.
Proof.
  unfold has_ws. rewrite existsb_exists. split; intros (l & Hin & Hl); exists l; split; try exact Hin; now apply is_ws_blank.
Qed.
Lemma utf16_blank c l : scalar c -> In l (utf16 c) -> blank l -> l = c.
Proof.
  unfold utf16, blank, scalar. destruct (c <? 65536) eqn:H1; cbn [In]; intros Hs [<-|Hin] Hb; try reflexivity; [destruct Hin|lia|].
  destruct Hin as [<-|[]]. lia.
Qed.
Lemma letters_blank cs l : Forall scalar cs -> In l (letters_of cs) -> blank l -> In l cs.
Proof.
  intros Hs Hin Hb. apply in_flat_map in Hin as (c & Hc & Hl). rewrite Forall_forall in Hs.
  apply utf16_blank in Hl; [now subst|now apply Hs|exact Hb].
Qed.
Lemma blank_letters cs c : In c cs -> blank c -> In c (letters_of cs).
Proof.
  intros Hin Hb. apply in_flat_map. exists c. split; [exact Hin|]. unfold utf16, blank in *. ift true. now left.
Qed.
Lemma broken_ok E cs : Forall scalar cs -> has_broken E (letters_of cs) = Ok false.
Proof.
  unfold has_broken. induction 1 as [|c cs Hc _ IH]; [reflexivity|]. unfold letters_of in *. cbn [flat_map].
  unfold scalar, utf16 in *. destruct (c <? 65536) eqn:H1.
  - cbn [app broken_loop]. unfold is_surrogate, is_high, is_low. cbn [andb]. ift false. exact IH.
  - cbn [app broken_loop]. unfold is_surrogate, is_high, is_low. cbn [andb negb orb]. ift true.
    ift false. unfold oassert at 1. cbn [obind]. ift false. ift true.
    unfold oassert. ift true. cbn [obind]. exact IH.
Qed.

(** ** Conversion from UTF-8 *)
Lemma internal_valid E cs : lower_ok E -> Forall scalar cs ->
  utf8ToInternal E (bytes_of cs) = Ok (letters_of (map (fold E) cs)).
Proof.
  intros HE Hs. unfold utf8ToInternal, iconv_8_16. rewrite utf8_encode_decode by exact Hs. cbv zeta.
  change (flat_map utf16_of cs) with (letters_of cs). pose proof (sizes cs) as [H1 _].
  ift true. rewrite lower_letters by assumption.
  destruct (_ <? _) eqn:H2; [ift true|]; cbn [obind]; ift true; reflexivity.
Qed.
Lemma internal_invalid E s : ~ valid_utf8 s -> utf8ToInternal E s = Throw ERuntime.
Proof.
  intros H. unfold utf8ToInternal, iconv_8_16. destruct (utf8_decode s) as [cs|] eqn:Hd; [|reflexivity].
  apply utf8_decode_sound in Hd as [Hs ->]. destruct H. now exists cs.
Qed.
Lemma internal_cases E s : (exists w, utf8ToInternal E s = Ok w) \/ utf8ToInternal E s = Throw ERuntime.
Proof.
  unfold utf8ToInternal, iconv_8_16. destruct (utf8_decode s) as [cs|] eqn:Hd; [|now right].
  apply utf8_decode_sound in Hd as [Hs ->]. left. cbv zeta. change (flat_map utf16_of cs) with (letters_of cs).
  pose proof (sizes cs) as [H1 _]. ift true. eexists. destruct (_ <? _) eqn:H2; [ift true|]; cbn [obind]; ift true; reflexivity.
Qed.
Lemma valid_dec s : valid_utf8 s \/ ~ valid_utf8 s.
Proof.
  destruct (utf8_decode s) as [cs|] eqn:Hd.
  - left. apply utf8_decode_sound in Hd as [Hs ->]. now exists cs.
  - right. intros (cs & Hs & ->). now rewrite utf8_encode_decode in Hd.
Qed.

Lemma word_valid E cs : lower_ok E -> Forall scalar cs -> (forall c, In c cs -> ~ blank c) ->
  word_of_utf8 E (bytes_of cs) = Ok (letters_of (map (fold E) cs)).
Proof.
  intros HE Hs Hb. unfold word_of_utf8. rewrite internal_valid by assumption. cbn [obind]. unfold validate.
  destruct (has_ws _) eqn:Hw.
  - apply has_ws_in in Hw as (l & Hin & Hl). apply letters_blank in Hin; [|now apply fold_scalars|exact Hl].
    apply in_map_iff in Hin as (c & <- & Hc). destruct (Hb c Hc). now apply fold_blank in Hl.
  - rewrite broken_ok by now apply fold_scalars. reflexivity.
Qed.
Lemma word_blank E cs : lower_ok E -> Forall scalar cs -> (exists c, In c cs /\ blank c) ->
  word_of_utf8 E (bytes_of cs) = Throw EInvalidArg.
Proof.
  intros HE Hs (c & Hc & Hb). unfold word_of_utf8. rewrite internal_valid by assumption. cbn [obind]. unfold validate.
  replace (has_ws _) with true; [reflexivity|]. symmetry. apply has_ws_in. exists c. split; [|exact Hb].
  apply blank_letters; [|exact Hb]. apply in_map_iff. exists c. split; [|exact Hc].
  unfold fold. rewrite (lo_keep HE Hb). now destruct (_ <? _).
Qed.
Lemma word_invalid E s : ~ valid_utf8 s -> word_of_utf8 E s = Throw ERuntime.
Proof. intros H. unfold word_of_utf8. now rewrite internal_invalid. Qed.
Lemma blank_dec cs : (forall c, In c cs -> ~ blank c) \/ exists c, In c cs /\ blank c.
Proof.
  destruct (has_ws cs) eqn:H; [right; now apply has_ws_in|left]. intros c Hc Hb.
  assert (has_ws cs = true) by (apply has_ws_in; eauto). congruence.
Qed.
(** The inverse: what a successful construction says about the text. *)
Lemma word_inv E s w : lower_ok E -> word_of_utf8 E s = Ok w ->
  exists cs, Forall scalar cs /\ s = bytes_of cs /\ (forall c, In c cs -> ~ blank c) /\ w = letters_of (map (fold E) cs).
Proof.
  intros HE Hw. destruct (valid_dec s) as [(cs & Hs & ->)|Hn]; [|rewrite word_invalid in Hw by exact Hn; discriminate].
  destruct (blank_dec cs) as [Hb|Hb]; [|rewrite word_blank in Hw by assumption; discriminate].
  rewrite word_valid in Hw by assumption. injection Hw as <-. now exists cs.
Qed.

(** ** Conversion to UTF-8 *)
Lemma c_str_app s : Forall (fun b => b <> 0) s -> c_str (s ++ [0]) = Ok s.
Proof.
  induction 1 as [|b s Hb _ IH]; [reflexivity|]. cbn [app c_str]. ift false. now rewrite IH.
Qed.
Lemma bytes_nonnul cs : Forall (fun c => c <> 0) cs -> Forall (fun b => b <> 0) (bytes_of cs).
Proof.
  induction 1 as [|c cs Hc _ IH]; [constructor|]. rewrite bytes_cons. apply Forall_app. split; [|exact IH].
  unfold utf8. destruct (c <? 128); [now constructor|]. destruct (c <? 2048); [repeat (constructor; [lia|]); constructor|].
  destruct (c <? 65536); repeat (constructor; [lia|]); constructor.
Qed.
Lemma toUtf8_letters cs size : Forall scalar cs ->
  w_toUtf8 (letters_of cs) size =
    if size <? N.of_nat (length (bytes_of cs)) then Throw ERuntime
    else if size =? N.of_nat (length (bytes_of cs)) then UB
    else Ok (bytes_of cs ++ [0]).
Proof.
  intros Hs. unfold w_toUtf8, internalToUtf8, iconv_16_8. rewrite utf16_encode_decode by exact Hs.
  change (flat_map utf8_of cs) with (bytes_of cs). cbv zeta.
  destruct (size <? _) eqn:H1; [ift false; reflexivity|]. ift true. destruct (size =? _) eqn:H2; [ift false; reflexivity|].
  ift true. reflexivity.
Qed.
Lemma toUtf8_broken w size : Forall (fun l => l < 65536) w -> ~ well_formed w -> w_toUtf8 w size = Throw ERuntime.
Proof.
  intros Hr Hn. unfold w_toUtf8, internalToUtf8, iconv_16_8. destruct (utf16_decode w) as [cs|] eqn:Hd; [|reflexivity].
  apply utf16_decode_sound in Hd as [Hs ->]; [|exact Hr]. destruct Hn. now exists cs.
Qed.
Lemma asUtf8_letters cs : Forall scalar cs -> Forall (fun c => c <> 0) cs -> short (letters_of cs) ->
  asUtf8 (letters_of cs) = Ok (bytes_of cs).
Proof.
  intros Hs Hz Hl. unfold asUtf8. cbv zeta. rewrite toUtf8_letters by exact Hs. unfold short, u32 in *.
  pose proof (sizes cs) as [_ H2]. rewrite N.mod_small by lia. ift false. ift false. cbn [obind].
  apply c_str_app. now apply bytes_nonnul.
Qed.
Lemma c_str_ends s : exists t, c_str (s ++ [0]) = Ok t.
Proof. induction s as [|b s [t IH]]; [eexists; reflexivity|]. cbn [app c_str]. destruct (b =? 0); [eauto|]. rewrite IH. cbn. eauto. Qed.
Lemma asUtf8_safe w : Forall (fun l => l < 65536) w -> short w ->
  (well_formed w -> exists s, asUtf8 w = Ok s) /\ (~ well_formed w -> asUtf8 w = Throw ERuntime).
Proof.
  intros Hr Hl. split.
  - intros (cs & Hs & ->). unfold asUtf8. cbv zeta. rewrite toUtf8_letters by exact Hs. unfold short, u32 in *.
    pose proof (sizes cs) as [_ H2]. rewrite N.mod_small by lia. ift false. ift false. cbn [obind]. apply c_str_ends.
  - intros Hn. unfold asUtf8. cbv zeta. now rewrite toUtf8_broken.
Qed.
Lemma well_formed_dec w : Forall (fun l => l < 65536) w -> well_formed w \/ ~ well_formed w.
Proof.
  intros Hr. destruct (utf16_decode w) as [cs|] eqn:Hd.
  - left. apply utf16_decode_sound in Hd as [Hs ->]; [now exists cs|exact Hr].
  - right. intros (cs & Hs & ->). now rewrite utf16_encode_decode in Hd.
Qed.
Lemma letters_range cs : Forall scalar cs -> Forall (fun l => l < 65536) (letters_of cs).
Proof.
  induction 1 as [|c cs Hc _ IH]; [constructor|]. rewrite letters_cons. apply Forall_app. split; [|exact IH].
  unfold utf16, scalar in *. destruct (c <? 65536) eqn:H; [repeat constructor; lia|]. repeat (constructor; [lia|]). constructor.
Qed.
Lemma letters_inj a b : Forall scalar a -> Forall scalar b -> letters_of a = letters_of b -> a = b.
Proof. intros Ha Hb H. apply utf16_encode_decode in Ha, Hb. congruence. Qed.
Lemma bytes_inj a b : Forall scalar a -> Forall scalar b -> bytes_of a = bytes_of b -> a = b.
Proof. intros Ha Hb H. apply utf8_encode_decode in Ha, Hb. congruence. Qed.
Lemma fold_nonnul E cs : lower_ok E -> Forall (fun c => c <> 0) cs -> Forall (fun c => c <> 0) (map (fold E) cs).
Proof. intros HE. induction 1; constructor; [intros H1; now apply fold_nul in H1|assumption]. Qed.
Lemma ctext_nonnul cs : c_text (bytes_of cs) -> Forall (fun c => c <> 0) cs.
Proof.
  intros H. apply Forall_forall. intros c Hc ->. unfold c_text in H. rewrite Forall_forall in H.
  assert (Hin : In 0 (bytes_of cs)) by (apply in_flat_map; exists 0; split; [exact Hc|now left]). specialize (H 0 Hin). lia.
Qed.

(** C32 *)
Lemma round_trip E cs : lower_ok E -> Forall scalar cs -> (forall c, In c cs -> ~ blank c /\ c <> 0) ->
  exists w, word_of_utf8 E (bytes_of cs) = Ok w /\ w = letters_of (map (fold E) cs) /\
    (short w -> asUtf8 w = Ok (bytes_of (map (fold E) cs))).
Proof.
  intros HE Hs Hb. eexists. split; [apply word_valid; [exact HE|exact Hs|intros c Hc; now apply Hb]|]. split; [reflexivity|].
  intros Hl. apply asUtf8_letters; [now apply fold_scalars| |exact Hl]. apply fold_nonnul; [exact HE|].
  apply Forall_forall. intros c Hc. now apply Hb.
Qed.
Lemma back_trip E s w : lower_ok E -> c_text s -> word_of_utf8 E s = Ok w -> short w ->
  exists s', asUtf8 w = Ok s' /\ word_of_utf8 E s' = Ok w.
Proof.
  intros HE Hc Hw Hl. apply word_inv in Hw as (cs & Hs & -> & Hb & ->); [|exact HE]. apply ctext_nonnul in Hc.
  exists (bytes_of (map (fold E) cs)). split.
  - apply asUtf8_letters; [now apply fold_scalars|now apply fold_nonnul|exact Hl].
  - rewrite word_valid; [|exact HE|now apply fold_scalars|].
    + f_equal. f_equal. rewrite map_map. apply map_ext_in. intros c Hin. apply fold_idem; [exact HE|].
      rewrite Forall_forall in Hs. now apply Hs.
    + intros c Hin. apply in_map_iff in Hin as (c0 & <- & Hin). intros Hx. apply (Hb c0 Hin). now apply fold_blank in Hx.
Qed.
(** C38 *)
Lemma same_word E a b wa wb : lower_ok E -> Forall scalar a -> Forall scalar b ->
  word_of_utf8 E (bytes_of a) = Ok wa -> word_of_utf8 E (bytes_of b) = Ok wb ->
  (wa = wb <-> map (fold E) a = map (fold E) b).
Proof.
  intros HE Ha Hb Hwa Hwb. apply word_inv in Hwa as (ca & Hsa & Hea & _ & ->); [|exact HE].
  apply word_inv in Hwb as (cb & Hsb & Heb & _ & ->); [|exact HE].
  apply bytes_inj in Hea; [|assumption..]. apply bytes_inj in Heb; [|assumption..]. subst ca cb.
  split; [|now intros ->]. intros H. apply letters_inj in H; [exact H|now apply fold_scalars..].
Qed.
Lemma bytes_eqb_spec a : forall b, reflect (a = b) (bytes_eqb a b).
Proof.
  induction a as [|x a IH]; intros [|y b]; cbn; try (constructor; congruence).
  destruct (N.eqb_spec x y) as [->|Hne]; cbn.
  - destruct (IH b) as [->|Hne]; constructor; congruence.
  - constructor; congruence.
Qed.
(** C72 *)
Lemma eq_text E cs w : lower_ok E -> Forall scalar cs -> Forall (fun c => c <> 0) cs ->
  word_of_utf8 E (bytes_of cs) = Ok w -> short w ->
  exists b, w_eq_text w (bytes_of cs) = Ok b /\ (b = true <-> map (fold E) cs = cs).
Proof.
  intros HE Hs Hz Hw Hl. apply word_inv in Hw as (cs' & Hs' & He & _ & ->); [|exact HE].
  apply bytes_inj in He; [|assumption..]. subst cs'. unfold w_eq_text.
  rewrite asUtf8_letters; [|now apply fold_scalars|now apply fold_nonnul|exact Hl]. cbn [obind].
  eexists. split; [reflexivity|]. destruct (bytes_eqb_spec (bytes_of (map (fold E) cs)) (bytes_of cs)) as [H|H].
  - apply bytes_inj in H; [now split|now apply fold_scalars|exact Hs].
  - split; [discriminate|]. intros Hm. now rewrite Hm in H.
Qed.
