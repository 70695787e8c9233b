(** Concrete runs for the Word properties. *)
From Verif Require Import Base TrieM WordM Spec_Word WordP WordQ SplitP Demo.
From Coq Require Import ZifyBool ZifyN ZifyNat.
Local Open Scope N_scope.

Lemma demo_lower E : e_lower E = ascii_lower -> lower_ok E.
Proof.
  intros H. constructor; intros l; rewrite H; unfold ascii_lower, scalar, blank.
  - intros Hl. destruct (_ && _) eqn:Hc; lia.
  - intros Hl. destruct ((65 <=? l) && (l <=? 90)) eqn:Hc; [replace ((65 <=? l + 32) && (l + 32 <=? 90)) with false by lia; reflexivity|now rewrite Hc].
  - intros Hl. replace (_ && _) with false by lia. reflexivity.
  - intros Hl Hs. destruct (_ && _) eqn:Hc; lia.
  - intros Hl. destruct (_ && _) eqn:Hc; lia.
  - intros Hl. replace (_ && _) with false by lia. reflexivity.
  - intros Hl. destruct (_ && _) eqn:Hc; lia.
Qed.
Lemma demo_lower_ok : lower_ok demo.
Proof. now apply demo_lower. Qed.

(** Three characters: A, e acute, U+1F600; as bytes and letters. *)
Definition txt : list N := [65; 233; 128512].
Lemma txt_scalar : Forall scalar txt.
Proof. repeat (constructor; [unfold scalar; lia|]). constructor. Qed.
Lemma txt_plain : forall c, In c txt -> ~ blank c /\ c <> 0.
Proof. unfold txt, blank. intros c H. cbn in H. lia. Qed.
Definition txt_bytes : list N := [65; 195; 169; 240; 159; 152; 128].
Definition txt_letters : list N := [97; 233; 55357; 56832].

(** A text of two words and some blanks: tab, A, e acute, space, newline, b. *)
Definition line : list N := [9; 65; 233; 32; 10; 98].
Lemma line_cut : cut blank line [[65; 233]; [98]].
Proof.
  unfold line. change [9; 65; 233; 32; 10; 98] with ([9] ++ [65; 233] ++ 32 :: [10; 98]). apply cut_more.
  - constructor; [unfold blank; lia|constructor].
  - discriminate.
  - repeat (constructor; [unfold blank; lia|]). constructor.
  - unfold blank; lia.
  - change (32 :: [10; 98]) with ([32; 10] ++ [98]). apply cut_last; [|discriminate|].
    + repeat (constructor; [unfold blank; lia|]). constructor.
    + repeat (constructor; [unfold blank; lia|]). constructor.
Qed.
Lemma line_scalar : Forall scalar line.
Proof. repeat (constructor; [unfold scalar; lia|]). constructor. Qed.

Lemma toUtf8_refuted : exists E s w size, lower_ok E /\ word_of_utf8 E s = Ok w /\ w_toUtf8 w size = UB.
Proof. exists demo, [97; 98; 99], [97; 98; 99], 3. split; [apply demo_lower_ok|]. now split. Qed.
Lemma assign_refuted : exists E s o o' e, lower_ok E /\ usable o /\ wo_assign E s o = (o', Throw e) /\
  ~ usable o' /\ 0 < wo_len o' /\ wo_at o' 0 = UB.
Proof.
  exists demo, [97; 32], (wo_of [98]), (mkWO None 2), EInvalidArg. split; [apply demo_lower_ok|]. repeat split; try reflexivity.
  unfold usable. cbn. lia.
Qed.
Lemma usable_of w : usable (wo_of w).
Proof. unfold usable, wo_of. cbn. rewrite app_length. cbn. lia. Qed.
Lemma assign_usable E s o : 
  match word_of_utf8 E s with
  | Ok w => wo_assign E s o = (wo_of w, Ok tt) /\ usable (wo_of w)
  | Throw ERuntime => wo_assign E s o = (mkWO None 0, Throw ERuntime) /\ usable (mkWO None 0)
  | Throw x => x = EInvalidArg /\ exists n, 0 < n /\ wo_assign E s o = (mkWO None n, Throw EInvalidArg) /\ ~ usable (mkWO None n)
  | Abort => exists w, wo_assign E s o = (wo_of w, Abort)
  | _ => False
  end.
Proof.
  pose proof (assign_spec E s o) as H. destruct (word_of_utf8 E s) as [w|x| | |]; try exact H.
  - split; [exact H|apply usable_of].
  - destruct x; try (destruct H as [He _]; discriminate).
    + split; [exact H|reflexivity].
    + destruct H as [_ (n & Hn & H)]. split; [reflexivity|]. exists n. split; [exact Hn|]. split; [exact H|]. unfold usable. cbn. lia.
Qed.
Lemma eq_text_refuted : exists E s w, lower_ok E /\ c_text s /\ word_of_utf8 E s = Ok w /\ w_eq_text w s = Ok false.
Proof.
  exists demo, [65; 66; 67], [97; 98; 99]. split; [apply demo_lower_ok|]. split; [repeat (constructor; [lia|]); constructor|]. now split.
Qed.
(** e acute given as separator letter never separates. *)
Lemma split_sep_refuted : exists E cs seps w, lower_ok E /\ Forall scalar cs /\ Forall scalar seps /\ 
  (exists c, In c cs /\ In c seps) /\ split E (bytes_of cs) (letters_of seps) = Ok [w] /\ w = letters_of cs.
Proof.
  exists demo, [97; 233; 98], [233], [97; 233; 98]. split; [apply demo_lower_ok|].
  split; [repeat (constructor; [unfold scalar; lia|]); constructor|]. split; [repeat (constructor; [unfold scalar; lia|]); constructor|].
  split; [exists 233; cbn; tauto|]. split; reflexivity.
Qed.
(** A separator that no byte of the text can equal leaves the text whole; an ASCII
    one separates as whitespace does. *)
Lemma ascii_sep chars b : Forall (fun c => c < 128) chars -> isInList (char_letter b) chars = true <-> In b chars.
Proof.
  intros Hc. unfold isInList. rewrite existsb_exists. unfold char_letter. split.
  - intros (x & Hin & He). apply N.eqb_eq in He. rewrite Forall_forall in Hc. specialize (Hc x Hin). cbn beta in Hc. destruct (b <? 128) eqn:H; subst x; [exact Hin|lia].
  - intros Hin. exists b. split; [exact Hin|]. rewrite Forall_forall in Hc. specialize (Hc b Hin). cbn beta in Hc. replace (b <? 128) with true by lia. apply N.eqb_refl.
Qed.
Lemma split_ascii E s chars runs : Forall (fun c => c < 128) chars -> cut (fun b => In b chars) s runs ->
  split E s chars = all_of (word_of_utf8 E) runs.
Proof. intros Hc Hcut. apply split_general. revert Hcut. apply sep_ext. intros b _. now rewrite ascii_sep. Qed.
(** Which bytes separate: chars are signed, so a byte from 128 on stands for a letter at the top of the range. *)
Lemma sep_exact chars b : isInList (char_letter b) chars = true <-> separates chars b.
Proof.
  unfold isInList, char_letter, separates. rewrite existsb_exists. destruct (N.ltb_spec b 128) as [H|H]; split.
  - intros (x & Hin & He). apply N.eqb_eq in He as <-. now left.
  - intros [[_ Hin]|[Hb _]]; [|lia]. exists b. split; [exact Hin|apply N.eqb_refl].
  - intros (x & Hin & He). apply N.eqb_eq in He as <-. now right.
  - intros [[Hb _]|[_ Hin]]; [lia|]. exists (65280 + b). split; [exact Hin|apply N.eqb_refl].
Qed.
Lemma split_exact E s chars : exists runs, cut (separates chars) s runs /\ split E s chars = all_of (word_of_utf8 E) runs.
Proof.
  destruct (cut_exists chars s) as [runs Hr]. exists runs. split; [|now apply split_general]. revert Hr. apply sep_ext. intros b _. apply sep_exact.
Qed.
(** Capital and small letter long I (Deseret, U+10400 and U+10428): ICU folds the first
    to the second when asked for the character, but the code asks per code unit. *)
Lemma supplementary_refuted : forall E, lower_ok E -> exists a b,
  word_of_utf8 E (bytes_of [66560]) = Ok a /\ word_of_utf8 E (bytes_of [66600]) = Ok b /\ a <> b.
Proof.
  intros E HE. exists (letters_of [66560]), (letters_of [66600]).
  assert (H1 : forall c, 65536 <= c < 1114112 -> word_of_utf8 E (bytes_of [c]) = Ok (letters_of [c])).
  { intros c Hc. rewrite word_valid; [|exact HE|constructor; [unfold scalar; lia|constructor]|].
    - cbn [map]. unfold fold. now replace (c <? 65536) with false by lia.
    - intros d [<-|[]]. unfold blank. lia. }
  split; [apply H1; lia|]. split; [apply H1; lia|]. vm_compute. discriminate.
Qed.
Lemma asUtf8_refuted : exists w, Forall (fun l => 0 < l < 65536) w /\ well_formed w /\ asUtf8 w = UB.
Proof.
  exists (repeat 97 (N.to_nat 1431655764)). split; [|split].
  - apply Forall_forall. intros l H. apply repeat_spec in H. subst l. lia.
  - exists (repeat 97 (N.to_nat 1431655764)). generalize (N.to_nat 1431655764). induction n as [|n [H1 H2]]; [split; [constructor|reflexivity]|].
    cbn [repeat]. split; [constructor; [unfold scalar; lia|exact H1]|]. rewrite letters_cons, <- H2. reflexivity.
  - now apply asUtf8_overflow.
Qed.
Lemma hash_ex : w_hash [97; 98] = w_hash [122; 122] /\ w_hash [97; 98] <> w_hash [97; 98; 99; 100; 233].
Proof. split; [vm_compute; reflexivity|vm_compute; discriminate]. Qed.
Lemma conversion_safe E s : (exists w, utf8ToInternal E s = Ok w) \/ utf8ToInternal E s = Throw ERuntime.
Proof. apply internal_cases. Qed.

Lemma letters_cases : content [97; 55296; 98; 0] [97; 55296; 98] /\ lone_surrogate [97; 55296; 98] /\
  content [55296; 55297] [55296; 55297] /\ two_high [55296; 55297] /\ nearly [97; 55357; 56832; 55296] /\ content [97; 0; 98] [97; 0; 98].
Proof.
  split; [now left|]. split.
  { exists [97], [55296; 98]. split; [repeat constructor|]. split; [reflexivity|]. right. exists 55296, 98, []. unfold high_surrogate, low_surrogate. split; [lia|]. split; [lia|]. split; [lia|reflexivity]. }
  split; [right; split; [reflexivity|discriminate]|]. split.
  { exists [], 55296, 55297, []. unfold high_surrogate. split; [constructor|]. split; [lia|]. split; [lia|reflexivity]. }
  split; [|right; split; [reflexivity|discriminate]].
  exists [97; 128512]. split; [repeat (constructor; [unfold scalar; lia|]); constructor|]. right. exists 55296. split; [lia|reflexivity].
Qed.
