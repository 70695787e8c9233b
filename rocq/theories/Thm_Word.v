(** Properties C30 - C40 and C72 - C75: words and texts.  Default build: 16-bit
    letters, UTF-16 inside.  Texts are byte lists, words are letter lists. *)
From Verif Require Import Base TrieM WordM Spec_Word WordP WordQ SplitP WordX Demo.
Local Open Scope N_scope.

(** C30.  [made E w]: some sequence of constructors, assignments and joins gave w. *)
Theorem C30_no_whitespace : forall E w, made E w -> forall l, In l w -> ~ blank l.
Proof. exact no_ws. Qed.
Print Assumptions C30_no_whitespace.
Theorem C30_whitespace_refused : forall E, lower_ok E ->
  (forall cs, Forall scalar cs -> (exists c, In c cs /\ blank c) -> word_of_utf8 E (bytes_of cs) = Throw EInvalidArg) /\
  (forall buf, (exists l, In l buf /\ blank l) -> word_of_letters E buf = Throw EInvalidArg).
Proof. exact (fun E HE => conj (fun cs Hs Hb => word_blank HE Hs Hb) (fun buf => @ws_refused E buf)). Qed.
Print Assumptions C30_whitespace_refused.
Example C30_ex : made demo (w_join [97] [98; 99]) /\ word_of_utf8 demo (bytes_of line) = Throw EInvalidArg /\
  word_of_letters demo [97; 9] = Throw EInvalidArg.
Proof.
  split; [|split; reflexivity]. apply made_join; [apply made_text with (s := [65])|apply made_buffer with (buf := [98; 99; 0])]; reflexivity.
Qed.

(** C31 is false: three ways a bad buffer is not refused. *)
Theorem C31_well_formed_refuted :
  (exists E buf w, e_ndebug E = false /\ Forall (fun l => l < 65536) buf /\ word_of_letters E buf = Ok w /\ ~ well_formed w) /\
  (exists E buf w, e_ndebug E = true /\ Forall (fun l => l < 65536) buf /\ word_of_letters E buf = Ok w /\ ~ well_formed w /\ ~ nearly w) /\
  (exists E buf, e_ndebug E = false /\ Forall (fun l => l < 65536) buf /\ word_of_letters E buf = Abort).
Proof. exact broken_refuted. Qed.
Print Assumptions C31_well_formed_refuted.
(** What does hold: words made from text, and joins of well-formed words, are well
    formed; with assertions on, a word made from letters is well formed except
    perhaps for one lone high surrogate at its end. *)
Theorem C31_well_formed_partial : forall E, lower_ok E ->
  (forall s w, word_of_utf8 E s = Ok w -> well_formed w) /\
  (forall a b, well_formed a -> well_formed b -> well_formed (w_join a b)) /\
  (forall buf w, e_ndebug E = false -> Forall (fun l => l < 65536) buf -> word_of_letters E buf = Ok w ->
     exists cs, Forall scalar cs /\ (w = letters_of cs \/ exists h, 55296 <= h < 56320 /\ w = letters_of cs ++ [h])).
Proof. exact (fun E HE => conj (fun s w => @text_wf E s w HE) (conj join_wf (@constructor_wf E))). Qed.
Print Assumptions C31_well_formed_partial.
(** And exactly what becomes of letters without whitespace, with assertions on. *)
Theorem C31_letters : forall E buf w, e_ndebug E = false -> Forall (fun l => l < 65536) buf -> content buf w -> (forall l, In l w -> ~ blank l) ->
  (word_of_letters E buf = Ok w <-> nearly w) /\ (word_of_letters E buf = Throw EInvalidArg <-> lone_surrogate w) /\
  (word_of_letters E buf = Abort <-> two_high w).
Proof. exact letters_exact. Qed.
Print Assumptions C31_letters.
Example C31_letters_ex : content [97; 55296; 98; 0] [97; 55296; 98] /\ lone_surrogate [97; 55296; 98] /\
  content [55296; 55297] [55296; 55297] /\ two_high [55296; 55297] /\ nearly [97; 55357; 56832; 55296] /\ content [97; 0; 98] [97; 0; 98].
Proof. exact letters_cases. Qed.
Example C31_ex : lower_ok demo /\ word_of_utf8 demo txt_bytes = Ok txt_letters /\
  word_of_letters demo [97; 55357; 56832; 0] = Ok [97; 55357; 56832].
Proof. split; [apply demo_lower_ok|]. split; reflexivity. Qed.

(** C32. *)
Theorem C32_round_trip : forall E, lower_ok E ->
  (forall cs, Forall scalar cs -> (forall c, In c cs -> ~ blank c /\ c <> 0) ->
     exists w, word_of_utf8 E (bytes_of cs) = Ok w /\ w = letters_of (map (fold E) cs) /\
       (short w -> asUtf8 w = Ok (bytes_of (map (fold E) cs)))) /\
  (forall s w, c_text s -> word_of_utf8 E s = Ok w -> short w ->
     exists s', asUtf8 w = Ok s' /\ word_of_utf8 E s' = Ok w) /\
  (forall s, ~ valid_utf8 s -> word_of_utf8 E s = Throw ERuntime).
Proof. exact (fun E HE => conj (fun cs => @round_trip E cs HE) (conj (fun s w => @back_trip E s w HE) (@word_invalid E))). Qed.
Print Assumptions C32_round_trip.
Example C32_ex : lower_ok demo /\ Forall scalar txt /\ (forall c, In c txt -> ~ blank c /\ c <> 0) /\ bytes_of txt = txt_bytes /\
  word_of_utf8 demo txt_bytes = Ok txt_letters /\ asUtf8 txt_letters = Ok [97; 195; 169; 240; 159; 152; 128] /\
  word_of_utf8 demo [195; 40] = Throw ERuntime.
Proof. split; [apply demo_lower_ok|]. split; [apply txt_scalar|]. split; [apply txt_plain|]. repeat split; reflexivity. Qed.

(** C33.  A write outside a buffer would be [UB]. *)
Theorem C33_conversions_fit :
  (forall E s, (exists w, utf8ToInternal E s = Ok w) \/ utf8ToInternal E s = Throw ERuntime) /\
  (forall w, Forall (fun l => l < 65536) w -> N.of_nat (length w) + 1 < 1073741824 ->
     (well_formed w -> exists s, asUtf8 w = Ok s) /\ (~ well_formed w -> asUtf8 w = Throw ERuntime)).
Proof. exact (conj conversion_safe asUtf8_safe). Qed.
Print Assumptions C33_conversions_fit.
Example C33_ex : utf8ToInternal demo txt_bytes = Ok txt_letters /\ asUtf8 txt_letters <> UB /\ asUtf8 [97; 55296] = Throw ERuntime.
Proof. split; [reflexivity|]. split; [vm_compute; discriminate|reflexivity]. Qed.

(** C34 is false for a buffer that the text fills exactly ... *)
Theorem C34_buffer_respected_refuted : exists E s w size,
  lower_ok E /\ word_of_utf8 E s = Ok w /\ w_toUtf8 w size = UB.
Proof. exact toUtf8_refuted. Qed.
Print Assumptions C34_buffer_respected_refuted.
(** ... and only then. *)
Theorem C34_toUtf8_exact : forall cs size, Forall scalar cs ->
  w_toUtf8 (letters_of cs) size =
    if size <? N.of_nat (length (bytes_of cs)) then Throw ERuntime
    else if size =? N.of_nat (length (bytes_of cs)) then UB
    else Ok (bytes_of cs ++ [0]).
Proof. exact toUtf8_letters. Qed.
Print Assumptions C34_toUtf8_exact.
Theorem C34_broken_throws : forall w size, Forall (fun l => l < 65536) w -> ~ well_formed w -> w_toUtf8 w size = Throw ERuntime.
Proof. exact toUtf8_broken. Qed.
Print Assumptions C34_broken_throws.
Example C34_ex : Forall scalar txt /\ letters_of txt = [65; 233; 55357; 56832] /\ w_toUtf8 (letters_of txt) 6 = Throw ERuntime /\
  w_toUtf8 (letters_of txt) 7 = UB /\ w_toUtf8 (letters_of txt) 8 = Ok (txt_bytes ++ [0]).
Proof. split; [apply txt_scalar|]. repeat split; reflexivity. Qed.

(** C35. *)
Theorem C35_order :
  (forall a, wltb a a = false) /\
  (forall a b c, wltb a b = true -> wltb b c = true -> wltb a c = true) /\
  (forall a b, wltb a b = true -> wltb b a = false) /\
  (forall a b, wltb a b = false /\ wltb b a = false <-> weqb a b = true) /\
  (forall a b, weqb a b = true <-> a = b).
Proof. exact wlt_strict_total. Qed.
Print Assumptions C35_order.
(** It is the dictionary order of the code units. *)
Theorem C35_dictionary : forall a b, wltb a b = true <->
  exists p, (exists y r, a = p /\ b = p ++ y :: r) \/ (exists x y r r', a = p ++ x :: r /\ b = p ++ y :: r' /\ x < y).
Proof. exact dictionary. Qed.
Print Assumptions C35_dictionary.
Example C35_ex : wltb [97] [97; 98] = true /\ wltb [97; 98] [98] = true /\ wltb [97] [98] = true /\ wltb [98] [97; 98; 99] = false.
Proof. repeat split; reflexivity. Qed.

(** C36. *)
Theorem C36_join :
  (forall a b c, w_join a (w_join b c) = w_join (w_join a b) c) /\
  (forall a, w_join [] a = a /\ w_join a [] = a) /\
  (forall a b, length (w_join a b) = (length a + length b)%nat) /\
  (forall a b i, w_at (w_join a b) i = if i <? N.of_nat (length a) then w_at a i else w_at b (i - N.of_nat (length a))) /\
  (forall a b, well_formed a -> well_formed b -> well_formed (w_join a b)).
Proof. exact (match join_spec with conj a (conj b (conj c d)) => conj a (conj b (conj c (conj d join_wf))) end). Qed.
Print Assumptions C36_join.
(** Reading a letter. *)
Theorem C36_letters : forall w i, (i < N.of_nat (length w) -> exists p l r, w = p ++ l :: r /\ N.of_nat (length p) = i /\ w_at w i = Ok l) /\
  (N.of_nat (length w) <= i -> w_at w i = Throw EOutOfRange).
Proof. exact at_exact. Qed.
Print Assumptions C36_letters.
(** C36: operator[] of a Word object, with its buffer: the letters of its value, and no read outside of any usable object. *)
Theorem C36_object : (forall w i, wo_at (wo_of w) i = w_at w i) /\
  forall o, usable o -> forall i, (i < wo_len o -> exists l, wo_at o i = Ok l) /\ (wo_len o <= i -> wo_at o i = Throw EOutOfRange).
Proof. exact obj_at. Qed.
Print Assumptions C36_object.
Example C36_ex : w_at (w_join [97; 98] [99]) 2 = Ok 99 /\ w_at (w_join [97; 98] [99]) 3 = Throw EOutOfRange.
Proof. split; reflexivity. Qed.

(** C37 is false for a text with whitespace ... *)
Theorem C37_failed_assignment_refuted : exists E s o o' e, lower_ok E /\ usable o /\ wo_assign E s o = (o', Throw e) /\
  ~ usable o' /\ 0 < wo_len o' /\ wo_at o' 0 = UB.
Proof. exact assign_refuted. Qed.
Print Assumptions C37_failed_assignment_refuted.
(** ... and for every text refused with invalid_argument; a text refused with
    runtime_error leaves the empty word. *)
Theorem C37_assignment_exact : forall E s o,
  match word_of_utf8 E s with
  | Ok w => wo_assign E s o = (wo_of w, Ok tt) /\ usable (wo_of w)
  | Throw ERuntime => wo_assign E s o = (mkWO None 0, Throw ERuntime) /\ usable (mkWO None 0)
  | Throw x => x = EInvalidArg /\ exists n, 0 < n /\ wo_assign E s o = (mkWO None n, Throw EInvalidArg) /\ ~ usable (mkWO None n)
  | Abort => exists w, wo_assign E s o = (wo_of w, Abort)
  | _ => False
  end.
Proof. exact assign_usable. Qed.
Print Assumptions C37_assignment_exact.
Example C37_ex : wo_assign demo txt_bytes (wo_of [98]) = (wo_of txt_letters, Ok tt) /\
  wo_assign demo [195; 40] (wo_of [98]) = (mkWO None 0, Throw ERuntime) /\
  wo_assign demo [97; 32] (wo_of [98]) = (mkWO None 2, Throw EInvalidArg).
Proof. repeat split; reflexivity. Qed.

(** C38.  Equal words have equal ids and answers everywhere: the rest of the library
    sees only the letters. *)
Theorem C38_case : forall E a b wa wb, lower_ok E -> Forall scalar a -> Forall scalar b ->
  word_of_utf8 E (bytes_of a) = Ok wa -> word_of_utf8 E (bytes_of b) = Ok wb ->
  (wa = wb <-> map (fold E) a = map (fold E) b).
Proof. exact same_word. Qed.
Print Assumptions C38_case.
Example C38_ex : word_of_utf8 demo (bytes_of txt) = word_of_utf8 demo (bytes_of [97; 233; 128512]) /\ map (fold demo) txt = [97; 233; 128512] /\
  word_of_utf8 demo (bytes_of txt) = Ok txt_letters.
Proof. repeat split; reflexivity. Qed.

(** C39.  Every text has exactly one list of maximal runs, and splitting converts
    them one after the other; a valid text never fails. *)
Theorem C39_split : forall E, lower_ok E ->
  (forall s, exists runs, cut blank s runs) /\
  (forall s r1 r2, cut blank s r1 -> cut blank s r2 -> r1 = r2) /\
  (forall s runs, cut blank s runs -> splitToWords E s = all_of (word_of_utf8 E) runs) /\
  (forall cs runs, Forall scalar cs -> cut blank cs runs ->
     splitToWords E (bytes_of cs) = Ok (map (fun r => letters_of (map (fold E) r)) runs)) /\
  (forall s runs, cut blank s runs ->
     (forall r, In r runs -> valid_utf8 r) \/ (exists r, In r runs /\ ~ valid_utf8 r) /\ splitToWords E s = Throw ERuntime).
Proof.
  exact (fun E HE => conj cut_ws_exists (conj (fun s r1 r2 H1 H2 => cut_unique H1 H2) (conj (@split_ws E) (conj (fun cs runs => @split_valid E cs runs HE)
    (fun s runs => @split_fails E s runs HE))))).
Qed.
Print Assumptions C39_split.
Example C39_ex : Forall scalar line /\ cut blank line [[65; 233]; [98]] /\ splitToWords demo (bytes_of line) = Ok [[97; 233]; [98]] /\
  splitToWords demo [97; 32; 195; 32; 98] = Throw ERuntime.
Proof. split; [apply line_scalar|]. split; [apply line_cut|]. split; reflexivity. Qed.

(** C40.  That equal words hash equally is the type of [w_hash]. *)
Theorem C40_hash_collisions : forall a b,
  Forall (fun l => 97 <= l <= 122) a -> Forall (fun l => 97 <= l <= 122) b -> length a = length b -> (length a <= 67)%nat ->
  w_hash a = w_hash b.
Proof. exact hash_collide. Qed.
Print Assumptions C40_hash_collisions.
Example C40_ex : w_hash [97; 98] = w_hash [122; 122] /\ w_hash [97; 98] <> w_hash [97; 98; 99; 100; 233].
Proof. exact hash_ex. Qed.

(** C72 is false for a text with an upper-case letter ... *)
Theorem C72_equals_own_text_refuted : exists E s w, lower_ok E /\ c_text s /\ word_of_utf8 E s = Ok w /\ w_eq_text w s = Ok false.
Proof. exact eq_text_refuted. Qed.
Print Assumptions C72_equals_own_text_refuted.
(** ... and holds exactly for texts that folding leaves alone. *)
Theorem C72_equals_own_text_exact : forall E cs w, lower_ok E -> Forall scalar cs -> Forall (fun c => c <> 0) cs ->
  word_of_utf8 E (bytes_of cs) = Ok w -> short w ->
  exists b, w_eq_text w (bytes_of cs) = Ok b /\ (b = true <-> map (fold E) cs = cs).
Proof. exact eq_text. Qed.
Print Assumptions C72_equals_own_text_exact.
Example C72_ex : word_of_utf8 demo [97; 195; 169] = Ok [97; 233] /\ w_eq_text [97; 233] [97; 195; 169] = Ok true /\ bytes_of [97; 233] = [97; 195; 169].
Proof. repeat split; reflexivity. Qed.

(** C73 is false for separators beyond ASCII ... *)
Theorem C73_split_any_letter_refuted : exists E cs seps w, lower_ok E /\ Forall scalar cs /\ Forall scalar seps /\
  (exists c, In c cs /\ In c seps) /\ split E (bytes_of cs) (letters_of seps) = Ok [w] /\ w = letters_of cs.
Proof. exact split_sep_refuted. Qed.
Print Assumptions C73_split_any_letter_refuted.
(** ... and true for ASCII ones. *)
Theorem C73_split_ascii : forall E s chars runs, Forall (fun c => c < 128) chars -> cut (fun b => In b chars) s runs ->
  split E s chars = all_of (word_of_utf8 E) runs.
Proof. exact split_ascii. Qed.
Print Assumptions C73_split_ascii.
(** C73, exactly: for any letters to split at, the text is cut at the ASCII ones among them, and at the bytes from 128 on whose value plus 65280 is among them; at no other. *)
Theorem C73_split_exact : forall E s chars, exists runs, cut (separates chars) s runs /\ split E s chars = all_of (word_of_utf8 E) runs.
Proof. exact split_exact. Qed.
Print Assumptions C73_split_exact.
Example C73_exact_ex : split demo [97; 195; 169; 98] [233] = Ok [[97; 233; 98]] /\ split demo [97; 194; 98] [65474] = Ok [[97]; [98]].
Proof. split; reflexivity. Qed.
Example C73_ex : split demo [97; 44; 98; 44] [44] = Ok [[97]; [98]].
Proof. reflexivity. Qed.

(** C74 is false beyond U+FFFF, whatever the folding of single code units: the two
    Deseret letters long I stay different. *)
Theorem C74_case_all_planes_refuted : forall E, lower_ok E -> exists a b,
  word_of_utf8 E (bytes_of [66560]) = Ok a /\ word_of_utf8 E (bytes_of [66600]) = Ok b /\ a <> b.
Proof. exact supplementary_refuted. Qed.
Print Assumptions C74_case_all_planes_refuted.

(** C75 is false for one very long word; C33 has the bound under which it holds. *)
Theorem C75_asUtf8_every_word_refuted : exists w, Forall (fun l => 0 < l < 65536) w /\ well_formed w /\ asUtf8 w = UB.
Proof. exact asUtf8_refuted. Qed.
Print Assumptions C75_asUtf8_every_word_refuted.
