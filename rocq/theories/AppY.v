(** The graphical programs: hudtest on any file, the keys and the command of numberpad, and
    DOS line endings. *)
From Coq Require Import String.
From Verif Require Import Base TrieM WordStoreM ErrorValuesM LevIndexM WordM MapM DoubleM ContM DataFileM QIndexM MatcherM CApiM AppM
  Spec_Hist Spec_EV Spec_Cont Spec_Edit Spec_Lev Spec_Match Spec_File Spec_CApi Spec_Tool Spec_Room
  WordP SplitP MapP ContP DataP EVK EVR ScalarP TypoP WordStoreP MatchP MatchU MatchV MatchY MatchZ CApiP CApiQ CApiS MatchG QIndexP AppP AppQ AppR AppS AppT AppU AppV AppW.
From Coq Require Import ZifyBool ZifyN ZifyNat.
From Verif Require Import Spec_Word Spec_App.
Local Open Scope N_scope.
Local Open Scope m_scope.

Section Hud.
Variable E : env.
Hypothesis HEo : env_ok E.
Hypothesis HE : lower_ok E.
Notation wpath := (as_word E (txt "path"%string)).
Notation wcommand := (as_word E (txt "command"%string)).
Notation walias := (as_word E (txt "alias"%string)).

Lemma parts_sub l : (length (fst (splitShowableParts l)) <= length l)%nat /\ (length (snd (splitShowableParts l)) <= length l)%nat /\
  forall b, In b (fst (splitShowableParts l)) \/ In b (snd (splitShowableParts l)) -> In b l.
Proof.
  clear. unfold splitShowableParts. destruct (cut_at 62 l) as [[x y]|] eqn:H; cbn [fst snd]; [|split; [lia|split; [lia|tauto]]].
  apply cut_some in H as [_ ->]. rewrite app_length. cbn [length]. split; [lia|split; [lia|]]. intros b [Hb|Hb]; apply in_or_app; [now left|right; now right].
Qed.
Lemma hud_ok l : Forall (fun b => b < 256) l -> length l <> 1%nat -> line_ok E 9 (parse_hud E) l.
Proof.
  intros Hb Hl. destruct l as [|b0 l0] eqn:Hll; [left; reflexivity|]. rewrite <- Hll in *. assert (H2 : (2 <= length l)%nat) by (subst; cbn in *; lia). destruct (fix_some H2) as (l' & Hf & Hlen & Hin).
  assert (Hb' : Forall (fun b => b < 256) l') by (rewrite Forall_forall in *; intros b H; apply Hin in H as [->|H]; [lia|now apply Hb]). destruct (parts_sub l') as (L1 & L2 & Hsub).
  set (pt := fst (splitShowableParts l')) in *. set (ct := snd (splitShowableParts l')) in *.
  assert (Hp : parse_hud E l = let! path := splitToWords E (until_nul pt) in
    let! command := splitToWords E (until_nul ct) in
    match command with
    | [] => Ok None
    | _ =>
      if contains (txt "Fuzzy Select"%string) ct
      then let! alias := splitToWords E (txt "magnetic lasso"%string) in
           Ok (Some (fun k => add_texts k [(wpath, path); (wcommand, command); (walias, alias)], [pt; ct]))
      else Ok (Some (fun k => add_texts k [(wpath, path); (wcommand, command)], [pt; ct]))
    end).
  { unfold parse_hud. rewrite Hf. rewrite Hll at 1. reflexivity. }
  assert (Bp : Forall (fun b => b < 256) pt) by (rewrite Forall_forall in *; intros b H; apply Hb', Hsub; now left). assert (Bc : Forall (fun b => b < 256) ct) by (rewrite Forall_forall in *; intros b H; apply Hb', Hsub; now right).
  destruct (@split_safe E (until_nul pt) HE) as [(pw & Hpw)|(x & Hx)]; [|right; left; exists x; rewrite Hx in Hp; exact Hp]. rewrite Hpw in Hp. cbn [obind] in Hp.
  destruct (@split_safe E (until_nul ct) HE) as [(cw & Hcw)|(x & Hx)]; [|right; left; exists x; rewrite Hx in Hp; exact Hp]. rewrite Hcw in Hp. cbn [obind] in Hp.
  destruct cw as [|c0 cw0]; [now left|]. set (cw := c0 :: cw0) in *. pose proof (@split_len E HE _ _ Hpw) as S1. pose proof (@split_len E HE _ _ Hcw) as S2. pose proof (until_len pt). pose proof (until_len ct).
  pose proof (split_words (until_text Bp) Hpw) as W1. pose proof (split_words (until_text Bc) Hcw) as W2. clearbody cw.
  assert (G1 : good_text E (wpath, pw)) by (destruct (name_word HE n_path); split; [assumption|split; assumption]). assert (G2 : good_text E (wcommand, cw)) by (destruct (name_word HE n_command); split; [assumption|split; assumption]).
  right. destruct (contains (txt "Fuzzy Select"%string) ct).
  - destruct (@split_safe E (txt "magnetic lasso"%string) HE) as [(aw & Haw)|(x & Hx)]; [|left; exists x; rewrite Hx in Hp; exact Hp]. rewrite Haw in Hp. cbn [obind] in Hp.
    assert (Hct : c_text (txt "magnetic lasso"%string)) by (unfold c_text; repeat constructor; lia). pose proof (split_words Hct Haw) as W3. pose proof (@split_len E HE _ _ Haw) as S3. change (length (txt "magnetic lasso"%string)) with 14%nat in S3.
    right. exists [(wpath, pw); (wcommand, cw); (walias, aw)], [pt; ct]. split; [exact Hp|]. split; [constructor; [exact G1|constructor; [exact G2|constructor; [|constructor]]]|].
    + destruct (name_word HE n_alias). split; [assumption|split; assumption].
    + cbn [text_letters fold_right snd]. lia.
  - right. exists [(wpath, pw); (wcommand, cw)], [pt; ct]. split; [exact Hp|]. split; [constructor; [exact G1|constructor; [exact G2|constructor]]|]. cbn [text_letters fold_right snd]. lia.
Qed.
Lemma hud_safe W file argv : folds_shipped E -> shipped W -> (forall name bytes, file name = Some bytes -> Forall (fun b => b < 256) bytes /\ no_short_line bytes) ->
  (exists st, hudtest E W file argv = Ok (Exits st) /\ In st [0; 1; 99]%Z) \/
  exists a prog name rest bytes, argv = prog :: name :: rest /\ file name = Some bytes /\ hudtest E W file argv = Ok (Running a) /\ usable_app E (9 * N.of_nat (length bytes)) a.
Proof.
  intros HF HW Hf. unfold hudtest. destruct argv as [|prog [|name rest]]; [left; exists 0%Z; cbn; auto|left; exists 0%Z; cbn; auto|]. destruct (@hud_fields E HE) as (-> & -> & ->). cbn [obind]. destruct (file name) as [bytes|] eqn:Hfile; [|left; exists 1%Z; cbn; auto].
  destruct (Hf name bytes Hfile) as [Hb Hn]. destruct (new_safe E) as [(m & Hm)|(x & Hx)]; [|left; exists 99%Z; rewrite Hx; cbn; auto]. rewrite Hm. cbn [obind].
  assert (HH : history E [] m) by (exists m; split; [exact Hm|reflexivity]). destruct (hud_prices HEo HF HW HH) as (m1 & Hpr & HH1). rewrite Hpr. cbn [obind]. rewrite (then_more (empty_load m1)).
  assert (Hl : Forall (line_ok E 9 (parse_hud E)) (getlines bytes [])).
  { pose proof (has_lines bytes) as Hl. rewrite Forall_forall in *. intros l Hin. apply hud_ok; [|exact (Hn _ l Hl Hin)]. rewrite Forall_forall. intros b Hbl. apply Hb. exact (lines_in Hl Hin Hbl). }
  pose proof (load_safe HEo HE (@hud_one E) (proj1 (hud_settings E)) HH1 Hl) as H. set (K := each_line (hud_line E wpath wcommand walias) (getlines bytes []) ;;; index_batch E) in *.
  destruct (K (empty_load m1)) as [s' [[]| | | |]]; try contradiction; [|left; exists 99%Z; cbn; auto]. destruct H as (docs & H1 & H2 & H3 & H4).
  destruct (@hud_finish E s' _ docs hud_before eq_refl H1) as (s2 & Hrun2 & Hsrc2 & Hh2). rewrite Hrun2.
  right. exists (mkApp (l_m s2) (l_src s2)), prog, name, rest, bytes. split; [reflexivity|]. split; [exact Hfile|]. split; [reflexivity|]. pose proof (lines_long (has_lines bytes)) as Hlen.
  apply (loaded_usable HE (before := hud_before) Hh2 (proj1 (hud_settings E)) (proj2 (hud_settings E)) H2); [lia|]. rewrite Hsrc2. exact H4.
Qed.
End Hud.

(** ** The keys of numberpad *)
Definition pad_prices : errvals := ev_after [AddNumberpadErrors; SetSubstringMode].
Lemma then_substring cs : ev_after (cs ++ [SetSubstringMode]) = setSubstringMode (ev_after cs).
Proof. unfold ev_after, ev_run. now rewrite fold_left_app. Qed.
Lemma pad_eq : pad_prices = setSubstringMode (ev_after ([] ++ [AddNumberpadErrors])).
Proof. rewrite <- then_substring. reflexivity. Qed.
Lemma sub_kept e a b : getSubstituteError (setSubstringMode e) a b = getSubstituteError e a b.
Proof. reflexivity. Qed.
Lemma edel_set e n : p_edel (prices_of (setSubstringMode e) n) = 15%Z. Proof. reflexivity. Qed.
Lemma sins_set e n : (3 <= n)%nat -> p_sins (prices_of (setSubstringMode e) n) = 15%Z.
Proof. intros H. cbn [prices_of p_sins]. unfold getStartInsertionError. change (ev_limit (setSubstringMode e)) with 3. change (ev_sins (setSubstringMode e)) with 15%Z. destruct (N.leb_spec 3 (N.of_nat n)); [reflexivity|lia]. Qed.
Lemma pad_zero d l n : on_key d l = true -> p_sub (prices_of pad_prices n) d l = 0%Z.
Proof. intros H. unfold prices_of, p_sub. rewrite pad_eq, sub_kept, EVK.numberpad_prices, H. reflexivity. Qed.
Lemma pad_edel n : p_edel (prices_of pad_prices n) = 15%Z. Proof. rewrite pad_eq. apply edel_set. Qed.
Lemma pad_sins n : (3 <= n)%nat -> p_sins (prices_of pad_prices n) = 15%Z.
Proof. rewrite pad_eq. apply sins_set. Qed.
Opaque pad_prices.
Lemma edit_post P n j w : (0 < n)%nat -> edit P n n j [] w (p_edel P * Z.of_nat (length w)).
Proof.
  intros Hn. revert j. induction w as [|b w IH]; intros j; [cbn [length]; rewrite Z.mul_0_r; constructor|].
  replace (p_edel P * Z.of_nat (length (b :: w)))%Z with ((if Nat.eqb n 0 then p_sins P else if Nat.eqb n n then p_edel P else p_del P) + p_edel P * Z.of_nat (length w))%Z; [constructor; apply IH|].
  destruct (Nat.eqb_spec n 0); [lia|]. rewrite Nat.eqb_refl. cbn [length]. lia.
Qed.
Lemma edit_keys P n ds mid post : (forall d l, on_key d l = true -> p_sub P d l = 0%Z) -> Forall2 (fun d l => on_key d l = true) ds mid -> forall i j, (i + length ds = n)%nat -> (0 < n)%nat ->
  edit P n i j ds (mid ++ post) (p_edel P * Z.of_nat (length post)).
Proof.
  intros H0 H. induction H as [|d l ds mid Hd H IH]; intros i j Hi Hn.
  - cbn [length List.app] in *. replace i with n by lia. now apply edit_post.
  - cbn [List.app]. replace (p_edel P * Z.of_nat (length post))%Z with (p_sub P d l + p_edel P * Z.of_nat (length post))%Z by (rewrite (H0 _ _ Hd); lia). constructor. apply IH; [cbn [length] in Hi; lia|exact Hn].
Qed.
Lemma edit_pre P n j ds pre rest c : (forall j, edit P n 0 j ds rest c) -> edit P n 0 j ds (pre ++ rest) (p_sins P * Z.of_nat (length pre) + c).
Proof.
  intros H. revert j. induction pre as [|b pre IH]; intros j; [cbn [List.app length]; replace (p_sins P * Z.of_nat 0 + c)%Z with c by lia; apply H|].
  cbn [List.app]. replace (p_sins P * Z.of_nat (length (b :: pre)) + c)%Z with ((if Nat.eqb 0 0 then p_sins P else if Nat.eqb 0 n then p_edel P else p_del P) + (p_sins P * Z.of_nat (length pre) + c))%Z; [constructor; apply IH|]. cbn [Nat.eqb length]. lia.
Qed.
Lemma keys_near ds w : keys_for ds w -> exists err, near pad_prices sp_new ds w err.
Proof.
  intros (pre & mid & post & -> & H2 & Hc). set (P := prices_of pad_prices (length ds)).
  assert (Hn : (0 < length ds)%nat) by lia.
  assert (He : edit_cost P ds (pre ++ mid ++ post) (p_sins P * Z.of_nat (length pre) + p_edel P * Z.of_nat (length post))).
  { apply edit_pre. intros j. apply edit_keys; [intros d l; apply pad_zero|exact H2|reflexivity|exact Hn]. }
  destruct (min_below He) as (err & Hm & Hle). exists err. split; [exact Hm|]. unfold P in Hle. rewrite pad_edel in Hle. unfold limit. cbn [sp_new sp_dynamic andb].
  destruct Hc as [(H1 & -> & H3)|[(H1 & -> & H3)|(H1 & H3)]]; [|destruct (Nat.ltb_spec (length ds) 2); [lia|]..]; cbn [length] in *.
  - destruct (Nat.ltb_spec (length ds) 2); lia.
  - lia.
  - rewrite (pad_sins H1) in Hle. lia.
Qed.
Definition digit (d : N) : Prop := 48 <= d <= 57.
Lemma key_digit d l : on_key d l = true -> digit d.
Proof.
  unfold on_key, digit. destruct (digit_place d) as [[r c]|] eqn:Hd; [|discriminate]. intros _. unfold digit_place, pad_digit_rows in Hd. cbn [place_in] in Hd.
  destruct (N.leb_spec 48 d), (N.leb_spec d 57); try lia; exfalso; cbn in Hd; repeat match type of Hd with context [N.eqb ?a ?b] => destruct (N.eqb_spec a b); [lia|] | context [match ?x with _ => _ end] => destruct x eqn:? end; discriminate.
Qed.

(** ** The command of numberpad *)
Lemma outside_app q a b : outside q (a ++ b) = outside q a ++ outside (if Nat.even (count_occ N.eq_dec a 39) then q else negb q) b.
Proof.
  revert q. induction a as [|x a IH]; intros q; [reflexivity|]. cbn [List.app outside count_occ]. destruct (N.eq_dec x 39) as [->|Hx].
  - cbn [N.eqb Pos.eqb]. rewrite IH. f_equal. rewrite Nat.even_succ, <- Nat.negb_even. destruct (Nat.even (count_occ N.eq_dec a 39)); cbn [negb]; [reflexivity|now rewrite negb_involutive].
  - destruct (N.eqb_spec x 39); [contradiction|]. destruct q; cbn [List.app]; now rewrite IH.
Qed.
Lemma outside_in s : ~ In 39 s -> outside true s = [].
Proof. induction s as [|b s IH]; intros H; [reflexivity|]. cbn [outside]. destruct (N.eqb_spec b 39) as [->|_]; [destruct H; now left|]. apply IH. intros G. apply H. now right. Qed.
Lemma outside_out s : ~ In 39 s -> outside false s = s.
Proof. induction s as [|b s IH]; intros H; [reflexivity|]. cbn [outside]. destruct (N.eqb_spec b 39) as [->|_]; [destruct H; now left|]. rewrite IH; [reflexivity|]. intros G. apply H. now right. Qed.
Ltac skip_digit b n := destruct (N.eqb_spec b n) as [->|?]; [cbn [In txt]; cbn; intuition discriminate|].
Lemma key_quote b : b <> 39 -> ~ In 39 (key_pattern b).
Proof.
  intros Hb. unfold key_pattern. skip_digit b 48. skip_digit b 49. skip_digit b 50. skip_digit b 51. skip_digit b 52. skip_digit b 53. skip_digit b 54. skip_digit b 55. skip_digit b 56. skip_digit b 57. cbn [In]. intuition.
Qed.
Lemma pattern_quote q : ~ In 39 q -> ~ In 39 (flat_map key_pattern q).
Proof. intros H G. apply in_flat_map in G as (b & Hb & G). revert G. apply key_quote. intros ->. contradiction. Qed.
Lemma command_quoted text fname : ~ In 39 text -> ~ In 39 fname -> outside false (shell_command text fname) = txt "grep  "%string ++ fname.
Proof.
  intros Ht Hf. unfold shell_command. change (txt "grep "%string ++ txt "'"%string ++ (txt "^"%string ++ flat_map key_pattern text) ++ txt "' "%string ++ fname) with (txt "grep "%string ++ 39 :: 94 :: flat_map key_pattern text ++ 39 :: 32 :: fname).
  cbn. f_equal. f_equal. f_equal. f_equal. f_equal. set (p := flat_map key_pattern text). rewrite outside_app. assert (Hp : ~ In 39 p) by now apply pattern_quote. rewrite (outside_in Hp). rewrite (proj1 (count_occ_not_In N.eq_dec p 39) Hp). cbn [Nat.even List.app outside N.eqb Pos.eqb negb]. f_equal. now apply outside_out.
Qed.
(** Characters that the pattern takes over. *)
Definition kept (b : N) : Prop := b <> 39 /\ ~ 50 <= b <= 57.
Lemma key_kept b : kept b -> key_pattern b = [b].
Proof.
  intros [_ H]. unfold key_pattern. destruct (N.eqb_spec b 48) as [->|]; [reflexivity|]. destruct (N.eqb_spec b 49) as [->|]; [reflexivity|].
  destruct (N.eqb_spec b 50); [lia|]. destruct (N.eqb_spec b 51); [lia|]. destruct (N.eqb_spec b 52); [lia|]. destruct (N.eqb_spec b 53); [lia|]. destruct (N.eqb_spec b 54); [lia|]. destruct (N.eqb_spec b 55); [lia|]. destruct (N.eqb_spec b 56); [lia|]. destruct (N.eqb_spec b 57); [lia|]. reflexivity.
Qed.
Lemma pattern_kept s : Forall kept s -> flat_map key_pattern s = s.
Proof. induction 1 as [|b s Hb _ IH]; [reflexivity|]. cbn [flat_map]. now rewrite (key_kept Hb), IH. Qed.
Lemma command_injected cmd fname : Forall kept cmd -> ~ In 39 fname -> let text := txt "';"%string ++ cmd ++ txt ";'"%string in
  outside false (shell_command text fname) = txt "grep ;"%string ++ cmd ++ txt "; "%string ++ fname.
Proof.
  intros Hc Hf text. unfold shell_command, text. rewrite !flat_map_app, (pattern_kept Hc).
  change (outside false (txt "grep "%string ++ txt "'"%string ++ (txt "^"%string ++ flat_map key_pattern (txt "';"%string) ++ cmd ++ flat_map key_pattern (txt ";'"%string)) ++ txt "' "%string ++ fname)) with
    (txt "grep ;"%string ++ outside false ((cmd ++ [59; 39]) ++ 39 :: 32 :: fname)). f_equal.
  assert (Hq : ~ In 39 cmd) by (intros G; rewrite Forall_forall in Hc; now destruct (Hc _ G)). rewrite <- app_assoc, outside_app, (outside_out Hq), (proj1 (count_occ_not_In N.eq_dec cmd 39) Hq). f_equal. cbn. now rewrite outside_out.
Qed.

(** ** What grep finds *)
Definition key_set (d : N) : list N := filter (fun c => (c =? d) || on_key d c) (d :: concat (concat pad_letter_rows)).
Lemma key_set_spec d c : In c (key_set d) <-> c = d \/ on_key d c = true.
Proof.
  unfold key_set. rewrite filter_In, orb_true_iff, N.eqb_eq. split; [tauto|]. intros H. split; [|exact H]. destruct H as [->|H]; [now left|]. right.
  assert (G : memb c (concat (concat pad_letter_rows)) = true).
  { destruct (memb c (concat (concat pad_letter_rows))) eqn:G; [reflexivity|]. exfalso. unfold on_key, letter_place in H. rewrite (letter_place_none G) in H. destruct (digit_place d) as [[]|]; discriminate. }
  unfold memb in G. apply existsb_exists in G as (x & Hx & He). apply N.eqb_eq in He. now subst x.
Qed.
Lemma pattern_set set p s : ~ In 91 set -> ~ In 93 set -> ~ In 94 set -> ~ In 45 set -> pattern_at (91 :: set ++ 93 :: p) s <-> exists c s', s = c :: s' /\ In c set /\ pattern_at p s'.
Proof.
  intros H1 H2 H3 H4. split.
  - intros H. inversion H as [|x y z Hd Hp Ha Hb|set' c p' s' G1 G2 G3 G4 Hc Hp Ha Hb]; subst; [lia|]. pose proof (cut_first p H2) as C1. rewrite <- Ha in C1. rewrite (cut_first p' G2) in C1. injection C1 as -> ->. eauto.
  - intros (c & s' & -> & Hc & Hp). now constructor.
Qed.
Lemma digit_cases d : digit d -> d = 48 \/ d = 49 \/ In d [50; 51; 52; 53; 54; 55; 56; 57].
Proof. unfold digit. cbn [In]. lia. Qed.
Lemma pattern_one d p s : digit d -> pattern_at (key_pattern d ++ p) s <-> exists c s', s = c :: s' /\ (c = d \/ on_key d c = true) /\ pattern_at p s'.
Proof.
  intros Hd. assert (Hl : (d = 48 \/ d = 49) -> pattern_at (d :: p) s <-> exists c s', s = c :: s' /\ (c = d \/ on_key d c = true) /\ pattern_at p s').
  { intros Hd'. assert (Hk : forall c, (c = d \/ on_key d c = true) <-> c = d).
    { intros c. split; [|now left]. intros [H|H]; [exact H|]. assert (G : In c (key_set d)) by (apply key_set_spec; now right). destruct Hd' as [-> | ->]; vm_compute in G; intuition. }
    split.
    - intros H. inversion H as [|x y z Hx Hp Ha Hb|set' c p' s' G1 G2 G3 G4 Hc Hp Ha Hb]; subst; [|lia]. exists d, z. split; [reflexivity|]. split; [now left|exact Hp].
    - intros (c & s' & -> & Hc & Hp). rewrite Hk in Hc. subst c. now constructor. }
  destruct (digit_cases Hd) as [-> | [-> |Hin]]; [exact (Hl (or_introl eq_refl))|exact (Hl (or_intror eq_refl))|]. clear Hl.
  assert (Hs : key_pattern d ++ p = 91 :: key_set d ++ 93 :: p /\ ~ In 91 (key_set d) /\ ~ In 93 (key_set d) /\ ~ In 94 (key_set d) /\ ~ In 45 (key_set d)).
  { cbn [In] in Hin. repeat destruct Hin as [<-|Hin]; try contradiction; (split; [reflexivity|]); vm_compute; intuition discriminate. }
  destruct Hs as (-> & G1 & G2 & G3 & G4). rewrite (@pattern_set _ p s G1 G2 G3 G4). split; intros (c & s' & H1 & H2 & H3); exists c, s'; (split; [exact H1|split; [now apply key_set_spec|exact H3]]).
Qed.
Lemma grep_keys ds : Forall digit ds -> forall s, pattern_at (flat_map key_pattern ds) s <-> exists t r, s = t ++ r /\ Forall2 (fun d c => c = d \/ on_key d c = true) ds t.
Proof.
  induction 1 as [|d ds Hd _ IH]; intros s; cbn [flat_map].
  - split; [intros _; exists [], s; split; [reflexivity|constructor]|intros _; constructor].
  - rewrite (@pattern_one _ _ _ Hd). split.
    + intros (c & s' & -> & Hc & H). apply IH in H as (t & r & -> & H). exists (c :: t), r. split; [reflexivity|now constructor].
    + intros (t & r & -> & H). inversion H as [|x c y t' Hc Ht]; subst. exists c, (t' ++ r). split; [reflexivity|]. split; [exact Hc|]. apply IH. now exists t', r.
Qed.

(** ** Rows *)
Lemma weqb_sym a b : weqb a b = weqb b a.
Proof. destruct (weqb_spec a b) as [H|H], (weqb_spec b a) as [H2|H2]; try reflexivity; congruence. Qed.
Section Rows.
Variable E : env.
Hypothesis HEo : env_ok E.
Hypothesis HE : lower_ok E.

Lemma queryapp_rows file prog name rest bytes lines : file name = Some bytes -> text_lines bytes lines -> Forall fine_line lines -> room_for E (3 * length bytes) -> N.of_nat (length bytes) < 10000000 ->
  exists a, queryapp E file (prog :: name :: rest) = Ok (Running a) /\ forall q, typed q -> exists rows, doSearch E (bytes_of q) a = (a, Ok (mkWin rows (bytes_of q))) /\ answers E ev_new no_weights (line_items lines) q rows.
Proof.
  intros Hfile Ht Hf HR Hn. destruct (queryapp_starts HEo HE prog rest Hfile Ht Hf HR) as (a & Ha & Hh). exists a. split; [exact Ha|]. intros q Hq. destruct (text_sizes Ht Hf) as [Hs _].
  destruct (holds_rows HE HEo (Forall_nil _) (Forall_nil _) (line_plain E Hf) ltac:(lia) Hh Hq) as (rows & H1 & H2). exists rows. split; [exact H1|exact H2].
Qed.
Definition pad_before : list m_call := [MErr AddNumberpadErrors; MErr SetSubstringMode].
Lemma pad_before_settings : Forall (setting E) pad_before.
Proof. constructor; [right; now right|constructor; [right; now left|constructor]]. Qed.
Lemma numberpad_rows file prog name rest bytes lines : file name = Some bytes -> text_lines bytes lines -> Forall fine_line lines -> room_for E (3 * length bytes) -> N.of_nat (length bytes) < 10000000 ->
  exists a, numberpad E file (prog :: name :: rest) = Ok (Running a) /\ forall q, typed q -> exists rows, doSearch E (bytes_of q) a = (a, Ok (mkWin rows (bytes_of q))) /\
    answers E (ev_after [AddNumberpadErrors; SetSubstringMode]) no_weights (line_items lines) q rows.
Proof.
  intros Hfile Ht Hf HR Hn. destruct (numberpad_starts HEo HE prog rest Hfile Ht Hf HR) as (a & Ha & Hh). exists a. split; [exact Ha|]. intros q Hq. destruct (text_sizes Ht Hf) as [Hs _].
  destruct (holds_rows HE HEo pad_before_settings (Forall_nil _) (line_plain E Hf) ltac:(lia) Hh Hq) as (rows & H1 & H2). exists rows. split; [exact H1|]. exact H2.
Qed.
Lemma hud_weigh f : weight_after (hud_before ++ hud_after E) f = hud_weights E f.
Proof.
  unfold weight_after, hud_weights, weight_calls. unfold last_for, assoc. cbn [flat_map hud_before hud_after List.app rev find fst].
  destruct (weqb f (as_word E (txt "alias"%string))); [reflexivity|]. destruct (weqb f (as_word E (txt "path"%string))); reflexivity.
Qed.
Lemma hud_rows W file prog name rest bytes lines os : folds_shipped E -> shipped W -> file name = Some bytes -> text_lines bytes lines -> Forall fine_line lines -> Forall2 hud_item lines os ->
  room_for E (17 * length bytes) -> N.of_nat (4 * length bytes) < 10000000 ->
  exists a, hudtest E W file (prog :: name :: rest) = Ok (Running a) /\ forall q, typed q -> exists rows, doSearch E (bytes_of q) a = (a, Ok (mkWin rows (bytes_of q))) /\
    answers E (ev_after [SetSubstringMode; AddStandardErrors latin_groups greek_groups]) (hud_weights E) (there os) q rows.
Proof.
  intros HF HW Hfile Ht Hf Hos HR Hn. destruct (hud_starts HEo HE prog rest HF HW Hfile Ht Hf Hos HR) as (a & Ha & Hh). exists a. split; [exact Ha|]. intros q Hq. destruct (hud_plain HE Hf Hos) as (Hp & Hs & _).
  pose proof (lines_long Ht). destruct (holds_rows HE HEo (proj1 (hud_settings E)) (proj2 (hud_settings E)) Hp ltac:(lia) Hh Hq) as (rows & H1 & H2). exists rows. split; [exact H1|].
  assert (Hpr : prices_after (hud_before ++ hud_after E) = ev_after [SetSubstringMode; AddStandardErrors latin_groups greek_groups]) by (rewrite prices_calls; apply f_equal; reflexivity). rewrite <- Hpr. eapply answers_ext; [|exact H2]. exact hud_weigh.
Qed.

(** ** Keys *)
Lemma digits_plain ds : Forall digit ds -> bytes_of ds = ds /\ plain ds.
Proof.
  intros H. split; [apply txt_ascii_bytes; eapply Forall_impl; [|exact H]; unfold digit; cbn; lia|]. split.
  - eapply Forall_impl; [|exact H]. unfold digit, scalar. cbn. lia.
  - intros G. rewrite Forall_forall in H. apply H in G. unfold digit in G. lia.
Qed.
Lemma digits_word ds : (forall d, digit d -> e_lower E d = d) -> ds <> [] -> Forall digit ds -> word_in E ds ds.
Proof.
  intros Hlow Hne H. exists [ds]. split; [|now left]. exists [ds]. split.
  - change ds with ([] ++ ds) at 1. constructor; [constructor|exact Hne|]. eapply Forall_impl; [|exact H]. unfold digit, blank. cbn. lia.
  - cbn [map]. f_equal. unfold as_word. clear Hne. induction H as [|d ds Hd _ IH]; [reflexivity|]. cbn [map]. assert (Hf : fold E d = d) by (unfold fold; unfold digit in Hd; destruct (N.ltb_spec d 65536); [now apply Hlow|lia]).
    rewrite Hf. unfold letters_of in *. cbn [flat_map]. rewrite <- IH. unfold utf16. unfold digit in Hd. destruct (N.ltb_spec d 65536); [reflexivity|lia].
Qed.
Lemma keypad_row e items q cs rows w err : In cs items -> e = pad_prices -> answers E e no_weights (map line_item items) q rows -> word_in E cs w -> (exists qw, word_in E q qw /\ near e sp_new qw w err) ->
  exists rel, In ([bytes_of cs], rel) rows.
Proof.
  intros Hin -> (docs & qs & view & _ & _ & H2 & _ & _ & Hiff & _) Hw (qw & Hqw & Hnear). destruct (In_nth_error _ _ Hin) as [i Hi].
  assert (Hex : exists x, In (x, N.of_nat i) view).
  { apply Hiff. exists (line_item cs), (txt "name"%string), cs, w, qw, err. split; [rewrite Nat2N.id; exact (map_nth_error line_item i items Hi)|]. split; [now left|]. auto. }
  destruct Hex as [x Hx]. clear Hiff. revert Hx. induction H2 as [|row y rows view (it & Hit & ->) H2 IH]; [intros []|]. intros [->|Hx].
  - cbn [snd fst] in *. rewrite Nat2N.id, (map_nth_error line_item i items Hi) in Hit. injection Hit as <-. exists x. now left.
  - destruct (IH Hx) as [rel Hr]. exists rel. now right.
Qed.
Lemma keypad file prog name rest bytes lines : (forall d, digit d -> e_lower E d = d) -> file name = Some bytes -> text_lines bytes lines -> Forall fine_line lines -> room_for E (3 * length bytes) -> N.of_nat (length bytes) < 10000000 ->
  exists a, numberpad E file (prog :: name :: rest) = Ok (Running a) /\ forall cs w ds, In cs lines -> word_in E cs w -> keys_for ds w -> N.of_nat (length ds) < 4000000 ->
    exists rows rel, doSearch E ds a = (a, Ok (mkWin rows ds)) /\ In ([bytes_of cs], rel) rows.
Proof.
  intros Hlow Hfile Ht Hf HR Hn. destruct (numberpad_rows prog rest Hfile Ht Hf HR Hn) as (a & Ha & Hrows). exists a. split; [exact Ha|]. intros cs w ds Hcs Hw Hk Hlen.
  assert (Hd : Forall digit ds /\ ds <> []).
  { destruct Hk as (pre & mid & post & _ & H2 & Hc). split; [|destruct ds; [cbn in Hc; lia|discriminate]]. clear Hc Hlen. induction H2 as [|d l ds mid Hd H2 IH]; constructor; [exact (@key_digit d l Hd)|exact IH]. }
  destruct Hd as [Hd Hne]. destruct (digits_plain Hd) as [Hb Hp]. destruct (Hrows ds) as (rows & H1 & H2); [split; [exact Hp|exact Hlen]|]. rewrite Hb in H1. exists rows.
  destruct (keys_near Hk) as (err & Hnear). destruct (@keypad_row pad_prices (filter (fun cs => negb (Nat.eqb (length cs) 0)) lines) ds cs rows w err) as [rel Hr].
  - apply filter_In. split; [exact Hcs|]. destruct cs; [|reflexivity]. destruct Hw as (ws & (runs & Hc & ->) & Hin). pose proof (@cut_unique _ _ _ Hc [] (@Spec_Word.cut_none blank [] (Forall_nil _))) as ->. destruct Hin.
  - reflexivity.
  - exact H2.
  - exact Hw.
  - exists ds. split; [now apply digits_word|exact Hnear].
  - exists rel. split; [exact H1|exact Hr].
Qed.

(** ** DOS line endings *)
Lemma cut_cr cs runs : cut blank cs runs -> cut blank (cs ++ [13]) runs.
Proof.
  clear. assert (H13 : blank 13) by (unfold blank; lia). induction 1 as [g Hg|g r Hg Hr Hn|g r b rest l Hg Hr Hn Hb Hc IH].
  - constructor. apply Forall_app. split; [exact Hg|]. now repeat constructor.
  - rewrite <- app_assoc. apply cut_more; try assumption. constructor. now repeat constructor.
  - rewrite <- !app_assoc. cbn [List.app]. now apply cut_more.
Qed.
Lemma words_cr cs ws : words_in E (cs ++ [13]) ws <-> words_in E cs ws.
Proof.
  split; intros (runs & Hc & ->); [|exists runs; split; [now apply cut_cr|reflexivity]]. destruct (cut_ws_exists cs) as [runs' Hc']. rewrite (cut_unique Hc (cut_cr Hc')). now exists runs'.
Qed.
Lemma cr_answers e lines q rows : Forall (fun cs => cs <> []) lines -> answers E e no_weights (line_items (map (fun cs => cs ++ [13]) lines)) q rows -> answers E e no_weights (map dos_item lines) q rows.
Proof.
  intros Hne. assert (Hl : line_items (map (fun cs => cs ++ [13]) lines) = map (fun cs => line_item (cs ++ [13])) lines).
  { unfold line_items. clear. induction lines as [|cs lines IH]; [reflexivity|]. cbn [map filter]. rewrite app_length. cbn [length]. destruct (Nat.eqb_spec (length cs + 1) 0); [lia|]. cbn [negb map]. now rewrite IH. }
  rewrite Hl. intros (docs & qs & view & Hco & Hqs & H2 & H3 & H4 & H5 & H6). exists docs, qs, view.
  assert (Hnth : forall i it, nth_error (map (fun cs => line_item (cs ++ [13])) lines) i = Some it <-> exists cs, nth_error lines i = Some cs /\ it = line_item (cs ++ [13])).
  { intros i it. rewrite nth_error_map. destruct (nth_error lines i) as [cs|]; cbn; [split; [intros [= <-]; eauto|intros (c & [= ->] & ->); reflexivity]|split; [discriminate|intros (c & [=] & _)]]. }
  assert (Hnth' : forall i it, nth_error (map dos_item lines) i = Some it <-> exists cs, nth_error lines i = Some cs /\ it = dos_item cs).
  { intros i it. rewrite nth_error_map. destruct (nth_error lines i) as [cs|]; cbn; [split; [intros [= <-]; eauto|intros (c & [= ->] & ->); reflexivity]|split; [discriminate|intros (c & [=] & _)]]. }
  split; [|split; [exact Hqs|split; [|split; [exact H3|split; [exact H4|split; [|exact H6]]]]]].
  - destruct Hco as [Hc1 Hc2]. split; [rewrite Hc1, !map_length; reflexivity|]. intros i it d Hi Hd. apply Hnth' in Hi as (cs & Hi & ->). destruct (Hc2 i (line_item (cs ++ [13])) d) as (wss & Hw & ->); [apply Hnth; eauto|exact Hd|]. exists wss. split; [|reflexivity].
    cbn [fields line_item dos_item] in *. inversion Hw as [|x ws xs wss' Hx Hr]; subst. inversion Hr; subst. constructor; [|constructor]. cbn [snd] in *. now apply words_cr.
  - clear H3 H4 H5 H6. induction H2 as [|row x rows view (it & Hi & ->) H2 IH]; constructor; [|exact IH]. apply Hnth in Hi as (cs & Hi & ->). exists (dos_item cs). split; [apply Hnth'; eauto|reflexivity].
  - intros i. rewrite H5. split; intros (it & f & t & w & qw & err & Hi & Hin & Hw & Hrest).
    + apply Hnth in Hi as (cs & Hi & ->). destruct Hin as [[= <- <-]|[]]. destruct Hw as (ws & Hws & Hw). rewrite words_cr in Hws. exists (dos_item cs), (txt "name"%string), cs, w, qw, err. split; [apply Hnth'; eauto|]. split; [now left|]. split; [now exists ws|exact Hrest].
    + apply Hnth' in Hi as (cs & Hi & ->). destruct Hin as [[= <- <-]|[]]. destruct Hw as (ws & Hws & Hw). rewrite <- words_cr in Hws. exists (line_item (cs ++ [13])), (txt "name"%string), (cs ++ [13]), w, qw, err. split; [apply Hnth; eauto|]. split; [now left|]. split; [now exists ws|exact Hrest].
Qed.
(** A line that has something before its carriage return. *)
Lemma dos_fine cs : plain cs -> ~ In 10 cs -> cs <> [] -> (forall a, cs <> a ++ [13]) -> fine_line (cs ++ [13]).
Proof.
  clear. intros [Hs H0] H10 Hne H13. split; [split|split].
  - apply Forall_app. split; [exact Hs|]. constructor; [unfold scalar; lia|constructor].
  - intros G. apply in_app_or in G as [G|[G|[]]]; [contradiction|discriminate].
  - intros G. apply in_app_or in G as [G|[G|[]]]; [contradiction|discriminate].
  - right. split.
    + rewrite bytes_app, app_length. change (length (bytes_of [13])) with 1%nat. destruct cs as [|c cs]; [congruence|]. rewrite bytes_cons, app_length. apply Forall_cons_iff in Hs as [Hc _]. destruct (utf8_last Hc) as (f & b & -> & _). rewrite app_length. cbn. lia.
    + intros a c H. replace (a ++ [13; c]) with ((a ++ [13]) ++ [c]) in H by (now rewrite <- app_assoc). apply app_inj_tail in H as [H _]. exact (H13 a H).
Qed.
Lemma dos_rows file prog name rest bytes lines : file name = Some bytes -> file_lines bytes (map (fun cs => bytes_of cs ++ [13]) lines) ->
  Forall (fun cs => plain cs /\ ~ In 10 cs /\ cs <> [] /\ forall a, cs <> a ++ [13]) lines -> room_for E (3 * length bytes) -> N.of_nat (length bytes) < 10000000 ->
  exists a, queryapp E file (prog :: name :: rest) = Ok (Running a) /\ forall q, typed q -> exists rows, doSearch E (bytes_of q) a = (a, Ok (mkWin rows (bytes_of q))) /\ answers E ev_new no_weights (map dos_item lines) q rows.
Proof.
  intros Hfile Ht Hl HR Hn. assert (Ht' : text_lines bytes (map (fun cs => cs ++ [13]) lines)).
  { unfold text_lines. rewrite map_map. erewrite map_ext; [exact Ht|]. intros cs. cbn beta. now rewrite bytes_app. }
  assert (Hf : Forall fine_line (map (fun cs => cs ++ [13]) lines)) by (apply Forall_map; eapply Forall_impl; [|exact Hl]; intros cs (H1 & H2 & H3 & H4); now apply dos_fine).
  destruct (queryapp_rows prog rest Hfile Ht' Hf HR Hn) as (a & Ha & Hr). exists a. split; [exact Ha|]. intros q Hq. destruct (Hr q Hq) as (rows & H1 & H2). exists rows. split; [exact H1|]. apply cr_answers; [|exact H2]. eapply Forall_impl; [|exact Hl]. cbn. tauto.
Qed.
(** ** A line of one byte *)
Lemma short_ub file prog name rest bytes pre b post : file name = Some bytes -> Forall fine_line pre -> file_lines bytes (map bytes_of pre ++ [b] :: post) -> room_for E (3 * length bytes) ->
  queryapp E file (prog :: name :: rest) = UB.
Proof.
  intros Hfile Hf Ht HR. destruct (room_new HR) as (m & Hm & HH). destruct (fine_parsed HE Hf) as (ps & H1 & H2). pose proof (line_plain E Hf) as Hp. pose proof (line_sizes Hf) as [_ Hs]. pose proof (lines_long Ht) as Hlen. rewrite concat_app, app_length in Hlen.
  rewrite <- (line_added pre) in Hs, Hp. destruct (items_numbered H2) as [Hc _].
  destruct (items_index HEo HE HR (Forall_nil _) Hp Hc ltac:(lia) HH) as (m' & Hi & _).
  assert (Hbad : parse_plain E [b] = UB) by reflexivity. assert (Hnu : forall p : option ((N -> document) * list (list N)), @UB _ <> Ok p) by discriminate.
  pose proof (load_stops (@plain_one E) post H1 Hbad Hnu (empty_load m)) as H. cbv zeta in H. unfold queryapp. rewrite (name_field HE). cbn [obind]. rewrite Hfile, Hm. cbn [obind]. rewrite (getlines_spec Ht).
  set (R := (each_line (plain_line E (as_word E n_name)) (map bytes_of pre ++ [b] :: post) ;;; index_batch E) (empty_load m)) in *. clearbody R. cbn [empty_load l_c l_m l_src length List.app] in H. destruct H as [H|(c1 & c2 & Hcc & H & Hno)].
  - unfold AppM.loaded. rewrite H. reflexivity.
  - exfalso. rewrite Hcc, index_more in Hi. destruct (mt_index E c1 m) as [m1 o1]. cbn [snd] in H. subst o1. destruct (snd R) as [[]| | | |]; try discriminate. now apply Hno.
Qed.
End Rows.
