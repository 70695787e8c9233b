(** The graphical programs: hudtest. *)
From Coq Require Import String.
From Verif Require Import Base TrieM WordStoreM ErrorValuesM LevIndexM WordM MapM DoubleM ContM DataFileM QIndexM MatcherM CApiM AppM
  Spec_Hist Spec_EV Spec_Cont Spec_Edit Spec_Lev Spec_Match Spec_File Spec_CApi Spec_Tool Spec_Room
  WordP SplitP MapP ContP DataP EVR ScalarP TypoP WordStoreP MatchP MatchU MatchV MatchY MatchZ CApiP CApiQ CApiS MatchG QIndexP AppP AppQ AppR AppS AppT AppU.
From Coq Require Import ZifyBool ZifyN ZifyNat.
From Verif Require Import Spec_Word Spec_App.
Local Open Scope N_scope.
Local Open Scope m_scope.

(** ** ASCII in UTF-8 *)
Lemma utf8_small c : c < 128 -> utf8 c = [c].
Proof. intros H. unfold utf8. destruct (N.ltb_spec c 128); [reflexivity|lia]. Qed.
Lemma utf8_big c : scalar c -> 128 <= c -> Forall (fun b => 128 <= b) (utf8 c) /\ utf8 c <> [].
Proof.
  intros Hs H. destruct (utf8_last Hs) as (f & b & -> & [(-> & -> & Hlt)|[_ Hf]]); [lia|]. split; [exact Hf|]. destruct f; discriminate.
Qed.
Lemma txt_ascii_bytes cs : Forall (fun c => c < 128) cs -> bytes_of cs = cs.
Proof. induction 1 as [|c cs Hc _ IH]; [reflexivity|]. rewrite bytes_cons, (utf8_small Hc), IH. reflexivity. Qed.
Lemma cut_none b s : cut_at b s = None <-> ~ In b s.
Proof.
  induction s as [|c s IH]; cbn [cut_at In]; [tauto|]. destruct (N.eqb_spec c b) as [->|Hc]; [split; [discriminate|intros H; destruct H; now left]|].
  destruct (cut_at b s) as [[x y]|]; [split; [discriminate|]|].
  - intros H. destruct IH as [_ IH]. exfalso. assert (Some (x, y) = None) by (apply IH; tauto). discriminate.
  - split; [|reflexivity]. intros _ [H|H]; [congruence|]. now apply IH.
Qed.
Lemma cut_first b x y : ~ In b x -> cut_at b (x ++ b :: y) = Some (x, y).
Proof.
  induction x as [|c x IH]; intros H; cbn [List.app cut_at]; [now rewrite N.eqb_refl|]. destruct (N.eqb_spec c b) as [->|Hc]; [destruct H; now left|]. rewrite IH; [reflexivity|]. intros G. apply H. now right.
Qed.
Lemma ascii_in b cs : Forall scalar cs -> b < 128 -> In b (bytes_of cs) <-> In b cs.
Proof.
  intros Hs Hb. induction Hs as [|c cs Hc _ IH]; [reflexivity|]. rewrite bytes_cons, in_app_iff. cbn [In]. rewrite IH. destruct (N.ltb_spec c 128) as [H|H].
  - rewrite (utf8_small H). cbn [In]. tauto.
  - destruct (utf8_big Hc H) as [Hf _]. rewrite Forall_forall in Hf. split; intros [G|G]; try tauto; [apply Hf in G; lia|subst; lia].
Qed.
Lemma parts_split cs path command : Forall scalar cs -> hud_parts cs path command -> splitShowableParts (bytes_of cs) = (bytes_of path, bytes_of command).
Proof.
  intros Hs [[Hn ->]|(Hn & -> & ->)]; unfold splitShowableParts.
  - apply Forall_app in Hs as [Hs _]. rewrite bytes_app, bytes_cons. change (utf8 62) with [62]. cbn [List.app]. rewrite cut_first; [reflexivity|]. rewrite ascii_in by (exact Hs || lia). exact Hn.
  - assert (H : cut_at 62 (bytes_of cs) = None) by (apply cut_none; rewrite ascii_in by (exact Hs || lia); exact Hn). now rewrite H.
Qed.
Lemma parts_exist cs : exists path command, hud_parts cs path command.
Proof.
  destruct (cut_at 62 cs) as [[x y]|] eqn:H; [|exists cs, cs; right; apply cut_none in H; auto]. exists x, y. left. revert x y H.
  induction cs as [|c cs IH]; intros x y H; cbn [cut_at] in H; [discriminate|]. destruct (N.eqb_spec c 62) as [->|Hc]; [injection H as <- <-; split; [intros []|reflexivity]|].
  destruct (cut_at 62 cs) as [[x1 y1]|]; [|discriminate]. injection H as <- <-. destruct (IH _ _ eq_refl) as [H1 ->]. split; [|reflexivity]. intros [G|G]; [congruence|contradiction].
Qed.
Lemma starts_ascii sub cs : Forall scalar cs -> Forall (fun b => b < 128) sub -> starts sub (bytes_of cs) = true <-> exists b, cs = sub ++ b.
Proof.
  intros Hs Ha. revert cs Hs. induction Ha as [|x sub Hx Ha IH]; intros cs Hs; [split; [intros _; now exists cs|reflexivity]|].
  destruct cs as [|c cs]; [split; [discriminate|intros (b & Hb); discriminate]|]. apply Forall_cons_iff in Hs as [Hc Hs]. rewrite bytes_cons. destruct (N.ltb_spec c 128) as [H|H].
  - rewrite (utf8_small H). cbn [List.app starts]. rewrite andb_true_iff, N.eqb_eq, (IH cs Hs). split.
    + intros [-> (b & ->)]. now exists b.
    + intros (b & [= -> ->]). split; [reflexivity|now exists b].
  - destruct (utf8_big Hc H) as [Hf Hne]. destruct (utf8 c) as [|y r]; [congruence|]. apply Forall_cons_iff in Hf as [Hy _]. cbn [List.app starts]. split.
    + intros G. apply andb_prop in G as [G _]. apply N.eqb_eq in G. lia.
    + intros (b & [= -> _]). lia.
Qed.
Lemma contains_ascii sub cs : sub <> [] -> Forall scalar cs -> Forall (fun b => b < 128) sub -> contains sub (bytes_of cs) = true <-> exists a b, cs = a ++ sub ++ b.
Proof.
  intros Hne Hs Ha. induction Hs as [|c cs Hc Hs IH].
  - cbn [bytes_of flat_map contains]. rewrite orb_false_r. change (@nil N) with (bytes_of []) at 1. rewrite starts_ascii by (constructor || assumption). split.
    + intros (b & Hb). exists [], b. exact Hb.
    + intros (a & b & Hb). destruct a; [now exists b|discriminate].
  - assert (Hstep : contains sub (bytes_of (c :: cs)) = starts sub (bytes_of (c :: cs)) || contains sub (bytes_of cs)).
    { rewrite bytes_cons. destruct (N.ltb_spec c 128) as [H|H]; [rewrite (utf8_small H); reflexivity|]. destruct (utf8_big Hc H) as [Hf Hn]. clear Hn.
      assert (G : forall l, Forall (fun b => 128 <= b) l -> starts sub (l ++ bytes_of cs) = (match l with [] => starts sub (bytes_of cs) | _ => false end)).
      { intros l Hl. destruct l as [|y l]; [reflexivity|]. destruct sub as [|x sub]; [congruence|]. cbn [List.app starts]. apply Forall_cons_iff in Ha as [Hx _]. apply Forall_cons_iff in Hl as [Hy _]. destruct (N.eqb_spec x y); [lia|reflexivity]. }
      assert (K : forall l, Forall (fun b => 128 <= b) l -> contains sub (l ++ bytes_of cs) = contains sub (bytes_of cs)).
      { induction 1 as [|y l Hy Hl IHl]; [reflexivity|]. cbn [List.app contains]. rewrite IHl. change (y :: l ++ bytes_of cs) with ((y :: l) ++ bytes_of cs). rewrite G by now constructor. reflexivity. }
      rewrite (K _ Hf), (G _ Hf). pose proof (proj2 (utf8_big Hc H)). now destruct (utf8 c). }
    rewrite Hstep, orb_true_iff, IH, starts_ascii by (try constructor; assumption). split.
    + intros [(b & Hb)|(a & b & ->)]; [exists [], b; exact Hb|exists (c :: a), b; reflexivity].
    + intros (a & b & Hb). destruct a as [|y a]; [left; now exists b|]. injection Hb as -> ->. right. now exists a, b.
Qed.
Lemma no_words E cs : words_in E cs [] <-> Forall blank cs.
Proof.
  split.
  - intros (runs & Hc & Hr). destruct runs; [|discriminate]. inversion Hc. assumption.
  - intros H. exists []. split; [now constructor|reflexivity].
Qed.

Section Hud.
Variable E : env.
Hypothesis HEo : env_ok E.
Hypothesis HE : lower_ok E.
Lemma fields_word cs : Forall (fun c => 33 <= c < 127) cs -> cs <> [] -> field_name cs.
Proof.
  clear. intros H Hne. rewrite Forall_forall in H. split; [split|split; [exact Hne|]].
  - rewrite Forall_forall. intros c Hc. apply H in Hc. unfold scalar. lia.
  - intros H0. apply H in H0. lia.
  - intros c Hc. apply H in Hc. unfold blank. lia.
Qed.
Lemma field_made cs : field_name cs -> Forall (fun c => c < 128) cs -> word_of_utf8 E cs = Ok (as_word E cs).
Proof. intros (Hp & _ & Hb) Ha. pose proof (@word_valid E cs HE (proj1 Hp) Hb) as H. now rewrite (txt_ascii_bytes Ha) in H. Qed.
Lemma word_size cs : Forall (fun c => c < 128) cs -> length (as_word E cs) = length cs.
Proof.
  intros H. unfold as_word. induction H as [|c cs Hc _ IH]; [reflexivity|]. cbn [map]. change (letters_of (fold E c :: map (fold E) cs)) with (utf16 (fold E c) ++ letters_of (map (fold E) cs)). rewrite app_length, IH.
  unfold fold, utf16. destruct (N.ltb_spec c 65536) as [H|H]; [|lia]. pose proof (lo_range HE H). destruct (N.ltb_spec (e_lower E c) 65536); [reflexivity|lia].
Qed.
Notation wpath := (as_word E (txt "path"%string)).
Notation wcommand := (as_word E (txt "command"%string)).
Notation walias := (as_word E (txt "alias"%string)).
Ltac ascii := repeat constructor; cbn; lia.
Lemma n_path : field_name (txt "path"%string). Proof. apply fields_word; [ascii|discriminate]. Qed.
Lemma n_command : field_name (txt "command"%string). Proof. apply fields_word; [ascii|discriminate]. Qed.
Lemma n_alias : field_name (txt "alias"%string). Proof. apply fields_word; [ascii|discriminate]. Qed.

Definition parse_hud (l : list N) : outcome (option ((N -> document) * list (list N))) :=
  match l with
  | [] => Ok None
  | _ =>
    let! l' := dos_fix l in
    let pathText := fst (splitShowableParts l') in let commandText := snd (splitShowableParts l') in
    let! path := splitToWords E (until_nul pathText) in
    let! command := splitToWords E (until_nul commandText) in
    match command with
    | [] => Ok None
    | _ =>
      if contains (txt "Fuzzy Select"%string) commandText
      then let! alias := splitToWords E (txt "magnetic lasso"%string) in
           Ok (Some (fun k => add_texts k [(wpath, path); (wcommand, command); (walias, alias)], [pathText; commandText]))
      else Ok (Some (fun k => add_texts k [(wpath, path); (wcommand, command)], [pathText; commandText]))
    end
  end.
Lemma hud_one l s : hud_line E wpath wcommand walias l s =
  match parse_hud l with
  | Ok None => (s, Ok tt)
  | Ok (Some (df, t)) => add_doc E (df (N.of_nat (length (l_src s)))) t s
  | Throw x => (s, Throw x) | Abort => (s, Abort) | UB => (s, UB) | Fuel => (s, Fuel)
  end.
Proof.
  clear. unfold hud_line, parse_hud. destruct l as [|b l]; [reflexivity|]. unfold mbind at 1, reads at 1. destruct (dos_fix (b :: l)) as [l'| | | |]; try reflexivity. cbn [obind].
  destruct (splitShowableParts l') as [pt ct]. cbn [fst snd]. unfold mbind at 1, reads at 1. destruct (splitToWords E (until_nul pt)) as [pw| | | |]; try reflexivity. cbn [obind].
  unfold mbind at 1, reads at 1. destruct (splitToWords E (until_nul ct)) as [[|cw cws]| | | |]; try reflexivity. cbn [obind]. unfold mbind at 1. destruct (contains (txt "Fuzzy Select"%string) ct).
  - unfold doc_addText_utf8, mbind, reads. cbn [doc_addText]. destruct (splitToWords E (txt "magnetic lasso"%string)) as [aw| | | |]; reflexivity.
  - reflexivity.
Qed.
Lemma hud_parse cs o : fine_line cs -> hud_item cs o -> exists p, parse_hud (bytes_of cs) = Ok p /\ fits_item E p o.
Proof.
  intros Hf [[-> ->]|[Hne (path & command & Hparts & Ho)]]; [exists None; split; reflexivity|].
  pose proof Hf as ((Hs & H0) & _ & [Hno|[Hl _]]); [congruence|]. pose proof (parts_split Hs Hparts) as Hsp.
  assert (Hpc : plain path /\ plain command).
  { destruct Hparts as [[_ ->]|(_ & -> & ->)]; [|split; split; assumption]. apply Forall_app in Hs as [Hs1 Hs2]. apply Forall_cons_iff in Hs2 as [_ Hs2]. split; split; try assumption; intros G; apply H0, in_or_app; [now left|right; now right]. }
  destruct Hpc as [Hpp Hpc]. destruct (words_exist E path) as [pw Hpw]. destruct (words_exist E command) as [cw Hcw].
  assert (Hparse : parse_hud (bytes_of cs) = match cw with
    | [] => Ok None
    | _ =>
      if contains (txt "Fuzzy Select"%string) (bytes_of command)
      then let! alias := splitToWords E (txt "magnetic lasso"%string) in
           Ok (Some (fun k => add_texts k [(wpath, pw); (wcommand, cw); (walias, alias)], [bytes_of path; bytes_of command]))
      else Ok (Some (fun k => add_texts k [(wpath, pw); (wcommand, cw)], [bytes_of path; bytes_of command])) end).
  { unfold parse_hud. rewrite (fix_fine Hf Hne). cbn [obind]. rewrite Hsp. cbn [fst snd]. rewrite (ctext_until (plain_bytes Hpp)), (ctext_until (plain_bytes Hpc)).
    rewrite (proj1 (words_split pw HE (proj1 Hpp)) Hpw), (proj1 (words_split cw HE (proj1 Hpc)) Hcw). cbn [obind]. destruct (bytes_of cs) as [|b l]; [cbn in Hl; lia|reflexivity]. }
  rewrite Hparse. clear Hparse. destruct Ho as [[Hb ->]|[Hb (more & Hal & ->)]].
  - apply (no_words E) in Hb. rewrite (words_unique HE (proj1 Hpc) Hcw Hb). now exists None.
  - destruct cw as [|c1 cw]; [destruct Hb; now apply (no_words E)|]. pose proof (@contains_ascii (txt "Fuzzy Select"%string) command) as Hca. destruct Hal as [[Hal ->]|[Hal ->]].
    + rewrite (proj2 (Hca ltac:(discriminate) (proj1 Hpc) ltac:(ascii)) Hal). destruct (words_exist E (txt "magnetic lasso"%string)) as [aw Haw].
      assert (Hma : splitToWords E (txt "magnetic lasso"%string) = Ok aw).
      { apply (words_split aw HE) in Haw; [|repeat constructor; unfold scalar; cbn; lia]. now rewrite txt_ascii_bytes in Haw by ascii. }
      rewrite Hma. cbn [obind]. eexists. split; [reflexivity|]. split; [|reflexivity]. intros k. exists [pw; c1 :: cw; aw]. split; [|reflexivity]. constructor; [exact Hpw|]. constructor; [exact Hcw|]. constructor; [exact Haw|constructor].
    + assert (Hcf : contains (txt "Fuzzy Select"%string) (bytes_of command) = false) by (destruct (contains (txt "Fuzzy Select"%string) (bytes_of command)) eqn:G; [destruct Hal; apply (proj1 (Hca ltac:(discriminate) (proj1 Hpc) ltac:(ascii)) eq_refl)|reflexivity]).
      rewrite Hcf. eexists. split; [reflexivity|]. split; [|reflexivity]. intros k. exists [pw; c1 :: cw]. split; [|reflexivity]. constructor; [exact Hpw|]. constructor; [exact Hcw|constructor].
Qed.
Lemma hud_parsed lines os : Forall fine_line lines -> Forall2 hud_item lines os -> exists ps, Forall2 (parsed parse_hud) (map bytes_of lines) ps /\ Forall2 (fits_item E) ps os.
Proof.
  intros Hf H2. induction H2 as [|cs o lines os Ho H2 IH]; [exists []; split; constructor|]. apply Forall_cons_iff in Hf as [Hf Hr]. destruct (IH Hr) as (ps & H1 & H3). destruct (hud_parse Hf Ho) as (p & Hp & Hfit). exists (p :: ps). split; constructor; assumption.
Qed.
Lemma hud_nodup more command : hud_alias command more -> NoDup (map (fun x => as_word E (fst x)) ([(txt "path"%string, @nil N); (txt "command"%string, @nil N)] ++ more)).
Proof.
  assert (D : forall a b, length (as_word E a) <> length (as_word E b) -> as_word E a <> as_word E b) by congruence.
  assert (L1 : length wpath = 4%nat) by (apply word_size; ascii). assert (L2 : length wcommand = 7%nat) by (apply word_size; ascii). assert (L3 : length walias = 5%nat) by (apply word_size; ascii).
  intros [[_ ->]|[_ ->]]; cbn [List.app map fst]; repeat constructor; cbn [In]; intros H; repeat destruct H as [H|H]; try apply (f_equal (@length N)) in H; try contradiction; rewrite ?L1, ?L2, ?L3 in H; discriminate.
Qed.
Lemma hud_plain lines os : Forall fine_line lines -> Forall2 hud_item lines os -> Forall (plain_item E) (there os) /\
  items_size (there os) <= N.of_nat (4 * length (concat (map bytes_of lines))) /\ all_bytes (there os) <= N.of_nat (17 * length (concat (map bytes_of lines))).
Proof.
  intros Hf H2. induction H2 as [|cs o lines os Ho H2 IH]; [split; [constructor|cbn; lia]|]. apply Forall_cons_iff in Hf as [Hf Hr]. destruct (IH Hr) as (I1 & I2 & I3). clear IH. cbn [map concat]. rewrite app_length.
  destruct Ho as [[-> ->]|[Hne (path & command & Hparts & Ho)]]; [change (there (None :: os)) with (there os); split; [exact I1|lia]|]. destruct Ho as [[Hb ->]|[Hb (more & Hal & ->)]]; [change (there (None :: os)) with (there os); split; [exact I1|lia]|].
  set (it := mkItem [path; command] ([(txt "path"%string, path); (txt "command"%string, command)] ++ more)). change (there (Some it :: os)) with (it :: there os).
  pose proof Hf as ((Hs & H0) & _ & [Hno|[Hl _]]); [congruence|].
  assert (Hpc : plain path /\ plain command /\ (length (bytes_of path) <= length (bytes_of cs))%nat /\ (length (bytes_of command) <= length (bytes_of cs))%nat).
  { destruct Hparts as [[_ ->]|(_ & -> & ->)]; [|split; [split; assumption|split; [split; assumption|lia]]]. rewrite bytes_app, bytes_cons, !app_length. apply Forall_app in Hs as [Hs1 Hs2]. apply Forall_cons_iff in Hs2 as [_ Hs2].
    split; [|split; [|lia]]; split; try assumption; intros G; apply H0, in_or_app; [now left|right; now right]. }
  destruct Hpc as (Hpp & Hpc & Lp & Lc).
  assert (Hm : (more = [] \/ more = [(txt "alias"%string, txt "magnetic lasso"%string)] /\ (12 <= length (bytes_of command))%nat)).
  { destruct Hal as [[(a & b & Hc) ->]|[_ ->]]; [|now left]. right. split; [reflexivity|]. subst command. rewrite !bytes_app, !app_length. change (length (bytes_of fuzzy_select)) with 12%nat. lia. }
  split; [|].
  - constructor; [|exact I1]. split; [|split]; cbn [shown fields it].
    + constructor; [exact Hpp|]. constructor; [exact Hpc|constructor].
    + cbn [List.app]. constructor; [split; [exact n_path|exact Hpp]|]. constructor; [split; [exact n_command|exact Hpc]|]. destruct Hm as [->|[-> _]]; [constructor|]. constructor; [|constructor]. split; [exact n_alias|]. cbn [snd]. split; [repeat constructor; unfold scalar; cbn; lia|cbn; lia].
    + exact (hud_nodup Hal).
  - assert (Hsz : (item_size it <= 4 * length (bytes_of cs) /\ name_bytes it + item_size it <= 17 * length (bytes_of cs))%nat).
    { unfold item_size, name_bytes. cbn [fields it List.app map fst snd concat]. destruct Hm as [->|[-> Hl12]]; cbn [map concat fst snd]; rewrite !app_length; change (bytes_of (txt "path"%string)) with (txt "path"%string); change (bytes_of (txt "command"%string)) with (txt "command"%string);
        change (bytes_of (txt "alias"%string)) with (txt "alias"%string); change (bytes_of (txt "magnetic lasso"%string)) with (txt "magnetic lasso"%string); cbn [txt length]; lia. }
    cbn [items_size all_bytes fold_right]. fold (items_size (there os)). fold (all_bytes (there os)). lia.
Qed.
Lemma in_added os : added os = there os. Proof. reflexivity. Qed.

Lemma weight_call calls m f x : history E calls m -> exists m', set_w (iw_setWeight f x) m = (m', Ok tt) /\ history E (calls ++ [MWeight f x]) m'.
Proof. intros HH. exists (fst (set_w (iw_setWeight f x) m)). split; [reflexivity|]. exact (@history_app E calls [MWeight f x] m _ HH eq_refl). Qed.
Lemma standard_call W calls m : folds_shipped E -> shipped W -> history E calls m -> Forall clean calls -> price_calls calls = [] \/ price_calls calls = [SetSubstringMode] ->
  exists m', on_ev (addStandardErrors_file E W) m = (m', Ok tt) /\ history E (calls ++ [MErr (AddStandardErrors latin_groups greek_groups)]) m'.
Proof.
  intros HF HW HH Hcl Hp. destruct (MatchQ.history_HI HEo Hcl HH) as [l HI]. pose proof (MatchQ.hi_ev HI) as Hev. rewrite prices_calls in Hev.
  assert (Ho : snd (addStandardErrors_file E W (mt_ev m)) = Ok tt).
  { rewrite Hev. destruct (standard_file_outcome (price_calls calls) HF HW) as [(H & _)|(_ & g & l' & _ & _ & Hi)]; [exact H|]. destruct Hp as [Hp|Hp]; rewrite Hp in Hi; discriminate. }
  destruct (on_ev (addStandardErrors_file E W) m) as [m' o] eqn:Hon. exists m'. assert (o = Ok tt).
  { unfold on_ev in Hon. destruct (addStandardErrors_file E W (mt_ev m)) as [e' o']. injection Hon as _ <-. exact Ho. }
  subst o. split; [reflexivity|]. apply (history_app HH). cbn [m_run m_do]. unfold on_ev in *. rewrite <- (shipped_standard (mt_ev m) HF HW). now rewrite Hon.
Qed.
Lemma hud_prices W m : folds_shipped E -> shipped W -> history E [] m -> exists m', (on_ev (AppM.prices setSubstringMode) ;;; on_ev (addStandardErrors_file E W)) m = (m', Ok tt) /\ history E hud_before m'.
Proof.
  intros HF HW HH. destruct (@price_call E [] m setSubstringMode SetSubstringMode HH) as (m1 & H1 & HH1); [reflexivity|]. cbn [List.app] in HH1.
  destruct (@standard_call W _ m1 HF HW HH1) as (m2 & H2 & HH2); [repeat constructor|right; reflexivity|]. exists m2. split; [|exact HH2]. unfold mbind. rewrite H1. exact H2.
Qed.
Lemma hud_settings : Forall (setting E) hud_before /\ Forall (setting E) (hud_after E).
Proof.
  split; [constructor; [right; now left|constructor; [now left|constructor]]|]. constructor; [|constructor; [|constructor]]; (split; [eexists; split; [|reflexivity]; [exact n_path || exact n_alias]|exact I]).
Qed.
Lemma hud_fields : word_of_utf8 E (txt "path"%string) = Ok wpath /\ word_of_utf8 E (txt "command"%string) = Ok wcommand /\ word_of_utf8 E (txt "alias"%string) = Ok walias.
Proof. split; [|split]; apply field_made; try ascii; [exact n_path|exact n_command|exact n_alias]. Qed.
Lemma hud_finish s m docs calls : l_m s = m -> history E (calls ++ [MIndex docs]) m -> exists s', (on_matcher (set_w (iw_setWeight wpath d_03)) ;;; on_matcher (set_w (iw_setWeight walias d_08))) s = (s', Ok tt) /\
  l_src s' = l_src s /\ history E (calls ++ MIndex docs :: hud_after E) (l_m s').
Proof.
  intros <- HH. destruct (@weight_call _ _ wpath d_03 HH) as (m1 & H1 & HH1). destruct (@weight_call _ _ walias d_08 HH1) as (m2 & H2 & HH2).
  exists (mkLd m2 (l_c s) (l_src s) (l_i s)). split; [|split; [reflexivity|]]; [|cbn [l_m]; rewrite <- !app_assoc in HH2; exact HH2]. unfold mbind, on_matcher. rewrite H1. cbn [l_m l_c l_src l_i]. rewrite H2. reflexivity.
Qed.
Lemma then_more s (X Y Z : M loading unit) : (X ;;; Y ;;; Z) s = (let (s', o) := (X ;;; Y) s in match o with Ok _ => Z s' | Throw x => (s', Throw x) | Abort => (s', Abort) | UB => (s', UB) | Fuel => (s', Fuel) end).
Proof. unfold mbind. destruct (X s) as [s1 [[]| | | |]]; try reflexivity. Qed.
Lemma hud_starts W file prog name rest bytes lines os : folds_shipped E -> shipped W -> file name = Some bytes -> text_lines bytes lines -> Forall fine_line lines -> Forall2 hud_item lines os -> room_for E (17 * length bytes) ->
  exists a, hudtest E W file (prog :: name :: rest) = Ok (Running a) /\ holds E hud_before (there os) (hud_after E) a.
Proof.
  intros HF HW Hfile Ht Hf Hos HR. destruct (room_new HR) as (m & Hm & HH). destruct (hud_parsed Hf Hos) as (ps & H1 & H2). destruct (hud_plain Hf Hos) as (Hp & _ & Hs). destruct (hud_prices HF HW HH) as (m1 & Hpr & HH1).
  assert (Hs' : all_bytes (added os) <= N.of_nat (17 * length bytes)) by (rewrite in_added; pose proof (lines_long Ht); lia). rewrite <- in_added in Hp.
  destruct (load_items HEo HE hud_one HR (proj1 hud_settings) HH1 H1 H2 Hp Hs') as (s' & Hrun & docs & Hc & Hh & Hsrc). cbn [a_m a_src] in Hh, Hsrc.
  destruct (@hud_finish s' _ docs hud_before eq_refl Hh) as (s2 & Hrun2 & Hsrc2 & Hh2).
  exists (mkApp (l_m s2) (l_src s2)). split.
  - unfold hudtest. destruct hud_fields as (-> & -> & ->). cbn [obind]. rewrite Hfile, Hm. cbn [obind]. rewrite Hpr. cbn [obind]. rewrite (getlines_spec Ht).
    rewrite (then_more (empty_load m1)), Hrun, Hrun2. reflexivity.
  - exists docs. split; [exact Hc|]. split; [exact Hh2|]. cbn [a_src]. rewrite Hsrc2. exact Hsrc.
Qed.
End Hud.
