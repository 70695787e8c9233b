(** The data files and the standard errors. *)
From Verif Require Import Base TrieM ErrorValuesM WordM DataFileM Spec_EV Spec_File EVP EVK.
From Coq Require Import ZifyBool ZifyN ZifyNat.
Local Open Scope N_scope.
Local Open Scope m_scope.

(** ** Finding a file *)
Lemma find_unset W name : w_var W = None -> findDataFile W name = Ok (if w_exists W (w_dir W ++ name) then w_dir W ++ name else []).
Proof. intros H. unfold findDataFile. now rewrite H. Qed.
Lemma find_set W name d : w_var W = Some d -> d <> [] -> exists path, joined d name path /\ findDataFile W name = Ok (if w_exists W path then path else []).
Proof.
  intros H Hd. unfold findDataFile. rewrite H. destruct (rev d) as [|c r] eqn:Hr.
  - exfalso. apply Hd. rewrite <- (rev_involutive d), Hr. reflexivity.
  - assert (Hc : d = rev r ++ [c]) by (rewrite <- (rev_involutive d), Hr; reflexivity). cbn [obind].
    destruct (N.eqb_spec c 47) as [->|Hne].
    + exists (d ++ name). split; [|reflexivity]. left. now exists (rev r).
    + exists (d ++ [47] ++ name). split; [|now rewrite <- app_assoc]. right. split; [|reflexivity].
      intros d' Hd'. rewrite Hc in Hd'. apply app_inj_tail in Hd' as [_ Hd']. congruence.
Qed.
Lemma find_empty W name : w_var W = Some [] -> findDataFile W name = UB.
Proof. intros H. unfold findDataFile. now rewrite H. Qed.

(** ** Reading a file *)
Definition converts (E : env) (l : list N) (w : word) : Prop := word_of_utf8 E (until_nul l) = Ok w.
Lemma loop_words E ls ws : Forall2 (converts E) ls ws -> forall e, accents_loop E ls e = addAccents ws e.
Proof.
  induction 1 as [|l w ls ws Hl _ IH]; intros e; [reflexivity|]. cbn [accents_loop addAccents]. unfold mbind at 1. rewrite Hl.
  unfold mbind. destruct ((match w with [] => ret tt | _ => setGroupError w DEFAULT_GROUP_ERROR end) e) as [e' [a|x| | |]]; try reflexivity. apply IH.
Qed.
Lemma loop_stops E ls ws l x rest : Forall2 (converts E) ls ws -> word_of_utf8 E (until_nul l) = Throw x ->
  forall e, accents_loop E (ls ++ l :: rest) e = match addAccents ws e with (e', Ok _) => (e', Throw x) | r => r end.
Proof.
  intros H Hl. induction H as [|l' w ls ws Hl' _ IH]; intros e.
  - cbn [app accents_loop addAccents]. unfold mbind at 1. now rewrite Hl.
  - cbn [app accents_loop addAccents]. unfold mbind at 1. rewrite Hl'.
    unfold mbind. destruct ((match w with [] => ret tt | _ => setGroupError w DEFAULT_GROUP_ERROR end) e) as [e' [a|y| | |]]; try reflexivity. apply IH.
Qed.
Lemma file_words E W g f bytes ws : findDataFile W (data_file g) = Ok f -> f <> [] -> w_read W f = Some bytes -> Forall2 (converts E) (getlines bytes []) ws ->
  forall e, addAccents_file E W g e = addAccents ws e.
Proof. intros Hf Hn Hr Hw e. unfold addAccents_file, mbind. rewrite Hf. destruct f; [congruence|]. rewrite Hr. now apply loop_words. Qed.
Lemma file_missing E W g e : findDataFile W (data_file g) = Ok [] \/ (exists f, findDataFile W (data_file g) = Ok f /\ w_read W f = None) ->
  addAccents_file E W g e = (e, Throw ERuntime).
Proof. intros [H|(f & H & Hr)]; unfold addAccents_file, mbind; rewrite H; [reflexivity|]. destruct f; [reflexivity|]. now rewrite Hr. Qed.
Lemma file_stops E W g f bytes ls l rest x ws : findDataFile W (data_file g) = Ok f -> f <> [] -> w_read W f = Some bytes -> getlines bytes [] = ls ++ l :: rest ->
  Forall2 (converts E) ls ws -> word_of_utf8 E (until_nul l) = Throw x ->
  forall e, addAccents_file E W g e = match addAccents ws e with (e', Ok _) => (e', Throw x) | r => r end.
Proof. intros Hf Hn Hr Hl Hw Hx e. unfold addAccents_file, mbind. rewrite Hf. destruct f; [congruence|]. rewrite Hr, Hl. now apply loop_stops. Qed.

Lemma until_text line text : line_text line text -> until_nul line = text.
Proof.
  intros [Hn H]. revert line H. induction text as [|b t IH]; intros line H.
  - destruct H as [->|[r ->]]; reflexivity.
  - assert (Hb : (b =? 0) = false) by (apply N.eqb_neq; intros ->; apply Hn; now left).
    destruct H as [->|[r ->]]; cbn [app until_nul]; rewrite Hb; f_equal; (apply IH; [intros G; apply Hn; now right|]); [now left|right; now exists r].
Qed.
Lemma getlines_line l : ~ In 10 l -> forall r cur, getlines (l ++ 10 :: r) cur = (rev cur ++ l) :: getlines r [].
Proof.
  induction l as [|b l IH]; intros Hl r cur; cbn [app getlines].
  - rewrite N.eqb_refl. now rewrite app_nil_r.
  - destruct (N.eqb_spec b 10) as [->|Hb]; [exfalso; apply Hl; now left|]. rewrite IH; [|intros G; apply Hl; now right].
    cbn [rev]. now rewrite <- app_assoc.
Qed.
Lemma getlines_last l : ~ In 10 l -> forall cur, rev cur ++ l <> [] -> getlines l cur = [rev cur ++ l].
Proof.
  induction l as [|b l IH]; intros Hl cur Hc; cbn [getlines].
  - rewrite app_nil_r in Hc |- *. destruct cur; [now elim Hc|reflexivity].
  - destruct (N.eqb_spec b 10) as [->|Hb]; [exfalso; apply Hl; now left|]. rewrite IH.
    + cbn [rev]. now rewrite <- app_assoc.
    + intros G; apply Hl; now right.
    + cbn [rev]. rewrite <- app_assoc. exact Hc.
Qed.
Lemma getlines_ended ls r : Forall (fun l => ~ In 10 l) ls -> getlines (concat (map (fun l => l ++ [10]) ls) ++ r) [] = ls ++ getlines r [].
Proof.
  induction 1 as [|l ls Hl _ IH]; [reflexivity|]. cbn [map concat]. rewrite <- !app_assoc. cbn [app].
  rewrite (@getlines_line l Hl). cbn [rev app]. now rewrite IH.
Qed.
Lemma getlines_spec bytes lines : file_lines bytes lines -> getlines bytes [] = lines.
Proof.
  intros [Hl [->|(i & t & -> & Ht & ->)]].
  - rewrite <- (app_nil_r (concat _)). rewrite (@getlines_ended lines [] Hl). cbn. apply app_nil_r.
  - apply Forall_app in Hl as [Hi Hl]. apply Forall_inv in Hl. rewrite (@getlines_ended i t Hi). f_equal. now rewrite (@getlines_last t Hl []).
Qed.
Lemma accents_set ws : forall e, addAccents ws e = set_groups ws e.
Proof.
  induction ws as [|w ws IH]; intros e; [reflexivity|]. cbn [addAccents set_groups]. unfold mbind. destruct w as [|x w]; [apply IH|].
  cbn [ev_do]. change DEFAULT_GROUP_ERROR with 30%Z. destruct (setGroupError (x :: w) 30%Z e) as [e' [[]|y| | |]]; try reflexivity. apply IH.
Qed.
Lemma texts_convert E lines texts ws : Forall2 line_text lines texts -> Forall2 (fun s w => word_of_utf8 E s = Ok w) texts ws -> Forall2 (converts E) lines ws.
Proof.
  intros H. revert ws. induction H as [|l t lines texts Hl _ IH]; intros ws G; inversion G; subst; constructor; [|now apply IH].
  unfold converts. now rewrite (until_text Hl).
Qed.
Lemma good_file E W g f bytes lines texts ws : findDataFile W (data_file g) = Ok f -> f <> [] -> w_read W f = Some bytes ->
  file_lines bytes lines -> Forall2 line_text lines texts -> Forall2 (fun s w => word_of_utf8 E s = Ok w) texts ws ->
  forall e, addAccents_file E W g e = set_groups ws e.
Proof.
  intros Hf Hn Hr Hb Hl Hw e. rewrite <- accents_set. apply (@file_words E W g f bytes); trivial. rewrite (getlines_spec Hb). exact (texts_convert Hl Hw).
Qed.
Lemma bad_line E W g f bytes before line after texts text ws x : findDataFile W (data_file g) = Ok f -> f <> [] -> w_read W f = Some bytes ->
  file_lines bytes (before ++ line :: after) -> Forall2 line_text before texts -> Forall2 (fun s w => word_of_utf8 E s = Ok w) texts ws ->
  line_text line text -> word_of_utf8 E text = Throw x ->
  forall e, addAccents_file E W g e = match set_groups ws e with (e', Ok _) => (e', Throw x) | stopped => stopped end.
Proof.
  intros Hf Hn Hr Hb Hl Hw Ht Hx e. rewrite <- accents_set.
  apply (@file_stops E W g f bytes before line after x ws); trivial; [exact (getlines_spec Hb)|exact (texts_convert Hl Hw)|]. now rewrite (until_text Ht).
Qed.

(** ** The shipped files *)
Definition plain (l : N) : N := if l =? 304 then 105 else l.
Definition checkline (s : list N) (g : word) : bool :=
  let n := N.of_nat (length s) in
  match iconv_8_16 s (2 * (n + 1)) with
  | Some ls => let b := 2 * N.of_nat (length ls) in
     (if b <? n then (b + 2 <=? 2 * (n + 1)) && (2 * (b / 2) + 2 <=? b + 2) else 2 * (b / 2) + 2 <=? 2 * (n + 1)) &&
     weqb (map plain ls) g && forallb (fun l => (l =? 304) || memb l g) ls &&
     forallb (fun l => (l <? 55296)) g && negb (has_ws g)
  | None => false
  end.
Lemma no_broken E g : forallb (fun l => l <? 55296) g = true -> has_broken E g = Ok false.
Proof.
  unfold has_broken. induction g as [|l g IH]; [reflexivity|]. cbn [forallb broken_loop]. intros H. apply andb_true_iff in H as [Hl H].
  unfold is_surrogate, is_high, is_low. replace ((55295 <? l) && (l <? 56320)) with false by lia. replace ((56319 <? l) && (l <? 57344)) with false by lia. cbn [orb andb]. now apply IH.
Qed.
Lemma checkline_ok E s g : checkline s g = true -> In g shipped_groups -> folds_shipped E -> word_of_utf8 E s = Ok g.
Proof.
  intros H Hg [F1 F2]. unfold checkline in H. unfold word_of_utf8, utf8ToInternal. destruct (iconv_8_16 _ _) as [ls|]; [|discriminate]. cbv zeta in *.
  apply andb_true_iff in H as [H H5]. apply andb_true_iff in H as [H H4]. apply andb_true_iff in H as [H H3]. apply andb_true_iff in H as [H1 H2].
  destruct (weqb_spec (map plain ls) g) as [Hm|]; [|discriminate].
  assert (Hl : map (lowerLetter E) ls = g).
  { rewrite <- Hm. apply map_ext_in. intros l Hin. unfold lowerLetter, u16, plain. rewrite forallb_forall in H3, H4. pose proof (H3 l Hin) as Hx.
    destruct (N.eqb_spec l 304) as [->|Hn]; [now rewrite F1|]. cbn [orb] in Hx. apply memb_in in Hx. rewrite (F2 g l Hg Hx). apply H4 in Hx. apply N.mod_small. lia. }
  assert (Hv : validate E g = Ok g).
  { unfold validate. rewrite (@no_broken E g H4). destruct (has_ws g); [discriminate|reflexivity]. }
  destruct (2 * N.of_nat (length ls) <? N.of_nat (length s)).
  - apply andb_true_iff in H1 as [Ha Hb]. rewrite Ha. cbn [obind]. rewrite Hb. cbn [obind]. rewrite Hl. exact Hv.
  - cbn [obind]. rewrite H1. cbn [obind]. rewrite Hl. exact Hv.
Qed.
Fixpoint check2 (ls : list (list N)) (gs : list word) : bool :=
  match ls, gs with
  | [], [] => true
  | l :: ls, g :: gs => checkline (until_nul l) g && check2 ls gs
  | _, _ => false
  end.
Lemma check2_ok E ls : forall gs, check2 ls gs = true -> incl gs shipped_groups -> folds_shipped E -> Forall2 (converts E) ls gs.
Proof.
  induction ls as [|l ls IH]; intros [|g gs] H Hi HE; try discriminate; [constructor|]. cbn in H. apply andb_true_iff in H as [H1 H2]. constructor.
  - apply checkline_ok; [exact H1|apply Hi; now left|exact HE].
  - apply IH; [exact H2|intros x Hx; apply Hi; now right|exact HE].
Qed.
Definition groups_of (g : accent_group) : list word := match g with LatinAccents => latin_groups | GreekAccents => greek_groups end.
Lemma shipped_lines E g : folds_shipped E -> Forall2 (converts E) (getlines (shipped_file g) []) (groups_of g).
Proof.
  intros HE. apply check2_ok; [destruct g; vm_compute; reflexivity| |exact HE].
  intros x Hx. unfold shipped_groups. apply in_or_app. destruct g; [now left|now right].
Qed.
Lemma shipped_accents E W g e : folds_shipped E -> shipped W -> addAccents_file E W g e = addAccents (groups_of g) e.
Proof. intros HE HW. destruct (HW g) as (f & Hn & Hf & Hr). exact (file_words Hf Hn Hr (@shipped_lines E g HE) e). Qed.
Lemma shipped_standard E W e : folds_shipped E -> shipped W -> addStandardErrors_file E W e = ev_do (AddStandardErrors latin_groups greek_groups) e.
Proof.
  intros HE HW. unfold addStandardErrors_file, mbind. cbn [ev_do]. unfold addStandardErrors, mbind.
  rewrite (@shipped_accents E W LatinAccents e HE HW). cbn [groups_of]. destruct (addAccents latin_groups e) as [e1 [a|x| | |]]; try reflexivity.
  now rewrite (@shipped_accents E W GreekAccents e1 HE HW).
Qed.

(** ** When the groups are accepted *)
Definition apart (g h : word) : Prop := forall l, In l g -> ~ In l h.
Lemma in_group_after e g v l : ev_wf e -> snd (setGroupError g v e) = Ok tt -> isInGroup (fst (setGroupError g v e)) l = isInGroup e l || memb l g.
Proof.
  intros W. destruct (setGroupError_spec g v W) as (e' & [(He & _ & _ & Hm)|(He & _)] & _); rewrite He; cbn [fst snd]; [|discriminate]. intros _.
  unfold isInGroup. rewrite Hm. destruct (find_group (ev_gmap e) l); [reflexivity|]. now destruct (memb l g).
Qed.
Lemma group_outcome e g v : ev_wf e -> (snd (setGroupError g v e) = Ok tt /\ forall l, In l g -> isInGroup e l = false) \/
  (snd (setGroupError g v e) = Throw ERuntime /\ exists l, In l g /\ isInGroup e l = true).
Proof.
  intros W. destruct (setGroupError_spec g v W) as (e' & [(He & Hn & _)|(He & (l & Hl & Hi) & _)] & _); rewrite He; cbn [snd].
  - left. split; [reflexivity|]. intros l Hl. apply Hn. now apply memb_in.
  - right. split; [reflexivity|]. exists l. split; [now apply memb_in|exact Hi].
Qed.
Lemma accents_outcome gs : ForallOrdPairs apart gs -> Forall (fun g => g <> []) gs -> forall e, ev_wf e ->
  (snd (addAccents gs e) = Ok tt /\ (forall l, In l (concat gs) -> isInGroup e l = false) /\
   forall l, isInGroup (fst (addAccents gs e)) l = isInGroup e l || memb l (concat gs)) \/
  (snd (addAccents gs e) = Throw ERuntime /\ exists l, In l (concat gs) /\ isInGroup e l = true).
Proof.
  intros Hd. induction Hd as [|g gs Hg Hd IH]; intros Hne e W.
  - left. split; [reflexivity|]. split; [intros l []|]. intros l. cbn. now rewrite orb_false_r.
  - apply Forall_cons_iff in Hne as [Hn Hne]. cbn [addAccents]. unfold mbind. destruct g as [|x g]; [congruence|]. set (gg := x :: g) in *.
    pose proof (group_outcome gg DEFAULT_GROUP_ERROR W) as Ho. pose proof (@in_group_after e gg DEFAULT_GROUP_ERROR) as Ha. pose proof (group_wf gg DEFAULT_GROUP_ERROR W) as W'.
    destruct (setGroupError gg DEFAULT_GROUP_ERROR e) as [e1 o1]. cbn [fst snd] in *. destruct Ho as [[-> Ho]|[-> (l & Hl & Hi)]].
    + destruct (IH Hne e1 W') as [(H1 & H2 & H3)|(H1 & l & Hl & Hi)].
      * left. split; [exact H1|]. split.
        -- intros l Hl. cbn [concat] in Hl. apply in_app_or in Hl as [Hl|Hl]; [now apply Ho|]. specialize (H2 l Hl). rewrite Ha in H2 by (try exact W; reflexivity).
           now apply orb_false_iff in H2.
        -- intros l. rewrite H3, Ha by (try exact W; reflexivity). cbn [concat]. unfold memb. rewrite existsb_app. now rewrite orb_assoc.
      * right. split; [exact H1|]. exists l. cbn [concat]. split; [apply in_or_app; now right|]. rewrite Ha in Hi by (try exact W; reflexivity).
        apply orb_true_iff in Hi as [Hi|Hi]; [exact Hi|]. apply memb_in in Hi. exfalso. rewrite Forall_forall in Hg.
        apply in_concat in Hl as (h & Hh & Hl). exact (Hg h Hh l Hi Hl).
    + right. split; [reflexivity|]. exists l. split; [cbn [concat]; apply in_or_app; now left|exact Hi].
Qed.
Fixpoint apartb (gs : list word) : bool :=
  match gs with [] => true | g :: r => forallb (fun h => forallb (fun l => negb (memb l h)) g) r && apartb r end.
Lemma apartb_ok gs : apartb gs = true -> ForallOrdPairs apart gs.
Proof.
  induction gs as [|g gs IH]; intros H; [constructor|]. cbn in H. apply andb_true_iff in H as [H1 H2]. constructor; [|now apply IH].
  rewrite Forall_forall. rewrite forallb_forall in H1. intros h Hh. apply H1 in Hh. rewrite forallb_forall in Hh. intros l Hl Hl'. apply Hh in Hl.
  apply memb_in in Hl'. now rewrite Hl' in Hl.
Qed.
Lemma accents_app a b e : addAccents (a ++ b) e = mbind (addAccents a) (fun _ => addAccents b) e.
Proof.
  revert e. induction a as [|g a IH]; intros e; [reflexivity|]. cbn [app addAccents]. unfold mbind in *.
  destruct ((match g with [] => ret tt | _ => setGroupError g DEFAULT_GROUP_ERROR end) e) as [e' [x|x| | |]]; try reflexivity. apply IH.
Qed.
Lemma standard_accents e : addStandardErrors latin_groups greek_groups e = match addAccents shipped_groups e with (e', Ok _) => (addKeyboardErrors e', Ok tt) | (e', Throw x) => (e', Throw x)
  | (e', Abort) => (e', Abort) | (e', UB) => (e', UB) | (e', Fuel) => (e', Fuel) end.
Proof.
  unfold shipped_groups. rewrite accents_app. unfold addStandardErrors, mbind. destruct (addAccents latin_groups e) as [e1 [a|x| | |]]; try reflexivity.
Qed.
Lemma shipped_apart : ForallOrdPairs apart shipped_groups.
Proof. apply apartb_ok. vm_compute. reflexivity. Qed.
Lemma shipped_nonempty : Forall (fun g => g <> []) shipped_groups.
Proof. unfold shipped_groups, latin_groups, greek_groups. cbn [app]. repeat (apply Forall_cons; [discriminate|]). apply Forall_nil. Qed.
Lemma keyboard_gmap e : ev_gmap (addKeyboardErrors e) = ev_gmap e.
Proof. rewrite kb_pairs. apply pairs_gmap. Qed.
Lemma standard_outcome calls : let r := ev_do (AddStandardErrors latin_groups greek_groups) (ev_after calls) in
  (snd r = Ok tt /\ (forall g l, In g shipped_groups -> In l g -> isInGroup (ev_after calls) l = false) /\
   forall g l, In g shipped_groups -> In l g -> isInGroup (fst r) l = true) \/
  (snd r = Throw ERuntime /\ exists g l, In g shipped_groups /\ In l g /\ isInGroup (ev_after calls) l = true).
Proof.
  cbv zeta. cbn [ev_do]. rewrite standard_accents. destruct (accents_outcome shipped_apart shipped_nonempty (after_wf calls)) as [(H1 & H2 & H3)|(H1 & l & Hl & Hi)].
  - left. destruct (addAccents shipped_groups (ev_after calls)) as [e1 o1]. cbn [fst snd] in *. subst o1. cbn [fst snd]. split; [reflexivity|].
    assert (Hc : forall g l, In g shipped_groups -> In l g -> In l (concat shipped_groups)) by (intros g l Hg Hl; apply in_concat; now exists g).
    split.
    + intros g l Hg Hl. apply H2. now apply Hc with g.
    + intros g l Hg Hl. unfold isInGroup. rewrite keyboard_gmap. change (isInGroup e1 l = true). rewrite H3. apply orb_true_iff. right. apply memb_in. now apply Hc with g.
  - right. destruct (addAccents shipped_groups (ev_after calls)) as [e1 o1]. cbn [fst snd] in *. subst o1. cbn [fst snd]. split; [reflexivity|].
    apply in_concat in Hl as (g & Hg & Hl). now exists g, l.
Qed.

(** ** The prices on a new object *)
Lemma accents_run (gs : list word) : Forall (fun g => g <> []) gs -> forall e, snd (addAccents gs e) = Ok tt ->
  fst (addAccents gs e) = ev_run (map (fun g => SetGroupError g 30%Z) gs) e /\ all_ok (map (fun g => SetGroupError g 30%Z) gs) e.
Proof.
  induction 1 as [|g gs Hg _ IH]; intros e; [now split|]. cbn [addAccents map all_ok]. unfold mbind. destruct g as [|x g]; [congruence|].
  cbn [ev_do]. change DEFAULT_GROUP_ERROR with 30%Z. cbn [ev_run fold_left ev_do]. destruct (setGroupError (x :: g) 30 e) as [e1 [[]|y| | |]] eqn:Hs; cbn [fst snd]; try discriminate.
  intros H. destruct (IH e1 H) as [H1 H2]. split; [exact H1|]. now split.
Qed.
Lemma standard_new_ok : snd (ev_do (AddStandardErrors latin_groups greek_groups) ev_new) = Ok tt.
Proof.
  change ev_new with (ev_after []). destruct (standard_outcome []) as [(H & _)|(_ & g & l & Hg & Hl & Hi)]; [exact H|]. discriminate.
Qed.
Lemma common_groups (gs : list word) a b : common_group (map (fun g => SetGroupError g 30%Z) gs) a b None = if existsb (fun g => memb a g && memb b g) gs then Some 30%Z else None.
Proof.
  assert (G : forall acc, common_group (map (fun g => SetGroupError g 30%Z) gs) a b acc = if existsb (fun g => memb a g && memb b g) gs then Some 30%Z else acc); [|apply G].
  induction gs as [|g gs IH]; intros acc; [reflexivity|]. cbn [map common_group existsb]. rewrite IH. destruct (memb a g && memb b g); cbn [orb]; [|reflexivity].
  now destruct (existsb _ gs).
Qed.
Lemma explicit_groups gs a b : explicit (map (fun g => SetGroupError g 30%Z) gs) a b None = None.
Proof. induction gs as [|g gs IH]; [reflexivity|exact IH]. Qed.
Lemma near_self a : near_keys a a = false.
Proof.
  unfold near_keys, side_by_side, just_below. destruct (key_place a) as [[r c]|]; [|reflexivity].
  replace (Nat.eqb c (S c)) with false by (symmetry; apply Nat.eqb_neq; lia). replace (Nat.eqb r (S r)) with false by (symmetry; apply Nat.eqb_neq; lia).
  rewrite !andb_false_r. reflexivity.
Qed.
Lemma keyboard_after cs : ev_after (cs ++ [AddKeyboardErrors]) = addKeyboardErrors (ev_run cs ev_new).
Proof. unfold ev_after. rewrite run_app. generalize (ev_run cs ev_new). reflexivity. Qed.
Lemma keyboard_near cs a b : getSubstituteError (ev_after (cs ++ [AddKeyboardErrors])) a b = if near_keys a b then Ok 30%Z else getSubstituteError (ev_after cs) a b.
Proof. unfold near_keys. apply keyboard_prices. Qed.
Lemma groups_prices (gs : list word) a b : Forall (fun g => g <> []) gs -> snd (addAccents gs ev_new) = Ok tt ->
  getSubstituteError (addKeyboardErrors (fst (addAccents gs ev_new))) a b =
  Ok (if a =? b then 0%Z else if near_keys a b || existsb (fun g => memb a g && memb b g) gs then 30%Z else 100%Z).
Proof.
  intros Hne Hs. destruct (accents_run Hne Hs) as [H1 H2]. rewrite H1. set (cs := map (fun g => SetGroupError g 30%Z) gs) in *.
  rewrite <- keyboard_after, keyboard_near. destruct (near_keys a b) eqn:Hn.
  - destruct (N.eqb_spec a b) as [->|]; [now rewrite near_self in Hn|reflexivity].
  - rewrite rule_all.
    + unfold rule_price, cs. destruct (a =? b); [reflexivity|]. rewrite explicit_groups, common_groups. cbn [orb]. now destruct (existsb _ gs).
    + unfold cs. clear. induction gs; constructor; [exact I|assumption].
    + exact H2.
    + unfold cs. clear. induction gs as [|g gs IH]; [exact I|exact IH].
Qed.
Lemma standard_fst e : snd (ev_do (AddStandardErrors latin_groups greek_groups) e) = Ok tt ->
  snd (addAccents shipped_groups e) = Ok tt /\ fst (ev_do (AddStandardErrors latin_groups greek_groups) e) = addKeyboardErrors (fst (addAccents shipped_groups e)).
Proof.
  cbn [ev_do]. rewrite standard_accents. destruct (addAccents shipped_groups e) as [e1 o1]. destruct o1 as [[]|x| | |]; cbn [fst snd]; intros H; try discriminate H. now split.
Qed.
Lemma standard_new_prices a b : getSubstituteError (fst (ev_do (AddStandardErrors latin_groups greek_groups) ev_new)) a b = Ok (standard_price a b).
Proof.
  destruct (@standard_fst ev_new standard_new_ok) as [H1 H2]. rewrite H2. exact (@groups_prices shipped_groups a b shipped_nonempty H1).
Qed.

(** ** A second call *)
Lemma refused_at_once e l g r : isInGroup e l = true -> ev_wf e -> exists e', addAccents ((l :: g) :: r) e = (e', Throw ERuntime) /\
  (forall a b, getSubstituteError e' a b = getSubstituteError e a b) /\ (forall x, isInGroup e' x = isInGroup e x).
Proof.
  intros Hi W. cbn [addAccents]. unfold mbind at 1. unfold setGroupError, mbind at 1 2 3, reads.
  set (e1 := with_gerr (ev_gerr e ++ [DEFAULT_GROUP_ERROR]) e). unfold isInGroup in Hi. destruct (find_group (ev_gmap e) l) as [k|] eqn:Hk; [|discriminate].
  cbn [group_loop]. assert (Hk1 : find_group (ev_gmap e1) l = Some k) by exact Hk. rewrite Hk1. pose proof (wf_gid W Hk) as Hlt.
  replace (Nat.eqb k (length (ev_gerr e))) with false by (symmetry; apply Nat.eqb_neq; lia). exists e1. split; [reflexivity|]. split; [|reflexivity].
  intros a b. unfold getSubstituteError. destruct ((a <? LUT_LETTERS) && (b <? LUT_LETTERS)); [reflexivity|]. unfold substituteErrorSlow. destruct (a =? b); [reflexivity|]. cbv zeta.
  set (x := if b <? a then b else a). set (y := if b <? a then a else b). cbn [e1 with_gerr ev_single ev_gmap ev_gerr ev_sub]. destruct (find_single (ev_single e) x y); [reflexivity|].
  destruct (find_group (ev_gmap e) y) as [g1|] eqn:Hg; [|reflexivity]. destruct (find_group (ev_gmap e) x) as [g2|]; [|reflexivity].
  destruct (Nat.eqb g1 g2); [|reflexivity]. rewrite nth_error_app1 by exact (wf_gid W Hg). reflexivity.
Qed.
Lemma standard_twice calls more : let std := ev_do (AddStandardErrors latin_groups greek_groups) in
  snd (std (ev_after calls)) = Ok tt -> ~ In ClearErrors more ->
  let e := ev_after (calls ++ AddStandardErrors latin_groups greek_groups :: more) in
  snd (std e) = Throw ERuntime /\ (forall a b, getSubstituteError (fst (std e)) a b = getSubstituteError e a b) /\ (forall l, isInGroup (fst (std e)) l = isInGroup e l).
Proof.
  cbv zeta. intros Hok Hm. set (e := ev_after _).
  assert (Hi : isInGroup e 97 = true).
  { unfold e. change (calls ++ AddStandardErrors latin_groups greek_groups :: more) with (calls ++ [AddStandardErrors latin_groups greek_groups] ++ more). rewrite app_assoc.
    apply grouped_stays; [exact Hm|]. destruct (standard_outcome calls) as [(_ & _ & H)|(H & _)]; [|rewrite H in Hok; discriminate].
    unfold ev_after at 1, ev_run. rewrite fold_left_app. cbn [fold_left]. fold (ev_run calls ev_new). fold (ev_after calls).
    apply (H (hd [] shipped_groups)); vm_compute; now left. }
  assert (W : ev_wf e) by apply after_wf. clearbody e. cbn [ev_do]. rewrite standard_accents.
  change shipped_groups with ((97 :: tl (hd [] shipped_groups)) :: tl shipped_groups).
  destruct (@refused_at_once e 97 (tl (hd [] shipped_groups)) (tl shipped_groups) Hi W) as (e' & He & H1 & H2). rewrite He. cbn [fst snd]. split; [reflexivity|]. split; assumption.
Qed.

(** ** Other prices are kept *)
Lemma group_else e g v a b : ev_wf e -> snd (setGroupError g v e) = Ok tt -> memb a g && memb b g = false ->
  getSubstituteError (fst (setGroupError g v e)) a b = getSubstituteError e a b.
Proof.
  intros W Hok Hn. destruct (setGroupError_spec g v W) as (e' & [(He & _ & Hl & Hm)|(He & _)] & Hs & Hg & Hsub & W'); rewrite He in *; [|discriminate]. cbn [fst].
  unfold getSubstituteError. change LUT_LETTERS with 512. destruct ((a <? 512) && (b <? 512)) eqn:Hlt.
  - specialize (Hl a b ltac:(lia) ltac:(lia)). rewrite Hn in Hl. cbn [andb] in Hl. unfold lut_at in Hl. now rewrite Hl.
  - unfold substituteErrorSlow. destruct (N.eqb_spec a b) as [|Hne]; [reflexivity|]. cbv zeta. set (x := if b <? a then b else a). set (y := if b <? a then a else b).
    assert (Hxy : memb y g && memb x g = false) by (unfold x, y; destruct (b <? a); [exact Hn|now rewrite andb_comm]).
    rewrite Hs, Hsub, !Hm, Hg. destruct (find_single (ev_single e) x y); [reflexivity|].
    destruct (find_group (ev_gmap e) y) as [g1|] eqn:Hy, (find_group (ev_gmap e) x) as [g2|] eqn:Hx.
    + destruct (Nat.eqb g1 g2); [|reflexivity]. rewrite nth_error_app1 by exact (wf_gid W Hy). reflexivity.
    + destruct (memb x g); [|reflexivity]. pose proof (wf_gid W Hy). now replace (Nat.eqb g1 (length (ev_gerr e))) with false by (symmetry; apply Nat.eqb_neq; lia).
    + destruct (memb y g); [|reflexivity]. pose proof (wf_gid W Hx). now replace (Nat.eqb (length (ev_gerr e)) g2) with false by (symmetry; apply Nat.eqb_neq; lia).
    + destruct (memb y g), (memb x g); try reflexivity. discriminate.
Qed.
Lemma group_else_after calls g v a b : snd (ev_do (SetGroupError g v) (ev_after calls)) = Ok tt -> (~ In a g \/ ~ In b g) ->
  getSubstituteError (ev_after (calls ++ [SetGroupError g v])) a b = getSubstituteError (ev_after calls) a b.
Proof.
  intros Hok Hn. unfold ev_after at 1. rewrite run_app. fold (ev_after calls). cbn [ev_run fold_left ev_do] in *. apply group_else; [apply after_wf|exact Hok|].
  destruct (memb a g) eqn:Ha, (memb b g) eqn:Hb; try reflexivity. apply memb_in in Ha. apply memb_in in Hb. tauto.
Qed.
Lemma accents_else (gs : list word) a b : existsb (fun g => memb a g && memb b g) gs = false -> forall e, ev_wf e -> snd (addAccents gs e) = Ok tt ->
  getSubstituteError (fst (addAccents gs e)) a b = getSubstituteError e a b.
Proof.
  induction gs as [|g gs IH]; [reflexivity|]. cbn [existsb]. intros H e W. apply orb_false_iff in H as [H1 H2]. specialize (IH H2). cbn [addAccents]. unfold mbind.
  destruct g as [|x g]; [now apply IH|]. pose proof (@group_else e (x :: g) DEFAULT_GROUP_ERROR a b W) as G. pose proof (group_wf (x :: g) DEFAULT_GROUP_ERROR W) as W'.
  destruct (setGroupError (x :: g) DEFAULT_GROUP_ERROR e) as [e1 [[]|y| | |]]; cbn [fst snd] in *; try discriminate. intros Hok. rewrite IH by assumption. now apply G.
Qed.
Lemma keyboard_near_any e a b : ev_wf e -> (exists calls, e = ev_after calls) -> getSubstituteError (addKeyboardErrors e) a b = if near_keys a b then Ok 30%Z else getSubstituteError e a b.
Proof. intros _ (calls & ->). pose proof (keyboard_near calls a b) as H. rewrite keyboard_after in H. exact H. Qed.
Lemma run_one c e : ev_run [c] e = fst (ev_do c e).
Proof. reflexivity. Qed.
Lemma kb_do e : addKeyboardErrors e = fst (ev_do AddKeyboardErrors e).
Proof. cbn [ev_do pure fst]. reflexivity. Qed.
Lemma standard_is_calls calls : snd (ev_do (AddStandardErrors latin_groups greek_groups) (ev_after calls)) = Ok tt ->
  ev_after (calls ++ [AddStandardErrors latin_groups greek_groups]) = ev_after (calls ++ map (fun g => SetGroupError g 30%Z) shipped_groups ++ [AddKeyboardErrors]).
Proof.
  intros H. unfold ev_after. rewrite !run_app. fold (ev_after calls). revert H. generalize (ev_after calls). intros e H. destruct (standard_fst H) as [H1 H2].
  destruct (accents_run shipped_nonempty H1) as [H3 _]. rewrite <- H3. rewrite run_one, H2, run_one. apply kb_do.
Qed.
Lemma standard_kept calls a b : snd (ev_do (AddStandardErrors latin_groups greek_groups) (ev_after calls)) = Ok tt -> near_keys a b = false -> one_group a b = false ->
  getSubstituteError (ev_after (calls ++ [AddStandardErrors latin_groups greek_groups])) a b = getSubstituteError (ev_after calls) a b.
Proof.
  intros H Hn Ho. rewrite standard_is_calls by exact H. rewrite app_assoc, keyboard_near, Hn. destruct (standard_fst H) as [H1 _].
  unfold ev_after at 1. rewrite run_app. fold (ev_after calls). destruct (accents_run shipped_nonempty H1) as [H3 _]. rewrite <- H3. apply accents_else; [exact Ho|apply after_wf|exact H1].
Qed.

(** ** The same through the files *)
Lemma standard_file_outcome E W calls : folds_shipped E -> shipped W ->
  let r := addStandardErrors_file E W (ev_after calls) in
  (snd r = Ok tt /\ (forall g l, In g shipped_groups -> In l g -> isInGroup (ev_after calls) l = false) /\
   forall g l, In g shipped_groups -> In l g -> isInGroup (fst r) l = true) \/
  (snd r = Throw ERuntime /\ exists g l, In g shipped_groups /\ In l g /\ isInGroup (ev_after calls) l = true).
Proof. intros HE HW. cbv zeta. rewrite (@shipped_standard E W _ HE HW). apply standard_outcome. Qed.
Lemma standard_file_effect E W calls : folds_shipped E -> shipped W -> snd (addStandardErrors_file E W (ev_after calls)) = Ok tt ->
  fst (addStandardErrors_file E W (ev_after calls)) = ev_after (calls ++ map (fun g => SetGroupError g 30%Z) shipped_groups ++ [AddKeyboardErrors]).
Proof.
  intros HE HW. rewrite (@shipped_standard E W _ HE HW). intros H. rewrite <- standard_is_calls by exact H. unfold ev_after at 2. now rewrite run_app, run_one.
Qed.
Lemma standard_file_kept E W calls a b : folds_shipped E -> shipped W ->
  snd (addStandardErrors_file E W (ev_after calls)) = Ok tt -> near_keys a b = false -> one_group a b = false ->
  getSubstituteError (fst (addStandardErrors_file E W (ev_after calls))) a b = getSubstituteError (ev_after calls) a b.
Proof.
  intros HE HW. rewrite (@shipped_standard E W _ HE HW). intros H Hn Ho. rewrite <- (@standard_kept calls a b H Hn Ho). unfold ev_after at 2. now rewrite run_app, run_one.
Qed.
Lemma standard_file_twice E W calls more : folds_shipped E -> shipped W ->
  snd (addStandardErrors_file E W (ev_after calls)) = Ok tt -> ~ In ClearErrors more ->
  let e := ev_run more (fst (addStandardErrors_file E W (ev_after calls))) in
  let r := addStandardErrors_file E W e in
  snd r = Throw ERuntime /\ (forall a b, getSubstituteError (fst r) a b = getSubstituteError e a b) /\ (forall l, isInGroup (fst r) l = isInGroup e l).
Proof.
  intros HE HW. cbv zeta. rewrite !(@shipped_standard E W _ HE HW). intros H Hm. pose proof (@standard_twice calls more H Hm) as T. cbv zeta in T.
  replace (ev_after (calls ++ AddStandardErrors latin_groups greek_groups :: more)) with (ev_run more (fst (ev_do (AddStandardErrors latin_groups greek_groups) (ev_after calls)))) in T; [exact T|].
  change (AddStandardErrors latin_groups greek_groups :: more) with ([AddStandardErrors latin_groups greek_groups] ++ more). unfold ev_after. now rewrite !run_app, run_one.
Qed.
Lemma accents_cheap E W g a b : folds_shipped E -> shipped W -> In g shipped_groups -> In a g -> In b g -> a <> b ->
  getSubstituteError (fst (addStandardErrors_file E W ev_new)) a b = Ok 30%Z.
Proof.
  intros HE HW Hg Ha Hb Hn. rewrite (@shipped_standard E W _ HE HW), standard_new_prices. unfold standard_price. destruct (N.eqb_spec a b); [congruence|].
  replace (one_group a b) with true; [now rewrite orb_true_r|]. symmetry. apply existsb_exists. exists g. split; [exact Hg|]. apply andb_true_iff. split; now apply memb_in.
Qed.
