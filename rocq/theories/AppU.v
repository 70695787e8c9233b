(** The graphical programs: no file and no query is unsafe. *)
From Coq Require Import String.
From Verif Require Import Base TrieM WordStoreM ErrorValuesM LevIndexM WordM MapM DoubleM ContM DataFileM QIndexM MatcherM CApiM AppM
  Spec_Hist Spec_EV Spec_Cont Spec_Edit Spec_Lev Spec_Match Spec_File Spec_CApi Spec_Tool Spec_Room
  WordP SplitP MapP ContP DataP EVR ScalarP TypoP WordStoreP MatchP MatchU MatchV MatchY MatchZ CApiP CApiQ CApiS MatchG QIndexP AppP AppQ AppR AppS AppT.
From Coq Require Import ZifyBool ZifyN ZifyNat.
From Verif Require Import Spec_Word Spec_App.
Local Open Scope N_scope.
Local Open Scope m_scope.

Section Safe.
Variable E : env.
Hypothesis HEo : env_ok E.
Hypothesis HE : lower_ok E.

(** ** Sizes *)
Lemma word_len s w : word_of_utf8 E s = Ok w -> (length w <= length s)%nat.
Proof. intros H. destruct (word_inv HE H) as (cs & _ & -> & _ & ->). exact (word_bytes cs HE). Qed.
Lemma cut_len (s : list N) runs : cut blank s runs -> (length (concat runs) <= length s)%nat.
Proof. clear. induction 1 as [g Hg|g r Hg Hr Hn|g r b rest l Hg Hr Hn Hb Hc IH]; cbn [concat]; [cbn; lia|rewrite app_nil_r, app_length; lia|rewrite !app_length; lia]. Qed.
Lemma split_len s ws : splitToWords E s = Ok ws -> word_letters ws <= N.of_nat (length s).
Proof.
  intros H. destruct (cut_ws_exists s) as [runs Hc]. rewrite (split_ws E Hc) in H. apply cut_len in Hc. enough (word_letters ws <= N.of_nat (length (concat runs))) by lia. clear Hc. revert ws H.
  induction runs as [|r runs IH]; intros ws H; cbn [all_of] in H; [injection H as <-; cbn; lia|]. destruct (word_of_utf8 E r) as [w| | | |] eqn:Hw; try discriminate. cbn [obind] in H.
  destruct (all_of (word_of_utf8 E) runs) as [ws'| | | |]; try discriminate. injection H as <-. rewrite MatchP.letters_cons. cbn [concat]. rewrite app_length. specialize (IH ws' eq_refl). apply word_len in Hw. lia.
Qed.
Lemma set_letters f (t : wordlist) m : word_letters (flat_map snd (mp_set wltb f t m)) <= word_letters t + word_letters (flat_map snd m).
Proof.
  clear. induction m as [|[k v] m IH]; cbn [mp_set flat_map]; [cbn [flat_map snd]; rewrite app_nil_r; cbn; lia|]. destruct (wltb f k); [|destruct (wltb k f)]; cbn [flat_map snd]; rewrite !word_letters_app; lia.
Qed.
Definition text_letters (ds : list (word * wordlist)) : N := fold_right (fun x n => word_letters (snd x) + n) 0 ds.
Lemma texts_small k ds : dsize (add_texts k ds) <= text_letters ds.
Proof.
  clear. unfold dsize. destruct (texts_build k ds) as [_ ->]. unfold build. enough (forall m, word_letters (flat_map snd (fold_left (fun m (c : word * wordlist) => mp_set wltb (fst c) (snd c) m) ds m)) <= text_letters ds + word_letters (flat_map snd m)).
  { specialize (H []). cbn in H. lia. }
  induction ds as [|[f t] ds IH]; intros m; [cbn [fold_left text_letters fold_right]; lia|]. cbn [fold_left fst snd text_letters fold_right]. fold (text_letters ds). specialize (IH (mp_set wltb f t m)). pose proof (@set_letters f t m). lia.
Qed.
Definition good_text (x : word * wordlist) : Prop := field_word E (fst x) /\ fst x <> [] /\ Forall (text_word E) (snd x).
Lemma texts_good k ds : Forall good_text ds -> doc_good E (add_texts k ds).
Proof.
  intros H. rewrite Forall_forall in H. assert (G : forall x, In x (d_texts (add_texts k ds)) -> In x ds).
  { clear. destruct (texts_build k ds) as [_ ->]. unfold build. enough (forall m x, In x (fold_left (fun m (c : word * wordlist) => mp_set wltb (fst c) (snd c) m) ds m) -> In x ds \/ In x m) by (intros x Hx; apply H in Hx as [Hx|[]]; exact Hx).
    assert (Hset : forall f (t : wordlist) m x, In x (mp_set wltb f t m) -> x = (f, t) \/ In x m).
    { intros f t m x. induction m as [|[k' v] m IH]; cbn [mp_set]; [intros [<-|[]]; now left|]. destruct (wltb f k') eqn:Hw1; [|destruct (wltb k' f) eqn:Hw2]; cbn [In].
      - intros [H|[H|H]]; auto.
      - intros [H|H]; auto. destruct (IH H); auto.
      - intros [H|H]; auto. left. rewrite (oo_tot wltb_order Hw1 Hw2). now symmetry. }
    induction ds as [|[f t] ds IH]; intros m x Hx; [now right|]. cbn [fold_left fst snd] in Hx. apply IH in Hx as [Hx|Hx]; [left; now right|]. apply Hset in Hx as [->|Hx]; [left; now left|now right]. }
  split; [split|]; [exists k, ds; reflexivity| |]; rewrite Forall_forall; intros x Hx; apply G, H in Hx as (H1 & H2 & H3); auto.
Qed.

(** ** Loading *)
(** What a line may give. *)
Definition line_ok (c : N) (parse : list N -> outcome (option ((N -> document) * list (list N)))) (l : list N) : Prop :=
  parse l = Ok None \/ (exists x, parse l = Throw x) \/
  exists ds t, parse l = Ok (Some (fun k => add_texts k ds, t)) /\ Forall good_text ds /\ text_letters ds <= c * N.of_nat (length l).
(** A program that is safe to use. *)
Definition usable_app (n : N) (a : gapp) : Prop :=
  exists calls, history E calls (a_m a) /\ Forall (c_like E) calls /\ (forall f x, In (f, x) (weight_calls calls) -> good_weight x) /\
    N.of_nat (length (occ calls)) <= n /\ forall d f w, In (d, f, w) (occ calls) -> (N.to_nat d < length (a_src a))%nat /\ N.of_nat (length w) <= n.
Lemma numbered_good c parse : forall lines ps k, Forall (line_ok c parse) lines -> Forall2 (parsed parse) lines ps ->
  Forall (doc_good E) (numbered k (added ps)) /\ csize (numbered k (added ps)) <= c * N.of_nat (length (concat lines)) /\
  Forall (fun d => (N.to_nat (d_id d) < k + length (added ps))%nat) (numbered k (added ps)).
Proof.
  intros lines ps k Hl H2. revert k. induction H2 as [|l p lines ps Hp H2 IH]; intros k; [cbn; repeat split; try constructor; lia|].
  apply Forall_cons_iff in Hl as [Hl Hr]. cbn [concat]. rewrite app_length. destruct Hl as [Hl|[(x & Hl)|(ds & t & Hl & Hg & Hs)]]; unfold parsed in Hp; rewrite Hl in Hp; try discriminate.
  - injection Hp as <-. change (added (None :: ps)) with (added ps). destruct (IH Hr k) as (A & B & C). split; [exact A|split; [lia|exact C]].
  - injection Hp as <-. change (added (Some (fun k => add_texts k ds, t) :: ps)) with ((fun k => add_texts k ds, t) :: added ps). cbn [numbered csize length]. destruct (IH Hr (S k)) as (A & B & C).
    split; [constructor; [now apply texts_good|exact A]|]. split; [pose proof (@texts_small (N.of_nat k) ds); nia|].
    constructor; [rewrite (proj1 (texts_build _ _)); lia|]. eapply Forall_impl; [|exact C]. cbn. intros d Hd. lia.
Qed.
Lemma first_bad c parse lines : Forall (line_ok c parse) lines -> (exists ps, Forall2 (parsed parse) lines ps) \/ exists pre l rest ps x, lines = pre ++ l :: rest /\ Forall2 (parsed parse) pre ps /\ parse l = Throw x.
Proof.
  induction 1 as [|l lines Hl _ IH]; [left; exists []; constructor|].
  assert (Hc : (exists p, parse l = Ok p) \/ exists x, parse l = Throw x) by (destruct Hl as [->|[(x & ->)|(ds & t & -> & _)]]; eauto).
  destruct Hc as [(p & Hp)|(x & Hx)]; [|right; exists [], l, lines, [], x; repeat split; [constructor|exact Hx]].
  destruct IH as [(ps & H)|(pre & l' & rest & ps & x & -> & H & Hx)]; [left; exists (p :: ps); now constructor|right; exists (l :: pre), l', rest, (p :: ps), x; repeat split; [now constructor|exact Hx]].
Qed.
Lemma load_safe c one parse before lines m :
  (forall l s, one l s = match parse l with
    | Ok None => (s, Ok tt)
    | Ok (Some (df, t)) => add_doc E (df (N.of_nat (length (l_src s)))) t s
    | Throw x => (s, Throw x) | Abort => (s, Abort) | UB => (s, UB) | Fuel => (s, Fuel)
    end) -> Forall (setting E) before -> history E before m -> Forall (line_ok c parse) lines ->
  match (each_line one lines ;;; index_batch E) (empty_load m) with
  | (s', Ok _) => exists docs, history E (before ++ [MIndex docs]) (l_m s') /\ Forall (doc_good E) docs /\ csize docs <= c * N.of_nat (length (concat lines)) /\
      Forall (fun d => (N.to_nat (d_id d) < length (l_src s'))%nat) docs
  | (_, Throw _) => True
  | _ => False
  end.
Proof.
  intros Hone Hb HH Hl. destruct (first_bad Hl) as [(ps & H2)|(pre & l & rest & ps & x & -> & H2 & Hx)].
  - destruct (numbered_good O Hl H2) as (Hg & Hs & Hid). pose proof (index_outcome HEo HE HH (settings_like HE Hb) Hg) as Hi.
    pose proof (load_all Hone H2 (empty_load m)) as H. cbn [empty_load l_c l_m l_src length List.app] in H. set (docs := numbered 0 (added ps)) in *.
    destruct (mt_index E docs m) as [m1 [[]| | | |]]; try contradiction.
    + destruct H as (s' & H1 & H3 & H4). rewrite H1. exists docs. rewrite H3, H4. split; [exact Hi|]. split; [exact Hg|]. split; [exact Hs|]. rewrite map_length. exact Hid.
    + destruct ((each_line one lines ;;; index_batch E) (empty_load m)) as [s' o]. cbn in H. subst o. exact I.
  - apply Forall_app in Hl as [Hl _]. destruct (numbered_good O Hl H2) as (Hg & _ & _).
    assert (Hnx : forall p : option ((N -> document) * list (list N)), Throw x <> Ok p) by discriminate.
    pose proof (load_stops Hone rest H2 Hx Hnx (empty_load m)) as H. cbv zeta in H. set (R := (each_line one (pre ++ l :: rest) ;;; index_batch E) (empty_load m)) in *. clearbody R. cbn [empty_load l_c l_m l_src length List.app] in H.
    destruct R as [s' o]. cbn [snd] in H. destruct H as [->|(c1 & c2 & Hc & Ho & Hne)]; [exact I|].
    rewrite Hc in Hg. apply Forall_app in Hg as [Hg _]. pose proof (index_outcome HEo HE HH (settings_like HE Hb) Hg) as Hi. destruct (mt_index E c1 m) as [m1 o1]. cbn [snd] in Ho. subst o1. destruct o as [[]| | | |]; try contradiction; try exact I; congruence.
Qed.
Lemma loaded_usable before docs after m src n : history E (before ++ MIndex docs :: after) m -> Forall (setting E) before -> Forall (setting E) after -> Forall (doc_good E) docs -> csize docs <= n ->
  Forall (fun d => (N.to_nat (d_id d) < length src)%nat) docs -> usable_app n (mkApp m src).
Proof.
  intros HH Hb Ha Hg Hs Hid. destruct (occ_sizes HE Hg) as [Ho1 Ho2]. set (calls := before ++ MIndex docs :: after) in *.
  assert (Hocc : occ calls = occs (flat_map plan_doc docs)) by (apply (occ_calls HE Hg); now apply (settings_quiet HE)). exists calls. split; [exact HH|]. split; [|split; [|split]].
  - unfold calls. apply Forall_app. split; [now apply (settings_like HE)|]. constructor; [|now apply (settings_like HE)]. cbn. eapply Forall_impl; [|exact Hg]. intros D HD; apply HD.
  - unfold calls. rewrite calls_weights. intros f x Hin. refine (@settings_weights E (before ++ after) f x _ Hin). apply Forall_app. now split.
  - rewrite Hocc. lia.
  - rewrite Hocc. intros d f w Hin. split; [|specialize (Ho1 d f w Hin); lia]. apply occ_docs in Hin; [|eapply Forall_impl; [|exact Hg]; intros D HD; apply HD]. destruct Hin as (D & t & HD & -> & _). rewrite Forall_forall in Hid. cbn [a_src]. now apply Hid.
Qed.

(** ** Searching *)
Lemma any_search n a s : usable_app n a -> n < 10000000 -> c_text s -> N.of_nat (length s) < 10000000 ->
  exists w, doSearch E s a = (a, Ok w) /\ (v_entry w = s \/ v_entry w = [] /\ v_rows w = []).
Proof.
  intros (calls & HH & HL & Hw & Ho & Hocc) Hn Hs Hlen. destruct (@split_safe E s HE) as [(q & Hq)|(x & Hx)].
  - destruct (@search_rows E calls a s q HEo HE HH HL Hw) as (rows & view & Hdo & _); auto.
    + lia.
    + intros d f w Hin. now apply (Hocc d f w).
    + split; [|intros d f w Hin; destruct (Hocc d f w Hin); lia]. intros qw Hqw. pose proof (@split_len _ _ Hq). pose proof (@letters_in _ _ Hqw). lia.
    + exists (mkWin rows s). split; [exact Hdo|now left].
  - exists (mkWin [] []). split; [|right; now split]. unfold doSearch, mt_match_utf8, mbind, reads. rewrite Hx. now destruct a.
Qed.
Lemma any_searches n a texts : usable_app n a -> n < 10000000 -> Forall (fun s => c_text s /\ N.of_nat (length s) < 10000000) texts ->
  exists ws, searches E texts a = (a, Ok ws) /\ Forall2 (fun s w => v_entry w = s \/ v_entry w = [] /\ v_rows w = []) texts ws.
Proof.
  intros Ha Hn. induction 1 as [|s texts [Hs Hl] _ (ws & H1 & H2)]; [exists []; split; [reflexivity|constructor]|].
  destruct (any_search Ha Hn Hs Hl) as (w & Hw & Hv). exists (w :: ws). split; [|now constructor]. cbn [searches]. unfold mbind. rewrite Hw, H1. reflexivity.
Qed.

(** ** Files *)
Lemma getlines_lines bytes : forall cur, ~ In 10 cur -> file_lines (rev cur ++ bytes) (getlines bytes cur).
Proof.
  clear. induction bytes as [|b bytes IH]; intros cur Hc; cbn [getlines].
  - rewrite app_nil_r. destruct cur as [|x cur]; [split; [constructor|now left]|]. rewrite <- in_rev in Hc || rewrite in_rev in Hc. split; [repeat constructor; exact Hc|]. right. exists [], (rev (x :: cur)). split; [reflexivity|]. split; [|reflexivity]. cbn [rev]. destruct (rev cur); discriminate.
  - destruct (N.eqb_spec b 10) as [->|Hb].
    + specialize (IH [] (fun H => H)). cbn [rev List.app] in IH. destruct IH as [H1 H2]. rewrite in_rev in Hc. split; [constructor; assumption|]. set (L := getlines bytes []) in *. clearbody L. destruct H2 as [->|(i & t & -> & Ht & ->)].
      * left. cbn [map concat]. now rewrite <- app_assoc.
      * right. exists (rev cur :: i), t. split; [reflexivity|]. split; [exact Ht|]. cbn [map concat]. now rewrite <- !app_assoc.
    + specialize (IH (b :: cur)). cbn [rev] in IH. rewrite <- app_assoc in IH. apply IH. intros [->|H]; [congruence|contradiction].
Qed.
Lemma has_lines bytes : file_lines bytes (getlines bytes []).
Proof. exact (@getlines_lines bytes [] (fun H => H)). Qed.
Lemma lines_in bytes lines l b : file_lines bytes lines -> In l lines -> In b l -> In b bytes.
Proof.
  clear. intros [_ H] Hl Hb.
  assert (G : forall ls : list (list N), In l ls -> In b (concat (map (fun l => l ++ [10%N]) ls))) by (intros ls Hin; apply in_concat; exists (l ++ [10]); split; [exact (in_map (fun l => l ++ [10%N]) ls l Hin)|apply in_or_app; now left]).
  destruct H as [->|(i & t & -> & _ & ->)]; [now apply G|]. apply in_or_app. apply in_app_or in Hl as [Hl|[->|[]]]; [left; now apply G|now right].
Qed.

(** ** queryapp and numberpad *)
Lemma until_text l : Forall (fun b => b < 256) l -> c_text (until_nul l).
Proof.
  clear. intros H. induction H as [|b l Hb Hl IH]; [constructor|]. cbn [until_nul]. destruct (N.eqb_spec b 0); [constructor|]. constructor; [lia|exact IH].
Qed.
Lemma until_len l : (length (until_nul l) <= length l)%nat.
Proof. clear. induction l as [|b l IH]; [cbn; lia|]. cbn [until_nul]. destruct (b =? 0); cbn [length]; lia. Qed.
Lemma fix_some l : (2 <= length l)%nat -> exists l', dos_fix l = Ok l' /\ length l' = length l /\ forall b, In b l' -> b = 0 \/ In b l.
Proof.
  clear. intros Hl. unfold dos_fix. rewrite <- (rev_involutive l) in Hl |- *. rewrite rev_involutive. destruct (rev l) as [|x [|y r]]; [cbn in Hl; lia|cbn in Hl; lia|]. destruct (y =? 13); [|exists (rev (x :: y :: r)); split; [reflexivity|]; split; auto].
  exists (rev r ++ [0; x]). split; [reflexivity|]. split; [cbn [rev]; rewrite !app_length; cbn; lia|]. intros b Hb. apply in_app_or in Hb as [Hb|[->|[->|[]]]]; auto; right; apply -> in_rev; [cbn [In]; rewrite <- in_rev in Hb|now left]; auto.
Qed.
Lemma plain_ok l : Forall (fun b => b < 256) l -> length l <> 1%nat -> line_ok 1 (parse_plain E) l.
Proof.
  intros Hb Hl. destruct l as [|b0 l0] eqn:Hll; [left; reflexivity|]. rewrite <- Hll in *. assert (H2 : (2 <= length l)%nat) by (subst; cbn in *; lia). destruct (fix_some H2) as (l' & Hf & Hlen & Hin).
  assert (Hb' : Forall (fun b => b < 256) l') by (rewrite Forall_forall in *; intros b H; apply Hin in H as [->|H]; [lia|now apply Hb]).
  assert (Hp : parse_plain E l = let! l' := dos_fix l in let! ws := splitToWords E (until_nul l') in Ok (Some (fun k => add_texts k [(as_word E n_name, ws)], [l']))) by (subst; reflexivity).
  rewrite Hf in Hp. cbn [obind] in Hp. destruct (@split_safe E (until_nul l') HE) as [(ws & Hw)|(x & Hx)].
  - right. right. exists [(as_word E n_name, ws)], [l']. rewrite Hw in Hp. split; [exact Hp|]. split.
    + constructor; [|constructor]. destruct (name_word HE plain_name). split; [assumption|]. split; [assumption|]. exact (split_words (until_text Hb') Hw).
    + cbn [text_letters fold_right snd]. pose proof (@split_len _ _ Hw). pose proof (until_len l'). lia.
  - right. left. exists x. rewrite Hx in Hp. exact Hp.
Qed.
Lemma plain_lines bytes : Forall (fun b => b < 256) bytes -> no_short_line bytes -> Forall (line_ok 1 (parse_plain E)) (getlines bytes []).
Proof.
  intros Hb Hn. pose proof (has_lines bytes) as Hl. rewrite Forall_forall in *. intros l Hin. apply plain_ok; [|exact (Hn _ l Hl Hin)]. rewrite Forall_forall. intros b Hbl. apply Hb. exact (lines_in Hl Hin Hbl).
Qed.
Lemma started_safe before m bytes : Forall (fun b => b < 256) bytes -> no_short_line bytes -> Forall (setting E) before -> history E before m ->
  let r := in_main (AppM.loaded ((each_line (plain_line E (as_word E n_name)) (getlines bytes []) ;;; index_batch E) (empty_load m))) in
  r = Ok (Exits 99) \/ exists a, r = Ok (Running a) /\ usable_app (N.of_nat (length bytes)) a.
Proof.
  intros Hb Hn Hbef HH. cbv zeta. pose proof (load_safe (@plain_one E) Hbef HH (plain_lines Hb Hn)) as H. set (K := each_line (plain_line E (as_word E n_name)) (getlines bytes []) ;;; index_batch E) in *.
  destruct (K (empty_load m)) as [s' [[]| | | |]]; try contradiction; [|now left]. right. destruct H as (docs & H1 & H2 & H3 & H4). exists (mkApp (l_m s') (l_src s')). split; [reflexivity|].
  pose proof (lines_long (has_lines bytes)) as Hlen. apply (@loaded_usable before docs []); auto. lia.
Qed.
Lemma queryapp_safe file argv : (forall name bytes, file name = Some bytes -> Forall (fun b => b < 256) bytes /\ no_short_line bytes) ->
  (exists st, queryapp E file argv = Ok (Exits st) /\ In st [0; 1; 99]%Z) \/
  exists a prog name rest bytes, argv = prog :: name :: rest /\ file name = Some bytes /\ queryapp E file argv = Ok (Running a) /\ usable_app (N.of_nat (length bytes)) a.
Proof.
  intros Hf. unfold queryapp. destruct argv as [|prog [|name rest]]; [left; exists 0%Z; cbn; auto|left; exists 0%Z; cbn; auto|]. rewrite name_field by exact HE. cbn [obind]. destruct (file name) as [bytes|] eqn:Hfile; [|left; exists 1%Z; cbn; auto].
  destruct (Hf name bytes Hfile) as [Hb Hn]. destruct (new_safe E) as [(m & Hm)|(x & Hx)]; [|left; exists 99%Z; rewrite Hx; cbn; auto]. rewrite Hm. cbn [obind].
  assert (HH : history E [] m) by (exists m; split; [exact Hm|reflexivity]). destruct (started_safe Hb Hn (Forall_nil _) HH) as [H|(a & H & Ha)].
  - left. exists 99%Z. split; [exact H|cbn; auto].
  - right. exists a, prog, name, rest, bytes. auto.
Qed.
Lemma numberpad_safe file argv : (forall name bytes, file name = Some bytes -> Forall (fun b => b < 256) bytes /\ no_short_line bytes) ->
  (exists st, numberpad E file argv = Ok (Exits st) /\ In st [0; 1; 99]%Z) \/
  exists a prog name rest bytes, argv = prog :: name :: rest /\ file name = Some bytes /\ numberpad E file argv = Ok (Running a) /\ usable_app (N.of_nat (length bytes)) a.
Proof.
  intros Hf. unfold numberpad. destruct argv as [|prog [|name rest]]; [left; exists 0%Z; cbn; auto|left; exists 0%Z; cbn; auto|]. rewrite name_field by exact HE. cbn [obind]. destruct (file name) as [bytes|] eqn:Hfile; [|left; exists 1%Z; cbn; auto].
  destruct (Hf name bytes Hfile) as [Hb Hn]. destruct (new_safe E) as [(m & Hm)|(x & Hx)]; [|left; exists 99%Z; rewrite Hx; cbn; auto]. rewrite Hm. cbn [obind].
  assert (HH : history E [] m) by (exists m; split; [exact Hm|reflexivity]). destruct (numberpad_prices HH) as (m1 & Hpr & HH1). rewrite Hpr. cbn [obind].
  assert (Hbef : Forall (setting E) [MErr AddNumberpadErrors; MErr SetSubstringMode]) by (constructor; [right; now right|constructor; [right; now left|constructor]]).
  destruct (started_safe Hb Hn Hbef HH1) as [H|(a & H & Ha)].
  - left. exists 99%Z. split; [exact H|cbn; auto].
  - right. exists a, prog, name, rest, bytes. auto.
Qed.
End Safe.
