(** The graphical programs: rows of sctest, and singleword. *)
From Coq Require Import String.
From Verif Require Import Base TrieM WordStoreM ErrorValuesM LevIndexM WordM MapM DoubleM ContM DataFileM QIndexM MatcherM CApiM AppM
  Spec_Hist Spec_EV Spec_Cont Spec_Edit Spec_Lev Spec_Match Spec_File Spec_CApi Spec_Tool Spec_Room
  WordP WordQ SplitP MapP ContP DataP EVK EVR ScalarP TypoP WordStoreP MatchP MatchU MatchV MatchY MatchZ CApiP CApiQ CApiS MatchG QIndexP QIndexQ QIndexR AppP AppQ AppR AppS AppT AppU AppV AppW AppY.
From Coq Require Import ZifyBool ZifyN ZifyNat Zwf.
From Verif Require Import Spec_Word Spec_App.
Local Open Scope N_scope.
Local Open Scope m_scope.

Lemma sc_rows E W file es os : env_ok E -> lower_ok E -> folds_shipped E -> shipped W -> Forall plain es -> Forall2 (desktop_entry E file) es os ->
  room_for E (22 * length es + 3 * length (contents file (map bytes_of es))) -> N.of_nat (3 * length (contents file (map bytes_of es))) < 10000000 ->
  exists a, sctest E W (Some (map bytes_of es)) file = Ok (Running a) /\ forall q, typed q -> exists rows, doSearch E (bytes_of q) a = (a, Ok (mkWin rows (bytes_of q))) /\
    answers E (ev_after [AddStandardErrors latin_groups greek_groups; SetSubstringMode]) (sc_weights E) (there os) q rows.
Proof.
  intros HEo HE HF HW Hp Hos HR Hn. destruct (sc_starts HEo HE HF HW Hp Hos HR) as (a & Ha & Hh). exists a. split; [exact Ha|]. intros q Hq. destruct (desktop_sizes HE Hp Hos) as (Hpl & Hs & _).
  destruct (holds_rows HE HEo (Forall_nil _) (sc_settings E) Hpl ltac:(lia) Hh Hq) as (rows & H1 & H2). exists rows. split; [exact H1|].
  assert (Hpr : prices_after ([] ++ sc_after E) = ev_after [AddStandardErrors latin_groups greek_groups; SetSubstringMode]) by (rewrite prices_calls; apply f_equal; reflexivity). rewrite <- Hpr. eapply answers_ext; [|exact H2]. intros f.
  unfold weight_after, sc_weights, weight_calls. unfold last_for, assoc. cbn [flat_map sc_after List.app rev find fst].
  destruct (weqb f (as_word E (txt "comment"%string))); [reflexivity|]. destruct (weqb f (as_word E (txt "genericname"%string))); reflexivity.
Qed.

(** ** singleword *)
Lemma load_split E f : forall bs s s', load_loop E f bs s = (s', Ok tt) ->
  exists ws, read_words E f bs = Ok ws /\ insert_words E ws (mkSApp (q_ind s) (q_store s)) = (mkSApp (q_ind s') (q_store s'), Ok tt).
Proof.
  induction f as [|f IH]; intros bs s s' H; [discriminate|]. cbn [load_loop read_words] in *. destruct bs as [|b bs]; [injection H as <-; exists []; split; reflexivity|].
  destruct (fgets 1023 (b :: bs)) as [l r]. unfold mbind at 1 in H. destruct (load_line E l s) as [s1 o] eqn:Hl. destruct o as [[]| | | |]; try discriminate. destruct (IH r s1 s' H) as (ws & Hw & Hi).
  unfold load_line in Hl. unfold read_word. destruct (rev (until_nul l)) as [|last front]; [discriminate|]. unfold mbind at 1 in Hl. unfold massert in Hl. destruct (e_ndebug E || (last =? 10)) eqn:Hc.
  2:{ apply orb_false_iff in Hc as [Hc1 Hc2]. rewrite Hc1, Hc2 in Hl. discriminate. }
  assert (Hl' : (w <- reads (fun _ => word_of_utf8 E (rev front)) ;; id <- QIndexM.on_store (ws_getID E w) ;; on_ind (li_insertWord E w id)) s = (s1, Ok tt)) by (destruct (e_ndebug E), (last =? 10); try discriminate; exact Hl). clear Hl.
  unfold mbind at 1, reads in Hl'. destruct (word_of_utf8 E (rev front)) as [w| | | |]; try discriminate. cbn [obind]. rewrite Hw. cbn [obind]. exists (w :: ws). split; [reflexivity|]. cbn [insert_words].
  unfold mbind, QIndexM.on_store, on_ind in *. cbn [sa_store sa_ind]. destruct (ws_getID E w (q_store s)) as [st [id| | | |]]; try discriminate. cbn [q_ind q_store sa_ind sa_store] in *. destruct (li_insertWord E w id (q_ind s)) as [i' [[]| | | |]]; try discriminate. injection Hl' as <-. exact Hi.
Qed.
Lemma print_fill E n : forall i m s s', print_loop E n i m s = (s', Ok tt) ->
  exists rows, (forall r0, fill_words E (q_store s) n i m r0 = Ok (r0 ++ rows)) /\ q_out s' = q_out s ++ map (fun r => PMatch (fst r) (snd r)) rows /\ length rows = n.
Proof.
  induction n as [|n IH]; intros i m s s' H; cbn [print_loop fill_words] in *; [injection H as <-; exists []; split; [intros r0; now rewrite app_nil_r|]; split; [cbn; now rewrite app_nil_r|reflexivity]|].
  unfold mbind, reads, print in H. destruct (im_getMatch m i) as [id| | | |] eqn:E1; try discriminate. destruct (ws_getWord E (q_store s) id) as [w| | | |] eqn:E2; try discriminate. destruct (w_toUtf8 w 1024) as [buf| | | |] eqn:E3; try discriminate.
  destruct (im_getMatchError m i) as [err| | | |] eqn:E4; try discriminate. destruct (WordM.c_str buf) as [text| | | |] eqn:E5; try discriminate. destruct (IH _ _ _ _ H) as (rows & Hr & Ho & Hn). cbn [q_store q_out] in *.
  exists ((text, err) :: rows). split; [|split].
  - intros r0. cbn [obind]. rewrite E2. cbn [obind]. rewrite E3. cbn [obind]. rewrite E5. cbn [obind]. rewrite Hr, <- app_assoc. reflexivity.
  - rewrite Ho, <- app_assoc. reflexivity.
  - cbn. now rewrite Hn.
Qed.
Lemma query_window E q maxE s s' text old : q <> [] -> queryAndPrint E q maxE s = (s', Ok tt) -> q_out s = [] -> word_of_utf8 E text = Ok q ->
  exists rows, single_search E (mkSApp (q_ind s) (q_store s)) text maxE old = Ok (mkSWin rows text) /\ q_out s' = as_printed rows.
Proof.
  intros Hq H Ho Hw. unfold single_search. rewrite Hw. cbn [sa_ind sa_store]. unfold queryAndPrint, mbind in H. destruct (findWords E (q_ind s) q ev_new maxE []) as [m [[]| | | |]] eqn:Hf; try discriminate. cbn [obind] in H.
  assert (Hx : exists rows, fill_words E (q_store s) (length m) 0 m [] = Ok rows /\ q_out s' = as_printed rows).
  { unfold im_size in H. destruct (N.eqb_spec (N.of_nat (length m)) 0) as [Hz|Hz].
    - destruct m; [|cbn in Hz; lia]. injection H as <-. exists []. split; [reflexivity|]. cbn. now rewrite Ho.
    - destruct (print_fill H) as (rows & Hr & Ho' & Hn). exists rows. split; [exact (Hr [])|]. rewrite Ho', Ho. cbn [List.app]. destruct rows; [cbn in Hn; lia|reflexivity]. }
  destruct Hx as (rows & Hr & Hp). exists rows. split; [|exact Hp]. destruct q; [congruence|]. rewrite Hr. reflexivity.
Qed.
(** Every number is written somehow. *)
Lemma value_more ds d : value (ds ++ [d]) = (10 * value ds + (Z.of_N d - 48))%Z.
Proof. unfold value. now rewrite fold_left_app. Qed.
Lemma written z : exists s, reads_as s z.
Proof.
  assert (Hpos : forall n, (0 <= n)%Z -> exists ds, Forall Spec_Tool.digit ds /\ value ds = n).
  { intros n. pattern n. apply well_founded_ind with (R := Zwf.Zwf 0); [apply Zwf.Zwf_well_founded|]. clear n. intros n IH Hn. destruct (Z.eq_dec n 0) as [->|Hz]; [exists []; split; [constructor|reflexivity]|].
    pose proof (Z.mod_pos_bound n 10 ltac:(lia)). pose proof (Z.div_mod n 10 ltac:(lia)). destruct (IH (n / 10)%Z) as (ds & Hd & Hv); [unfold Zwf.Zwf; lia|lia|]. exists (ds ++ [Z.to_N (n mod 10) + 48]). split.
    - apply Forall_app. split; [exact Hd|]. constructor; [|constructor]. unfold Spec_Tool.digit. lia.
    - rewrite value_more, Hv. lia. }
  destruct (Z_le_dec 0 z) as [Hz|Hz].
  - destruct (Hpos z Hz) as (ds & Hd & Hv). exists ([] ++ [] ++ ds ++ []). replace z with (match (@nil N) with [45] => (- value ds)%Z | _ => value ds end) by exact Hv. constructor; [constructor|now left|exact Hd|intros b r H; discriminate].
  - destruct (Hpos (- z)%Z ltac:(lia)) as (ds & Hd & Hv). exists ([] ++ [45] ++ ds ++ []). replace z with (match [45] with [45] => (- value ds)%Z | _ => value ds end) by (cbn; lia). constructor; [constructor|right; right; now left|exact Hd|intros b r H; discriminate].
Qed.

Section Single.
Variable E : env.
Hypothesis HEo : env_ok E.
Hypothesis HE : lower_ok E.
Variable file : list N -> option (list N).

Lemma single_starts i0 s0 bytes s prog name rest : li_new E = Ok i0 -> ws_new E = Ok s0 -> file name = Some bytes -> load_loop E (S (length bytes)) bytes (mkQ i0 s0 []) = (s, Ok tt) ->
  singleword E file (prog :: name :: rest) = Ok (Running (mkSApp (q_ind s) (q_store s))).
Proof.
  intros Hi Hs Hf Hl. unfold singleword. rewrite Hi, Hs. cbn [obind]. rewrite Hf. destruct (load_split Hl) as (ws & H1 & H2). rewrite H1. cbn [obind q_ind q_store] in *. rewrite H2. reflexivity.
Qed.
Lemma single_rows prog name rest lines : Forall (word_line E) lines -> file name = Some (text_file lines) -> room_for E (length (text_file lines)) ->
  exists a, singleword E file (prog :: name :: rest) = Ok (Running a) /\
    (forall old limit q, query_text q -> q <> [] -> in_i32 limit = true -> exists rows, single_search E a (bytes_of q) limit old = Ok (mkSWin rows (bytes_of q)) /\ answer E lines q limit (as_printed rows)).
Proof.
  intros Hwl Hfile Hroom. assert (Hg : Forall good_line lines) by (eapply Forall_impl; [|exact Hwl]; apply word_line_good). pose proof Hroom as [Hos Hmax]. destruct (@QIndexR.started E) as (i0 & s0 & Hi0 & Hs0); [apply Hos; lia|].
  destruct (@loop_good E HE i0 Hi0 lines [] (S (length (text_file lines ++ []))) [] [] (mkQ i0 s0 []) Hg (loaded_new i0 Hs0)) as (f' & s & ops & Hf & Hl & He); try (change (word_letters []) with 0; cbn [N.add]; assumption || lia).
  rewrite app_nil_r in He. destruct f' as [|f']; [lia|]. change (load_loop E (S f') [] s) with (s, @Ok unit tt) in He. exists (mkSApp (q_ind s) (q_store s)). split; [exact (@single_starts i0 s0 _ s prog name rest Hi0 Hs0 Hfile He)|].
  intros old limit q Hq Hne Hlim. destruct (written limit) as [num Hnum]. destruct (@prints E HE HEo file prog name num [] lines q limit Hwl Hfile Hroom Hq Hnum Hlim) as (out & Hout & Hans).
  unfold queryindex in Hout. rewrite Hi0, Hs0 in Hout. pose proof Hq as (Hq1 & Hq2 & _). assert (Hw : word_of_utf8 E (bytes_of q) = Ok (as_word E q)) by (apply word_valid; [exact HE|exact Hq1|intros c Hc; now apply Hq2]).
  rewrite Hw, (atoi_reads Hnum), Hlim in Hout. cbn [obind] in Hout. rewrite Hfile in Hout. unfold load_data in Hout. rewrite He in Hout. unfold ret in Hout.
  destruct (queryAndPrint E (as_word E q) limit s) as [s' [[]|[]| | |]] eqn:Hqp; try discriminate. injection Hout as <-.
  assert (Hne' : as_word E q <> []).
  { destruct q as [|c q]; [congruence|]. unfold as_word. cbn [map]. rewrite WordP.letters_cons. unfold utf16. destruct (fold E c <? 65536); discriminate. }
  destruct (query_window old Hne' Hqp (ld_out Hl) Hw) as (rows & Hr & Hp). exists rows. split; [exact Hr|]. now rewrite <- Hp.
Qed.
(** What is typed when it is not a word. *)
Lemma single_empty a text maxE old : (exists q c, text = bytes_of q /\ Forall scalar q /\ In c q /\ blank c) \/ ~ valid_utf8 text -> single_search E a text maxE old = Ok (mkSWin [] []).
Proof.
  intros [(q & c & -> & Hq & Hc & Hb)|H]; unfold single_search; [rewrite word_blank by eauto|rewrite (word_invalid E H)]; reflexivity.
Qed.
Lemma single_nothing a maxE old : single_search E a [] maxE old = Ok (mkSWin (sv_rows old) []).
Proof. unfold single_search. replace (word_of_utf8 E []) with (@Ok word []) by (symmetry; apply (@word_valid E []); [exact HE|constructor|intros c []]). reflexivity. Qed.

(** ** Any file *)
Lemma read_any fuel : forall bs, Forall (fun b => 0 < b < 256) bs -> (length bs < fuel)%nat ->
  (exists x, read_words E fuel bs = Throw x) \/
  (read_words E fuel bs = Abort /\ e_ndebug E = false /\ (~ ended bs \/ exists a u b, bs = a ++ u ++ b /\ ~ In 10 u /\ N.of_nat (length u) = 1023)) \/
  (exists ws, read_words E fuel bs = Ok ws /\ Forall (fun w => exists a u b, bs = a ++ u ++ b /\ ~ In 10 u /\ N.of_nat (length u) <= 1022 /\ word_of_utf8 E u = Ok w) ws).
Proof.
  induction fuel as [|f IH]; intros bs Hb Hf; [lia|]. cbn [read_words]. destruct bs as [|b0 bs0] eqn:Hbs; [right; right; exists []; split; [reflexivity|constructor]|].
  rewrite <- Hbs in *. destruct (fgets 1023 bs) as [l r] eqn:Hg. assert (Hb1 : bs <> []) by (rewrite Hbs; discriminate). assert (Hb2 : 1023 <> 0) by lia. destruct (fgets_spec Hb2 Hb1 Hg) as (He & Hl & Hc).
  destruct (rev l) as [|b t'] eqn:Hrl; [destruct Hl; now rewrite <- (rev_involutive l), Hrl|]. assert (Hlt : l = rev t' ++ [b]) by (now rewrite <- (rev_involutive l), Hrl). set (t := rev t') in *.
  rewrite He in Hb. apply Forall_app in Hb as [Hbl Hbr]. assert (Hlen : (length r < f)%nat) by (rewrite He, app_length, Hlt, app_length in Hf; cbn [length] in Hf; lia).
  assert (Ht10 : ~ In 10 t).
  { destruct Hc as [(u & Hu & Hn & _)|(Hn & _)].
    - rewrite Hlt in Hu. apply app_inj_tail in Hu as [-> _]. exact Hn.
    - intros Hx. apply Hn. rewrite Hlt. apply in_or_app. now left. }
  assert (Ht22 : N.of_nat (length t) <= 1022).
  { destruct Hc as [(u & Hu & _ & Hn)|(_ & Hn & _)]; [rewrite Hlt in Hu; apply app_inj_tail in Hu as [-> _]; lia|]. rewrite Hlt, app_length in Hn. cbn [length] in Hn. lia. }
  assert (Hrw : read_word E l = if e_ndebug E || (b =? 10) then word_of_utf8 E t else Abort).
  { unfold read_word. rewrite until_id by (eapply Forall_impl; [|exact Hbl]; cbn; lia). rewrite Hrl. reflexivity. }
  rewrite Hrw. destruct (e_ndebug E || (b =? 10)) eqn:Hd.
  - destruct (utf8_cases t HE) as [[w Hw]|[Hw|Hw]]; rewrite Hw; cbn [obind]; [|left; eauto..].
    destruct (IH r Hbr Hlen) as [(x & Hr)|[(Hr & Hd' & Hx)|(ws & Hr & Hall)]]; rewrite Hr; cbn [obind].
    + left. eauto.
    + right. left. split; [reflexivity|]. split; [exact Hd'|]. destruct Hx as [Hx|(a & u & c & Hx & Hu)].
      * left. intros Hen. apply Hx. intros a c Hac. apply (Hen (l ++ a) c). now rewrite He, Hac, app_assoc.
      * right. exists (l ++ a), u, c. split; [now rewrite He, Hx, app_assoc|exact Hu].
    + right. right. exists (w :: ws). split; [reflexivity|]. constructor.
      * exists [], t, ([b] ++ r). split; [|now repeat split]. cbn [List.app]. rewrite He, Hlt, <- app_assoc. reflexivity.
      * eapply Forall_impl; [|exact Hall]. cbn. intros v (a & u & c & Hx & Hu). exists (l ++ a), u, c. split; [now rewrite He, Hx, app_assoc|exact Hu].
  - apply orb_false_iff in Hd as [Hd Hb10]. apply N.eqb_neq in Hb10. right. left. split; [reflexivity|]. split; [exact Hd|]. destruct Hc as [(u & Hu & _)|(Hn & _ & Hc)].
    { rewrite Hlt in Hu. apply app_inj_tail in Hu as [_ ->]. contradiction. }
    destruct Hc as [->|Hc].
    + left. intros Hen. apply Hb10. apply (Hen t b). rewrite He, app_nil_r. exact Hlt.
    + right. exists [], l, r. auto.
Qed.
Lemma insert_any i0 (Hi0 : li_new E = Ok i0) ws : forall ws0 ops ind st, QIndexP.loaded E i0 ws0 ops (mkQ ind st []) -> Forall (fun w => exists t, c_text t /\ word_of_utf8 E t = Ok w) ws ->
  (exists a x, insert_words E ws (mkSApp ind st) = (a, Throw x)) \/ (exists a ops', insert_words E ws (mkSApp ind st) = (a, Ok tt) /\ QIndexP.loaded E i0 (ws0 ++ ws) ops' (mkQ (sa_ind a) (sa_store a) [])).
Proof.
  induction ws as [|w ws IH]; intros ws0 ops ind st H Hall; cbn [insert_words]; [right; exists (mkSApp ind st), ops; rewrite app_nil_r; split; [reflexivity|exact H]|].
  apply Forall_cons_iff in Hall as [(t & Ht & Hw) Hall]. pose proof (@rest_any E HE i0 Hi0 ws0 ops (mkQ ind st []) t H Ht) as HR. cbv zeta in HR. unfold mbind, reads, QIndexM.on_store, on_ind in HR. rewrite Hw in HR. cbn [q_store q_ind q_out] in HR.
  unfold mbind. cbn [sa_ind sa_store]. destruct (ws_getID E w st) as [st1 [id|x| | |]]; cbn [fst snd q_ind q_store q_out sa_ind sa_store] in *; try (destruct HR as [(x' & Hx & _)|(w' & ops' & Hx & _)]; discriminate); [|left; eauto].
  destruct (li_insertWord E w id ind) as [ind1 [[]|x| | |]]; cbn [fst snd q_ind q_store q_out sa_ind sa_store] in *; try (destruct HR as [(x' & Hx & _)|(w' & ops' & Hx & _)]; discriminate); [|left; eauto].
  destruct HR as [(x' & Hx & _)|(w' & ops' & _ & Hw' & _ & H')]; [discriminate|]. injection Hw' as <-. destruct (IH _ _ _ _ H' Hall) as [H1|(a & ops2 & H1 & H2)]; [left; exact H1|right]. exists a, ops2. rewrite <- app_assoc in H2. auto.
Qed.
Lemma single_safe argv : (forall name bs, file name = Some bs -> printable_file E bs) ->
  match singleword E file argv with
  | Ok (Exits st) => In st [0; 99]%Z
  | Ok (Running a) => forall old text maxE, c_text text -> N.of_nat (length text) <= 20000000 -> exists w, single_search E a text maxE old = Ok w
  | Abort => grow_ok E 1024 = false \/ (e_ndebug E = false /\ exists prog name rest bs, argv = prog :: name :: rest /\ file name = Some bs /\ (~ ended bs \/ long_line bs))
  | _ => False
  end.
Proof.
  intros Hshort. unfold singleword. pose proof (new_index E) as Hnew. destruct (li_new E) as [i0| | | |] eqn:Hi0; try contradiction; [|now left]. destruct Hnew as (_ & s0 & Hs0). rewrite Hs0. cbn [obind].
  destruct argv as [|prog [|name rest]]; [now left|now left|]. destruct (file name) as [bs|] eqn:Hfile; [|now left]. destruct (Hshort name bs Hfile) as [Hb Hsl].
  destruct (@read_any (S (length bs)) bs Hb ltac:(lia)) as [(x & Hr)|[(Hr & Hd & Hx)|(ws & Hr & Hall)]]; rewrite Hr; cbn [obind].
  - right. now left.
  - right. split; [exact Hd|]. exists prog, name, rest, bs. split; [reflexivity|]. split; [exact Hfile|]. exact Hx.
  - assert (Hwords : forall v, In v ws -> exists t, c_text t /\ N.of_nat (length t) <= 1022 /\ (forall cs, Forall scalar cs -> t = bytes_of cs -> N.of_nat (length (bytes_of (map (fold E) cs))) < 1024) /\ word_of_utf8 E t = Ok v).
    { intros v Hv. rewrite Forall_forall in Hall. destruct (Hall v Hv) as (a & u & c & Hx & Hu & Hlu & Hwv). exists u. split; [|split; [exact Hlu|split; [intros cs Hs Hc; exact (Hsl a u c cs Hx Hu Hlu Hs Hc)|exact Hwv]]].
      rewrite Hx in Hb. apply Forall_app in Hb as [_ Hb]. now apply Forall_app in Hb as [Hb _]. }
    assert (Hct : Forall (fun w => exists t, c_text t /\ word_of_utf8 E t = Ok w) ws) by (apply Forall_forall; intros v Hv; destruct (Hwords v Hv) as (t & H1 & _ & _ & H2); eauto).
    destruct (@insert_any i0 Hi0 ws [] [] i0 s0 (loaded_new i0 Hs0) Hct) as [(a & x & Ha)|(a & ops & Ha & Hl)]; rewrite Ha; cbn [obind]; [right; now left|]. cbn [List.app] in Hl.
    intros old text maxE Ht Hlen. destruct (utf8_cases text HE) as [[w Hw]|[Hw|Hw]]; [|exists (mkSWin [] []); unfold single_search; now rewrite Hw..].
    destruct (list_eq_dec N.eq_dec w []) as [->|Hne]; [unfold single_search; rewrite Hw; eauto|].
    assert (Hsize : forall t v, word_of_utf8 E t = Ok v -> (length v <= length t)%nat) by (intros t v Hv; exact (@word_len E HE t v Hv)).
    destruct (@ask E HEo i0 Hi0 ws ops _ Hl w maxE) as (m & rows & Hask & _).
    + exact (word_nonnul HE Ht Hw).
    + assert (Hlong : (longest ops <= N.to_nat 1022)%nat).
      { apply longest_le. rewrite (ld_words Hl). apply Forall_forall. intros v Hv. destruct (Hwords v Hv) as (t & _ & Hlt & _ & Hv2). specialize (Hsize t v Hv2). lia. }
      specialize (Hsize text w Hw). lia.
    + apply Forall_forall. intros v Hv. destruct (Hwords v Hv) as (t & Hctt & Hlt & Hfit & Hv2). apply (@text_printable E t); try assumption.
      pose proof (ld_ins Hl) as Hins. rewrite Forall_forall in Hins. now apply (Hins v Hv).
    + destruct (@query_window E w maxE _ _ text old Hne Hask eq_refl Hw) as (rw & Hs & _). cbn [q_ind q_store] in Hs. destruct a as [ai ast]. eauto.
Qed.
End Single.

(** ** Safety *)
Section Safety.
Variable E : env.
Hypothesis HEo : env_ok E.
Hypothesis HE : lower_ok E.
Lemma usable_searchable n a : usable_app E n a -> n < 10000000 -> searchable E a.
Proof. intros H Hn texts Ht. exact (any_searches HEo HE H Hn Ht). Qed.
Lemma queryapp_well file argv : (forall name bytes, file name = Some bytes -> file_ok bytes) -> well_started E (queryapp E file argv).
Proof.
  intros Hf. assert (Hf' : forall name bytes, file name = Some bytes -> Forall (fun b => b < 256) bytes /\ no_short_line bytes) by (intros n b Hb; destruct (Hf n b Hb) as (? & ? & _); auto).
  destruct (queryapp_safe HEo HE argv Hf') as [(st & -> & H)|(a & prog & name & rest & bytes & _ & Hb & -> & H)]; [exact H|]. destruct (Hf _ _ Hb) as (_ & _ & Hl). apply (usable_searchable H). lia.
Qed.
Lemma numberpad_well file argv : (forall name bytes, file name = Some bytes -> file_ok bytes) -> well_started E (numberpad E file argv).
Proof.
  intros Hf. assert (Hf' : forall name bytes, file name = Some bytes -> Forall (fun b => b < 256) bytes /\ no_short_line bytes) by (intros n b Hb; destruct (Hf n b Hb) as (? & ? & _); auto).
  destruct (numberpad_safe HEo HE argv Hf') as [(st & -> & H)|(a & prog & name & rest & bytes & _ & Hb & -> & H)]; [exact H|]. destruct (Hf _ _ Hb) as (_ & _ & Hl). apply (usable_searchable H). lia.
Qed.
Lemma hud_well W file argv : folds_shipped E -> shipped W -> (forall name bytes, file name = Some bytes -> file_ok bytes) -> well_started E (hudtest E W file argv).
Proof.
  intros HF HW Hf. assert (Hf' : forall name bytes, file name = Some bytes -> Forall (fun b => b < 256) bytes /\ no_short_line bytes) by (intros n b Hb; destruct (Hf n b Hb) as (? & ? & _); auto).
  destruct (hud_safe HEo HE argv HF HW Hf') as [(st & -> & H)|(a & prog & name & rest & bytes & _ & Hb & -> & H)]; [exact H|]. destruct (Hf _ _ Hb) as (_ & _ & Hl). apply (usable_searchable H). lia.
Qed.
Lemma sc_well W dir file : folds_shipped E -> shipped W -> (forall f bytes, file f = Some bytes -> Forall (fun b => b < 256) bytes /\ N.of_nat (length bytes) < 100000000) ->
  (forall es, dir = Some es -> N.of_nat (length (contents file es)) < 3000000) -> well_started E (sctest E W dir file).
Proof.
  intros HF HW Hf Hd. destruct (sc_safe HEo HE dir HF HW Hf) as [(st & -> & H)|(a & es & Hes & -> & H)]; [cbn in *; lia|]. specialize (Hd es Hes). apply (usable_searchable H). lia.
Qed.

(** ** Arguments *)
Lemma arguments W file argv : (length argv < 2)%nat -> queryapp E file argv = Ok (Exits 0) /\ numberpad E file argv = Ok (Exits 0) /\ hudtest E W file argv = Ok (Exits 0).
Proof. intros H. destruct argv as [|? [|? ?]]; [| |cbn in H; lia]; repeat split; reflexivity. Qed.
Lemma word_name (cs : list N) : plain cs -> (forall c, In c cs -> ~ blank c) -> exists w, word_of_utf8 E (bytes_of cs) = Ok w.
Proof. intros [H1 H2] H3. eexists. apply word_valid; [exact HE|exact H1|exact H3]. Qed.
Lemma missing W file prog name rest : file name = None -> queryapp E file (prog :: name :: rest) = Ok (Exits 1) /\ numberpad E file (prog :: name :: rest) = Ok (Exits 1) /\ hudtest E W file (prog :: name :: rest) = Ok (Exits 1).
Proof.
  intros H. assert (Hw : forall cs, Forall (fun c => 33 <= c <= 126) cs -> exists w, word_of_utf8 E cs = Ok w).
  { intros cs Hc. assert (Hb : bytes_of cs = cs) by (induction Hc as [|c cs Hc _ IH]; [reflexivity|]; cbn [bytes_of flat_map]; unfold utf8; replace (c <? 128) with true by lia; cbn [List.app]; f_equal; exact IH).
    rewrite <- Hb. rewrite Forall_forall in Hc. apply word_name; [split; [apply Forall_forall; intros c Hi; specialize (Hc c Hi); unfold scalar; lia|intros Hi; specialize (Hc 0 Hi); lia]|]. intros c Hi. specialize (Hc c Hi). unfold blank. lia. }
  assert (R : forall s : String.string, forallb (fun c => (33 <=? c) && (c <=? 126)) (txt s) = true -> exists w, word_of_utf8 E (txt s) = Ok w).
  { intros s Hs. apply Hw. rewrite forallb_forall in Hs. apply Forall_forall. intros c Hc. specialize (Hs c Hc). lia. }
  destruct (R "name"%string eq_refl) as [w1 H1]. destruct (R "path"%string eq_refl) as [w2 H2]. destruct (R "command"%string eq_refl) as [w3 H3]. destruct (R "alias"%string eq_refl) as [w4 H4].
  unfold queryapp, numberpad, hudtest. rewrite H1, H2, H3, H4. cbn [obind]. rewrite H. repeat split; reflexivity.
Qed.

(** ** The shell command of numberpad *)
Lemma pad_runs fname text a rows : doSearch E text a = (a, Ok (mkWin rows text)) -> text <> [] -> pad_search E fname text a = (a, Ok (mkWin rows text, Some (shell_command text fname))).
Proof.
  intros H Ht. unfold pad_search. rewrite H. cbn [obind]. unfold doSearch in H. destruct (mt_match_utf8 E text sp_new (a_m a)) as [m' [r|x| | |]]; try discriminate; [reflexivity|]. injection H as _ <-. congruence.
Qed.
(** What is run at all. *)
Lemma pad_command fname text a a' w cmd : pad_search E fname text a = (a', Ok (w, Some cmd)) -> cmd = shell_command text fname.
Proof.
  unfold pad_search. destruct (doSearch E text a) as [a1 [w1|x| | |]]; cbn [obind]; try discriminate. destruct (snd _); try discriminate. now intros [= _ _ <-].
Qed.
Lemma pad_quoted fname text a a' w cmd : pad_search E fname text a = (a', Ok (w, Some cmd)) -> ~ In 39 text -> ~ In 39 fname -> outside false cmd = txt "grep  "%string ++ fname.
Proof. intros H. rewrite (pad_command H). apply command_quoted. Qed.
Lemma pad_shell fname text a a' w run : pad_search E fname text a = (a', Ok (w, Some run)) -> ~ In 39 text -> ~ In 39 fname ->
  run = txt "grep '^"%string ++ flat_map key_pattern text ++ txt "' "%string ++ fname /\ outside false run = txt "grep  "%string ++ fname.
Proof. intros H H1 H2. split; [|exact (pad_quoted H H1 H2)]. rewrite (pad_command H). unfold shell_command. rewrite <- app_assoc. reflexivity. Qed.
Lemma first_bad W file es os bad rest n : Forall plain es -> Forall2 (desktop_entry E file) es os -> room_for E n -> Forall (fun b => b <> 0) bad -> hd 0 bad <> 46 ->
  (file (at_dir bad) = None -> sctest E W (Some (map bytes_of es ++ bad :: rest)) file = Ok (Exits 1)) /\
  (forall bytes pre key v post, file (at_dir bad) = Some bytes -> N.of_nat (length bytes) < 100000000 -> Forall plain pre ->
     file_lines bytes (map bytes_of pre ++ (key ++ 61 :: v) :: post) -> ~ In 61 key -> ~ In 0 key -> ~ In 0 v -> ~ valid_utf8 key \/ ~ valid_utf8 v ->
     sctest E W (Some (map bytes_of es ++ bad :: rest)) file = Ok (Exits 99)).
Proof.
  intros Hp Hos HR Hb Hh. destruct (sc_stops HE W rest Hp Hos HR Hb Hh) as [H1 H2]. split; [exact H1|]. intros bytes pre key v post Hf Hl Hpl Hfl K1 K2 K3 K4. exact (H2 bytes ERuntime Hf (bad_line HE Hpl Hfl Hl K1 K2 K3 K4)).
Qed.
Lemma pad_injected file prog name rest bytes lines : file name = Some bytes -> text_lines bytes lines -> Forall fine_line lines -> room_for E (3 * length bytes) -> N.of_nat (length bytes) < 10000000 -> ~ In 39 name ->
  exists a, numberpad E file (prog :: name :: rest) = Ok (Running a) /\ forall cmd, Forall (fun b => 0 < b < 128 /\ b <> 39 /\ ~ 50 <= b <= 57) cmd -> N.of_nat (length cmd) < 3000000 ->
    exists rows run, pad_search E name (txt "';"%string ++ cmd ++ txt ";'"%string) a = (a, Ok (mkWin rows (txt "';"%string ++ cmd ++ txt ";'"%string), Some run)) /\
      outside false run = txt "grep ;"%string ++ cmd ++ txt "; "%string ++ name.
Proof.
  intros Hf Ht Hl Hr Hn Hq. destruct (numberpad_rows HEo HE prog rest Hf Ht Hl Hr Hn) as (a & Ha & Hs). exists a. split; [exact Ha|]. intros cmd Hc Hlen.
  set (text := txt "';"%string ++ cmd ++ txt ";'"%string) in *. assert (Hasc : Forall (fun b => 0 < b < 128) text).
  { unfold text. apply Forall_app. split; [apply Forall_forall; intros c Hi; vm_compute in Hi; lia|]. apply Forall_app. split; [eapply Forall_impl; [|exact Hc]; cbn; intros b Hb; apply Hb|apply Forall_forall; intros c Hi; vm_compute in Hi; lia]. }
  assert (Hb : bytes_of text = text) by (clear -Hasc; induction Hasc as [|c cs Hc _ IH]; [reflexivity|]; cbn [bytes_of flat_map]; unfold utf8; replace (c <? 128) with true by lia; cbn [List.app]; f_equal; exact IH).
  destruct (Hs text) as (rows & Hd & _).
  { rewrite Forall_forall in Hasc. split; [split; [apply Forall_forall; intros c Hi; specialize (Hasc c Hi); unfold scalar; lia|intros Hi; specialize (Hasc 0 Hi); lia]|]. unfold text. rewrite !app_length. change (length (txt "';"%string)) with 2%nat. change (length (txt ";'"%string)) with 2%nat. lia. }
  rewrite Hb in Hd. exists rows, (shell_command text name). split; [apply pad_runs; [exact Hd|discriminate]|]. apply command_injected; [|exact Hq]. eapply Forall_impl; [|exact Hc]. cbn. intros b (_ & H). exact H.
Qed.

(** ** The buttons of numberpad *)
Lemma buttons : forall label, In label pad_labels -> exists b r, label = b :: r /\
  (forall text, N.of_nat (length text) <= 1000 -> pad_press label text = Ok (text ++ [b])) /\
  (forall c, 97 <= c <= 122 -> (In c r <-> on_key b c = true)).
Proof.
  intros label Hl. destruct label as [|b r]; [cbn in Hl; repeat destruct Hl as [Hl|Hl]; try discriminate Hl; destruct Hl|]. exists b, r. split; [reflexivity|]. split.
  - intros text Ht. cbn [pad_press]. rewrite firstn_all2, skipn_all2 by lia. reflexivity.
  - assert (Hall : forallb (fun l => match l with [] => false | b :: r => forallb (fun c => Bool.eqb (memb c r) (on_key b c)) (map N.of_nat (seq 97 26)) end) pad_labels = true) by (vm_compute; reflexivity).
    rewrite forallb_forall in Hall. specialize (Hall _ Hl). cbn beta iota in Hall. rewrite forallb_forall in Hall. intros c Hc. specialize (Hall c). rewrite Bool.eqb_true_iff in Hall. rewrite <- Hall.
    + symmetry. unfold memb. rewrite existsb_exists. split; [intros (x & Hx & Hxe); apply N.eqb_eq in Hxe; now subst|intros Hi; exists c; split; [exact Hi|apply N.eqb_refl]].
    + apply in_map_iff. exists (N.to_nat c). split; [lia|]. apply in_seq. lia.
Qed.
Lemma all_digits d : digit d -> exists r, In (d :: r) pad_labels.
Proof.
  intros Hd. assert (Hall : forallb (fun d => existsb (fun l => match l with [] => false | b :: _ => b =? d end) pad_labels) (map N.of_nat (seq 48 10)) = true) by (vm_compute; reflexivity).
  rewrite forallb_forall in Hall. specialize (Hall d). rewrite existsb_exists in Hall. destruct Hall as (l & Hl & Hb); [apply in_map_iff; exists (N.to_nat d); unfold digit in Hd; split; [lia|apply in_seq; lia]|].
  destruct l as [|b r]; [discriminate|]. apply N.eqb_eq in Hb. subst b. eauto.
Qed.
End Safety.
