(** The graphical programs: starting up. *)
From Coq Require Import String.
From Verif Require Import Base TrieM WordStoreM ErrorValuesM LevIndexM WordM MapM DoubleM ContM DataFileM QIndexM MatcherM CApiM AppM
  Spec_Hist Spec_EV Spec_Cont Spec_Edit Spec_Lev Spec_Match Spec_File Spec_CApi Spec_Tool Spec_Room
  WordP SplitP MapP ContP DataP EVR ScalarP TypoP WordStoreP MatchP MatchU MatchV MatchY MatchZ CApiP CApiQ CApiS MatchG QIndexP AppP AppQ AppR AppS.
From Coq Require Import ZifyBool ZifyN ZifyNat.
From Verif Require Import Spec_Word Spec_App.
Local Open Scope N_scope.
Local Open Scope m_scope.

Section Start.
Variable E : env.
Hypothesis HEo : env_ok E.
Hypothesis HE : lower_ok E.

(** ** Enough storage *)
Definition name_bytes (it : item) : nat := length (concat (map (fun x => bytes_of (fst x)) (fields it))).
Definition all_bytes (items : list item) : N := fold_right (fun it n => N.of_nat (name_bytes it + item_size it) + n) 0 items.
Definition fsize (d : document) : N := word_letters (map fst (d_texts d)).
Lemma plan_letters d : doc_ok d -> word_letters (map said (plan_doc d)) = fsize d + dsize d.
Proof.
  clear. intros Hd. rewrite plan_texts by now apply doc_sorted. unfold fsize, dsize. generalize (d_id d). intros i. induction (d_texts d) as [|[f t] r IH]; [reflexivity|].
  cbn [flat_map map]. rewrite map_app, !word_letters_app, IH. unfold text_steps. cbn [fst snd map said]. rewrite map_map. cbn [said]. rewrite map_id, !MatchP.letters_cons. lia.
Qed.
Lemma item_names i it d : plain_item E it -> doc_of E i it d -> fsize d <= N.of_nat (name_bytes it).
Proof.
  intros (_ & Hf & Hnd) (wss & H2 & ->). unfold fsize. destruct (texts_build i (combine (map (fun x => as_word E (fst x)) (fields it)) wss)) as [_ ->].
  set (l := combine (map (fun x => as_word E (fst x)) (fields it)) wss).
  assert (Hle : word_letters (map fst (build l)) <= word_letters (map (fun x => as_word E (fst x)) (fields it))).
  { apply MatchQ.letters_incl; [apply (sorted_nodup wltb_order), build_sorted|]. intros f Hin. rewrite build_keys in Hin. unfold l in Hin. exact (eq_ind _ (fun z => In f z) Hin _ (combine_fst (fun x => as_word E (fst x)) H2)). }
  etransitivity; [exact Hle|]. clear - HE. unfold name_bytes. induction (fields it) as [|x r IH]; [cbn; lia|]. cbn [map concat]. rewrite MatchP.letters_cons, app_length. pose proof (word_bytes (fst x) HE). lia.
Qed.
Lemma corpus_letters items docs : Forall (plain_item E) items -> corpus_of E items docs -> word_letters (map said (flat_map plan_doc docs)) <= all_bytes items.
Proof.
  intros Hp [Hl Hc]. revert docs Hl Hc. cut (forall docs k, length docs = length items -> (forall i it d, nth_error items i = Some it -> nth_error docs i = Some d -> doc_of E (N.of_nat (k + i)) it d) -> word_letters (map said (flat_map plan_doc docs)) <= all_bytes items).
  { intros H docs Hl Hc. exact (H docs O Hl Hc). }
  induction Hp as [|it items Hit Hp IH]; intros docs k Hl Hc.
  - destruct docs; [cbn; lia|discriminate].
  - destruct docs as [|d docs]; [discriminate|]. cbn [flat_map all_bytes fold_right]. fold (all_bytes items). rewrite map_app, word_letters_app. pose proof (Hc O it d eq_refl eq_refl) as Hd.
    pose proof (item_small HE Hit Hd). pose proof (item_names Hit Hd). rewrite plan_letters by apply (item_good HE Hit Hd).
    assert (word_letters (map said (flat_map plan_doc docs)) <= all_bytes items); [|lia]. apply (IH docs (S k)); [now injection Hl|]. intros i it' d' H1 H2. replace (S k + i)%nat with (k + S i)%nat by lia. now apply Hc.
Qed.
Lemma settings_nothing cs : Forall (setting E) cs -> letters_given cs = 0.
Proof. unfold letters_given. induction 1 as [|c cs Hc _ IH]; [reflexivity|]. cbn [flat_map]. destruct c; cbn [setting given] in *; try contradiction; exact IH. Qed.
Lemma room_enough n before docs : room_for E n -> Forall (setting E) before -> word_letters (map said (flat_map plan_doc docs)) <= N.of_nat n -> enough E (before ++ [MIndex docs]).
Proof.
  intros [R1 R2] Hb Hl. assert (Hg : letters_given (before ++ [MIndex docs]) <= N.of_nat n).
  { rewrite letters_app, (settings_nothing Hb). unfold letters_given. cbn [flat_map given]. rewrite app_nil_r. exact Hl. }
  split; [intros s Hs; apply R1; lia|lia].
Qed.
Lemma items_index n before items docs m : room_for E n -> Forall (setting E) before -> Forall (plain_item E) items -> corpus_of E items docs -> all_bytes items <= N.of_nat n -> history E before m ->
  exists m', mt_index E docs m = (m', Ok tt) /\ history E (before ++ [MIndex docs]) m'.
Proof.
  intros HR Hb Hp Hc Hn HH. pose proof (corpus_good HE Hp Hc) as Hg. pose proof (corpus_letters Hp Hc) as Hl.
  destruct (@index_works E before m HEo) with (c := docs) as [m' Hm]; auto.
  - eapply Forall_impl; [|exact (settings_like HE Hb)]. exact (@like_clean E HE).
  - apply (@like_clean E HE (MIndex docs)). cbn. eapply Forall_impl; [|exact Hg]. intros D HD; apply HD.
  - unfold no_empty. cbn [given]. apply Forall_map. exact (whole_index HE Hg).
  - apply (room_enough HR Hb). lia.
  - exists m'. split; [exact Hm|]. apply (history_app HH). cbn [m_run m_do]. rewrite Hm. reflexivity.
Qed.

(** ** From lines to items *)
Definition fits_item (p : option ((N -> document) * list (list N))) (o : option item) : Prop :=
  match p, o with
  | None, None => True
  | Some (df, t), Some it => (forall k, doc_of E k it (df k)) /\ t = map bytes_of (shown it)
  | _, _ => False
  end.
Lemma items_numbered ps os : Forall2 fits_item ps os -> corpus_of E (added os) (numbered 0 (added ps)) /\ map snd (added ps) = map (fun it => map bytes_of (shown it)) (added os).
Proof.
  intros H. cut (forall k, (length (numbered k (added ps)) = length (added os) /\ forall i it d, nth_error (added os) i = Some it -> nth_error (numbered k (added ps)) i = Some d -> doc_of E (N.of_nat (k + i)) it d) /\
    map snd (added ps) = map (fun it => map bytes_of (shown it)) (added os)).
  { intros G. destruct (G O) as [[G1 G2] G3]. split; [split; [exact G1|exact G2]|exact G3]. }
  induction H as [|p o ps os Hpo HF IH]; intros k; [split; [split; [reflexivity|]|reflexivity]; intros [|i] it d Hi; discriminate|].
  destruct p as [[df t]|], o as [it0|]; cbn [fits_item] in Hpo; try contradiction; [|exact (IH k)]. destruct Hpo as [Hd ->].
  change (added (Some (df, map bytes_of (shown it0)) :: ps)) with ((df, map bytes_of (shown it0)) :: added ps). change (added (Some it0 :: os)) with (it0 :: added os).
  cbn [numbered length map snd]. destruct (IH (S k)) as [[G1 G2] G3]. split; [split|]; [now rewrite G1| |now rewrite G3].
  intros [|i] it d Hi Hdi; cbn [nth_error] in *.
  - injection Hi as <-. injection Hdi as <-. rewrite Nat.add_0_r. apply Hd.
  - replace (k + S i)%nat with (S k + i)%nat by lia. now apply G2.
Qed.
Lemma load_items one parse n before lines ps os m :
  (forall l s, one l s = match parse l with
    | Ok None => (s, Ok tt)
    | Ok (Some (df, t)) => add_doc E (df (N.of_nat (length (l_src s)))) t s
    | Throw x => (s, Throw x) | Abort => (s, Abort) | UB => (s, UB) | Fuel => (s, Fuel)
    end) -> room_for E n -> Forall (setting E) before -> history E before m -> Forall2 (parsed parse) lines ps -> Forall2 fits_item ps os ->
  Forall (plain_item E) (added os) -> all_bytes (added os) <= N.of_nat n ->
  exists s', (each_line one lines ;;; index_batch E) (empty_load m) = (s', Ok tt) /\ holds E before (added os) [] (mkApp (l_m s') (l_src s')).
Proof.
  intros Hone HR Hb HH Hps Hos Hp Hn. destruct (items_numbered Hos) as [Hc Hs]. destruct (items_index HR Hb Hp Hc Hn HH) as (m' & Hm & HH').
  pose proof (load_all Hone Hps (empty_load m)) as H. cbn [empty_load l_c l_m l_src length List.app] in H. rewrite Hm in H. destruct H as (s' & H1 & H2 & H3). exists s'. split; [exact H1|].
  exists (numbered 0 (added ps)). split; [exact Hc|]. cbn [a_m a_src]. rewrite H2, H3, Hs. split; [exact HH'|reflexivity].
Qed.

(** ** queryapp and numberpad *)
Definition n_name : list N := [110; 97; 109; 101].
Definition parse_plain (l : list N) : outcome (option ((N -> document) * list (list N))) :=
  match l with
  | [] => Ok None
  | _ => let! l' := dos_fix l in let! ws := splitToWords E (until_nul l') in Ok (Some (fun k => add_texts k [(as_word E n_name, ws)], [l']))
  end.
Lemma plain_one l s : plain_line E (as_word E n_name) l s =
  match parse_plain l with
  | Ok None => (s, Ok tt)
  | Ok (Some (df, t)) => add_doc E (df (N.of_nat (length (l_src s)))) t s
  | Throw x => (s, Throw x) | Abort => (s, Abort) | UB => (s, UB) | Fuel => (s, Fuel)
  end.
Proof.
  clear. unfold plain_line, parse_plain. destruct l as [|b l]; [reflexivity|]. unfold mbind at 1, reads at 1. destruct (dos_fix (b :: l)) as [l'| | | |]; try reflexivity. cbn [obind].
  unfold mbind at 1. unfold doc_addText_utf8, mbind, reads. destruct (splitToWords E (until_nul l')) as [ws| | | |]; reflexivity.
Qed.
Lemma plain_name : field_name n_name.
Proof. clear. unfold n_name. split; [split|split; [discriminate|]]; [repeat constructor; unfold scalar; lia|cbn; lia|intros c Hc; unfold blank; cbn in Hc; lia]. Qed.
Lemma name_field : word_of_utf8 E (txt "name"%string) = Ok (as_word E n_name).
Proof. change (txt "name"%string) with (bytes_of n_name). apply word_valid; [exact HE|apply plain_name|apply plain_name]. Qed.
Lemma bytes_app a b : bytes_of (a ++ b) = bytes_of a ++ bytes_of b.
Proof. apply flat_map_app. Qed.
Lemma utf8_last c : scalar c -> exists front b, utf8 c = front ++ [b] /\ (front = [] /\ b = c /\ c < 128 \/ front <> [] /\ Forall (fun x => 128 <= x) (front ++ [b])).
Proof.
  clear. intros Hs. unfold utf8. destruct (N.ltb_spec c 128); [exists [], c; auto|]. destruct (N.ltb_spec c 2048); [|destruct (N.ltb_spec c 65536)].
  - exists [192 + c / 64], (128 + c mod 64). split; [reflexivity|]. right. split; [discriminate|]. repeat constructor; lia.
  - exists [224 + c / 4096; 128 + (c / 64) mod 64], (128 + c mod 64). split; [reflexivity|]. right. split; [discriminate|]. repeat constructor; lia.
  - exists [240 + c / 262144; 128 + (c / 4096) mod 64; 128 + (c / 64) mod 64], (128 + c mod 64). split; [reflexivity|]. right. split; [discriminate|]. repeat constructor; lia.
Qed.
Lemma fix_fine cs : fine_line cs -> cs <> [] -> dos_fix (bytes_of cs) = Ok (bytes_of cs).
Proof.
  clear. intros ((Hs & _) & _ & [->|[Hl Hc]]) Hne; [congruence|]. unfold dos_fix. destruct (rev (bytes_of cs)) as [|last [|before front]] eqn:Hr.
  - apply (f_equal (@length N)) in Hr. rewrite rev_length in Hr. cbn in Hr. lia.
  - apply (f_equal (@length N)) in Hr. rewrite rev_length in Hr. cbn in Hr. lia.
  - destruct (N.eqb_spec before 13) as [->|]; [|reflexivity]. exfalso. apply (f_equal (@rev N)) in Hr. rewrite rev_involutive in Hr. cbn [rev] in Hr.
    destruct (exists_last Hne) as (cs1 & c & ->). rewrite bytes_app in Hr. cbn [bytes_of flat_map] in Hr. rewrite app_nil_r in Hr. apply Forall_app in Hs as [Hs1 Hc1]. apply Forall_cons_iff in Hc1 as [Hc1 _].
    destruct (utf8_last Hc1) as (fr & b & Hu & Hcase). rewrite Hu in Hr. rewrite app_assoc in Hr. apply app_inj_tail in Hr as [Hr ->].
    destruct Hcase as [(-> & -> & Hlt)|Hbig].
    + rewrite app_nil_r in Hr. destruct cs1 as [|x cs1]; [cbn in Hr; destruct (rev front); discriminate|]. assert (Hne1 : x :: cs1 <> []) by discriminate. revert Hr Hs1 Hne1 Hc. generalize (x :: cs1). clear. intros l Hr Hs Hne Hc.
      destruct (exists_last Hne) as (l1 & c1 & ->). rewrite bytes_app in Hr. cbn [bytes_of flat_map] in Hr. rewrite app_nil_r in Hr. apply Forall_app in Hs as [_ Hs]. apply Forall_cons_iff in Hs as [Hs _].
      destruct (utf8_last Hs) as (fr & b & Hu & Hcase). rewrite Hu, app_assoc in Hr. apply app_inj_tail in Hr as [_ ->]. destruct Hcase as [(_ & <- & _)|[_ Hbig]].
      * apply (Hc l1 c). now rewrite <- app_assoc.
      * apply Forall_app in Hbig as [_ Hbig]. apply Forall_cons_iff in Hbig as [Hbig _]. lia.
    + destruct Hbig as [Hnf Hbig]. apply Forall_app in Hbig as [Hf _]. destruct (exists_last Hnf) as (fr1 & z & ->). rewrite app_assoc in Hr. apply app_inj_tail in Hr as [_ ->]. apply Forall_app in Hf as [_ Hf]. apply Forall_cons_iff in Hf as [Hf _]. lia.
Qed.
Lemma fine_parse cs : fine_line cs -> exists p, parse_plain (bytes_of cs) = Ok p /\ fits_item p (if Nat.eqb (length cs) 0 then None else Some (line_item cs)).
Proof.
  intros Hf. destruct cs as [|c0 cs0] eqn:Hcs; [exists None; split; reflexivity|]. rewrite <- Hcs in *. replace (Nat.eqb (length cs) 0) with false by (subst; reflexivity).
  assert (Hne : cs <> []) by (subst; discriminate). destruct (words_exist E cs) as [ws Hw]. pose proof Hf as (Hp & _ & [Hno|[Hl _]]); [congruence|].
  exists (Some (fun k => add_texts k [(as_word E n_name, ws)], [bytes_of cs])). split.
  - unfold parse_plain. rewrite (fix_fine Hf Hne). cbn [obind]. rewrite (ctext_until (plain_bytes Hp)). rewrite (proj1 (words_split ws HE (proj1 Hp)) Hw). cbn [obind]. destruct (bytes_of cs) as [|b l]; [cbn in Hl; lia|reflexivity].
  - split; [|reflexivity]. intros k. exists [ws]. split; [|reflexivity]. constructor; [exact Hw|constructor].
Qed.
Lemma fine_parsed lines : Forall fine_line lines -> exists ps, Forall2 (parsed parse_plain) (map bytes_of lines) ps /\
  Forall2 fits_item ps (map (fun cs => if Nat.eqb (length cs) 0 then None else Some (line_item cs)) lines).
Proof.
  induction 1 as [|cs lines Hf _ (ps & H1 & H2)]; [exists []; split; constructor|]. destruct (fine_parse Hf) as (p & Hp & Hfit). exists (p :: ps). split; constructor; assumption.
Qed.
Lemma line_added lines : added (map (fun cs => if Nat.eqb (length cs) 0 then None else Some (line_item cs)) lines) = line_items lines.
Proof.
  clear. unfold line_items, added. induction lines as [|cs lines IH]; [reflexivity|]. cbn [map flat_map filter]. rewrite IH. now destruct (Nat.eqb (length cs) 0).
Qed.
Lemma line_plain lines : Forall fine_line lines -> Forall (plain_item E) (line_items lines).
Proof.
  intros H. unfold line_items. apply Forall_map. rewrite Forall_forall in *. intros cs Hcs. apply filter_In in Hcs as [Hcs _]. destruct (H cs Hcs) as (Hp & _). split; [|split]; cbn.
  - repeat constructor; apply Hp.
  - constructor; [split; [exact plain_name|exact Hp]|constructor].
  - repeat constructor. intros [].
Qed.
Lemma lines_long lines bytes : file_lines bytes lines -> (length (concat lines) <= length bytes)%nat.
Proof.
  clear. intros [_ H].
  assert (G : forall ls : list (list N), (length (concat ls) <= length (concat (map (fun l => l ++ [10%N]) ls)))%nat) by (induction ls as [|l ls IH]; [apply Nat.le_refl|]; cbn [map concat]; rewrite !app_length; lia).
  destruct H as [->|(i & t & -> & _ & ->)]; [apply G|]. rewrite concat_app, !app_length. cbn [concat]. rewrite app_nil_r. specialize (G i). lia.
Qed.
Lemma line_sizes lines : Forall fine_line lines -> items_size (line_items lines) <= N.of_nat (length (concat (map bytes_of lines))) /\ all_bytes (line_items lines) <= N.of_nat (3 * length (concat (map bytes_of lines))).
Proof.
  clear. induction 1 as [|cs lines Hf _ [IH1 IH2]]; [cbn; lia|]. destruct Hf as (_ & _ & Hl). unfold line_items in *. cbn [filter map concat]. rewrite app_length. destruct (Nat.eqb_spec (length cs) 0) as [H0|H0]; cbn [negb map].
  - lia.
  - destruct Hl as [->|[Hl _]]; [cbn in H0; lia|]. cbn [items_size all_bytes fold_right]. fold (items_size (map line_item (filter (fun cs => negb (Nat.eqb (length cs) 0)) lines))). fold (all_bytes (map line_item (filter (fun cs => negb (Nat.eqb (length cs) 0)) lines))).
    assert (Hi : item_size (line_item cs) = length (bytes_of cs)) by (unfold item_size; cbn; now rewrite app_nil_r). rewrite Hi. change (name_bytes (line_item cs)) with 4%nat. lia.
Qed.
Lemma text_sizes bytes lines : text_lines bytes lines -> Forall fine_line lines -> items_size (line_items lines) <= N.of_nat (length bytes) /\ all_bytes (line_items lines) <= N.of_nat (3 * length bytes).
Proof. intros Ht Hf. apply lines_long in Ht. pose proof (line_sizes Hf). lia. Qed.
Lemma room_new n : room_for E n -> exists m, mt_new E = Ok m /\ history E [] m.
Proof.
  intros [H1 H2]. destruct (@new_enough E []) as [m Hm]; [split; [|cbn; lia]; intros s Hs; apply H1; cbn in Hs; lia|]. exists m. split; [exact Hm|]. exists m. split; [exact Hm|reflexivity].
Qed.

Lemma queryapp_starts file prog name rest bytes lines : file name = Some bytes -> text_lines bytes lines -> Forall fine_line lines -> room_for E (3 * length bytes) ->
  exists a, queryapp E file (prog :: name :: rest) = Ok (Running a) /\ holds E [] (line_items lines) [] a.
Proof.
  intros Hfile Ht Hf HR. destruct (room_new HR) as (m & Hm & HH). destruct (fine_parsed Hf) as (ps & H1 & H2). destruct (text_sizes Ht Hf) as [_ Hs].
  pose proof (line_plain Hf) as Hp. rewrite <- (line_added lines) in Hs, Hp. destruct (load_items plain_one HR (Forall_nil _) HH H1 H2 Hp Hs) as (s' & Hrun & Hh).
  exists (mkApp (l_m s') (l_src s')). split; [|rewrite <- line_added; exact Hh]. unfold queryapp. rewrite name_field. cbn [obind]. rewrite Hfile, Hm. cbn [obind]. rewrite (getlines_spec Ht), Hrun. reflexivity.
Qed.
Lemma price_call calls m f e : history E calls m -> (forall x, ev_do e x = (f x, Ok tt)) -> exists m', on_ev (AppM.prices f) m = (m', Ok tt) /\ history E (calls ++ [MErr e]) m'.
Proof.
  intros HH Hf. exists (fst (on_ev (AppM.prices f) m)). split; [reflexivity|]. apply (history_app HH). cbn [m_run m_do]. unfold on_ev. rewrite Hf. reflexivity.
Qed.
Lemma numberpad_prices m : history E [] m -> exists m', (on_ev (AppM.prices addNumberpadErrors) ;;; on_ev (AppM.prices setSubstringMode)) m = (m', Ok tt) /\ history E [MErr AddNumberpadErrors; MErr SetSubstringMode] m'.
Proof.
  intros HH. destruct (@price_call [] m addNumberpadErrors AddNumberpadErrors HH) as (m1 & H1 & HH1); [reflexivity|].
  destruct (@price_call _ m1 setSubstringMode SetSubstringMode HH1) as (m2 & H2 & HH2); [reflexivity|]. exists m2. split; [|exact HH2]. unfold mbind. rewrite H1. exact H2.
Qed.
Lemma numberpad_starts file prog name rest bytes lines : file name = Some bytes -> text_lines bytes lines -> Forall fine_line lines -> room_for E (3 * length bytes) ->
  exists a, numberpad E file (prog :: name :: rest) = Ok (Running a) /\ holds E [MErr AddNumberpadErrors; MErr SetSubstringMode] (line_items lines) [] a.
Proof.
  intros Hfile Ht Hf HR. destruct (room_new HR) as (m & Hm & HH). destruct (fine_parsed Hf) as (ps & H1 & H2). destruct (text_sizes Ht Hf) as [_ Hs].
  pose proof (line_plain Hf) as Hp. rewrite <- (line_added lines) in Hs, Hp. destruct (numberpad_prices HH) as (m1 & Hpr & HH1).
  assert (Hb : Forall (setting E) [MErr AddNumberpadErrors; MErr SetSubstringMode]) by (constructor; [right; now right|constructor; [right; now left|constructor]]).
  destruct (load_items plain_one HR Hb HH1 H1 H2 Hp Hs) as (s' & Hrun & Hh).
  exists (mkApp (l_m s') (l_src s')). split; [|rewrite <- line_added; exact Hh]. unfold numberpad. rewrite name_field. cbn [obind]. rewrite Hfile, Hm. cbn [obind].
  rewrite Hpr. cbn [obind]. rewrite (getlines_spec Ht), Hrun. reflexivity.
Qed.
End Start.
