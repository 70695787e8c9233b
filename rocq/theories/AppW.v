(** The graphical programs: sctest. *)
From Coq Require Import String.
From Verif Require Import Base TrieM WordStoreM ErrorValuesM LevIndexM WordM MapM DoubleM ContM DataFileM QIndexM MatcherM CApiM AppM
  Spec_Hist Spec_EV Spec_Cont Spec_Edit Spec_Lev Spec_Match Spec_File Spec_CApi Spec_Tool Spec_Room
  WordP SplitP MapP ContP DataP EVR ScalarP TypoP WordStoreP MatchP MatchU MatchV MatchY MatchZ CApiP CApiQ CApiS MatchG QIndexP AppP AppQ AppR AppS AppT AppU AppV.
From Coq Require Import ZifyBool ZifyN ZifyNat.
From Verif Require Import Spec_Word Spec_App.
Local Open Scope N_scope.
Local Open Scope m_scope.
Ltac ascii := repeat constructor; cbn; lia.

Section Desktop.
Variable E : env.
Hypothesis HEo : env_ok E.
Hypothesis HE : lower_ok E.
Notation kname := (txt "name"%string).
Notation kgeneric := (txt "genericname"%string).
Notation kcomment := (txt "comment"%string).

(** ** One line *)
Lemma cut_some b s x y : cut_at b s = Some (x, y) -> ~ In b x /\ s = x ++ b :: y.
Proof.
  clear. revert x y. induction s as [|c s IH]; intros x y H; cbn [cut_at] in H; [discriminate|]. destruct (N.eqb_spec c b) as [->|Hc]; [injection H as <- <-; split; [intros []|reflexivity]|].
  destruct (cut_at b s) as [[x1 y1]|]; [|discriminate]. injection H as <- <-. destruct (IH _ _ eq_refl) as [H1 ->]. split; [|reflexivity]. intros [G|G]; [congruence|contradiction].
Qed.
Definition all_blank (v : list N) : bool := forallb (fun c => has_ws [c]) v.
Lemma ws_one c : has_ws [c] = true <-> blank c.
Proof. clear. rewrite has_ws_in. split; [intros (l & [<-|[]] & H); exact H|intros H; exists c; split; [now left|exact H]]. Qed.
Lemma all_blank_spec v : all_blank v = true <-> Forall blank v.
Proof. clear. unfold all_blank. rewrite forallb_forall, Forall_forall. split; intros H c Hc; [now apply ws_one, H|now apply ws_one, H]. Qed.
Definition the_value (k cs : list N) : option (list N) :=
  match cut_at 61 cs with
  | None => None
  | Some (key, v) => if has_ws key then None else if all_blank v then None else if bytes_eqb (map (fold E) key) k then Some v else None
  end.
Lemma the_value_spec k cs v : the_value k cs = Some v <-> gives_value E k cs v.
Proof.
  clear. unfold the_value. split.
  - destruct (cut_at 61 cs) as [[key v']|] eqn:H; [|discriminate]. apply cut_some in H as [H1 H2]. destruct (has_ws key) eqn:Hw; [discriminate|]. destruct (all_blank v') eqn:Hb; [discriminate|].
    destruct (bytes_eqb_spec (map (fold E) key) k) as [Hk|]; [|discriminate]. intros [= <-]. exists key. split; [exact H1|]. split; [exact H2|]. split; [|split; [exact Hk|]].
    + intros c Hc Hbl. assert (has_ws key = true) by (apply has_ws_in; eauto). congruence.
    + intros Hf. apply all_blank_spec in Hf. congruence.
  - intros (key & H1 & -> & H2 & H3 & H4). rewrite (cut_first _ H1). assert (Hw : has_ws key = false) by (destruct (has_ws key) eqn:Hw; [apply has_ws_in in Hw as (l & Hl & Hb); destruct (H2 l Hl Hb)|reflexivity]).
    assert (Hb : all_blank v = false) by (destruct (all_blank v) eqn:Hb; [destruct H4; now apply all_blank_spec|reflexivity]). rewrite Hw, Hb. destruct (bytes_eqb_spec (map (fold E) key) k); [reflexivity|contradiction].
Qed.
Definition or_else {A} (o : option A) (d : option A) : option A := match o with Some x => Some x | None => d end.
Definition ws_of (o : option (list N)) (ws : wordlist) : Prop := match o with Some v => words_in E v ws /\ ~ Forall blank v /\ plain v | None => ws = [] end.
Definition rep (x : entry) (n g c : option (list N)) : Prop := ws_of n (x_name x) /\ ws_of g (x_generic x) /\ ws_of c (x_comment x).
Lemma cut_bytes cs : Forall scalar cs -> cut_at 61 (bytes_of cs) = match cut_at 61 cs with Some (k, v) => Some (bytes_of k, bytes_of v) | None => None end.
Proof.
  clear. intros Hs. destruct (cut_at 61 cs) as [[k v]|] eqn:H.
  - apply cut_some in H as [H1 ->]. rewrite bytes_app, bytes_cons. change (utf8 61) with [61]. cbn [List.app]. apply cut_first. apply Forall_app in Hs as [Hs _]. rewrite ascii_in by (exact Hs || lia). exact H1.
  - apply AppV.cut_none. apply AppV.cut_none in H. rewrite ascii_in by (exact Hs || lia). exact H.
Qed.
Lemma key_eq key k : Forall scalar key -> ~ In 0 key -> short (letters_of (map (fold E) key)) -> Forall (fun c => c < 128) k ->
  w_eq_text (letters_of (map (fold E) key)) k = Ok (bytes_eqb (map (fold E) key) k).
Proof.
  intros Hs H0 Hsh Hk. unfold w_eq_text. rewrite asUtf8_letters; [|now apply fold_scalars|apply fold_nonnul; [exact HE|]; rewrite Forall_forall; intros c Hc ->; contradiction|exact Hsh]. cbn [obind]. f_equal.
  destruct (bytes_eqb_spec (map (fold E) key) k) as [->|Hn]; [rewrite (txt_ascii_bytes Hk); now destruct (bytes_eqb_spec k k)|].
  destruct (bytes_eqb_spec (bytes_of (map (fold E) key)) k) as [H|H]; [|reflexivity]. destruct Hn. rewrite <- (txt_ascii_bytes Hk) in H. apply bytes_inj in H; [exact H|now apply fold_scalars|]. eapply Forall_impl; [|exact Hk]. cbn. intros c Hc. unfold scalar. lia.
Qed.
Lemma one_line cs x n g c : plain cs -> N.of_nat (length (bytes_of cs)) < 100000000 -> rep x n g c ->
  exists x', desktop_line E (bytes_of cs) x = (x', Ok tt) /\ rep x' (or_else (the_value kname cs) n) (or_else (the_value kgeneric cs) g) (or_else (the_value kcomment cs) c).
Proof.
  intros [Hs H0] Hlen Hr. unfold desktop_line, the_value. rewrite (cut_bytes Hs). destruct (cut_at 61 cs) as [[key v]|] eqn:Hcut; [|exists x; split; [reflexivity|exact Hr]].
  apply cut_some in Hcut as [_ ->]. rewrite bytes_app, bytes_cons, !app_length in Hlen. apply Forall_app in Hs as [Hk Hv]. apply Forall_cons_iff in Hv as [_ Hv].
  assert (Hk0 : ~ In 0 key) by (intros G; apply H0, in_or_app; now left). assert (Hv0 : ~ In 0 v) by (intros G; apply H0, in_or_app; right; now right).
  rewrite (ctext_until (plain_bytes (conj Hk Hk0))), (ctext_until (plain_bytes (conj Hv Hv0))). destruct (words_exist E v) as [ws Hws].
  rewrite (proj1 (words_split ws HE Hv) Hws). unfold mbind at 1, reads at 1. destruct (has_ws key) eqn:Hw.
  - rewrite word_blank; [|exact HE|exact Hk|now apply has_ws_in]. exists x. split; [reflexivity|exact Hr].
  - assert (Hnb : forall c, In c key -> ~ blank c) by (intros d Hd Hb; assert (has_ws key = true) by (apply has_ws_in; eauto); congruence).
    rewrite (word_valid HE Hk Hnb). unfold mbind at 1, reads at 1. destruct (all_blank v) eqn:Hb.
    + apply all_blank_spec, (no_words E) in Hb. rewrite (words_unique HE Hv Hws Hb). exists x. split; [reflexivity|exact Hr].
    + assert (Hnv : ~ Forall blank v) by (intros H; apply all_blank_spec in H; congruence). destruct ws as [|w ws]; [destruct Hnv; now apply (no_words E)|].
      assert (Hsh : short (letters_of (map (fold E) key))) by (pose proof (word_bytes key HE) as G; unfold as_word in G; unfold short; lia).
      unfold mbind, reads. rewrite (key_eq Hk Hk0 Hsh) by ascii. set (W := w :: ws) in *. assert (HW : ws_of (Some v) W) by (split; [exact Hws|split; [exact Hnv|split; assumption]]).
      destruct Hr as (R1 & R2 & R3). rewrite (key_eq (k := kgeneric) Hk Hk0 Hsh) by ascii. rewrite (key_eq (k := kcomment) Hk Hk0 Hsh) by ascii.
      destruct (bytes_eqb (map (fold E) key) kname), (bytes_eqb (map (fold E) key) kgeneric), (bytes_eqb (map (fold E) key) kcomment); unfold ret; eexists; (split; [reflexivity|]); cbn [or_else]; split; [|split| |split| |split| |split| |split| |split| |split| |split]; assumption.
Qed.
(** ** One file *)
Fixpoint the_last (k : list N) (lines : list (list N)) (d : option (list N)) : option (list N) :=
  match lines with [] => d | cs :: r => the_last k r (or_else (the_value k cs) d) end.
Lemma all_lines lines : forall x n g c, Forall (fun cs => plain cs /\ N.of_nat (length (bytes_of cs)) < 100000000) lines -> rep x n g c ->
  exists x', desktop_lines E (map bytes_of lines) x = (x', Ok tt) /\ rep x' (the_last kname lines n) (the_last kgeneric lines g) (the_last kcomment lines c).
Proof.
  induction lines as [|cs lines IH]; intros x n g c Hl Hr; [exists x; split; [reflexivity|exact Hr]|]. apply Forall_cons_iff in Hl as [[Hp Hs] Hl]. destruct (one_line Hp Hs Hr) as (x1 & H1 & R1). destruct (IH _ _ _ _ Hl R1) as (x2 & H2 & R2).
  exists x2. split; [|exact R2]. cbn [map desktop_lines]. unfold mbind. rewrite H1. exact H2.
Qed.
Lemma last_spec k lines o : last_value E k lines o -> forall d, the_last k lines d = or_else o d.
Proof.
  destruct o as [v|]; cbn [last_value or_else].
  - intros (pre & cs & post & -> & Hv & Hn). apply the_value_spec in Hv. assert (Hpost : forall d, the_last k post d = d).
    { induction post as [|cs' post IH]; intros d; [reflexivity|]. cbn [the_last]. destruct (the_value k cs') as [v'|] eqn:H; [apply the_value_spec in H; destruct (Hn cs' v' (or_introl eq_refl) H)|]. cbn [or_else]. apply IH. intros c1 v1 H1. apply Hn. now right. }
    induction pre as [|c0 pre IH]; intros d; cbn [List.app the_last]; [rewrite Hv; apply Hpost|apply IH].
  - intros Hn. induction lines as [|cs lines IH]; intros d; [reflexivity|]. cbn [the_last]. destruct (the_value k cs) as [v'|] eqn:H; [apply the_value_spec in H; destruct (Hn cs v' (or_introl eq_refl) H)|]. cbn [or_else]. apply IH. intros c1 v1 H1. apply Hn. now right.
Qed.
Lemma lines_each bytes lines l : file_lines bytes lines -> In l lines -> (length l <= length bytes)%nat.
Proof.
  clear. intros H Hl. apply lines_long in H. enough (length l <= length (concat lines))%nat by lia. clear H. induction lines as [|x lines IH]; [destruct Hl|]. cbn [concat]. rewrite app_length. destruct Hl as [->|Hl]; [lia|]. apply IH in Hl. lia.
Qed.
Lemma opt_or o : or_else o None = (o : option (list N)). Proof. now destruct o. Qed.
Lemma process bytes lines n g c : text_lines bytes lines -> Forall plain lines -> N.of_nat (length bytes) < 100000000 -> last_value E kname lines n -> last_value E kgeneric lines g -> last_value E kcomment lines c ->
  exists x, processFile E bytes = Ok x /\ rep x n g c.
Proof.
  intros Ht Hp Hlen Hn Hg Hc. unfold processFile. rewrite (getlines_spec Ht).
  assert (Hf : exists w, word_of_utf8 E (txt "GenericName"%string) = Ok w) by (exists (as_word E (txt "GenericName"%string)); apply field_made; [exact HE|apply fields_word; [ascii|discriminate]|ascii]). destruct Hf as [w Hf].
  assert (Hl : Forall (fun cs => plain cs /\ N.of_nat (length (bytes_of cs)) < 100000000) lines).
  { rewrite Forall_forall in *. intros cs Hcs. split; [now apply Hp|]. pose proof (lines_each Ht (in_map bytes_of _ _ Hcs)). lia. }
  assert (Hr : rep (mkEntry [] [] []) None None None) by (split; [reflexivity|split; reflexivity]). destruct (all_lines Hl Hr) as (x & H1 & H2).
  rewrite (last_spec Hn), (last_spec Hg), (last_spec Hc), !opt_or in H2. exists x. split; [|exact H2]. unfold mbind, reads. rewrite Hf, H1. reflexivity.
Qed.
(** ** The directory *)
Notation wname := (as_word E kname).
Notation wgeneric := (as_word E kgeneric).
Notation wcomment := (as_word E kcomment).
Lemma k_name : field_name kname. Proof. apply fields_word; [ascii|discriminate]. Qed.
Lemma k_generic : field_name kgeneric. Proof. apply fields_word; [ascii|discriminate]. Qed.
Lemma k_comment : field_name kcomment. Proof. apply fields_word; [ascii|discriminate]. Qed.
Lemma ws_some o ws : ws_of o ws -> (o = None /\ ws = []) \/ exists v w r, o = Some v /\ ws = w :: r /\ words_in E v (w :: r).
Proof. destruct o as [v|]; cbn [ws_of]; [|intros ->; now left]. intros (H1 & H2 & _). destruct ws as [|w r]; [destruct H2; now apply (no_words E)|]. right. now exists v, w, r. Qed.
Definition doc_made (p : option (document * list (list N))) (k : N) (o : option item) : Prop :=
  match p, o with
  | None, None => True
  | Some (d, t), Some it => doc_of E k it d /\ t = map bytes_of (shown it)
  | _, _ => False
  end.
Lemma one_file file e o c names : plain e -> desktop_entry E file e o ->
  exists p, doc_made p (N.of_nat (length c)) o /\ desktop_file E file wname wgeneric wcomment (bytes_of e) c names = Ok (Some (match p with Some (d, t) => (c ++ [d], names ++ [t]) | None => (c, names) end)).
Proof.
  intros He [[(r & ->) ->]|[Hh (bytes & lines & Hf & Hsz & Ht & Hp & nm & gn & cm & L1 & L2 & L3 & ->)]].
  - exists None. split; [exact I|]. unfold desktop_file. rewrite bytes_cons. reflexivity.
  - assert (Hhid : match bytes_of e with b :: _ => b =? 46 | [] => false end = false).
    { destruct e as [|ch r]; [reflexivity|]. rewrite bytes_cons. destruct He as [Hs _]. apply Forall_cons_iff in Hs as [Hs _]. destruct (N.ltb_spec ch 128) as [H|H].
      - rewrite (utf8_small H). cbn [List.app]. destruct (N.eqb_spec ch 46) as [->|]; [destruct Hh; now exists r|reflexivity].
      - destruct (utf8_big Hs H) as [Hb Hne]. destruct (utf8 ch) as [|b0 r0]; [congruence|]. apply Forall_cons_iff in Hb as [Hb _]. cbn [List.app]. destruct (N.eqb_spec b0 46); [lia|reflexivity]. }
    destruct (process Ht Hp Hsz L1 L2 L3) as (x & Hpr & R1 & R2 & R3). unfold desktop_file. rewrite Hhid. unfold at_dir in Hf. rewrite Hf, Hpr. cbn [obind].
    destruct (ws_some R1) as [[-> H1]|(v1 & w1 & r1 & -> & H1 & W1)]; rewrite H1; [exists None; split; [exact I|reflexivity]|].
    destruct (ws_some R2) as [[-> H2]|(v2 & w2 & r2 & -> & H2 & W2)]; rewrite H2; (destruct (ws_some R3) as [[-> H3]|(v3 & w3 & r3 & -> & H3 & W3)]; rewrite H3).
    + exists (Some (add_texts (N.of_nat (length c)) [(wname, w1 :: r1)], [bytes_of e])). split; [|reflexivity]. split; [|reflexivity]. exists [w1 :: r1]. split; [constructor; [exact W1|constructor]|reflexivity].
    + exists (Some (add_texts (N.of_nat (length c)) [(wname, w1 :: r1); (wcomment, w3 :: r3)], [bytes_of e])). split; [|reflexivity]. split; [|reflexivity]. exists [w1 :: r1; w3 :: r3]. split; [constructor; [exact W1|constructor; [exact W3|constructor]]|reflexivity].
    + exists (Some (add_texts (N.of_nat (length c)) [(wname, w1 :: r1); (wgeneric, w2 :: r2)], [bytes_of e])). split; [|reflexivity]. split; [|reflexivity]. exists [w1 :: r1; w2 :: r2]. split; [constructor; [exact W1|constructor; [exact W2|constructor]]|reflexivity].
    + exists (Some (add_texts (N.of_nat (length c)) [(wname, w1 :: r1); (wgeneric, w2 :: r2); (wcomment, w3 :: r3)], [bytes_of e])). split; [|reflexivity]. split; [|reflexivity]. exists [w1 :: r1; w2 :: r2; w3 :: r3]. split; [constructor; [exact W1|constructor; [exact W2|constructor; [exact W3|constructor]]]|reflexivity].
Qed.
Lemma all_files file es os : Forall plain es -> Forall2 (desktop_entry E file) es os -> forall items c names, corpus_of E items c -> names = map (fun it => map bytes_of (shown it)) items ->
  exists c', desktop_files E file wname wgeneric wcomment (map bytes_of es) c names = Ok (Some (c', names ++ map (fun it => map bytes_of (shown it)) (there os))) /\ corpus_of E (items ++ there os) c'.
Proof.
  intros Hp H2. induction H2 as [|e o es os Ho H2 IH]; intros items c names Hc Hn; [exists c; cbn [there flat_map map desktop_files]; rewrite !app_nil_r; split; [reflexivity|exact Hc]|].
  apply Forall_cons_iff in Hp as [He Hp]. destruct (one_file c names He Ho) as (p & Hd & Hf). cbn [map desktop_files]. rewrite Hf. cbn [obind]. destruct p as [[d t]|], o as [it|]; cbn [doc_made] in Hd; try contradiction.
  - destruct Hd as [Hd ->]. change (there (Some it :: os)) with (it :: there os). cbn [map].
    destruct (IH Hp (items ++ [it]) (c ++ [d]) (names ++ [map bytes_of (shown it)])) as (c' & H1 & H3).
    + destruct Hc as [Hl Hc]. split; [rewrite !app_length; cbn; lia|]. intros i it' d' Hi Hdi. destruct (Nat.lt_ge_cases i (length items)) as [Hlt|Hge].
      * rewrite nth_error_app1 in Hi by exact Hlt. rewrite nth_error_app1 in Hdi by lia. now apply Hc.
      * rewrite nth_error_app2 in Hi by exact Hge. rewrite nth_error_app2 in Hdi by lia. rewrite Hl in Hdi. destruct (i - length items)%nat as [|j] eqn:Hj; [|destruct j; discriminate]. cbn in Hi, Hdi. injection Hi as <-. injection Hdi as <-. replace i with (length c) by lia. exact Hd.
    + now rewrite map_app, Hn.
    + exists c'. rewrite <- !app_assoc in *. split; [exact H1|exact H3].
  - exact (IH Hp items c names Hc Hn).
Qed.
Lemma value_small k lines o v : last_value E k lines o -> o = Some v -> Forall plain lines -> plain v /\ exists cs, In cs lines /\ gives_value E k cs v.
Proof.
  clear. intros H -> Hp. destruct H as (pre & cs & post & -> & Hv & _). apply Forall_app in Hp as [_ Hp]. apply Forall_cons_iff in Hp as [Hp _]. split; [|exists cs; split; [apply in_or_app; right; now left|exact Hv]].
  destruct Hv as (key & _ & -> & _). destruct Hp as [Hs H0]. apply Forall_app in Hs as [_ Hs]. apply Forall_cons_iff in Hs as [_ Hs]. split; [exact Hs|]. intros G. apply H0, in_or_app. right. now right.
Qed.
Lemma value_len k lines o v bytes : last_value E k lines o -> o = Some v -> text_lines bytes lines -> (length (bytes_of v) <= length bytes)%nat.
Proof.
  clear. intros H -> Ht. destruct H as (pre & cs & post & -> & (key & _ & -> & _) & _). assert (Hin : In (bytes_of (key ++ 61 :: v)) (map bytes_of (pre ++ (key ++ 61 :: v) :: post))) by (apply in_map, in_or_app; right; now left).
  pose proof (lines_each Ht Hin) as H. rewrite bytes_app, bytes_cons, !app_length in H. lia.
Qed.
Lemma names_differ : NoDup [wname; wgeneric; wcomment].
Proof.
  assert (L1 : length wname = 4%nat) by (apply (word_size HE); ascii). assert (L2 : length wgeneric = 11%nat) by (apply (word_size HE); ascii). assert (L3 : length wcomment = 7%nat) by (apply (word_size HE); ascii).
  repeat constructor; cbn [In]; intros H; repeat destruct H as [H|H]; try apply (f_equal (@length N)) in H; try contradiction; rewrite ?L1, ?L2, ?L3 in H; discriminate.
Qed.
Lemma desktop_sizes file es os : Forall plain es -> Forall2 (desktop_entry E file) es os -> Forall (plain_item E) (there os) /\
  items_size (there os) <= N.of_nat (3 * length (contents file (map bytes_of es))) /\ all_bytes (there os) <= N.of_nat (22 * length es + 3 * length (contents file (map bytes_of es))).
Proof.
  intros Hpl H2. induction H2 as [|e o es os Ho H2 IH]; [split; [constructor|cbn; lia]|]. apply Forall_cons_iff in Hpl as [He Hpl]. destruct (IH Hpl) as (I1 & I2 & I3). clear IH.
  cbn [map]. change (contents file (bytes_of e :: map bytes_of es)) with ((match file (at_dir (bytes_of e)) with Some b => b | None => [] end) ++ contents file (map bytes_of es)). rewrite app_length. cbn [length].
  destruct Ho as [[_ ->]|[_ (bytes & lines & Hf & _ & Ht & Hp & nm & gn & cm & L1 & L2 & L3 & ->)]]; [change (there (None :: os)) with (there os); split; [exact I1|lia]|]. rewrite Hf.
  destruct nm as [v1|]; [|change (there (None :: os)) with (there os); split; [exact I1|lia]].
  set (it := mkItem [e] _). change (there (Some it :: os)) with (it :: there os).
  destruct (value_small L1 eq_refl Hp) as [P1 _]. pose proof (value_len L1 eq_refl Ht) as S1. pose proof names_differ as Hnd.
  assert (Hit : plain_item E it /\ (item_size it <= 3 * length bytes)%nat /\ (name_bytes it <= 22)%nat).
  { unfold plain_item, item_size, name_bytes. cbn [it shown fields]. split; [split; [constructor; [exact He|constructor]|split]|].
    - apply Forall_app. split; [constructor; [split; [exact k_name|exact P1]|constructor]|]. apply Forall_app. split.
      + destruct gn as [v2|]; [|constructor]. constructor; [split; [exact k_generic|exact (proj1 (value_small L2 eq_refl Hp))]|constructor].
      + destruct cm as [v3|]; [|constructor]. constructor; [split; [exact k_comment|exact (proj1 (value_small L3 eq_refl Hp))]|constructor].
    - apply NoDup_cons_iff in Hnd as [N1 Hnd]. pose proof Hnd as Hnd2. apply NoDup_cons_iff in Hnd2 as [N2 _]. cbn [In] in N1, N2. destruct gn, cm; cbn [opt_field List.app map fst]; repeat constructor; cbn [In]; tauto.
    - destruct gn as [v2|], cm as [v3|]; cbn [opt_field List.app map fst snd concat]; rewrite ?app_nil_r, ?app_length;
        try pose proof (value_len L2 eq_refl Ht); try pose proof (value_len L3 eq_refl Ht); change (bytes_of kname) with kname; change (bytes_of kgeneric) with kgeneric; change (bytes_of kcomment) with kcomment; cbn [txt length]; lia. }
  destruct Hit as (Q1 & Q2 & Q3). split; [now constructor|]. cbn [items_size all_bytes fold_right]. fold (items_size (there os)). fold (all_bytes (there os)). lia.
Qed.
Lemma sc_settings : Forall (setting E) (sc_after E).
Proof.
  constructor; [split; [eexists; split; [exact k_generic|reflexivity]|exact I]|]. constructor; [split; [eexists; split; [exact k_comment|reflexivity]|exact I]|]. constructor; [now left|]. constructor; [right; now left|constructor].
Qed.
Lemma sc_finish W docs m : folds_shipped E -> shipped W -> Forall (doc_good E) docs -> history E [MIndex docs] m ->
  exists m', (set_w (iw_setWeight wgeneric d_06) ;;; set_w (iw_setWeight wcomment d_03) ;;; on_ev (addStandardErrors_file E W) ;;; on_ev (AppM.prices setSubstringMode)) m = (m', Ok tt) /\ history E ([MIndex docs] ++ sc_after E) m'.
Proof.
  intros HF HW Hg HH. destruct (weight_call wgeneric d_06 HH) as (m1 & H1 & HH1). destruct (weight_call wcomment d_03 HH1) as (m2 & H2 & HH2). cbn [List.app] in HH2.
  assert (Hcl : Forall clean [MIndex docs; MWeight wgeneric d_06; MWeight wcomment d_03]).
  { constructor; [|repeat constructor]. apply (@like_clean E HE (MIndex docs)). cbn. eapply Forall_impl; [|exact Hg]. intros D HD; apply HD. }
  destruct (@standard_call E HEo W _ m2 HF HW HH2 Hcl) as (m3 & H3 & HH3); [left; reflexivity|]. cbn [List.app] in HH3.
  destruct (@price_call E _ m3 setSubstringMode SetSubstringMode HH3) as (m4 & H4 & HH4); [reflexivity|]. exists m4. split; [|exact HH4]. unfold mbind. rewrite H1, H2, H3. exact H4.
Qed.
Lemma sc_fields : word_of_utf8 E kname = Ok wname /\ word_of_utf8 E kgeneric = Ok wgeneric /\ word_of_utf8 E kcomment = Ok wcomment.
Proof. split; [|split]; apply (field_made HE); try ascii; [exact k_name|exact k_generic|exact k_comment]. Qed.
Lemma sc_starts W file es os : folds_shipped E -> shipped W -> Forall plain es -> Forall2 (desktop_entry E file) es os -> room_for E (22 * length es + 3 * length (contents file (map bytes_of es))) ->
  exists a, sctest E W (Some (map bytes_of es)) file = Ok (Running a) /\ holds E [] (there os) (sc_after E) a.
Proof.
  intros HF HW Hp Hos HR. destruct (room_new HR) as (m & Hm & HH). destruct (desktop_sizes Hp Hos) as (Hpi & _ & Hs).
  destruct (@all_files file es os Hp Hos [] [] []) as (c & Hc & Hco); [split; [reflexivity|]; intros [|i] it d H; discriminate|reflexivity|]. cbn [List.app] in Hc, Hco.
  destruct (items_index HEo HE HR (Forall_nil _) Hpi Hco Hs HH) as (m1 & Hi & HH1). cbn [List.app] in HH1. destruct (sc_finish HF HW (corpus_good HE Hpi Hco) HH1) as (m2 & Hrun & HH2).
  exists (mkApp m2 (map (fun it => map bytes_of (shown it)) (there os))). split.
  - unfold sctest. destruct sc_fields as (-> & -> & ->). cbn [obind]. rewrite Hm. cbn [obind]. rewrite Hc. cbn [obind].
    set (K := set_w (iw_setWeight wgeneric d_06) ;;; set_w (iw_setWeight wcomment d_03) ;;; on_ev (addStandardErrors_file E W) ;;; on_ev (AppM.prices setSubstringMode)) in *. unfold mbind. rewrite Hi, Hrun. reflexivity.
  - exists c. split; [exact Hco|]. split; [exact HH2|reflexivity].
Qed.

(** ** Bad files *)
Lemma files_app file a b : forall c names c' names', desktop_files E file wname wgeneric wcomment a c names = Ok (Some (c', names')) ->
  desktop_files E file wname wgeneric wcomment (a ++ b) c names = desktop_files E file wname wgeneric wcomment b c' names'.
Proof.
  clear. induction a as [|e a IH]; intros c names c' names' H; cbn [desktop_files List.app] in *; [now injection H as -> ->|]. destruct (desktop_file E file wname wgeneric wcomment e c names) as [[[c1 n1]|]| | | |]; cbn [obind] in *; try discriminate. now apply IH.
Qed.
Lemma sc_stops W file es os bad rest n : Forall plain es -> Forall2 (desktop_entry E file) es os -> room_for E n -> Forall (fun b => b <> 0) bad -> hd 0 bad <> 46 ->
  (file (at_dir bad) = None -> sctest E W (Some (map bytes_of es ++ bad :: rest)) file = Ok (Exits 1)) /\
  (forall bytes x, file (at_dir bad) = Some bytes -> processFile E bytes = Throw x -> sctest E W (Some (map bytes_of es ++ bad :: rest)) file = Ok (Exits 99)).
Proof.
  intros Hp Hos HR Hbad Hh. destruct (room_new HR) as (m & Hm & HH). destruct (@all_files file es os Hp Hos [] [] []) as (c & Hc & _); [split; [reflexivity|]; intros [|i] it d H; discriminate|reflexivity|].
  assert (Hhid : match bad with b :: _ => b =? 46 | [] => false end = false) by (destruct bad as [|b bad]; [reflexivity|]; cbn in Hh; now apply N.eqb_neq).
  split; [intros Hf|intros bytes x Hf Hx]; unfold sctest; destruct sc_fields as (-> & -> & ->); cbn [obind]; rewrite Hm; cbn [obind]; rewrite (files_app _ Hc); cbn [desktop_files]; unfold desktop_file; rewrite Hhid; unfold at_dir in Hf; rewrite Hf; [reflexivity|rewrite Hx; reflexivity].
Qed.
Lemma valid_app a b : valid_utf8 a -> valid_utf8 b -> valid_utf8 (a ++ b).
Proof. clear. intros (ca & Ha & ->) (cb & Hb & ->). exists (ca ++ cb). split; [apply Forall_app; now split|now rewrite bytes_app]. Qed.
Lemma blank_valid g : Forall blank g -> valid_utf8 g.
Proof.
  clear. intros H. assert (Ha : Forall (fun c => c < 128) g) by (eapply Forall_impl; [|exact H]; unfold blank; cbn; intros; lia). exists g. split; [|now rewrite txt_ascii_bytes]. eapply Forall_impl; [|exact Ha]. cbn. intros c Hc. unfold scalar. lia.
Qed.
Lemma runs_valid s runs : cut blank s runs -> (forall r, In r runs -> valid_utf8 r) -> valid_utf8 s.
Proof.
  clear. induction 1 as [g Hg|g r Hg Hr Hn|g r b rest l Hg Hr Hn Hb Hc IH]; intros Hv.
  - now apply blank_valid.
  - apply valid_app; [now apply blank_valid|]. apply Hv. now left.
  - apply valid_app; [now apply blank_valid|]. apply valid_app; [apply Hv; now left|]. apply IH. intros x Hx. apply Hv. now right.
Qed.
Lemma split_invalid s : ~ valid_utf8 s -> splitToWords E s = Throw ERuntime.
Proof. intros Hn. destruct (cut_ws_exists s) as [runs Hc]. destruct (split_fails HE Hc) as [H|[_ H]]; [destruct Hn; exact (runs_valid Hc H)|exact H]. Qed.
Lemma lines_app a b x : desktop_lines E (a ++ b) x = (let (x', o) := desktop_lines E a x in match o with Ok _ => desktop_lines E b x' | Throw e => (x', Throw e) | Abort => (x', Abort) | UB => (x', UB) | Fuel => (x', Fuel) end).
Proof. clear. revert x. induction a as [|l a IH]; intros x; [reflexivity|]. cbn [List.app desktop_lines]. unfold mbind. destruct (desktop_line E l x) as [x' [[]| | | |]]; try reflexivity. apply IH. Qed.
Lemma bad_line bytes pre key v post : Forall plain pre -> file_lines bytes (map bytes_of pre ++ (key ++ 61 :: v) :: post) -> N.of_nat (length bytes) < 100000000 ->
  ~ In 61 key -> ~ In 0 key -> ~ In 0 v -> ~ valid_utf8 key \/ ~ valid_utf8 v -> processFile E bytes = Throw ERuntime.
Proof.
  intros Hp Ht Hlen H61 Hk0 Hv0 Hbad. unfold processFile. rewrite (getlines_spec Ht).
  assert (Hf : exists w, word_of_utf8 E (txt "GenericName"%string) = Ok w) by (exists (as_word E (txt "GenericName"%string)); apply field_made; [exact HE|apply fields_word; [ascii|discriminate]|ascii]). destruct Hf as [w Hf].
  assert (Hl : Forall (fun cs => plain cs /\ N.of_nat (length (bytes_of cs)) < 100000000) pre).
  { rewrite Forall_forall in *. intros cs Hcs. split; [now apply Hp|]. assert (Hin : In (bytes_of cs) (map bytes_of pre ++ (key ++ 61 :: v) :: post)) by (apply in_or_app; left; now apply in_map). pose proof (lines_each Ht Hin). lia. }
  assert (Hr : rep (mkEntry [] [] []) None None None) by (split; [reflexivity|split; reflexivity]). destruct (all_lines Hl Hr) as (x & H1 & H2).
  assert (U : forall s, ~ In 0 s -> until_nul s = s) by (intros s Hs; apply until_id; rewrite Forall_forall; intros b Hb ->; contradiction).
  assert (Hbl : desktop_line E (key ++ 61 :: v) x = (x, Throw ERuntime)).
  { unfold desktop_line. rewrite (cut_first _ H61), (U _ Hv0), (U _ Hk0). unfold mbind at 1, reads at 1. destruct Hbad as [Hb|Hb].
    - destruct (@split_safe E v HE) as [(ws & Hws)|(e & He)].
      + rewrite Hws, (word_invalid E Hb). reflexivity.
      + assert (e = ERuntime). { destruct (cut_ws_exists v) as [runs Hc]. destruct (split_fails HE Hc) as [G|[_ G]]; [|rewrite He in G; now injection G]. exfalso.
          pose proof (runs_valid Hc G) as (cs & Hs & ->). destruct (words_exist E cs) as [ws Hws]. apply (words_split ws HE Hs) in Hws. congruence. }
        subst e. now rewrite He.
    - now rewrite (split_invalid Hb). }
  unfold mbind, reads. rewrite Hf, lines_app, H1. cbn [desktop_lines]. unfold mbind. rewrite Hbl. reflexivity.
Qed.

(** ** Any files *)
Definition fine_entry (n : nat) (x : entry) : Prop :=
  (Forall (text_word E) (x_name x) /\ word_letters (x_name x) <= N.of_nat n) /\ (Forall (text_word E) (x_generic x) /\ word_letters (x_generic x) <= N.of_nat n) /\
  (Forall (text_word E) (x_comment x) /\ word_letters (x_comment x) <= N.of_nat n).
Lemma bytes_sub b s x y : cut_at b s = Some (x, y) -> Forall (fun b => b < 256) s -> Forall (fun b => b < 256) x /\ Forall (fun b => b < 256) y /\ (length x + length y < length s)%nat.
Proof. clear. intros H Hs. apply cut_some in H as [_ ->]. apply Forall_app in Hs as [H1 H2]. apply Forall_cons_iff in H2 as [_ H2]. rewrite app_length. cbn [length]. split; [exact H1|split; [exact H2|lia]]. Qed.
Lemma key_text s w k : c_text s -> N.of_nat (length s) < 100000000 -> word_of_utf8 E s = Ok w -> exists b, w_eq_text w k = Ok b.
Proof.
  intros Hs Hl Hw. pose proof (word_len HE Hw) as Hlen. destruct (@back_trip E s w HE Hs Hw) as (s' & H & _); [unfold short; lia|]. unfold w_eq_text. rewrite H. cbn [obind]. eauto.
Qed.
Lemma line_safe n l x : Forall (fun b => b < 256) l -> (length l <= n)%nat -> N.of_nat n < 100000000 -> fine_entry n x ->
  (exists x', desktop_line E l x = (x', Ok tt) /\ fine_entry n x') \/ exists x' e, desktop_line E l x = (x', Throw e).
Proof.
  intros Hb Hl Hn Hx. unfold desktop_line. destruct (cut_at 61 l) as [[key v]|] eqn:Hc; [|left; exists x; split; [reflexivity|exact Hx]]. destruct (bytes_sub Hc Hb) as (Bk & Bv & Hlen).
  unfold mbind at 1, reads at 1. destruct (@split_safe E (until_nul v) HE) as [(ws & Hws)|(e & He)]; [|right; exists x, e; rewrite He; reflexivity]. rewrite Hws. pose proof (@split_len E HE _ _ Hws) as Hsl. pose proof (until_len v). pose proof (until_len key).
  destruct (@word_safe E (until_nul key) HE) as [(w & Hw)|(e & He)]; [|rewrite He; destruct e; try (right; eexists; eexists; unfold mbind, reads; reflexivity); left; exists x; split; [reflexivity|exact Hx]].
  rewrite Hw. unfold mbind at 1, reads at 1. assert (Hkt : forall k, exists b, w_eq_text w k = Ok b) by (intros k; apply (@key_text (until_nul key)); [now apply until_text|lia|exact Hw]).
  assert (Htw : Forall (text_word E) ws) by exact (split_words (until_text Bv) Hws). destruct ws as [|w0 ws]; [left; exists x; split; [reflexivity|exact Hx]|]. set (WS := w0 :: ws) in *.
  assert (HWS : Forall (text_word E) WS /\ word_letters WS <= N.of_nat n) by (split; [exact Htw|lia]). clearbody WS. left.
  destruct (Hkt kname) as [b1 H1], (Hkt kgeneric) as [b2 H2], (Hkt kcomment) as [b3 H3]. unfold mbind, reads. rewrite H1, H2, H3. destruct Hx as (X1 & X2 & X3).
  destruct b1, b2, b3; unfold ret; eexists; (split; [reflexivity|]); (split; [|split]); assumption.
Qed.
Lemma process_safe bytes : Forall (fun b => b < 256) bytes -> N.of_nat (length bytes) < 100000000 -> (exists x, processFile E bytes = Ok x /\ fine_entry (length bytes) x) \/ exists e, processFile E bytes = Throw e.
Proof.
  intros Hb Hn. unfold processFile.
  assert (Hf : exists w, word_of_utf8 E (txt "GenericName"%string) = Ok w) by (exists (as_word E (txt "GenericName"%string)); apply field_made; [exact HE|apply fields_word; [ascii|discriminate]|ascii]). destruct Hf as [w Hf]. unfold mbind at 1, reads. rewrite Hf.
  pose proof (has_lines bytes) as Hl. assert (Hall : Forall (fun l => Forall (fun b => b < 256) l /\ (length l <= length bytes)%nat) (getlines bytes [])).
  { rewrite Forall_forall. intros l Hin. split; [|exact (lines_each Hl Hin)]. rewrite Forall_forall in *. intros b Hbl. apply Hb. exact (lines_in Hl Hin Hbl). }
  assert (Hx : fine_entry (length bytes) (mkEntry [] [] [])) by (repeat split; try constructor; cbn; lia). revert Hx. generalize (mkEntry [] [] []). clear Hl. revert Hall. generalize (getlines bytes []). induction l as [|l ls IH]; intros Hall x Hx; cbn [desktop_lines].
  - left. exists x. split; [reflexivity|exact Hx].
  - apply Forall_cons_iff in Hall as [[H1 H2] Hall]. unfold mbind. destruct (line_safe H1 H2 Hn Hx) as [(x' & Hd & Hx')|(x' & e & Hd)]; rewrite Hd; [exact (IH Hall x' Hx')|right; now exists e].
Qed.
Lemma files_safe file : (forall f bytes, file f = Some bytes -> Forall (fun b => b < 256) bytes /\ N.of_nat (length bytes) < 100000000) -> forall es c names, length names = length c ->
  Forall (doc_good E) c -> Forall (fun d => (N.to_nat (d_id d) < length c)%nat) c ->
  (exists c' names', desktop_files E file wname wgeneric wcomment es c names = Ok (Some (c', names')) /\ length names' = length c' /\ Forall (doc_good E) c' /\ Forall (fun d => (N.to_nat (d_id d) < length c')%nat) c' /\ csize c' <= csize c + N.of_nat (3 * length (contents file es))) \/
  desktop_files E file wname wgeneric wcomment es c names = Ok None \/ exists e, desktop_files E file wname wgeneric wcomment es c names = Throw e.
Proof.
  intros Hfile. induction es as [|e es IH]; intros c names Hlen Hg Hid; cbn [desktop_files]; [left; exists c, names; repeat split; try assumption; lia|].
  assert (Hcon : contents file (e :: es) = (match file (at_dir e) with Some b => b | None => [] end) ++ contents file es) by reflexivity. rewrite Hcon, app_length. clear Hcon.
  unfold desktop_file. destruct (match e with b :: _ => b =? 46 | [] => false end).
  - cbn [obind]. destruct (IH c names Hlen Hg Hid) as [(c' & names' & H1 & H2 & H3 & H4 & H5)|[H|H]]; [left; exists c', names'; repeat split; try assumption; lia|right; left; exact H|right; right; exact H].
  - unfold at_dir. destruct (file (data_dir ++ txt "/"%string ++ e)) as [bytes|] eqn:Hf; [|right; left; reflexivity]. destruct (Hfile _ _ Hf) as [Hb Hn]. destruct (process_safe Hb Hn) as [(x & Hx & X1 & X2 & X3)|(er & Hx)]; rewrite Hx; cbn [obind]; [|right; right; now exists er].
    destruct (x_name x) as [|w0 ws0] eqn:Hnm.
    + cbn [obind]. destruct (IH c names Hlen Hg Hid) as [(c' & names' & H1 & H2 & H3 & H4 & H5)|[H|H]]; [left; exists c', names'; repeat split; try assumption; lia|right; left; exact H|right; right; exact H].
    + rewrite <- Hnm in *. set (ds := [(wname, x_name x)] ++ (match x_generic x with [] => [] | _ => [(wgeneric, x_generic x)] end) ++ (match x_comment x with [] => [] | _ => [(wcomment, x_comment x)] end)).
      set (d := add_texts (co_size c) ds).
      assert (Hd : (doc_addText wname (x_name x) ;;; (match x_generic x with [] => ret tt | _ => doc_addText wgeneric (x_generic x) end) ;;; (match x_comment x with [] => ret tt | _ => doc_addText wcomment (x_comment x) end)) (doc_new (co_size c)) = (d, Ok tt)).
      { unfold d, ds. destruct (x_generic x), (x_comment x); reflexivity. }
      rewrite Hd. cbn [obind].
      assert (Hds : Forall (good_text E) ds).
      { unfold ds. apply Forall_app. split; [constructor; [|constructor]; destruct (name_word HE k_name); split; [assumption|split; [assumption|apply X1]]|]. apply Forall_app. split.
        - destruct (x_generic x) eqn:G; [constructor|]. rewrite <- G in *. constructor; [|constructor]. destruct (name_word HE k_generic). split; [assumption|split; [assumption|apply X2]].
        - destruct (x_comment x) eqn:G; [constructor|]. rewrite <- G in *. constructor; [|constructor]. destruct (name_word HE k_comment). split; [assumption|split; [assumption|apply X3]]. }
      assert (Hsz : text_letters ds <= N.of_nat (3 * length bytes)).
      { unfold ds. destruct X1 as [_ X1], X2 as [_ X2], X3 as [_ X3]. destruct (x_generic x) eqn:G2, (x_comment x) eqn:G3; rewrite <- ?G2, <- ?G3 in *; cbn [List.app text_letters fold_right snd]; lia. }
      destruct (IH (c ++ [d]) (names ++ [[e]])) as [(c' & names' & H1 & H2 & H3 & H4 & H5)|[H|H]].
      * rewrite !app_length. cbn. lia.
      * apply Forall_app. split; [exact Hg|]. constructor; [now apply texts_good|constructor].
      * rewrite app_length. cbn [length]. apply Forall_app. split; [eapply Forall_impl; [|exact Hid]; cbn; intros; lia|]. constructor; [|constructor]. unfold d. rewrite (proj1 (texts_build _ _)). unfold co_size. lia.
      * left. exists c', names'. split; [exact H1|]. split; [exact H2|]. split; [exact H3|]. split; [exact H4|]. rewrite csize_app in H5. cbn [csize] in H5. pose proof (@texts_small (co_size c) ds) as Hts. fold d in Hts. lia.
      * right. left. exact H.
      * right. right. exact H.
Qed.
Lemma sc_safe W dir file : folds_shipped E -> shipped W -> (forall f bytes, file f = Some bytes -> Forall (fun b => b < 256) bytes /\ N.of_nat (length bytes) < 100000000) ->
  (exists st, sctest E W dir file = Ok (Exits st) /\ In st [1; 99]%Z) \/
  exists a es, dir = Some es /\ sctest E W dir file = Ok (Running a) /\ usable_app E (N.of_nat (3 * length (contents file es))) a.
Proof.
  intros HF HW Hfile. unfold sctest. destruct sc_fields as (-> & -> & ->). cbn [obind]. destruct (new_safe E) as [(m & Hm)|(x & Hx)]; [|left; exists 99%Z; rewrite Hx; cbn; auto]. rewrite Hm. cbn [obind].
  destruct dir as [es|]; [|left; exists 99%Z; cbn; auto]. destruct (@files_safe file Hfile es [] [] eq_refl (Forall_nil _) (Forall_nil _)) as [(c & names & H1 & H2 & H3 & H4 & H5)|[H|(e & H)]]; [|left; exists 1%Z; rewrite H; cbn; auto|left; exists 99%Z; rewrite H; cbn; auto].
  rewrite H1. cbn [obind]. assert (HH : history E [] m) by (exists m; split; [exact Hm|reflexivity]). pose proof (index_outcome HEo HE HH (Forall_nil _) H3) as Hi.
  set (K := set_w (iw_setWeight wgeneric d_06) ;;; set_w (iw_setWeight wcomment d_03) ;;; on_ev (addStandardErrors_file E W) ;;; on_ev (AppM.prices setSubstringMode)).
  assert (HK : (mt_index E c ;;; K) m = (let (m1, o) := mt_index E c m in match o with Ok _ => K m1 | Throw e => (m1, Throw e) | Abort => (m1, Abort) | UB => (m1, UB) | Fuel => (m1, Fuel) end)) by reflexivity.
  rewrite HK. clear HK. destruct (mt_index E c m) as [m1 [[]| | | |]]; try contradiction; [|left; exists 99%Z; cbn; auto].
  cbn [List.app] in Hi. destruct (sc_finish HF HW H3 Hi) as (m2 & Hrun & HH2). fold K in Hrun. rewrite Hrun. cbn [obind in_main]. right. exists (mkApp m2 names), es. split; [reflexivity|]. split; [reflexivity|].
  apply (loaded_usable HE (before := []) HH2 (Forall_nil _) sc_settings H3); [cbn [csize] in H5; lia|]. now rewrite H2.
Qed.
End Desktop.
