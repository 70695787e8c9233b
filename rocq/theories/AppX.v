(** Concrete runs of the graphical programs. *)
From Coq Require Import String.
From Verif Require Import Base Demo TrieM WordM ErrorValuesM LevIndexM MapM DoubleM ContM DataFileM QIndexM MatcherM AppM
  Spec_Hist Spec_EV Spec_Lev Spec_Edit Spec_Match Spec_File Spec_Cont Spec_Tool Spec_Room WordP WordX DataP DataX CApiX QIndexX AppU AppW AppY AppZ.
From Coq Require Import ZifyBool ZifyN ZifyNat.
From Verif Require Import Spec_Word AppM Spec_App.
Local Open Scope N_scope.

(** The rows of the last search. *)
Definition rows_of (E : env) (o : outcome (started gapp)) (texts : list (list N)) : option (list (list (list N))) :=
  match o with
  | Ok (Running a) => match snd (searches E texts a) with Ok ws => Some (map fst (v_rows (last ws (mkWin [] [])))) | _ => None end
  | _ => None
  end.
Definition one_file (name bytes : list N) : list N -> option (list N) := fun n => if weqb n name then Some bytes else None.
Definition nl (lines : list (list N)) : list N := concat (map (fun l => l ++ [10]) lines).
Definition g_name : list N := txt "f"%string.
Definition g_argv : list (list N) := [txt "prog"%string; g_name].

Lemma ascii_bytes cs : Forall (fun c => c < 128) cs -> bytes_of cs = cs.
Proof. induction 1 as [|c cs Hc _ IH]; [reflexivity|]. cbn [bytes_of flat_map]. unfold utf8. replace (c <? 128) with true by lia. cbn [List.app]. f_equal. exact IH. Qed.
Definition ascii (cs : list N) : bool := forallb (fun c => (1 <=? c) && (c <? 128) && negb (c =? 10)) cs.
Lemma ascii_plain cs : ascii cs = true -> plain cs /\ ~ In 10 cs /\ bytes_of cs = cs.
Proof.
  intros H. unfold ascii in H. rewrite forallb_forall in H. split; [split|split].
  - apply Forall_forall. intros c Hc. specialize (H c Hc). unfold scalar. lia.
  - intros Hc. specialize (H 0 Hc). lia.
  - intros Hc. specialize (H 10 Hc). lia.
  - apply ascii_bytes. apply Forall_forall. intros c Hc. specialize (H c Hc). lia.
Qed.
Lemma nl_lines lines : forallb ascii lines = true -> text_lines (nl lines) lines /\ Forall plain lines.
Proof.
  intros H. rewrite forallb_forall in H. split; [split; [|left]|].
  - apply Forall_forall. intros l Hl. apply in_map_iff in Hl as (c & <- & Hc). destruct (ascii_plain (H c Hc)) as (_ & H1 & ->). exact H1.
  - unfold nl. f_equal. rewrite map_map. apply map_ext_in. intros c Hc. destruct (ascii_plain (H c Hc)) as (_ & _ & ->). reflexivity.
  - apply Forall_forall. intros c Hc. apply (ascii_plain (H c Hc)).
Qed.
Lemma nl_fine lines : forallb (fun l => ascii l && negb (memb 13 l) && negb (Nat.eqb (length l) 1)) lines = true -> text_lines (nl lines) lines /\ Forall fine_line lines.
Proof.
  intros H. rewrite forallb_forall in H. assert (Ha : forallb ascii lines = true) by (apply forallb_forall; intros l Hl; specialize (H l Hl); destruct (ascii l); [reflexivity|discriminate]).
  split; [apply (nl_lines Ha)|]. apply Forall_forall. intros l Hl. specialize (H l Hl). apply andb_true_iff in H as [H H2]. apply andb_true_iff in H as [H0 H1]. destruct (ascii_plain H0) as (Hp & H10 & Hb). split; [exact Hp|]. split; [exact H10|].
  destruct l as [|x [|y l]]; [now left|discriminate|right]. rewrite Hb. split; [cbn; lia|]. intros a c Hc. apply negb_true_iff in H1. assert (Hm : memb 13 (x :: y :: l) = true); [|congruence].
  rewrite Hc. unfold memb. apply existsb_exists. exists 13. split; [apply in_or_app; right; now left|reflexivity].
Qed.
Lemma demo_room n : N.of_nat n < 10000000 -> room_for demo_file n.
Proof. intros H. split; [|lia]. intros s Hs. unfold grow_ok, demo_file. cbn [e_os]. lia. Qed.
Lemma ascii_typed q : ascii q = true -> N.of_nat (length q) < 4000000 -> typed q.
Proof. intros H Hl. split; [apply (ascii_plain H)|exact Hl]. Qed.

(** A file for queryapp and numberpad. *)
Definition g_lines : list (list N) := [txt "Lens Flare"%string; []; txt "Sharpen"%string; txt "Lense"%string].
Lemma g_lines_ok : text_lines (nl g_lines) g_lines /\ Forall fine_line g_lines. Proof. apply nl_fine. vm_compute. reflexivity. Qed.
Lemma g_run : rows_of demo_file (queryapp demo_file (one_file g_name (nl g_lines)) g_argv) [txt "sharp"%string; txt "lens"%string] = Some [[txt "Lens Flare"%string]; [txt "Lense"%string]].
Proof. vm_compute. reflexivity. Qed.
Lemma g_run_bad : rows_of demo_file (queryapp demo_file (one_file g_name (nl g_lines)) g_argv) [[195; 40]] = Some [].
Proof. vm_compute. reflexivity. Qed.
Lemma p_run : rows_of demo_file (numberpad demo_file (one_file g_name (nl g_lines)) g_argv) [txt "5367"%string] = Some [[txt "Lens Flare"%string]; [txt "Lense"%string]].
Proof. vm_compute. reflexivity. Qed.
Lemma p_keys : keys_for (txt "5367"%string) (as_word demo_file (txt "Lense"%string)) /\ word_in demo_file (txt "Lense"%string) (as_word demo_file (txt "Lense"%string)).
Proof.
  split.
  - exists [], (txt "lens"%string), (txt "e"%string). split; [vm_compute; reflexivity|]. split; [repeat constructor|]. right. right. cbn. lia.
  - exists [as_word demo_file (txt "Lense"%string)]. split; [|now left]. exists [txt "Lense"%string]. split; [|reflexivity]. apply (@cut_last blank [] (txt "Lense"%string)); [constructor|discriminate|].
    apply Forall_forall. intros c Hc. vm_compute in Hc. unfold blank. lia.
Qed.

(** A file with a DOS line ending: the carriage return stays in the row, and an empty line is fatal. *)
Definition dos_lines : list (list N) := [txt "Lens Flare"%string; txt "Sharpen"%string].
Lemma dos_ok : file_lines (nl (map (fun l => l ++ [13]) dos_lines)) (map (fun cs => bytes_of cs ++ [13]) dos_lines) /\
  Forall (fun cs => plain cs /\ ~ In 10 cs /\ cs <> [] /\ forall a, cs <> a ++ [13]) dos_lines.
Proof.
  split.
  - split; [|left; vm_compute; reflexivity]. repeat (constructor; [intros H; vm_compute in H; lia|]). constructor.
  - assert (P : forall cs, ascii cs = true -> memb 13 cs = false -> cs <> [] -> plain cs /\ ~ In 10 cs /\ cs <> [] /\ forall a, cs <> a ++ [13]).
    { intros cs H1 H2 H3. destruct (ascii_plain H1) as (Hp & H10 & _). split; [exact Hp|]. split; [exact H10|]. split; [exact H3|]. intros a ->. unfold memb in H2. rewrite existsb_app in H2. cbn in H2. rewrite orb_true_r in H2. discriminate. }
    repeat (constructor; [apply P; [vm_compute; reflexivity|vm_compute; reflexivity|discriminate]|]). constructor.
Qed.
Lemma dos_run : rows_of demo_file (queryapp demo_file (one_file g_name (nl (map (fun l => l ++ [13]) dos_lines))) g_argv) [txt "lens"%string] = Some [[txt "Lens Flare"%string ++ [13]]].
Proof. vm_compute. reflexivity. Qed.
Lemma dos_blank : queryapp demo_file (one_file g_name (nl (map (fun l => l ++ [13]) [txt "Lens"%string; []]))) g_argv = UB.
Proof. vm_compute. reflexivity. Qed.
Lemma dos_refuted : exists E file name bytes rows, lower_ok E /\ env_ok E /\ file name = Some bytes /\ file_lines bytes (map (fun l => l ++ [13]) dos_lines) /\
  rows_of E (queryapp E file [txt "prog"%string; name]) [txt "lens"%string] = Some rows /\ In [txt "Lens Flare"%string ++ [13]] rows.
Proof.
  exists demo_file, (one_file g_name (nl (map (fun l => l ++ [13]) dos_lines))), g_name, (nl (map (fun l => l ++ [13]) dos_lines)), [[txt "Lens Flare"%string ++ [13]]].
  split; [exact file_lower_ok|]. split; [exact file_env_ok|]. split; [reflexivity|]. split; [|split; [exact dos_run|now left]].
  split; [|left; reflexivity]. repeat (constructor; [intros H; vm_compute in H; lia|]). constructor.
Qed.
Lemma blank_refuted : exists E file name bytes, lower_ok E /\ env_ok E /\ file name = Some bytes /\ file_lines bytes [txt "Lens"%string ++ [13]; [13]] /\ queryapp E file [txt "prog"%string; name] = UB.
Proof.
  exists demo_file, (one_file g_name (nl (map (fun l => l ++ [13]) [txt "Lens"%string; []]))), g_name, (nl (map (fun l => l ++ [13]) [txt "Lens"%string; []])).
  split; [exact file_lower_ok|]. split; [exact file_env_ok|]. split; [reflexivity|]. split; [|exact dos_blank].
  split; [|left; reflexivity]. repeat (constructor; [intros H; vm_compute in H; lia|]). constructor.
Qed.

(** Safety: any bytes. *)
Lemma file_ok_nl bytes : forallb (fun b => b <? 256) bytes = true -> forallb (fun l => negb (Nat.eqb (length l) 1)) (getlines bytes []) = true -> N.of_nat (length bytes) < 1000000 -> file_ok bytes.
Proof.
  intros H1 H2 H3. rewrite forallb_forall in H1. rewrite forallb_forall in H2. split; [apply Forall_forall; intros b Hb; specialize (H1 b Hb); lia|]. split; [|exact H3].
  intros lines l Hl Hi. rewrite (getlines_spec Hl) in H2. specialize (H2 l Hi). intros Hx. rewrite Hx in H2. discriminate.
Qed.
Definition junk : list N := [0; 200; 10; 10; 97; 255; 13; 98; 62].
Lemma junk_ok : file_ok junk. Proof. apply file_ok_nl; vm_compute; reflexivity. Qed.

(** A file for hudtest. *)
Definition h_lines : list (list N) := [txt "Filters>Lens Flare"%string; txt "Tools>Fuzzy Select"%string; txt "Alone"%string; txt "File> "%string; []].
Definition h_items : list (option item) :=
  [ Some (mkItem [txt "Filters"%string; txt "Lens Flare"%string] [(txt "path"%string, txt "Filters"%string); (txt "command"%string, txt "Lens Flare"%string)]);
    Some (mkItem [txt "Tools"%string; txt "Fuzzy Select"%string] [(txt "path"%string, txt "Tools"%string); (txt "command"%string, txt "Fuzzy Select"%string); (txt "alias"%string, txt "magnetic lasso"%string)]);
    Some (mkItem [txt "Alone"%string; txt "Alone"%string] [(txt "path"%string, txt "Alone"%string); (txt "command"%string, txt "Alone"%string)]);
    None; None ].
Lemma h_lines_ok : text_lines (nl h_lines) h_lines /\ Forall fine_line h_lines. Proof. apply nl_fine. vm_compute. reflexivity. Qed.
Lemma no_fuzzy cs : contains fuzzy_select cs = false -> ~ exists a b, cs = a ++ fuzzy_select ++ b.
Proof.
  intros H (a & b & ->). revert H. induction a as [|x a IH]; intros H; [vm_compute in H; discriminate|]. cbn [contains List.app] in H. apply orb_false_iff in H as [_ H]. exact (IH H).
Qed.
Lemma not_blank cs : existsb (fun c => (33 <=? c) && (c <? 127)) cs = true -> ~ Forall blank cs.
Proof. intros H Hb. apply existsb_exists in H as (c & Hc & H). rewrite Forall_forall in Hb. specialize (Hb c Hc). unfold blank in Hb. lia. Qed.
Lemma h_items_ok : Forall2 hud_item h_lines h_items.
Proof.
  constructor; [|constructor; [|constructor; [|constructor; [|constructor; [|constructor]]]]].
  - right. split; [discriminate|]. exists (txt "Filters"%string), (txt "Lens Flare"%string). split; [left; split; [intros H; vm_compute in H; lia|reflexivity]|]. right. split; [apply not_blank; vm_compute; reflexivity|]. exists []. split; [right; split; [apply no_fuzzy; vm_compute; reflexivity|reflexivity]|reflexivity].
  - right. split; [discriminate|]. exists (txt "Tools"%string), (txt "Fuzzy Select"%string). split; [left; split; [intros H; vm_compute in H; lia|reflexivity]|]. right. split; [apply not_blank; vm_compute; reflexivity|]. exists [(txt "alias"%string, txt "magnetic lasso"%string)]. split; [left; split; [exists [], []; reflexivity|reflexivity]|reflexivity].
  - right. split; [discriminate|]. exists (txt "Alone"%string), (txt "Alone"%string). split; [right; split; [intros H; vm_compute in H; lia|split; reflexivity]|]. right. split; [apply not_blank; vm_compute; reflexivity|]. exists []. split; [right; split; [apply no_fuzzy; vm_compute; reflexivity|reflexivity]|reflexivity].
  - right. split; [discriminate|]. exists (txt "File"%string), (txt " "%string). split; [left; split; [intros H; vm_compute in H; lia|reflexivity]|]. left. split; [|reflexivity]. constructor; [left; vm_compute; auto|constructor].
  - left. split; reflexivity.
Qed.
Lemma h_run : rows_of demo_file (hudtest demo_file the_disk (one_file g_name (nl h_lines)) g_argv) [txt "lasso"%string] = Some [[txt "Tools"%string; txt "Fuzzy Select"%string]].
Proof. vm_compute. reflexivity. Qed.

(** A directory for sctest. *)
Definition s_names : list (list N) := [txt "."%string; txt "a.desktop"%string; txt "b.desktop"%string].
Definition a_lines : list (list N) := [txt "Name=Quartz"%string; txt "Name=Lens Tool"%string; txt "GenericName=Editor"%string].
Definition b_lines : list (list N) := [txt "Comment=Lens"%string; txt "No such key"%string].
Definition s_file : list N -> option (list N) := fun n =>
  if weqb n (at_dir (txt "a.desktop"%string)) then Some (nl a_lines) else if weqb n (at_dir (txt "b.desktop"%string)) then Some (nl b_lines) else None.
Definition s_items : list (option item) :=
  [ None; Some (mkItem [txt "a.desktop"%string] [(txt "name"%string, txt "Lens Tool"%string); (txt "genericname"%string, txt "Editor"%string)]); None ].
Lemma s_run : rows_of demo_file (sctest demo_file the_disk (Some s_names) s_file) [txt "edit"%string] = Some [[txt "a.desktop"%string]].
Proof. vm_compute. reflexivity. Qed.
Lemma s_run_first : rows_of demo_file (sctest demo_file the_disk (Some s_names) s_file) [txt "quartz"%string] = Some [].
Proof. vm_compute. reflexivity. Qed.

Definition gives (E : env) (k cs : list N) : option (list N) :=
  match cut_at 61 cs with Some (key, v) => if weqb (map (fold E) key) k then Some v else None | None => None end.
Lemma cut_first key v : ~ In 61 key -> cut_at 61 (key ++ 61 :: v) = Some (key, v).
Proof.
  induction key as [|c key IH]; intros H; [reflexivity|]. cbn [cut_at List.app]. destruct (N.eqb_spec c 61) as [->|]; [exfalso; apply H; now left|]. rewrite IH by (intros G; apply H; now right). reflexivity.
Qed.
Lemma gives_only E k cs v : gives_value E k cs v -> gives E k cs = Some v.
Proof. intros (key & H1 & -> & _ & <- & _). unfold gives. rewrite (cut_first _ H1). now rewrite weqb_refl. Qed.
Lemma gives_some E k key v : memb 61 key = false -> forallb (fun c => (33 <=? c) && (c <? 127)) key = true -> weqb (map (fold E) key) k = true -> existsb (fun c => (33 <=? c) && (c <? 127)) v = true -> gives_value E k (key ++ 61 :: v) v.
Proof.
  intros H1 H2 H3 H4. exists key. split; [|split; [reflexivity|split; [|split]]].
  - intros G. assert (memb 61 key = true); [|congruence]. unfold memb. apply existsb_exists. exists 61. split; [exact G|reflexivity].
  - intros c Hc. rewrite forallb_forall in H2. specialize (H2 c Hc). unfold blank. lia.
  - destruct (weqb_spec (map (fold E) key) k); [assumption|discriminate].
  - now apply not_blank.
Qed.
Lemma last_none E k lines : forallb (fun cs => match gives E k cs with Some _ => false | None => true end) lines = true -> forall cs v, In cs lines -> ~ gives_value E k cs v.
Proof. intros H cs v Hc Hg. rewrite forallb_forall in H. specialize (H cs Hc). now rewrite (gives_only Hg) in H. Qed.
Lemma s_items_ok : Forall plain s_names /\ Forall2 (desktop_entry demo_file s_file) s_names s_items.
Proof.
  split; [repeat (constructor; [apply ascii_plain; vm_compute; reflexivity|]); constructor|]. constructor; [|constructor; [|constructor; [|constructor]]].
  - left. split; [exists []; reflexivity|reflexivity].
  - right. split; [intros [r H]; discriminate H|]. exists (nl a_lines), a_lines. split; [vm_compute; reflexivity|]. split; [vm_compute; reflexivity|]. destruct (@nl_lines a_lines ltac:(vm_compute; reflexivity)) as [H1 H2]. split; [exact H1|]. split; [exact H2|].
    exists (Some (txt "Lens Tool"%string)), (Some (txt "Editor"%string)), None. split; [|split; [|split; [|reflexivity]]].
    + exists [txt "Name=Quartz"%string], (txt "Name=Lens Tool"%string), [txt "GenericName=Editor"%string]. split; [reflexivity|]. split; [apply (@gives_some demo_file (txt "name"%string) (txt "Name"%string) (txt "Lens Tool"%string)); vm_compute; reflexivity|]. apply last_none. vm_compute. reflexivity.
    + exists [txt "Name=Quartz"%string; txt "Name=Lens Tool"%string], (txt "GenericName=Editor"%string), []. split; [reflexivity|]. split; [apply (@gives_some demo_file (txt "genericname"%string) (txt "GenericName"%string) (txt "Editor"%string)); vm_compute; reflexivity|]. intros ? ? [].
    + exact (@last_none demo_file (txt "comment"%string) a_lines ltac:(vm_compute; reflexivity)).
  - right. split; [intros [r H]; discriminate H|]. exists (nl b_lines), b_lines. split; [vm_compute; reflexivity|]. split; [vm_compute; reflexivity|]. destruct (@nl_lines b_lines ltac:(vm_compute; reflexivity)) as [H1 H2]. split; [exact H1|]. split; [exact H2|].
    exists None, None, (Some (txt "Lens"%string)). split; [|split; [|split; [|reflexivity]]].
    + exact (@last_none demo_file (txt "name"%string) b_lines ltac:(vm_compute; reflexivity)).
    + exact (@last_none demo_file (txt "genericname"%string) b_lines ltac:(vm_compute; reflexivity)).
    + exists [], (txt "Comment=Lens"%string), [txt "No such key"%string]. split; [reflexivity|]. split; [apply (@gives_some demo_file (txt "comment"%string) (txt "Comment"%string) (txt "Lens"%string)); vm_compute; reflexivity|]. apply last_none. vm_compute. reflexivity.
Qed.
(** A third file whose name is not UTF-8 text inside. *)
Definition bad_bytes : list N := nl [txt "Name=Bad"%string; txt "Comment="%string ++ [195; 40]].
Definition s_file_bad : list N -> option (list N) := fun n => if weqb n (at_dir (txt "c.desktop"%string)) then Some bad_bytes else s_file n.
Lemma s_bad_run : sctest demo_file the_disk (Some (s_names ++ [txt "c.desktop"%string])) s_file_bad = Ok (Exits 99) /\
  sctest demo_file the_disk (Some (s_names ++ [txt "d.desktop"%string])) s_file_bad = Ok (Exits 1) /\ sctest demo_file the_disk None s_file_bad = Ok (Exits 99).
Proof. split; [|split]; vm_compute; reflexivity. Qed.
Lemma invalid_bytes : ~ valid_utf8 [195; 40].
Proof. intros (cs & Hs & Hb). pose proof (utf8_encode_decode Hs) as Hd. rewrite <- Hb in Hd. vm_compute in Hd. discriminate. Qed.
Lemma bad_bytes_lines : file_lines bad_bytes (map bytes_of [txt "Name=Bad"%string] ++ (txt "Comment"%string ++ 61 :: [195; 40]) :: []).
Proof. split; [|left; vm_compute; reflexivity]. repeat (constructor; [intros H; vm_compute in H; lia|]). constructor. Qed.
Lemma s_items_bad : Forall2 (desktop_entry demo_file s_file_bad) s_names s_items.
Proof.
  destruct s_items_ok as [_ H]. eapply AppS.forall2_impl; [|exact H]. intros f o [Hh|[Hh (bytes & lines & Hf & Hr)]]; [now left|right]. split; [exact Hh|]. exists bytes, lines. split; [|exact Hr].
  unfold s_file_bad. destruct (weqb_spec (at_dir (bytes_of f)) (at_dir (txt "c.desktop"%string))) as [He|_]; [|exact Hf]. rewrite He in Hf. vm_compute in Hf. discriminate.
Qed.
Lemma isolated_refuted : exists E W dir dir' file, lower_ok E /\ env_ok E /\ shipped W /\ incl dir dir' /\ (forall f, In f dir' -> hd 0 f <> 46 -> file (at_dir f) <> None) /\
  (exists a, sctest E W (Some dir) file = Ok (Running a) /\ length (a_src a) = 1%nat) /\ sctest E W (Some dir') file = Ok (Exits 99).
Proof.
  exists demo_file, the_disk, s_names, (s_names ++ [txt "c.desktop"%string]), s_file_bad. split; [exact file_lower_ok|]. split; [exact file_env_ok|]. split; [exact the_disk_ok|]. split; [apply incl_appl, incl_refl|]. split.
  - intros f [<-|[<-|[<-|[<-|[]]]]] Hh; [exfalso; now apply Hh|vm_compute; discriminate..].
  - split; [|apply s_bad_run]. assert (H : match sctest demo_file the_disk (Some s_names) s_file_bad with Ok (Running a) => Nat.eqb (length (a_src a)) 1 | _ => false end = true) by (vm_compute; reflexivity).
    destruct (sctest demo_file the_disk (Some s_names) s_file_bad) as [[a|]| | | |]; try discriminate. exists a. split; [reflexivity|]. now apply Nat.eqb_eq.
Qed.

(** The shell command of numberpad. *)
Lemma shell_refuted : exists E file name a text rows run, lower_ok E /\ env_ok E /\ file name = Some (nl g_lines) /\ ~ In 39 name /\ numberpad E file [txt "prog"%string; name] = Ok (Running a) /\
  pad_search E name text a = (a, Ok (mkWin rows text, Some run)) /\ outside false run = txt "grep ;rm -r x; f"%string.
Proof.
  destruct g_lines_ok as [H1 H2]. destruct (@pad_injected demo_file file_env_ok file_lower_ok (one_file g_name (nl g_lines)) (txt "prog"%string) g_name [] (nl g_lines) g_lines eq_refl H1 H2) as (a & Ha & Hc).
  - apply demo_room. vm_compute. reflexivity.
  - vm_compute. reflexivity.
  - intros H. vm_compute in H. lia.
  - destruct (Hc (txt "rm -r x"%string)) as (rows & run & Hr & Ho); [apply Forall_forall; intros b Hb; vm_compute in Hb; lia|vm_compute; reflexivity|].
    exists demo_file, (one_file g_name (nl g_lines)), g_name, a, (txt "';"%string ++ txt "rm -r x"%string ++ txt ";'"%string), rows, run. split; [exact file_lower_ok|]. split; [exact file_env_ok|]. split; [reflexivity|]. split; [intros H; vm_compute in H; lia|]. split; [exact Ha|]. split; [exact Hr|exact Ho].
Qed.
Lemma digits_lower : forall d, digit d -> e_lower demo_file d = d.
Proof. intros d Hd. unfold digit in Hd. cbn. unfold fold_file, ascii_lower. replace (d =? 304) with false by lia. replace (_ && _) with false by lia. reflexivity. Qed.

(** singleword. *)
Definition w_rows (E : env) (o : outcome (started sapp)) (text : list N) (limit : Z) : option (list (list N * Z)) :=
  match o with Ok (Running a) => match single_search E a text limit (mkSWin [] []) with Ok w => Some (sv_rows w) | _ => None end | _ => None end.
Lemma w_run : w_rows demo (singleword demo (x_file (text_file x_lines)) [[113]; QIndexX.x_name]) (bytes_of x_query) 150 = Some [([97; 98; 99], 0%Z); ([97; 98; 100], 100%Z)].
Proof. vm_compute. reflexivity. Qed.
Lemma w_long : w_rows demo_stroke (singleword demo_stroke (x_file (text_file [x_long])) [[113]; QIndexX.x_name]) [97] 99999 = None.
Proof. vm_compute. reflexivity. Qed.
Lemma runs_ub (o : outcome (started sapp)) (f : sapp -> outcome swindow) : match o with Ok (Running a) => match f a with UB => true | _ => false end | _ => false end = true -> exists a, o = Ok (Running a) /\ f a = UB.
Proof. destruct o as [[a|]| | | |]; try discriminate. intros H. exists a. split; [reflexivity|]. now destruct (f a). Qed.
Lemma w_refuted : exists E file name lines a, lower_ok E /\ env_ok E /\ file name = Some (text_file lines) /\ Forall (fun l => Forall scalar l /\ (forall c, In c l -> ~ blank c /\ c <> 0)) lines /\
  singleword E file [[113]; name] = Ok (Running a) /\ single_search E a [97] 99999 (mkSWin [] []) = UB.
Proof.
  destruct (@runs_ub (singleword demo_stroke (x_file (text_file [x_long])) [[113]; QIndexX.x_name]) (fun a => single_search demo_stroke a [97] 99999 (mkSWin [] [])) ltac:(vm_compute; reflexivity)) as (a & Hs & Hq).
  exists demo_stroke, (x_file (text_file [x_long])), QIndexX.x_name, [x_long], a. split; [exact stroke_lower_ok|]. split; [exact stroke_ok|]. split; [reflexivity|]. split; [|split; [exact Hs|exact Hq]]. constructor; [|constructor]. split; apply x_long_ok.
Qed.
