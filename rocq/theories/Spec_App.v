(** Vocabulary of the properties of the graphical programs in tools/. *)
From Coq Require Import String.
From Verif Require Import Base TrieM ErrorValuesM LevIndexM WordM DoubleM ContM QIndexM MatcherM AppM
  Spec_Hist Spec_EV Spec_Edit Spec_Lev Spec_Cont Spec_Match Spec_File Spec_Tool Spec_Word.
Local Open Scope N_scope.

(** ** What a program shows and searches *)

(** One document: the texts of its row, and its fields by name and text; all texts are
    given by their characters. *)
Record item := mkItem { shown : list (list N); fields : list (list N * list N) }.
(** The words of a text. *)
Definition words_in (E : env) (cs : list N) (ws : list word) : Prop :=
  exists runs, cut blank cs runs /\ ws = map (as_word E) runs.
Definition word_in (E : env) (cs : list N) (w : word) : Prop := exists ws, words_in E cs ws /\ In w ws.

(** The documents that hold these items: one each, with their numbers. *)
Definition doc_of (E : env) (i : N) (it : item) (d : document) : Prop :=
  exists wss, Forall2 (fun x ws => words_in E (snd x) ws) (fields it) wss /\
    d = add_texts i (combine (map (fun x => as_word E (fst x)) (fields it)) wss).
Definition corpus_of (E : env) (items : list item) (docs : corpus) : Prop :=
  length docs = length items /\
  forall i it d, nth_error items i = Some it -> nth_error docs i = Some d -> doc_of E (N.of_nat i) it d.

(** [answers E e wt items q rows]: with the prices [e] and the weights [wt] of the fields
    these are the right rows for the query: one for each item that has a word near a word of
    the query, best first, with the relevancy of the item. *)
Definition answers (E : env) (e : errvals) (wt : word -> double) (items : list item) (q : list N) (rows : list (list (list N) * double)) : Prop :=
  exists docs qs view, corpus_of E items docs /\ words_in E q qs /\
    Forall2 (fun row x => exists it, nth_error items (N.to_nat (snd x)) = Some it /\ row = (map bytes_of (shown it), fst x)) rows view /\
    NoDup (map snd view) /\ ranked view /\
    (forall i, (exists x, In (x, i) view) <->
      exists it f t w qw err, nth_error items (N.to_nat i) = Some it /\ In (f, t) (fields it) /\ word_in E t w /\
        word_in E q qw /\ near e sp_new qw w err) /\
    (forall x i, In (x, i) view <->
      scored (occ [MIndex docs]) (distinct [] (map said (indexed [MIndex docs]))) (near e sp_new) qs sp_new wt i x).
(** The weight of every field of a program that sets none. *)
Definition no_weights (f : word) : double := d_of_Z 1.

(** ** The matcher behind it *)
(** The program holds these items: it has a Matcher on which the calls [before], one index of
    all documents, and the calls [after] were made. *)
Definition holds (E : env) (before : list m_call) (items : list item) (after : list m_call) (a : gapp) : Prop :=
  exists docs, corpus_of E items docs /\ history E (before ++ MIndex docs :: after) (a_m a) /\
    a_src a = map (fun it => map bytes_of (shown it)) items.

(** A text of characters without NUL; a name of a field. *)
Definition plain (cs : list N) : Prop := Forall scalar cs /\ ~ In 0 cs.
Definition field_name (cs : list N) : Prop := plain cs /\ cs <> [] /\ forall c, In c cs -> ~ blank c.
Definition plain_item (E : env) (it : item) : Prop :=
  Forall plain (shown it) /\ Forall (fun x => field_name (fst x) /\ plain (snd x)) (fields it) /\
  NoDup (map (fun x => as_word E (fst x)) (fields it)).
(** The bytes of all texts that are searched. *)
Definition item_size (it : item) : nat := length (concat (map (fun x => bytes_of (snd x)) (fields it))).
Definition items_size (items : list item) : N := fold_right (fun it n => N.of_nat (item_size it) + n) 0 items.
(** Calls that set prices and weights as the programs do. *)
Definition setting (E : env) (c : m_call) : Prop :=
  match c with
  | MErr e => e = AddStandardErrors latin_groups greek_groups \/ e = SetSubstringMode \/ e = AddNumberpadErrors
  | MWeight f x => (exists n, field_name n /\ f = as_word E n) /\ good_weight x
  | _ => False
  end.

(** ** The data files *)

(** A line of characters that a program can read: not of one byte, and no carriage return
    before the last character. *)
Definition fine_line (cs : list N) : Prop :=
  plain cs /\ ~ In 10 cs /\
  (cs = [] \/ ((2 <= length (bytes_of cs))%nat /\ forall a c, cs <> a ++ [13; c])).
(** A file with these lines. *)
Definition text_lines (bytes : list N) (lines : list (list N)) : Prop := file_lines bytes (map bytes_of lines).
(** What may be typed as a query: no NUL, no word of ten million letters. *)
Definition typed (q : list N) : Prop :=
  plain q /\ N.of_nat (length q) < 4000000.

(** One item for each line that is not empty. *)
Definition line_item (cs : list N) : item := mkItem [cs] [([110; 97; 109; 101], cs)].
Definition line_items (lines : list (list N)) : list item :=
  map line_item (filter (fun cs => negb (Nat.eqb (length cs) 0)) lines).

(** hudtest: the path is before the first '>' and the command behind it; without a '>' the
    whole line is both.  A line without a command is left out, one command has an alias. *)
Definition hud_parts (cs path command : list N) : Prop :=
  (~ In 62 path /\ cs = path ++ 62 :: command) \/ (~ In 62 cs /\ path = cs /\ command = cs).
Definition fuzzy_select : list N := txt "Fuzzy Select".
Definition hud_alias (command : list N) (more : list (list N * list N)) : Prop :=
  ((exists a b, command = a ++ fuzzy_select ++ b) /\ more = [(txt "alias", txt "magnetic lasso")]) \/
  (~ (exists a b, command = a ++ fuzzy_select ++ b) /\ more = []).
Definition hud_item (cs : list N) (o : option item) : Prop :=
  (cs = [] /\ o = None) \/
  (cs <> [] /\ exists path command, hud_parts cs path command /\
    ((Forall blank command /\ o = None) \/
     (~ Forall blank command /\ exists more, hud_alias command more /\
        o = Some (mkItem [path; command] ([(txt "path", path); (txt "command", command)] ++ more))))).
(** The items that there are. *)
Definition there (os : list (option item)) : list item := flat_map (fun o => match o with Some it => [it] | None => [] end) os.
(** The prices and weights of hudtest. *)
Definition hud_before : list m_call := [MErr SetSubstringMode; MErr (AddStandardErrors latin_groups greek_groups)].
Definition hud_after (E : env) : list m_call := [MWeight (as_word E (txt "path")) d_03; MWeight (as_word E (txt "alias")) d_08].

Definition hud_weights (E : env) (f : word) : double :=
  if weqb f (as_word E (txt "alias")) then d_08 else if weqb f (as_word E (txt "path")) then d_03 else d_of_Z 1.

(** sctest.  A line gives a key a value. *)
Definition gives_value (E : env) (k cs v : list N) : Prop :=
  exists key, ~ In 61 key /\ cs = key ++ 61 :: v /\ (forall c, In c key -> ~ blank c) /\ map (fold E) key = k /\ ~ Forall blank v.
(** The last value of a key. *)
Definition last_value (E : env) (k : list N) (lines : list (list N)) (o : option (list N)) : Prop :=
  match o with
  | None => forall cs v, In cs lines -> ~ gives_value E k cs v
  | Some v => exists pre cs post, lines = pre ++ cs :: post /\ gives_value E k cs v /\ forall cs' v', In cs' post -> ~ gives_value E k cs' v'
  end.
Definition opt_field (name : list N) (o : option (list N)) : list (list N * list N) := match o with Some v => [(name, v)] | None => [] end.
(** A desktop file with these lines: it counts if it has a name. *)
Definition desktop_item (E : env) (fname : list N) (lines : list (list N)) (o : option item) : Prop :=
  exists name generic comment, last_value E (txt "name") lines name /\ last_value E (txt "genericname") lines generic /\ last_value E (txt "comment") lines comment /\
    o = match name with
        | None => None
        | Some _ => Some (mkItem [fname] (opt_field (txt "name") name ++ opt_field (txt "genericname") generic ++ opt_field (txt "comment") comment))
        end.
(** The files of the directory, by their names; hidden ones are left out. *)
Definition hidden (fname : list N) : Prop := exists r, fname = 46 :: r.
Definition at_dir (fname : list N) : list N := data_dir ++ txt "/" ++ fname.
Definition desktop_entry (E : env) (file : list N -> option (list N)) (fname : list N) (o : option item) : Prop :=
  (hidden fname /\ o = None) \/
  (~ hidden fname /\ exists bytes lines, file (at_dir (bytes_of fname)) = Some bytes /\ N.of_nat (length bytes) < 100000000 /\ text_lines bytes lines /\ Forall plain lines /\ desktop_item E fname lines o).
(** The bytes of all these files. *)
Definition contents (file : list N -> option (list N)) (fnames : list (list N)) : list N :=
  flat_map (fun f => match file (at_dir f) with Some b => b | None => [] end) fnames.
Definition sc_after (E : env) : list m_call :=
  [MWeight (as_word E (txt "genericname")) d_06; MWeight (as_word E (txt "comment")) d_03;
   MErr (AddStandardErrors latin_groups greek_groups); MErr SetSubstringMode].
Definition sc_weights (E : env) (f : word) : double :=
  if weqb f (as_word E (txt "comment")) then d_03 else if weqb f (as_word E (txt "genericname")) then d_06 else d_of_Z 1.

(** A file without a line of one byte. *)
Definition no_short_line (bytes : list N) : Prop := forall lines l, file_lines bytes lines -> In l lines -> length l <> 1%nat.

(** numberpad.  These keys give a part of the word that leaves few letters out: none before
    the part unless three keys were pressed, at most thirteen, or six after a single key. *)
Definition keys_for (ds : list N) (w : word) : Prop :=
  exists pre mid post, w = pre ++ mid ++ post /\ Forall2 (fun d l => on_key d l = true) ds mid /\
    ((length ds = 1%nat /\ pre = [] /\ (length post <= 6)%nat) \/
     (length ds = 2%nat /\ pre = [] /\ (length post <= 13)%nat) \/
     ((3 <= length ds)%nat /\ (length pre + length post <= 13)%nat)).
(** What a shell sees of a command outside single quotes. *)
Fixpoint outside (quoted : bool) (s : list N) : list N :=
  match s with
  | [] => []
  | b :: r => if b =? 39 then outside (negb quoted) r else if quoted then outside quoted r else b :: outside quoted r
  end.
(** What grep finds at the start of a line, for patterns of digits and sets of characters. *)
Inductive pattern_at : list N -> list N -> Prop :=
| pat_end s : pattern_at [] s
| pat_digit c p s : 48 <= c <= 57 -> pattern_at p s -> pattern_at (c :: p) (c :: s)
| pat_set set c p s : ~ In 91 set -> ~ In 93 set -> ~ In 94 set -> ~ In 45 set -> In c set -> pattern_at p s -> pattern_at (91 :: set ++ 93 :: p) (c :: s).

(** Lines with a DOS line ending: a carriage return is left at the end of the row. *)
Definition dos_item (cs : list N) : item := mkItem [cs ++ [13]] [(txt "name", cs)].

(** singleword: the rows as queryindex would print them. *)
Definition as_printed (rows : list (list N * Z)) : list printed :=
  match rows with [] => [PNone] | _ => map (fun r => PMatch (fst r) (snd r)) rows end.

(** ** Crashes *)

(** Whatever is typed, one text after the other, each search ends: with rows, or with an empty
    list and entry. *)
Definition searchable (E : env) (a : gapp) : Prop :=
  forall texts, Forall (fun s => c_text s /\ N.of_nat (length s) < 10000000) texts ->
    exists ws, searches E texts a = (a, Ok ws) /\ Forall2 (fun s w => v_entry w = s \/ v_entry w = [] /\ v_rows w = []) texts ws.
(** The program ends with a status, or opens a window that can be searched. *)
Definition well_started (E : env) (o : outcome (started gapp)) : Prop :=
  match o with
  | Ok (Exits st) => In st [0; 1; 99]%Z
  | Ok (Running a) => searchable E a
  | _ => False
  end.
(** A file of bytes without a line of one byte, below a million bytes. *)
Definition file_ok (bytes : list N) : Prop :=
  Forall (fun b => b < 256) bytes /\ no_short_line bytes /\ N.of_nat (length bytes) < 1000000.
