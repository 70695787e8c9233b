(** Properties C107 - C115: the graphical programs queryapp, numberpad, hudtest, sctest and
    singleword. *)
From Coq Require Import String.
From Verif Require Import Base Demo TrieM WordM ErrorValuesM LevIndexM DoubleM ContM DataFileM QIndexM MatcherM
  Spec_Hist Spec_EV Spec_Edit Spec_Lev Spec_Match Spec_File Spec_Tool WordX DataX CApiX QIndexX AppW AppY AppZ AppX.
From Verif Require Import Spec_Word AppM Spec_App.
Local Open Scope N_scope.

(** C107.  queryapp opens its window on every file of lines and then shows for every query one
    row for each line with a word near a word of the query, best first. *)
Theorem C107_rows : forall E, env_ok E -> lower_ok E -> forall file prog name rest bytes lines,
  file name = Some bytes -> text_lines bytes lines -> Forall fine_line lines -> room_for E (3 * length bytes) -> N.of_nat (length bytes) < 10000000 ->
  exists a, queryapp E file (prog :: name :: rest) = Ok (Running a) /\
    forall q, typed q -> exists rows, doSearch E (bytes_of q) a = (a, Ok (mkWin rows (bytes_of q))) /\ answers E ev_new no_weights (line_items lines) q rows.
Proof. exact queryapp_rows. Qed.
Print Assumptions C107_rows.
(** Without an argument, and without the file. *)
Theorem C107_arguments : forall E W file argv, (length argv < 2)%nat ->
  queryapp E file argv = Ok (Exits 0) /\ numberpad E file argv = Ok (Exits 0) /\ hudtest E W file argv = Ok (Exits 0).
Proof. exact arguments. Qed.
Print Assumptions C107_arguments.
Theorem C107_missing : forall E, lower_ok E -> forall W file prog name rest, file name = None ->
  queryapp E file (prog :: name :: rest) = Ok (Exits 1) /\ numberpad E file (prog :: name :: rest) = Ok (Exits 1) /\ hudtest E W file (prog :: name :: rest) = Ok (Exits 1).
Proof. exact missing. Qed.
Print Assumptions C107_missing.
Example C107_ex : env_ok demo_file /\ lower_ok demo_file /\ one_file g_name (nl g_lines) g_name = Some (nl g_lines) /\ text_lines (nl g_lines) g_lines /\ Forall fine_line g_lines /\
  room_for demo_file (3 * length (nl g_lines)) /\ N.of_nat (length (nl g_lines)) < 10000000 /\ typed (txt "lens"%string) /\
  rows_of demo_file (queryapp demo_file (one_file g_name (nl g_lines)) g_argv) [txt "sharp"%string; txt "lens"%string] = Some [[txt "Lens Flare"%string]; [txt "Lense"%string]].
Proof.
  split; [exact file_env_ok|]. split; [exact file_lower_ok|]. split; [reflexivity|]. split; [apply g_lines_ok|]. split; [apply g_lines_ok|].
  split; [apply demo_room; vm_compute; reflexivity|]. split; [vm_compute; reflexivity|]. split; [apply ascii_typed; vm_compute; reflexivity|exact g_run].
Qed.

(** C108 is false: a line of one byte is undefined behaviour in queryapp, numberpad and
    hudtest. *)
Theorem C108_short_line_refuted : forall E, env_ok E -> lower_ok E -> forall file prog name rest bytes pre b post,
  file name = Some bytes -> Forall fine_line pre -> file_lines bytes (map bytes_of pre ++ [b] :: post) -> room_for E (3 * length bytes) ->
  queryapp E file (prog :: name :: rest) = UB.
Proof. exact short_ub. Qed.
Print Assumptions C108_short_line_refuted.
(** Without such a line: for every file of bytes, every list of arguments and everything that
    is typed into the window one after the other, the programs do not crash. *)
Theorem C108_safe_partial : forall E, env_ok E -> lower_ok E -> forall W file argv, folds_shipped E -> shipped W ->
  (forall name bytes, file name = Some bytes -> file_ok bytes) ->
  well_started E (queryapp E file argv) /\ well_started E (numberpad E file argv) /\ well_started E (hudtest E W file argv).
Proof. intros E HEo HE W file argv HF HW Hf. exact (conj (queryapp_well HEo HE argv Hf) (conj (numberpad_well HEo HE argv Hf) (hud_well HEo HE argv HF HW Hf))). Qed.
Print Assumptions C108_safe_partial.
(** sctest has no such line. *)
Theorem C108_sctest : forall E, env_ok E -> lower_ok E -> forall W dir file, folds_shipped E -> shipped W ->
  (forall f bytes, file f = Some bytes -> Forall (fun b => b < 256) bytes /\ N.of_nat (length bytes) < 100000000) ->
  (forall es, dir = Some es -> N.of_nat (length (contents file es)) < 3000000) -> well_started E (sctest E W dir file).
Proof. exact sc_well. Qed.
Print Assumptions C108_sctest.
Example C108_ex : env_ok demo_file /\ lower_ok demo_file /\ folds_shipped demo_file /\ shipped the_disk /\ file_ok junk /\
  file_lines (nl [txt "Lens"%string ++ [13]; [13]]) (map bytes_of [txt "Lens"%string ++ [13]] ++ [13] :: []) /\
  queryapp demo_file (one_file g_name junk) g_argv = Ok (Exits 99).
Proof.
  split; [exact file_env_ok|]. split; [exact file_lower_ok|]. split; [exact fold_ok|]. split; [exact the_disk_ok|]. split; [exact junk_ok|]. split; [|vm_compute; reflexivity].
  split; [|left; vm_compute; reflexivity]. repeat (constructor; [intros H; vm_compute in H; repeat destruct H as [H|H]; try discriminate H; exact H|]). constructor.
Qed.

(** C109 is false: a file with DOS line endings does not give what the file without them
    gives. *)
Theorem C109_dos_refuted : exists E file name bytes rows, lower_ok E /\ env_ok E /\ file name = Some bytes /\ file_lines bytes (map (fun l => l ++ [13]) dos_lines) /\
  rows_of E (queryapp E file [txt "prog"%string; name]) [txt "lens"%string] = Some rows /\ In [txt "Lens Flare"%string ++ [13]] rows.
Proof. exact dos_refuted. Qed.
Print Assumptions C109_dos_refuted.
Theorem C109_blank_line_refuted : exists E file name bytes, lower_ok E /\ env_ok E /\ file name = Some bytes /\ file_lines bytes [txt "Lens"%string ++ [13]; [13]] /\
  queryapp E file [txt "prog"%string; name] = UB.
Proof. exact blank_refuted. Qed.
Print Assumptions C109_blank_line_refuted.
(** What holds: the same lines are found, in the same order and with the same relevancies, and
    the rows end with the carriage return. *)
Theorem C109_dos_partial : forall E, env_ok E -> lower_ok E -> forall file prog name rest bytes lines,
  file name = Some bytes -> file_lines bytes (map (fun cs => bytes_of cs ++ [13]) lines) ->
  Forall (fun cs => plain cs /\ ~ In 10 cs /\ cs <> [] /\ forall a, cs <> a ++ [13]) lines -> room_for E (3 * length bytes) -> N.of_nat (length bytes) < 10000000 ->
  exists a, queryapp E file (prog :: name :: rest) = Ok (Running a) /\
    forall q, typed q -> exists rows, doSearch E (bytes_of q) a = (a, Ok (mkWin rows (bytes_of q))) /\ answers E ev_new no_weights (map dos_item lines) q rows.
Proof. exact dos_rows. Qed.
Print Assumptions C109_dos_partial.
Example C109_ex : file_lines (nl (map (fun l => l ++ [13]) dos_lines)) (map (fun cs => bytes_of cs ++ [13]) dos_lines) /\
  Forall (fun cs => plain cs /\ ~ In 10 cs /\ cs <> [] /\ forall a, cs <> a ++ [13]) dos_lines.
Proof. exact dos_ok. Qed.

(** C110.  hudtest: a row for each line with a command, found by path, command and alias, with
    the weights 0.3 for the path and 0.8 for the alias. *)
Theorem C110_rows : forall E, env_ok E -> lower_ok E -> forall W file prog name rest bytes lines os, folds_shipped E -> shipped W ->
  file name = Some bytes -> text_lines bytes lines -> Forall fine_line lines -> Forall2 hud_item lines os ->
  room_for E (17 * length bytes) -> N.of_nat (4 * length bytes) < 10000000 ->
  exists a, hudtest E W file (prog :: name :: rest) = Ok (Running a) /\
    forall q, typed q -> exists rows, doSearch E (bytes_of q) a = (a, Ok (mkWin rows (bytes_of q))) /\
      answers E (ev_after [SetSubstringMode; AddStandardErrors latin_groups greek_groups]) (hud_weights E) (there os) q rows.
Proof. exact hud_rows. Qed.
Print Assumptions C110_rows.
Example C110_ex : env_ok demo_file /\ lower_ok demo_file /\ folds_shipped demo_file /\ shipped the_disk /\ text_lines (nl h_lines) h_lines /\ Forall fine_line h_lines /\ Forall2 hud_item h_lines h_items /\
  length (there h_items) = 3%nat /\ room_for demo_file (17 * length (nl h_lines)) /\
  rows_of demo_file (hudtest demo_file the_disk (one_file g_name (nl h_lines)) g_argv) [txt "lasso"%string] = Some [[txt "Tools"%string; txt "Fuzzy Select"%string]].
Proof.
  split; [exact file_env_ok|]. split; [exact file_lower_ok|]. split; [exact fold_ok|]. split; [exact the_disk_ok|]. split; [apply h_lines_ok|]. split; [apply h_lines_ok|]. split; [exact h_items_ok|]. split; [reflexivity|].
  split; [apply demo_room; vm_compute; reflexivity|exact h_run].
Qed.

(** C111.  numberpad finds a line by the keys that have the letters of one of its words. *)
Theorem C111_rows : forall E, env_ok E -> lower_ok E -> forall file prog name rest bytes lines,
  file name = Some bytes -> text_lines bytes lines -> Forall fine_line lines -> room_for E (3 * length bytes) -> N.of_nat (length bytes) < 10000000 ->
  exists a, numberpad E file (prog :: name :: rest) = Ok (Running a) /\
    forall q, typed q -> exists rows, doSearch E (bytes_of q) a = (a, Ok (mkWin rows (bytes_of q))) /\
      answers E (ev_after [AddNumberpadErrors; SetSubstringMode]) no_weights (line_items lines) q rows.
Proof. exact numberpad_rows. Qed.
Print Assumptions C111_rows.
Theorem C111_keys : forall E, env_ok E -> lower_ok E -> forall file prog name rest bytes lines, (forall d, 48 <= d <= 57 -> e_lower E d = d) ->
  file name = Some bytes -> text_lines bytes lines -> Forall fine_line lines -> room_for E (3 * length bytes) -> N.of_nat (length bytes) < 10000000 ->
  exists a, numberpad E file (prog :: name :: rest) = Ok (Running a) /\
    forall cs w ds, In cs lines -> word_in E cs w -> keys_for ds w -> N.of_nat (length ds) < 4000000 ->
      exists rows rel, doSearch E ds a = (a, Ok (mkWin rows ds)) /\ In ([bytes_of cs], rel) rows.
Proof. exact keypad. Qed.
Print Assumptions C111_keys.
(** Each button types its first character, behind up to a thousand others, and says which
    letters are on its key; every digit has a button. *)
Theorem C111_buttons : forall label, In label pad_labels -> exists b r, label = b :: r /\
  (forall text, N.of_nat (length text) <= 1000 -> pad_press label text = Ok (text ++ [b])) /\
  (forall c, 97 <= c <= 122 -> (In c r <-> on_key b c = true)).
Proof. exact buttons. Qed.
Print Assumptions C111_buttons.
Theorem C111_digits : forall d, 48 <= d <= 57 -> exists r, In (d :: r) pad_labels.
Proof. exact all_digits. Qed.
Print Assumptions C111_digits.
Example C111_ex : (forall d, 48 <= d <= 57 -> e_lower demo_file d = d) /\ In (txt "Lense"%string) g_lines /\ word_in demo_file (txt "Lense"%string) (as_word demo_file (txt "Lense"%string)) /\
  keys_for (txt "5367"%string) (as_word demo_file (txt "Lense"%string)) /\
  rows_of demo_file (numberpad demo_file (one_file g_name (nl g_lines)) g_argv) [txt "5367"%string] = Some [[txt "Lens Flare"%string]; [txt "Lense"%string]].
Proof. split; [exact digits_lower|]. split; [right; right; right; now left|]. split; [apply p_keys|]. split; [apply p_keys|exact p_run]. Qed.

(** C112 is false: what is typed can run any command. *)
Theorem C112_command_refuted : exists E file name a text rows run, lower_ok E /\ env_ok E /\ file name = Some (nl g_lines) /\ ~ In 39 name /\
  numberpad E file [txt "prog"%string; name] = Ok (Running a) /\
  pad_search E name text a = (a, Ok (mkWin rows text, Some run)) /\ outside false run = txt "grep ;rm -r x; f"%string.
Proof. exact shell_refuted. Qed.
Print Assumptions C112_command_refuted.
Theorem C112_any_command : forall E, env_ok E -> lower_ok E -> forall file prog name rest bytes lines,
  file name = Some bytes -> text_lines bytes lines -> Forall fine_line lines -> room_for E (3 * length bytes) -> N.of_nat (length bytes) < 10000000 -> ~ In 39 name ->
  exists a, numberpad E file (prog :: name :: rest) = Ok (Running a) /\
    forall cmd, Forall (fun b => 0 < b < 128 /\ b <> 39 /\ ~ 50 <= b <= 57) cmd -> N.of_nat (length cmd) < 3000000 ->
    exists rows run, pad_search E name (txt "';"%string ++ cmd ++ txt ";'"%string) a = (a, Ok (mkWin rows (txt "';"%string ++ cmd ++ txt ";'"%string), Some run)) /\
      outside false run = txt "grep ;"%string ++ cmd ++ txt "; "%string ++ name.
Proof. exact pad_injected. Qed.
Print Assumptions C112_any_command.
(** Without a quote in the text and the file's name the shell sees only grep and the name, and
    for keys the pattern finds the lines that start with them. *)
Theorem C112_command_partial : forall E fname text a a' w run, pad_search E fname text a = (a', Ok (w, Some run)) -> ~ In 39 text -> ~ In 39 fname ->
  run = txt "grep '^"%string ++ flat_map key_pattern text ++ txt "' "%string ++ fname /\ outside false run = txt "grep  "%string ++ fname.
Proof. exact pad_shell. Qed.
Print Assumptions C112_command_partial.
Theorem C112_pattern : forall ds, Forall (fun d => 48 <= d <= 57) ds -> forall s,
  pattern_at (flat_map key_pattern ds) s <-> exists t r, s = t ++ r /\ Forall2 (fun d c => c = d \/ on_key d c = true) ds t.
Proof. exact grep_keys. Qed.
Print Assumptions C112_pattern.
Example C112_ex : flat_map key_pattern (txt "53"%string) = txt "[5jkl][3def]"%string /\ pattern_at (flat_map key_pattern (txt "53"%string)) (txt "lens"%string).
Proof.
  split; [reflexivity|]. apply grep_keys; [repeat (constructor; [split; discriminate|]); constructor|]. exists (txt "le"%string), (txt "ns"%string). split; [reflexivity|].
  constructor; [right; reflexivity|]. constructor; [right; reflexivity|constructor].
Qed.

(** C113.  sctest: a row for each desktop file with a name, found by the last name, generic name
    and comment in it, with the weights 0.6 and 0.3 for the latter two. *)
Theorem C113_rows : forall E W file es os, env_ok E -> lower_ok E -> folds_shipped E -> shipped W -> Forall plain es -> Forall2 (desktop_entry E file) es os ->
  room_for E (22 * length es + 3 * length (contents file (map bytes_of es))) -> N.of_nat (3 * length (contents file (map bytes_of es))) < 10000000 ->
  exists a, sctest E W (Some (map bytes_of es)) file = Ok (Running a) /\
    forall q, typed q -> exists rows, doSearch E (bytes_of q) a = (a, Ok (mkWin rows (bytes_of q))) /\
      answers E (ev_after [AddStandardErrors latin_groups greek_groups; SetSubstringMode]) (sc_weights E) (there os) q rows.
Proof. exact sc_rows. Qed.
Print Assumptions C113_rows.
Example C113_ex : env_ok demo_file /\ lower_ok demo_file /\ folds_shipped demo_file /\ shipped the_disk /\ Forall plain s_names /\ Forall2 (desktop_entry demo_file s_file) s_names s_items /\ length (there s_items) = 1%nat /\
  rows_of demo_file (sctest demo_file the_disk (Some s_names) s_file) [txt "edit"%string] = Some [[txt "a.desktop"%string]] /\
  rows_of demo_file (sctest demo_file the_disk (Some s_names) s_file) [txt "quartz"%string] = Some [].
Proof.
  split; [exact file_env_ok|]. split; [exact file_lower_ok|]. split; [exact fold_ok|]. split; [exact the_disk_ok|]. split; [apply s_items_ok|]. split; [apply s_items_ok|]. split; [reflexivity|]. split; [exact s_run|exact s_run_first].
Qed.

(** C114 is false: one desktop file that is not UTF-8 keeps all others from being found. *)
Theorem C114_isolated_refuted : exists E W dir dir' file, lower_ok E /\ env_ok E /\ shipped W /\ incl dir dir' /\ (forall f, In f dir' -> hd 0 f <> 46 -> file (at_dir f) <> None) /\
  (exists a, sctest E W (Some dir) file = Ok (Running a) /\ length (a_src a) = 1%nat) /\ sctest E W (Some dir') file = Ok (Exits 99).
Proof. exact isolated_refuted. Qed.
Print Assumptions C114_isolated_refuted.
(** The first file that cannot be read, or that has a key or value that is not UTF-8, ends the
    program. *)
Theorem C114_first_bad : forall E, lower_ok E -> forall W file es os bad rest n, Forall plain es -> Forall2 (desktop_entry E file) es os -> room_for E n ->
  Forall (fun b => b <> 0) bad -> hd 0 bad <> 46 ->
  (file (at_dir bad) = None -> sctest E W (Some (map bytes_of es ++ bad :: rest)) file = Ok (Exits 1)) /\
  (forall bytes pre key v post, file (at_dir bad) = Some bytes -> N.of_nat (length bytes) < 100000000 -> Forall plain pre ->
     file_lines bytes (map bytes_of pre ++ (key ++ 61 :: v) :: post) -> ~ In 61 key -> ~ In 0 key -> ~ In 0 v -> ~ valid_utf8 key \/ ~ valid_utf8 v ->
     sctest E W (Some (map bytes_of es ++ bad :: rest)) file = Ok (Exits 99)).
Proof. exact first_bad. Qed.
Print Assumptions C114_first_bad.
Example C114_ex : Forall plain s_names /\ Forall2 (desktop_entry demo_file s_file_bad) s_names s_items /\ s_file_bad (at_dir (txt "c.desktop"%string)) = Some bad_bytes /\
  file_lines bad_bytes (map bytes_of [txt "Name=Bad"%string] ++ (txt "Comment"%string ++ 61 :: [195; 40]) :: []) /\ ~ valid_utf8 [195; 40].
Proof. split; [apply s_items_ok|]. split; [exact s_items_bad|]. split; [vm_compute; reflexivity|]. split; [exact bad_bytes_lines|exact invalid_bytes]. Qed.

(** C115.  singleword shows for every word that is typed and every limit the words of its file
    within the limit, each once, by increasing error. *)
Theorem C115_rows : forall E, env_ok E -> lower_ok E -> forall file prog name rest lines,
  Forall (word_line E) lines -> file name = Some (text_file lines) -> room_for E (length (text_file lines)) ->
  exists a, singleword E file (prog :: name :: rest) = Ok (Running a) /\
    forall old limit q, query_text q -> q <> [] -> in_i32 limit = true ->
      exists rows, single_search E a (bytes_of q) limit old = Ok (mkSWin rows (bytes_of q)) /\ answer E lines q limit (as_printed rows).
Proof. exact single_rows. Qed.
Print Assumptions C115_rows.
(** What is not a word empties the window; nothing typed leaves the list as it was. *)
Theorem C115_not_a_word : forall E, lower_ok E -> forall a text limit old, (exists q c, text = bytes_of q /\ Forall scalar q /\ In c q /\ blank c) \/ ~ valid_utf8 text ->
  single_search E a text limit old = Ok (mkSWin [] []).
Proof. exact single_empty. Qed.
Print Assumptions C115_not_a_word.
Theorem C115_nothing : forall E, lower_ok E -> forall a limit old, single_search E a [] limit old = Ok (mkSWin (sv_rows old) []).
Proof. exact single_nothing. Qed.
Print Assumptions C115_nothing.
(** A long line whose lower case is longer still is undefined behaviour, but only in a search:
    short lines are safe whatever they contain. *)
Theorem C115_long_line_refuted : exists E file name lines a, lower_ok E /\ env_ok E /\ file name = Some (text_file lines) /\
  Forall (fun l => Forall scalar l /\ (forall c, In c l -> ~ blank c /\ c <> 0)) lines /\
  singleword E file [[113]; name] = Ok (Running a) /\ single_search E a [97] 99999 (mkSWin [] []) = UB.
Proof. exact w_refuted. Qed.
Print Assumptions C115_long_line_refuted.
Theorem C115_safe_partial : forall E, env_ok E -> lower_ok E -> forall file argv, (forall name bs, file name = Some bs -> printable_file E bs) ->
  match singleword E file argv with
  | Ok (Exits st) => In st [0; 99]%Z
  | Ok (Running a) => forall old text limit, c_text text -> N.of_nat (length text) <= 20000000 -> exists w, single_search E a text limit old = Ok w
  | Abort => grow_ok E 1024 = false \/ (e_ndebug E = false /\ exists prog name rest bs, argv = prog :: name :: rest /\ file name = Some bs /\ (~ ended bs \/ long_line bs))
  | _ => False
  end.
Proof. exact single_safe. Qed.
Print Assumptions C115_safe_partial.
Example C115_ex : lower_ok demo /\ env_ok demo /\ Forall (word_line demo) x_lines /\ room_for demo (length (text_file x_lines)) /\ query_text x_query /\ x_query <> [] /\
  w_rows demo (singleword demo (x_file (text_file x_lines)) [[113]; QIndexX.x_name]) (bytes_of x_query) 150 = Some [([97; 98; 99], 0%Z); ([97; 98; 100], 100%Z)].
Proof.
  split; [apply demo_lower_ok|]. split; [apply demo_ok|]. split; [apply x_lines_ok|]. split; [now apply x_room|]. split; [apply x_query_ok|]. split; [discriminate|exact w_run].
Qed.
