(** Model of the graphical programs tools/queryapp.cc, tools/numberpad.cc, tools/hudtest.cc,
    tools/sctest.cc and tools/singleword.cc: reading the data, searching, and what the
    window shows.  GTK itself (widgets, main loop, signals) is not modelled: a search is a
    call of doSearch with the text of the entry. *)
From Coq Require Import String Ascii.
From Verif Require Import Base TrieM WordM WordStoreM ErrorValuesM LevIndexM MapM DoubleM ContM DataFileM QIndexM MatcherM.
Local Open Scope N_scope.
Local Open Scope m_scope.

(** The bytes of a string literal, as in queryapp.cc:146. *)
Fixpoint txt (s : string) : list N :=
  match s with EmptyString => [] | String a r => N_of_ascii a :: txt r end.

(** The members of app_data that matter, queryapp.cc:38-47, numberpad.cc:38-48, hudtest.cc:40-49,
    sctest.cc:45-55: the matcher, and what was pushed to [source] ([names]) for each
    document, one list element per document.  In hudtest there are two texts for each,
    from [pathSource] and [commandSource]. *)
Record gapp := mkApp { a_m : matcher; a_src : list (list (list N)) }.
(** What is in the list and in the entry after a search, queryapp.cc:69-84. *)
Record window := mkWin { v_rows : list (list (list N) * double); v_entry : list N }.
(** What main comes to: the main loop is entered, or an exit status, queryapp.cc:188-210. *)
Inductive started (A : Type) := Running (a : A) | Exits (status : Z).
Arguments Running {A} a.
Arguments Exits {A} status.

(** The loop of doSearch that fills the list, queryapp.cc:76-83, numberpad.cc:104-111,
    hudtest.cc:79-87, sctest.cc:71-78: [n] results remain, the next is [i].  The texts go
    to GTK as C strings; [source[id]] is not checked. *)
Fixpoint fill_rows (src : list (list (list N))) (n : nat) (i : N) (matches : mresults) (rows : list (list (list N) * double))
  : outcome (list (list (list N) * double)) :=
  match n with
  | O => Ok rows
  | S n' =>
    let (m1, oid) := mr_getDocumentID i matches in
    let! id := oid in
    let! texts := match nth_error src (N.to_nat id) with Some ts => Ok (map until_nul ts) | None => UB end in
    let (m2, orel) := mr_getRelevancy i m1 in
    let! rel := orel in
    fill_rows src n' (i + 1) m2 (rows ++ [(texts, rel)])
  end.
(** doSearch, queryapp.cc:57-89, numberpad.cc:85-116, hudtest.cc:60-93, sctest.cc:84-113: the
    text of the entry is a C string; after an exception list and entry are emptied.  The
    labels with counts and times are not modelled. *)
Definition doSearch (E : env) (text : list N) : M gapp window := fun a =>
  let (m', o) := mt_match_utf8 E text sp_new (a_m a) in
  let a' := mkApp m' (a_src a) in
  match o with
  | Ok matches => (a', let! rows := fill_rows (a_src a) (N.to_nat (mr_size matches)) 0 matches [] in Ok (mkWin rows text))
  | Throw _ => (a', Ok (mkWin [] []))
  | Abort => (a', Abort) | UB => (a', UB) | Fuel => (a', Fuel)
  end.
(** Several searches, one after the other: queryapp.cc:57-89 for each. *)
Fixpoint searches (E : env) (texts : list (list N)) : M gapp (list window) :=
  match texts with
  | [] => ret []
  | t :: r => w <- doSearch E t ;; ws <- searches E r ;; ret (w :: ws)
  end.

(** ** queryapp, numberpad and hudtest: one document per line *)

(** The locals of build_matcher and the members of [app], queryapp.cc:144-150. *)
Record loading := mkLd { l_m : matcher; l_c : corpus; l_src : list (list (list N)); l_i : N }.
(** [app.m->index( *c )], queryapp.cc:173, 178. *)
Definition index_batch (E : env) : M loading unit := fun s =>
  let (m', o) := mt_index E (l_c s) (l_m s) in (mkLd m' (l_c s) (l_src s) (l_i s), o).
(** "Remove possible DOS line ending garbage", queryapp.cc:165-167, numberpad.cc:266-268,
    hudtest.cc:180-182, on a line that is not empty: a line of one byte reads (and perhaps
    writes) before the start of the string. *)
Definition dos_fix (line : list N) : outcome (list N) :=
  match rev line with
  | last :: before :: front => Ok (if before =? 13 then rev front ++ [0; last] else line)
  | _ => UB
  end.
(** addDocument, push_back and the batches, queryapp.cc:170-177, numberpad.cc:271-279,
    hudtest.cc:193-202. *)
Definition add_doc (E : env) (d : document) (texts : list (list N)) : M loading unit :=
  (fun s => (mkLd (l_m s) (l_c s ++ [d]) (l_src s ++ [texts]) (l_i s + 1), Ok tt)) ;;;
  i <- reads (fun s => Ok (l_i s)) ;;
  if i mod 100000 =? 0
  then (index_batch E ;;; (fun s => (mkLd (l_m s) [] (l_src s) (l_i s), Ok tt)))
  else ret tt.
(** One line in queryapp, queryapp.cc:163-177, and in numberpad, numberpad.cc:264-279. *)
Definition plain_line (E : env) (field : word) (line : list N) : M loading unit :=
  match line with
  | [] => ret tt
  | _ =>
    line <- reads (fun _ => dos_fix line) ;;
    d <- (fun s => let (d, o) := doc_addText_utf8 E field (until_nul line) (doc_new (N.of_nat (length (l_src s)))) in (s, let! _ := o in Ok d)) ;;
    add_doc E d [line]
  end.
(** The loop over the lines, queryapp.cc:162-177, numberpad.cc:263-279, hudtest.cc:175-203. *)
Fixpoint each_line (one : list N -> M loading unit) (lines : list (list N)) : M loading unit :=
  match lines with
  | [] => ret tt
  | l :: r => one l ;;; each_line one r
  end.
(** The locals after [new Matcher], queryapp.cc:159. *)
Definition empty_load (m : matcher) : loading := mkLd m [] [] 0.
(** The catch clause of main, queryapp.cc:205-208: every exception gives 99. *)
Definition in_main (o : outcome (started gapp)) : outcome (started gapp) :=
  match o with Throw _ => Ok (Exits 99) | _ => o end.
(** Running the rest of build_matcher on the locals, queryapp.cc:161-179. *)
Definition loaded (o : loading * outcome unit) : outcome (started gapp) :=
  let! _ := snd o in Ok (Running (mkApp (l_m (fst o)) (l_src (fst o)))).

(** build_matcher and main of queryapp, queryapp.cc:144-210.  [argv] includes the program's
    name and has no options for gtk_init; [file name] is what an ifstream reads from it. *)
Definition queryapp (E : env) (file : list N -> option (list N)) (argv : list (list N)) : outcome (started gapp) :=
  match argv with
  | _ :: dataFile :: _ => in_main (
    let! field := word_of_utf8 E (txt "name") in
    match file dataFile with
    | None => Ok (Exits 1)
    | Some bytes =>
      let! m := mt_new E in
      loaded ((each_line (plain_line E field) (getlines bytes []) ;;; index_batch E) (empty_load m))
    end)
  | _ => Ok (Exits 0)
  end.

(** A setter of ErrorValues that cannot fail, numberpad.cc:260-261. *)
Definition prices (f : errvals -> errvals) : M errvals unit := fun e => (f e, Ok tt).
(** build_matcher and main of numberpad, numberpad.cc:243-313. *)
Definition numberpad (E : env) (file : list N -> option (list N)) (argv : list (list N)) : outcome (started gapp) :=
  match argv with
  | _ :: dataFile :: _ => in_main (
    let! field := word_of_utf8 E (txt "name") in
    match file dataFile with
    | None => Ok (Exits 1)
    | Some bytes =>
      let! m0 := mt_new E in
      let (m, o) := (on_ev (prices addNumberpadErrors) ;;; on_ev (prices setSubstringMode)) m0 in
      let! _ := o in
      loaded ((each_line (plain_line E field) (getlines bytes []) ;;; index_batch E) (empty_load m))
    end)
  | _ => Ok (Exits 0)
  end.

(** The pattern of doExactMatch, numberpad.cc:61-75. *)
Definition key_pattern (b : N) : list N :=
  if b =? 48 then txt "0" else if b =? 49 then txt "1"
  else if b =? 50 then txt "[2abc]" else if b =? 51 then txt "[3def]"
  else if b =? 52 then txt "[4ghi]" else if b =? 53 then txt "[5jkl]"
  else if b =? 54 then txt "[6mno]" else if b =? 55 then txt "[7pqrs]"
  else if b =? 56 then txt "[8tuv]" else if b =? 57 then txt "[9wxyz]"
  else [b].
(** The string given to system(), numberpad.cc:58-81. *)
Definition shell_command (query fname : list N) : list N :=
  txt "grep " ++ txt "'" ++ (txt "^" ++ flat_map key_pattern query) ++ txt "' " ++ fname.
(** doSearch of numberpad, numberpad.cc:85-117: the window, and the command that is run if
    there was no exception ([entry] is then still the text). *)
Definition pad_search (E : env) (fname text : list N) : M gapp (window * option (list N)) := fun a =>
  let (a', o) := doSearch E text a in
  (a', let! w := o in
       Ok (w, match snd (mt_match_utf8 E text sp_new (a_m a)) with Ok _ => Some (shell_command text fname) | _ => None end)).
(** padPress, numberpad.cc:119-127: the first byte of the button's label is inserted at
    position 1000, or at the end of a text (given by its characters) that is shorter. *)
Definition pad_press (label text : list N) : outcome (list N) :=
  match label with
  | [] => Ok text
  | b :: _ => Ok (firstn (N.to_nat 1000) text ++ [b] ++ skipn (N.to_nat 1000) text)
  end.
(** The labels of the buttons, numberpad.cc:129-183. *)
Definition pad_labels : list (list N) :=
  [txt "1"; txt "2 (abc)"; txt "3 (def)"; txt "4 (ghi)"; txt "5 (jkl)"; txt "6 (mno)";
   txt "7 (pqrs)"; txt "8 (tuv)"; txt "9 (wxyz)"; txt "*"; txt "0"; txt "#"].

(** std::string::find of one byte, hudtest.cc:146: what is before and after it. *)
Fixpoint cut_at (b : N) (s : list N) : option (list N * list N) :=
  match s with
  | [] => None
  | c :: r => if c =? b then Some ([], r) else
              match cut_at b r with Some (x, y) => Some (c :: x, y) | None => None end
  end.
(** splitShowableParts, hudtest.cc:145-149.  Without a '>' tokenLoc is npos: all is assigned
    to pathText, and as npos + 1 is 0 to commandText too. *)
Definition splitShowableParts (line : list N) : list N * list N :=
  match cut_at 62 line with Some xy => xy | None => (line, line) end.
(** The text starts with these bytes; a part for std::string::find, hudtest.cc:190. *)
Fixpoint starts (sub s : list N) : bool :=
  match sub, s with
  | [], _ => true
  | a :: sub', b :: s' => (a =? b) && starts sub' s'
  | _ :: _, [] => false
  end.
(** [find(sub) != (size_t)-1], hudtest.cc:190. *)
Fixpoint contains (sub s : list N) : bool :=
  starts sub s || match s with [] => false | _ :: r => contains sub r end.
(** One line in hudtest, hudtest.cc:175-203. *)
Definition hud_line (E : env) (pathField commandField aliasField : word) (line : list N) : M loading unit :=
  match line with
  | [] => ret tt
  | _ =>
    line <- reads (fun _ => dos_fix line) ;;
    let (pathText, commandText) := splitShowableParts line in
    path <- reads (fun _ => splitToWords E (until_nul pathText)) ;;
    command <- reads (fun _ => splitToWords E (until_nul commandText)) ;;
    match command with
    | [] => ret tt
    | _ =>
      d <- (fun s =>
        let (d, o) := (doc_addText pathField path ;;;
                       doc_addText commandField command ;;;
                       (if contains (txt "Fuzzy Select") commandText
                        then doc_addText_utf8 E aliasField (txt "magnetic lasso") else ret tt))
                      (doc_new (N.of_nat (length (l_src s)))) in
        (s, let! _ := o in Ok d)) ;;
      add_doc E d [pathText; commandText]
    end
  end.
(** The constants 0.3, 0.6 and 0.8 as doubles, hudtest.cc:159-160, sctest.cc:247-248. *)
Definition d_03 : double := S754_finite false 5404319552844595 (-54).
(** 0.6, sctest.cc:247. *)
Definition d_06 : double := S754_finite false 5404319552844595 (-53).
(** 0.8, hudtest.cc:160. *)
Definition d_08 : double := S754_finite false 7205759403792794 (-53).
(** A call on the matcher of the locals, hudtest.cc:206-207. *)
Definition on_matcher {A} (f : M matcher A) : M loading A := fun s =>
  let (m', o) := f (l_m s) in (mkLd m' (l_c s) (l_src s) (l_i s), o).
(** build_matcher and main of hudtest, hudtest.cc:152-239; [W] is where the data files of
    addStandardErrors are looked for. *)
Definition hudtest (E : env) (W : world) (file : list N -> option (list N)) (argv : list (list N)) : outcome (started gapp) :=
  match argv with
  | _ :: dataFile :: _ => in_main (
    let! pathField := word_of_utf8 E (txt "path") in
    let! commandField := word_of_utf8 E (txt "command") in
    let! aliasField := word_of_utf8 E (txt "alias") in
    match file dataFile with
    | None => Ok (Exits 1)
    | Some bytes =>
      let! m0 := mt_new E in
      let (m, o) := (on_ev (prices setSubstringMode) ;;; on_ev (addStandardErrors_file E W)) m0 in
      let! _ := o in
      loaded ((each_line (hud_line E pathField commandField aliasField) (getlines bytes []) ;;;
               index_batch E ;;;
               on_matcher (set_w (iw_setWeight pathField d_03)) ;;;
               on_matcher (set_w (iw_setWeight aliasField d_08))) (empty_load m))
    end)
  | _ => Ok (Exits 0)
  end.

(** ** sctest: one document per desktop file *)

(** The three WordLists of buildCorpus, sctest.cc:211. *)
Record entry := mkEntry { x_name : wordlist; x_generic : wordlist; x_comment : wordlist }.
(** One line of a desktop file, sctest.cc:175-197; only invalid_argument is caught.  The
    value starts behind the '=' even if a NUL comes before it. *)
Definition desktop_line (E : env) (line : list N) : M entry unit :=
  match cut_at 61 line with
  | None => ret tt
  | Some (key, value) =>
    vals <- reads (fun _ => splitToWords E (until_nul value)) ;;
    match word_of_utf8 E (until_nul key) with
    | Throw EInvalidArg => ret tt
    | o =>
      n <- reads (fun _ => o) ;;
      match vals with
      | [] => ret tt
      | _ =>
        isName <- reads (fun _ => w_eq_text n (txt "name")) ;;
        (if isName : bool then (fun x => (mkEntry vals (x_generic x) (x_comment x), Ok tt)) else ret tt) ;;;
        isGeneric <- reads (fun _ => w_eq_text n (txt "genericname")) ;;
        (if isGeneric : bool then (fun x => (mkEntry (x_name x) vals (x_comment x), Ok tt)) else ret tt) ;;;
        isComment <- reads (fun _ => w_eq_text n (txt "comment")) ;;
        (if isComment : bool then (fun x => (mkEntry (x_name x) (x_generic x) vals, Ok tt)) else ret tt)
      end
    end
  end.
(** The loop of processFile, sctest.cc:174-197. *)
Fixpoint desktop_lines (E : env) (lines : list (list N)) : M entry unit :=
  match lines with
  | [] => ret tt
  | l :: r => desktop_line E l ;;; desktop_lines E r
  end.
(** processFile, sctest.cc:164-198, on the contents of a file. *)
Definition processFile (E : env) (bytes : list N) : outcome entry :=
  let (x, o) := (reads (fun _ => word_of_utf8 E (txt "GenericName")) ;;; desktop_lines E (getlines bytes [])) (mkEntry [] [] []) in
  let! _ := o in Ok x.
(** The documents and [app.names], and whether to go on: [exit(1)] for a file that cannot be
    opened is the result [None], sctest.cc:168-171. *)
Definition gathered := option (corpus * list (list (list N))).
(** The directory of the desktop files, sctest.cc:201. *)
Definition data_dir : list N := txt "/usr/share/app-install/desktop".
(** One directory entry in buildCorpus, sctest.cc:210-228. *)
Definition desktop_file (E : env) (file : list N -> option (list N)) (nameField genericField commentField : word)
    (d_name : list N) (c : corpus) (names : list (list (list N))) : outcome gathered :=
  if match d_name with b :: _ => b =? 46 | [] => false end then Ok (Some (c, names)) else
  match file (data_dir ++ txt "/" ++ d_name) with
  | None => Ok None
  | Some bytes =>
    let! x := processFile E bytes in
    match x_name x with
    | [] => Ok (Some (c, names))
    | _ =>
      let (d, o) := (doc_addText nameField (x_name x) ;;;
                     (match x_generic x with [] => ret tt | _ => doc_addText genericField (x_generic x) end) ;;;
                     (match x_comment x with [] => ret tt | _ => doc_addText commentField (x_comment x) end))
                    (doc_new (co_size c)) in
      let! _ := o in
      Ok (Some (fst (co_addDocument d c), names ++ [[d_name]]))
    end
  end.
(** The loop of buildCorpus over readdir, sctest.cc:210-228. *)
Fixpoint desktop_files (E : env) (file : list N -> option (list N)) (nameField genericField commentField : word)
    (entries : list (list N)) (c : corpus) (names : list (list (list N))) : outcome gathered :=
  match entries with
  | [] => Ok (Some (c, names))
  | e :: r =>
    let! g := desktop_file E file nameField genericField commentField e c names in
    match g with
    | None => Ok None
    | Some (c', names') => desktop_files E file nameField genericField commentField r c' names'
    end
  end.
(** buildCorpus, build_matcher and main of sctest, sctest.cc:200-275.  [dir] is what readdir
    lists, [None] if opendir fails.  The three fields are made before main (sctest.cc:41-43). *)
Definition sctest (E : env) (W : world) (dir : option (list (list N))) (file : list N -> option (list N)) : outcome (started gapp) :=
  let! nameField := word_of_utf8 E (txt "name") in
  let! genericField := word_of_utf8 E (txt "genericname") in
  let! commentField := word_of_utf8 E (txt "comment") in
  in_main (
    let! _ := word_of_utf8 E (txt "name") in
    let! m0 := mt_new E in
    match dir with
    | None => Throw ERuntime
    | Some entries =>
      let! g := desktop_files E file nameField genericField commentField entries [] [] in
      match g with
      | None => Ok (Exits 1)
      | Some (c, names) =>
        let (m, o) := (mt_index E c ;;;
                       set_w (iw_setWeight genericField d_06) ;;;
                       set_w (iw_setWeight commentField d_03) ;;;
                       on_ev (addStandardErrors_file E W) ;;;
                       on_ev (prices setSubstringMode)) m0 in
        let! _ := o in Ok (Running (mkApp m names))
      end
    end).

(** ** singleword: an index of words *)

(** The members of app_data of singleword, singleword.cc:42-53. *)
Record sapp := mkSApp { sa_ind : levindex; sa_store : wstore }.
(** What the window of singleword shows, singleword.cc:83-93. *)
Record swindow := mkSWin { sv_rows : list (list N * Z); sv_entry : list N }.
(** The body of the loop of readData, singleword.cc:167-171, on the bytes fgets stored. *)
Definition read_word (E : env) (stored : list N) : outcome word :=
  let s := until_nul stored in
  match rev s with
  | [] => UB
  | last :: front =>
    if e_ndebug E || (last =? 10) then word_of_utf8 E (rev front) else Abort
  end.
(** readData, singleword.cc:159-174. *)
Fixpoint read_words (E : env) (fuel : nat) (bs : list N) : outcome (list word) :=
  match fuel with
  | O => Fuel
  | S f =>
    match bs with
    | [] => Ok []
    | _ => let (l, r) := fgets 1023 bs in
           let! w := read_word E l in
           let! ws := read_words E f r in
           Ok (w :: ws)
    end
  end.
(** The loop of main, singleword.cc:188-189. *)
Fixpoint insert_words (E : env) (ws : list word) : M sapp unit :=
  match ws with
  | [] => ret tt
  | w :: r =>
    id <- (fun a => let (s', o) := ws_getID E w (sa_store a) in (mkSApp (sa_ind a) s', o)) ;;
    (fun a => let (i', o) := li_insertWord E w id (sa_ind a) in (mkSApp i' (sa_store a), o)) ;;;
    insert_words E r
  end.
(** main of singleword, singleword.cc:176-196.  An exception from the construction of [app]
    is not caught: std::terminate. *)
Definition singleword (E : env) (file : list N -> option (list N)) (argv : list (list N)) : outcome (started sapp) :=
  let! ind := match li_new E with Throw _ => Abort | o => o end in
  let! st := match ws_new E with Throw _ => Abort | o => o end in
  match argv with
  | _ :: dataFile :: _ =>
    match file dataFile with
    | None => Ok (Exits 0)
    | Some bytes =>
      match (let! ws := read_words E (S (length bytes)) bytes in
             let (a, o) := insert_words E ws (mkSApp ind st) in
             let! _ := o in Ok (Running a)) with
      | Throw _ => Ok (Exits 99)
      | o => o
      end
    end
  | _ => Ok (Exits 0)
  end.
(** The loop of doSearch, singleword.cc:85-93: [n] matches remain, the next is [i].  This is
    not in the try block: an exception would go through GTK. *)
Fixpoint fill_words (E : env) (st : wstore) (n : nat) (i : N) (matches : imatches) (rows : list (list N * Z)) : outcome (list (list N * Z)) :=
  match n with
  | O => Ok rows
  | S n' =>
    let! id := im_getMatch matches i in
    let! w := ws_getWord E st id in
    let! buf := w_toUtf8 w 1024 in
    let! text := WordM.c_str buf in
    let! err := im_getMatchError matches i in
    fill_words E st n' (i + 1) matches (rows ++ [(text, err)])
  end.
(** doSearch of singleword, singleword.cc:64-100, with the text of the entry, the number in
    the spinner and what is shown before. *)
Definition single_search (E : env) (a : sapp) (text : list N) (maxError : Z) (old : swindow) : outcome swindow :=
  match word_of_utf8 E text with
  | Throw _ => Ok (mkSWin [] [])
  | Ok [] => Ok (mkSWin (sv_rows old) text)
  | Ok query =>
    match findWords E (sa_ind a) query ev_new maxError [] with
    | (_, Throw _) => Ok (mkSWin [] [])
    | (_, Abort) => Abort | (_, UB) => UB | (_, Fuel) => Fuel
    | (matches, Ok _) =>
      let! rows := fill_words E (sa_store a) (length matches) 0 matches [] in
      Ok (mkSWin rows text)
    end
  | Abort => Abort | UB => UB | Fuel => Fuel
  end.
