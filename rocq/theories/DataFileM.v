(** Model of the file access: findDataFile (src/ColumbusSlow.cc), ErrorValues::addAccents
    and addStandardErrors on files (src/ErrorValues.cc), and the two data files. *)
From Verif Require Import Base TrieM ErrorValuesM WordM.
Local Open Scope N_scope.
Local Open Scope m_scope.

(** What the code asks of the system: getenv("COLUMBUS_DATADIR") (bytes without the
    terminator, so without NUL), the directory fixed when building
    (include/ColumbusCore.hh.in:81), stat() == 0, and the contents of a file if
    std::ifstream can open it.  Read errors are not modelled; a directory, which opens but
    cannot be read, is an empty file. *)
Record world := mkWorld {
  w_var : option (list N);
  w_dir : list N;
  w_exists : list N -> bool;
  w_read : list N -> option (list N)
}.

(** findDataFile, ColumbusSlow.cc:33-52, with fileExists, lines 28-31.  [s[s.length()-1]]
    is outside the string if the variable is empty. *)
Definition findDataFile (W : world) (baseName : list N) : outcome (list N) :=
  let! s := match w_var W with
            | Some d =>
              let! last := match rev d with [] => UB | c :: _ => Ok c end in
              Ok ((if last =? 47 then d else d ++ [47]) ++ baseName)
            | None => Ok (w_dir W ++ baseName)
            end in
  Ok (if w_exists W s then s else []).

(** Repeated std::getline: the pieces between line feeds; a last piece that is empty is
    not a line. *)
Fixpoint getlines (bs cur : list N) : list (list N) :=
  match bs with
  | [] => match cur with [] => [] | _ => [rev cur] end
  | b :: r => if b =? 10 then rev cur :: getlines r [] else getlines r (b :: cur)
  end.
(** line.c_str() read as a C string. *)
Fixpoint until_nul (l : list N) : list N :=
  match l with
  | [] => []
  | b :: r => if b =? 0 then [] else b :: until_nul r
  end.

(** The loop of ErrorValues::addAccents, ErrorValues.cc:183-188. *)
Fixpoint accents_loop (E : env) (ls : list (list N)) : M errvals unit :=
  match ls with
  | [] => ret tt
  | l :: r =>
    group <- (fun e => (e, word_of_utf8 E (until_nul l))) ;;
    (match group with
     | [] => ret tt
     | _ => setGroupError group DEFAULT_GROUP_ERROR
     end) ;;;
    accents_loop E r
  end.

(** accentGroupDataFile, ErrorValues.cc:38-39, and enum accentGroups
    (ErrorValues.hh:27-30). *)
Inductive accent_group := LatinAccents | GreekAccents.
(** The names in accentGroupDataFile, ErrorValues.cc:38-39, as bytes. *)
Definition data_file (g : accent_group) : list N :=
  match g with
  | LatinAccents => [108; 97; 116; 105; 110; 65; 99; 99; 101; 110; 116; 101; 100; 76; 101; 116; 116; 101; 114; 71; 114; 111; 117; 112; 115; 46; 116; 120; 116]
  | GreekAccents => [103; 114; 101; 101; 107; 65; 99; 99; 101; 110; 116; 101; 100; 76; 101; 116; 116; 101; 114; 71; 114; 111; 117; 112; 115; 46; 116; 120; 116]
  end.

(** ErrorValues::addAccents, ErrorValues.cc:167-189. *)
Definition addAccents_file (E : env) (W : world) (g : accent_group) : M errvals unit :=
  dataFile <- (fun e => (e, findDataFile W (data_file g))) ;;
  match dataFile with
  | [] => mthrow ERuntime
  | _ => match w_read W dataFile with
         | None => mthrow ERuntime
         | Some bytes => accents_loop E (getlines bytes [])
         end
  end.

(** ErrorValues::addStandardErrors, ErrorValues.cc:263-267. *)
Definition addStandardErrors_file (E : env) (W : world) : M errvals unit :=
  addAccents_file E W LatinAccents ;;;
  addAccents_file E W GreekAccents ;;;
  (fun e => (addKeyboardErrors e, Ok tt)).

(** The bytes of share/latinAccentedLetterGroups.txt. *)
Definition latin_file : list N :=
  [97; 195; 161; 195; 160; 196; 131; 225; 186; 175; 225; 186; 177; 225; 186; 181; 225; 186; 179; 195; 162; 225; 186; 165; 225; 186; 167; 225; 186; 171;
   225; 186; 169; 199; 142; 195; 165; 199; 187; 195; 164; 199; 159; 195; 163; 200; 167; 199; 161; 196; 133; 196; 129; 225; 186; 163; 200; 129; 200; 131;
   225; 186; 161; 225; 186; 183; 225; 186; 173; 225; 184; 129; 226; 177; 165; 225; 182; 143; 10; 98; 225; 184; 131; 225; 184; 133; 225; 184; 135; 198;
   128; 10; 99; 196; 135; 196; 137; 196; 141; 196; 139; 195; 167; 225; 184; 137; 200; 188; 198; 136; 10; 100; 196; 143; 225; 184; 139; 225; 184; 145;
   225; 184; 141; 225; 184; 147; 225; 184; 143; 196; 145; 201; 150; 10; 101; 195; 169; 195; 168; 196; 149; 195; 170; 225; 186; 191; 225; 187; 129; 225;
   187; 133; 225; 187; 131; 196; 155; 195; 171; 225; 186; 189; 196; 151; 200; 169; 225; 184; 157; 196; 153; 196; 147; 225; 184; 151; 225; 184; 149; 225;
   186; 187; 200; 133; 200; 135; 225; 186; 185; 225; 187; 135; 225; 184; 153; 225; 184; 155; 201; 135; 10; 103; 199; 181; 196; 159; 196; 157; 199; 167;
   196; 161; 196; 163; 225; 184; 161; 199; 165; 201; 160; 10; 104; 196; 165; 200; 159; 225; 184; 167; 225; 184; 163; 225; 184; 169; 225; 184; 165; 225;
   184; 171; 225; 186; 150; 10; 105; 195; 173; 195; 172; 196; 173; 195; 174; 199; 144; 195; 175; 225; 184; 175; 196; 169; 196; 175; 196; 171; 225; 187;
   137; 200; 137; 200; 139; 225; 187; 139; 225; 184; 173; 201; 168; 225; 181; 187; 225; 182; 150; 196; 176; 105; 10; 106; 196; 181; 201; 137; 199; 176;
   200; 183; 10; 107; 225; 184; 177; 199; 169; 196; 183; 225; 184; 179; 225; 184; 181; 198; 153; 226; 177; 170; 10; 108; 196; 186; 196; 190; 196; 188;
   225; 184; 183; 225; 184; 185; 225; 184; 189; 225; 184; 187; 197; 130; 10; 109; 225; 184; 191; 225; 185; 129; 225; 185; 131; 10; 110; 197; 132; 199;
   185; 197; 136; 195; 177; 225; 185; 133; 197; 134; 225; 185; 135; 225; 185; 139; 225; 185; 137; 110; 10; 111; 195; 179; 195; 178; 197; 143; 195; 180;
   225; 187; 145; 225; 187; 147; 225; 187; 151; 225; 187; 149; 199; 146; 195; 182; 200; 171; 197; 145; 195; 181; 225; 185; 141; 225; 185; 143; 200; 173;
   200; 175; 111; 205; 152; 200; 177; 195; 184; 199; 191; 199; 171; 199; 173; 197; 141; 225; 185; 147; 225; 185; 145; 225; 187; 143; 200; 141; 200; 143;
   198; 161; 225; 187; 155; 225; 187; 157; 225; 187; 161; 225; 187; 159; 225; 187; 163; 225; 187; 141; 225; 187; 153; 201; 181; 10; 112; 225; 185; 149;
   225; 185; 151; 225; 181; 189; 198; 165; 112; 204; 131; 10; 114; 197; 149; 197; 153; 225; 185; 153; 197; 151; 200; 145; 200; 147; 225; 185; 155; 225;
   185; 157; 225; 185; 159; 201; 141; 10; 115; 197; 155; 225; 185; 165; 197; 157; 197; 161; 225; 185; 167; 225; 185; 161; 197; 159; 225; 185; 163; 225;
   185; 169; 200; 153; 115; 204; 169; 10; 116; 197; 165; 225; 185; 171; 197; 163; 225; 185; 173; 200; 155; 225; 185; 177; 225; 185; 175; 197; 167; 226;
   177; 166; 198; 173; 202; 136; 225; 186; 151; 10; 117; 195; 186; 195; 185; 197; 173; 195; 187; 199; 148; 197; 175; 195; 188; 199; 152; 199; 156; 199;
   154; 199; 150; 197; 177; 197; 169; 225; 185; 185; 197; 179; 197; 171; 225; 185; 187; 225; 187; 167; 200; 149; 200; 151; 198; 176; 225; 187; 169; 225;
   187; 171; 225; 187; 175; 225; 187; 173; 225; 187; 177; 225; 187; 165; 225; 185; 179; 225; 185; 183; 225; 185; 181; 10; 118; 225; 185; 189; 225; 185;
   191; 10; 119; 225; 186; 131; 225; 186; 129; 197; 181; 225; 186; 133; 225; 186; 135; 225; 186; 137; 225; 186; 152; 10; 120; 225; 186; 141; 225; 186;
   139; 10; 195; 189; 225; 187; 179; 197; 183; 225; 186; 153; 195; 191; 225; 187; 185; 225; 186; 143; 200; 179; 225; 187; 183; 225; 187; 181; 201; 143;
   198; 180; 10; 122; 197; 186; 225; 186; 145; 197; 190; 197; 188; 225; 186; 147; 225; 186; 149; 198; 182; 10].
(** The bytes of share/greekAccentedLetterGroups.txt. *)
Definition greek_file : list N :=
  [206; 177; 206; 172; 10; 206; 181; 206; 173; 10; 206; 183; 206; 174; 10; 206; 185; 206; 175; 207; 138; 206; 144; 10; 206; 191; 207; 140; 10; 207; 133;
   207; 141; 207; 139; 206; 176; 10; 207; 137; 207; 142; 10].
(** The file in share/ that ErrorValues.cc:38-39 names for a group. *)
Definition shipped_file (g : accent_group) : list N := match g with LatinAccents => latin_file | GreekAccents => greek_file end.
