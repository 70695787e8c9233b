(** Model of the program tools/queryindex.cc: "queryindex datafile queryword max_error". *)
From Verif Require Import Base TrieM WordM WordStoreM ErrorValuesM LevIndexM DataFileM.
Local Open Scope N_scope.
Local Open Scope m_scope.

(** What is printed: one constructor for each printf, queryindex.cc:38, 57, 64, 75, 82, 90,
    97 and 109.  The fixed text around the arguments, and what() of an exception, are not
    modelled; line 97 prints to stderr. *)
Inductive printed :=
| PNoFile (file : list N)
| PNone
| PMatch (text : list N) (error : Z)
| PUsage (prog : list N)
| PBadQuery (query : list N)
| PBadFile
| PQueryFailed
| PFail.

(** The locals of run_test that load_data and queryAndPrint are given by reference,
    queryindex.cc:69-70, and what has been printed so far. *)
Record qstate := mkQ { q_ind : levindex; q_store : wstore; q_out : list printed }.

(** A call on [ind], queryindex.cc:47. *)
Definition on_ind {A} (m : M levindex A) : M qstate A := fun s =>
  let (i', r) := m (q_ind s) in (mkQ i' (q_store s) (q_out s), r).
(** A call on [s], queryindex.cc:47. *)
Definition on_store {A} (m : M wstore A) : M qstate A := fun s =>
  let (w', r) := m (q_store s) in (mkQ (q_ind s) w' (q_out s), r).
(** printf, queryindex.cc:57, 64. *)
Definition print (p : printed) : M qstate unit := fun s =>
  (mkQ (q_ind s) (q_store s) (q_out s ++ [p]), Ok tt).

(** fgets (C library), as called in queryindex.cc:41: at most [room] bytes, up to and with
    the first line feed; what is stored (before the terminator) and what is left to read. *)
Fixpoint fgets (room : N) (bs : list N) : list N * list N :=
  match bs with
  | [] => ([], [])
  | b :: r =>
    if room =? 0 then ([], bs) else
    if b =? 10 then ([b], r) else
    let (l, r') := fgets (room - 1) r in (b :: l, r')
  end.

(** The body of the loop of load_data, queryindex.cc:42-47, on the bytes fgets stored.
    With slen = 0, [buffer[slen-1]] is [buffer[4294967295]]. *)
Definition load_line (E : env) (stored : list N) : M qstate unit :=
  let s := until_nul stored in
  match rev s with
  | [] => reads (fun _ => UB)
  | last :: front =>
    massert E (last =? 10) ;;;
    w <- reads (fun _ => word_of_utf8 E (rev front)) ;;
    id <- on_store (ws_getID E w) ;;
    on_ind (li_insertWord E w id)
  end.

(** The loop of load_data, queryindex.cc:41-48. *)
Fixpoint load_loop (E : env) (fuel : nat) (bs : list N) : M qstate unit :=
  match fuel with
  | O => reads (fun _ => Fuel)
  | S f =>
    match bs with
    | [] => ret tt
    | _ => let (l, r) := fgets 1023 bs in load_line E l ;;; load_loop E f r
    end
  end.

(** load_data, queryindex.cc:34-50, for a file that could be opened, with these contents
    (a directory opens and reads as empty; read errors are not modelled). *)
Definition load_data (E : env) (bs : list N) : M qstate unit :=
  load_loop E (S (length bs)) bs.

(** The loop of queryAndPrint, queryindex.cc:60-65: [n] matches remain, the next is [i].
    printf's arguments are a C string in [buf] and an int. *)
Fixpoint print_loop (E : env) (n : nat) (i : N) (matches : imatches) : M qstate unit :=
  match n with
  | O => ret tt
  | S n' =>
    id <- reads (fun _ => im_getMatch matches i) ;;
    w <- reads (fun s => ws_getWord E (q_store s) id) ;;
    buf <- reads (fun _ => w_toUtf8 w 1024) ;;
    err <- reads (fun _ => im_getMatchError matches i) ;;
    text <- reads (fun _ => c_str buf) ;;
    print (PMatch text err) ;;;
    print_loop E n' (i + 1) matches
  end.

(** queryAndPrint, queryindex.cc:52-66. *)
Definition queryAndPrint (E : env) (query : word) (maxError : Z) : M qstate unit :=
  matches <- (fun s => let (m, r) := findWords E (q_ind s) query ev_new maxError [] in
                       (s, let! _ := r in Ok m)) ;;
  if im_size matches =? 0 then print PNone
  else print_loop E (length matches) 0 matches.

(** atoi (C library), queryindex.cc:85: white space, a sign, digits; undefined if the
    value is not an int. *)
Fixpoint skip_space (s : list N) : list N :=
  match s with
  | b :: r => if (b =? 32) || ((9 <=? b) && (b <=? 13)) then skip_space r else s
  | [] => []
  end.
(** The digits of atoi, queryindex.cc:85. *)
Fixpoint digits (acc : Z) (s : list N) : Z :=
  match s with
  | b :: r => if (48 <=? b) && (b <=? 57) then digits (acc * 10 + (Z.of_N b - 48))%Z r else acc
  | [] => acc
  end.
(** atoi as a whole, queryindex.cc:85. *)
Definition atoi (s : list N) : outcome Z :=
  let v := match skip_space s with
           | b :: r => if b =? 45 then (- digits 0 r)%Z
                       else if b =? 43 then digits 0 r else digits 0 (b :: r)
           | [] => 0%Z
           end in
  if in_i32 v then Ok v else UB.

(** What main turns an exception into, queryindex.cc:105-111. *)
Definition failed (out : list printed) : outcome (list printed * Z) := Ok (out ++ [PFail], 105%Z).

(** run_test and main, queryindex.cc:68-112: what is printed and the exit status.
    [argv] includes the program's name, arguments are given as bytes without NUL; [file name]
    is what fopen(name, "r") gives access to.  exit(1) in load_data ends the program as
    "return 1" would (destructors aside). *)
Definition queryindex (E : env) (file : list N -> option (list N)) (argv : list (list N)) : outcome (list printed * Z) :=
  match li_new E with
  | Throw _ => failed []
  | Abort => Abort | UB => UB | Fuel => Fuel
  | Ok ind =>
  match ws_new E with
  | Throw _ => failed []
  | Abort => Abort | UB => UB | Fuel => Fuel
  | Ok st =>
  match argv with
  | _ :: a1 :: a2 :: a3 :: _ =>
    match word_of_utf8 E a2 with
    | Throw EInvalidArg => Ok ([PBadQuery a2], 1%Z)
    | Throw _ => failed []
    | Abort => Abort | UB => UB | Fuel => Fuel
    | Ok query =>
    let! maxError := atoi a3 in
    match file a1 with
    | None => Ok ([PNoFile a1], 1%Z)
    | Some bs =>
    match load_data E bs (mkQ ind st []) with
    | (s, Throw EInvalidArg) => Ok (q_out s ++ [PBadFile], 1%Z)
    | (s, Throw _) => failed (q_out s)
    | (_, Abort) => Abort | (_, UB) => UB | (_, Fuel) => Fuel
    | (s, Ok _) =>
    match queryAndPrint E query maxError s with
    | (s, Throw _) => Ok (q_out s ++ [PQueryFailed], 99%Z)
    | (_, Abort) => Abort | (_, UB) => UB | (_, Fuel) => Fuel
    | (s, Ok _) => Ok (q_out s, 0%Z)
    end end end end
  | prog :: _ => Ok ([PUsage prog], 0%Z)
  | [] => Ok ([PUsage []], 0%Z)
  end end end.
