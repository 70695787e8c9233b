(** Properties C103 - C105: the command line program queryindex. *)
From Verif Require Import Base TrieM WordM ErrorValuesM Spec_Hist Spec_Edit Spec_Word QIndexM Spec_Tool QIndexP QIndexR QIndexS Demo WordX QIndexX.
Local Open Scope N_scope.

(** C103.  For every file of words, query and limit the program prints exactly the words of
    the file within the limit, in lower case, each once, by increasing error, or that there
    are none, and exits with status 0. *)
Theorem C103_prints : forall E, lower_ok E -> env_ok E -> forall file prog name number more lines q limit,
  Forall (word_line E) lines -> file name = Some (text_file lines) -> room_for E (length (text_file lines)) ->
  query_text q -> reads_as number limit -> in_i32 limit = true ->
  exists out, queryindex E file (prog :: name :: bytes_of q :: number :: more) = Ok (out, 0%Z) /\ answer E lines q limit out.
Proof. exact prints. Qed.
Print Assumptions C103_prints.
(** Every argument can be read as exactly one number. *)
Theorem C103_number : (forall s, exists n, reads_as s n) /\
  (forall s n m, reads_as s n -> reads_as s m -> in_i32 n = true -> in_i32 m = true -> n = m).
Proof. exact (conj reads_total reads_unique). Qed.
Print Assumptions C103_number.
Example C103_ex : lower_ok demo /\ env_ok demo /\ Forall (word_line demo) x_lines /\ x_file (text_file x_lines) x_name = Some (text_file x_lines) /\
  room_for demo (length (text_file x_lines)) /\ query_text x_query /\ reads_as x_number 150 /\ in_i32 150 = true /\
  queryindex demo (x_file (text_file x_lines)) x_argv = Ok ([PMatch [97; 98; 99] 0; PMatch [97; 98; 100] 100], 0%Z) /\
  queryindex demo (x_file (text_file x_lines)) [[113]; x_name; [113; 113; 113; 113; 113]; x_number] = Ok ([PNone], 0%Z).
Proof.
  split; [apply demo_lower_ok|]. split; [apply demo_ok|]. split; [apply x_lines_ok|]. split; [reflexivity|]. split; [now apply x_room|].
  split; [apply x_query_ok|]. split; [apply x_number_ok|]. split; [reflexivity|]. split; [apply x_run|apply x_run_none].
Qed.

(** C104 is false: a malformed data file is not always reported as such (status 1); an empty
    line and bytes that are not UTF-8 end with status 105, a missing last line feed and a NUL
    crash the program.  What the first bad line does: *)
Theorem C104_bad_line_partial : forall E, lower_ok E -> forall file prog name number more lines t rest q limit,
  Forall (word_line E) lines -> c_text t -> ~ In 10 t -> N.of_nat (length t) <= 1022 ->
  file name = Some (text_file lines ++ t ++ 10 :: rest) -> room_for E (length (text_file lines)) ->
  query_text q -> reads_as number limit -> in_i32 limit = true ->
  ((exists cs c, t = bytes_of cs /\ Forall scalar cs /\ In c cs /\ blank c) ->
     queryindex E file (prog :: name :: bytes_of q :: number :: more) = Ok ([PBadFile], 1%Z)) /\
  (~ valid_utf8 t -> queryindex E file (prog :: name :: bytes_of q :: number :: more) = Ok ([PFail], 105%Z)) /\
  (t = [] -> queryindex E file (prog :: name :: bytes_of q :: number :: more) = Ok ([PFail], 105%Z)).
Proof. exact bad_file. Qed.
Print Assumptions C104_bad_line_partial.
(** A last line without line feed: a failed assertion, or its last byte is lost. *)
Theorem C104_no_line_feed : forall E, lower_ok E -> forall file prog name number more lines t b q limit,
  Forall (word_line E) lines -> c_text (t ++ [b]) -> ~ In 10 (t ++ [b]) -> N.of_nat (length t) <= 1022 ->
  file name = Some (text_file lines ++ t ++ [b]) -> room_for E (length (text_file lines)) ->
  query_text q -> reads_as number limit -> in_i32 limit = true ->
  (e_ndebug E = false -> queryindex E file (prog :: name :: bytes_of q :: number :: more) = Abort) /\
  (e_ndebug E = true -> queryindex E file (prog :: name :: bytes_of q :: number :: more) =
     queryindex E (fun _ => Some (text_file lines ++ t ++ [10])) (prog :: name :: bytes_of q :: number :: more)).
Proof. exact no_line_feed. Qed.
Print Assumptions C104_no_line_feed.
(** A line that starts with NUL: undefined behaviour. *)
Theorem C104_nul_line : forall E, lower_ok E -> forall file prog name number more lines rest q limit,
  Forall (word_line E) lines -> file name = Some (text_file lines ++ 0 :: rest) -> room_for E (length (text_file lines)) ->
  query_text q -> reads_as number limit -> in_i32 limit = true ->
  queryindex E file (prog :: name :: bytes_of q :: number :: more) = UB.
Proof. exact nul_line. Qed.
Print Assumptions C104_nul_line.
(** So not every malformed file is reported. *)
Theorem C104_reported_refuted : exists E bs, lower_ok E /\ env_ok E /\ ~ valid_utf8 bs /\
  queryindex E (x_file (bs ++ [10])) x_argv = Ok ([PFail], 105%Z).
Proof. exact reported_refuted. Qed.
Print Assumptions C104_reported_refuted.
Example C104_ex : Forall (word_line demo) x_lines /\ room_for demo (length (text_file x_lines)) /\ query_text x_query /\ reads_as x_number 150 /\
  room_for demo_release (length (text_file x_lines)) /\
  queryindex demo (x_file (text_file x_lines ++ [97; 98; 99; 13; 10])) x_argv = Ok ([PBadFile], 1%Z) /\
  queryindex demo (x_file (text_file x_lines ++ [195; 40; 10; 97; 10])) x_argv = Ok ([PFail], 105%Z) /\
  queryindex demo (x_file (text_file x_lines ++ [10; 97; 10])) x_argv = Ok ([PFail], 105%Z) /\
  queryindex demo (x_file (text_file x_lines ++ [97; 98; 99; 100])) x_argv = Abort /\
  queryindex demo_release (x_file (text_file [[122]] ++ [97; 98; 99; 100])) x_argv = Ok ([PMatch [97; 98; 99] 0], 0%Z) /\
  queryindex demo (x_file (text_file x_lines ++ [0; 97; 10])) x_argv = UB.
Proof.
  split; [apply x_lines_ok|]. split; [now apply x_room|]. split; [apply x_query_ok|]. split; [apply x_number_ok|]. split; [now apply x_room|].
  repeat split; vm_compute; reflexivity.
Qed.

(** C105.  What the program does with its arguments. *)
Theorem C105_arguments : forall E, lower_ok E -> forall file prog name number more,
  (grow_ok E 1024 = false -> forall argv, queryindex E file argv = Ok ([PFail], 105%Z)) /\
  (grow_ok E 1024 = true ->
   (forall args, (length args < 3)%nat -> queryindex E file (prog :: args) = Ok ([PUsage prog], 0%Z)) /\
   (forall q c, Forall scalar q -> In c q -> blank c -> queryindex E file (prog :: name :: bytes_of q :: number :: more) = Ok ([PBadQuery (bytes_of q)], 1%Z)) /\
   (forall t, ~ valid_utf8 t -> queryindex E file (prog :: name :: t :: number :: more) = Ok ([PFail], 105%Z)) /\
   (forall q limit, query_text q -> reads_as number limit -> in_i32 limit = true -> file name = None ->
      queryindex E file (prog :: name :: bytes_of q :: number :: more) = Ok ([PNoFile name], 1%Z))).
Proof. exact arguments. Qed.
Print Assumptions C105_arguments.
(** Whatever the bytes of the file - not words, not UTF-8, storage refused - the program ends
    with status 0, 1 or 105, or with the failed assertion about the line feed at the end of what
    was read; provided there is no NUL and no line that is too long in lower case. *)
Theorem C105_safe_partial : forall E, lower_ok E -> forall file prog name number more, env_ok E -> forall q limit,
  c_text q -> N.of_nat (length q) <= 20000000 -> reads_as number limit -> in_i32 limit = true ->
  (forall bs, file name = Some bs -> printable_file E bs) ->
  (exists out code, queryindex E file (prog :: name :: q :: number :: more) = Ok (out, code) /\ In code [0; 1; 105]%Z) \/
  (queryindex E file (prog :: name :: q :: number :: more) = Abort /\ e_ndebug E = false /\ exists bs, file name = Some bs /\ (~ ended bs \/ long_line bs)).
Proof. exact safe_run. Qed.
Print Assumptions C105_safe_partial.
(** Such are all files whose lines have less than 342 bytes, and all ASCII files. *)
Theorem C105_short_lines : forall E, lower_ok E -> forall bs, short_lines 342 bs -> printable_file E bs.
Proof. exact short_printable. Qed.
Print Assumptions C105_short_lines.
Theorem C105_ascii : forall E bs, (forall c, c < 128 -> fold E c < 128) -> Forall (fun b => 0 < b < 128) bs -> printable_file E bs.
Proof. exact ascii_printable. Qed.
Print Assumptions C105_ascii.
(** It is not safe for every file: a line of 683 bytes that has 1024 in lower case makes it
    write outside its buffer; and a longer one hides the words after it. *)
Theorem C105_safe_refuted : exists E cs, lower_ok E /\ env_ok E /\ Forall scalar cs /\ (forall c, In c cs -> ~ blank c /\ c <> 0) /\
  N.of_nat (length (bytes_of cs)) = 683 /\
  queryindex E (x_file (text_file [cs])) [[113]; x_name; [97]; [57; 57; 57; 57; 57]] = UB /\
  queryindex E (x_file (text_file [570 :: cs; [97]])) [[113]; x_name; [97]; [57; 57; 57; 57; 57]] = Ok ([PMatch [97] 0; PQueryFailed], 99%Z).
Proof. exact safe_refuted. Qed.
Print Assumptions C105_safe_refuted.
Example C105_ex : grow_ok demo 1024 = true /\ queryindex demo (fun _ => None) [[113]; x_name] = Ok ([PUsage [113]], 0%Z) /\
  queryindex demo (fun _ => None) x_argv = Ok ([PNoFile x_name], 1%Z) /\
  queryindex demo (fun _ => None) [[113]; x_name; [97; 32]; x_number] = Ok ([PBadQuery [97; 32]], 1%Z) /\
  printable_file demo [97; 98; 99] /\ ~ ended [97; 98; 99] /\ queryindex demo (x_file [97; 98; 99]) x_argv = Abort.
Proof.
  split; [reflexivity|]. split; [vm_compute; reflexivity|]. split; [vm_compute; reflexivity|]. split; [vm_compute; reflexivity|].
  split; [apply (short_printable demo_lower_ok); apply x_abort|]. split; [|apply x_abort]. intros H. specialize (H [97; 98] 99 eq_refl). discriminate.
Qed.
