(** Vocabulary of the properties of the command line program queryindex. *)
From Verif Require Import Base TrieM ErrorValuesM Spec_Hist Spec_Edit Spec_Word QIndexM.
Local Open Scope N_scope.

(** ** How a command line argument is read as a number *)
Definition space (b : N) : Prop := b = 32 \/ 9 <= b <= 13.
Definition digit (b : N) : Prop := 48 <= b <= 57.
Definition value (ds : list N) : Z := fold_left (fun a d => (10 * a + (Z.of_N d - 48))%Z) ds 0%Z.
(** White space, a sign, digits, and a rest that is not read: all four may be empty. *)
Inductive reads_as : list N -> Z -> Prop :=
| reading sp sg ds rest : Forall space sp -> In sg [[]; [43]; [45]] -> Forall digit ds ->
    (forall b r, rest = b :: r -> ~ digit b /\ (ds = [] -> sg = [] -> ~ space b /\ b <> 43 /\ b <> 45)) ->
    reads_as (sp ++ sg ++ ds ++ rest) (match sg with [45] => (- value ds)%Z | _ => value ds end).

(** ** Data files *)

(** The file with these lines, each given by its characters and ended by a line feed. *)
Definition text_file (lines : list (list N)) : list N := flat_map (fun cs => bytes_of cs ++ [10]) lines.
(** A word of at most 1022 bytes, and of less than 1024 bytes in lower case. *)
Definition word_line (E : env) (cs : list N) : Prop :=
  cs <> [] /\ Forall scalar cs /\ (forall c, In c cs -> ~ blank c /\ c <> 0) /\
  N.of_nat (length (bytes_of cs)) <= 1022 /\ N.of_nat (length (bytes_of (map (fold E) cs))) < 1024.
(** The system grants the storage for [n] letters: every size from the first 1024 bytes on
    that may be asked for. *)
Definition room_for (E : env) (n : nat) : Prop :=
  (forall s, 1024 <= s <= 1024 + 64 * N.of_nat n -> grow_ok E s = true) /\ 1024 + 64 * N.of_nat n < 4294967296.
(** The query, given by its characters. *)
Definition query_text (cs : list N) : Prop :=
  Forall scalar cs /\ (forall c, In c cs -> ~ blank c /\ c <> 0) /\ N.of_nat (length (letters_of cs)) <= 20000000.

(** The word the library makes of a line. *)
Definition as_word (E : env) (cs : list N) : word := letters_of (map (fold E) cs).
(** The error of a line against a query, at the default prices. *)
Definition line_error (E : env) (q cs : list N) (err : Z) : Prop :=
  min_cost (prices_of ev_new (length (as_word E q))) (as_word E q) (as_word E cs) err.

(** [answer E lines q limit out]: the lines of [out] are the right answer. *)
Record answer (E : env) (lines : list (list N)) (q : list N) (limit : Z) (out : list printed) : Prop := {
  an_none : (forall cs err, In cs lines -> line_error E q cs err -> (limit < err)%Z) -> out = [PNone];
  an_some : forall cs err, In cs lines -> line_error E q cs err -> (err <= limit)%Z ->
     In (PMatch (bytes_of (map (fold E) cs)) err) out /\ ~ In PNone out;
  an_only : forall p, In p out -> p = PNone \/
     exists cs err, p = PMatch (bytes_of (map (fold E) cs)) err /\ In cs lines /\ line_error E q cs err /\ (err <= limit)%Z;
  an_once : NoDup out;
  an_sorted : Sorted (fun a b => match a, b with PMatch _ x, PMatch _ y => (x <= y)%Z | _, _ => True end) out
}.

(** ** Any bytes *)

(** No NUL, and less than [n] bytes between two line feeds. *)
Definition short_lines (n : N) (file : list N) : Prop :=
  Forall (fun b => 0 < b < 256) file /\
  forall a s b, file = a ++ s ++ b -> ~ In 10 s -> N.of_nat (length s) < n.
(** No NUL, and no text within a line that is at most 1022 bytes long has 1024 bytes or more
    in lower case. *)
Definition printable_file (E : env) (file : list N) : Prop :=
  Forall (fun b => 0 < b < 256) file /\
  forall a s b cs, file = a ++ s ++ b -> ~ In 10 s -> N.of_nat (length s) <= 1022 -> Forall scalar cs -> s = bytes_of cs ->
    N.of_nat (length (bytes_of (map (fold E) cs))) < 1024.
(** A line is too long for the buffer it is read into. *)
Definition long_line (file : list N) : Prop :=
  exists a s b, file = a ++ s ++ b /\ ~ In 10 s /\ N.of_nat (length s) = 1023.
(** The file is empty or ends with a line feed. *)
Definition ended (file : list N) : Prop := forall a b, file = a ++ [b] -> b = 10.
