(** Vocabulary of the ErrorValues properties. *)
From Verif Require Import Base ErrorValuesM.
Local Open Scope N_scope.

(** The public calls that change an ErrorValues object. *)
Inductive ev_call :=
| SetError (a b : N) (v : Z)
| SetGroupError (g : word) (v : Z)
| AddAccents (lines : list word)
| AddKeyboardErrors
| AddNumberpadErrors
| AddStandardErrors (latin greek : list word)
| ClearErrors
| SetInsertionError (v : Z)
| SetDeletionError (v : Z)
| SetEndDeletionError (v : Z)
| SetStartInsertionError (v : Z)
| SetTransposeError (v : Z)
| SetSubstringStartLimit (n : N)
| SetSubstringMode.

Definition pure (f : errvals -> errvals) : M errvals unit := fun e => (f e, Ok tt).
Definition ev_do (c : ev_call) : M errvals unit :=
  match c with
  | SetError a b v => pure (setError a b v)
  | SetGroupError g v => setGroupError g v
  | AddAccents ls => addAccents ls
  | AddKeyboardErrors => pure addKeyboardErrors
  | AddNumberpadErrors => pure addNumberpadErrors
  | AddStandardErrors l g => addStandardErrors l g
  | ClearErrors => pure clearErrors
  | SetInsertionError v => pure (setInsertionError v)
  | SetDeletionError v => pure (setDeletionError v)
  | SetEndDeletionError v => pure (setEndDeletionError v)
  | SetStartInsertionError v => pure (setStartInsertionError v)
  | SetTransposeError v => pure (setTransposeError v)
  | SetSubstringStartLimit n => pure (setSubstringStartLimit n)
  | SetSubstringMode => pure setSubstringMode
  end.

(** A new object after any history of calls; the client catches exceptions and
    goes on using the object. *)
Definition ev_run (calls : list ev_call) (e : errvals) : errvals :=
  fold_left (fun e c => fst (ev_do c e)) calls e.
Definition ev_after (calls : list ev_call) : errvals := ev_run calls ev_new.

(** Every call of the history returned normally. *)
Fixpoint all_ok (calls : list ev_call) (e : errvals) : Prop :=
  match calls with
  | [] => True
  | c :: r => snd (ev_do c e) = Ok tt /\ all_ok r (fst (ev_do c e))
  end.

(** {a,b} = {x,y} *)
Definition same_pair (a b x y : N) : bool :=
  ((a =? x) && (b =? y)) || ((a =? y) && (b =? x)).
Definition memb (l : N) (g : word) : bool := existsb (N.eqb l) g.

(** No call of the history sets the price of this pair by itself. *)
Definition no_explicit (calls : list ev_call) (a b : N) : Prop :=
  forall v, ~ In (SetError a b v) calls /\ ~ In (SetError b a v) calls.

(** The calls for which these rules are stated (the others do not concern
    substitutions, or are sequences of these, see C28/C29). *)
Definition basic (c : ev_call) : Prop :=
  match c with
  | AddAccents _ | AddKeyboardErrors | AddNumberpadErrors | AddStandardErrors _ _ => False
  | _ => True
  end.

(** The price a single call names for the pair {a,b}. *)
Definition names (c : ev_call) (a b : N) : option Z :=
  match c with
  | SetError x y v => if same_pair a b x y then Some v else None
  | SetGroupError g v => if memb a g && memb b g && negb (a =? b) then Some v else None
  | _ => None
  end.

(** Last call wins; [acc] is the price before the history. *)
Fixpoint latest (calls : list ev_call) (a b : N) (acc : Z) : Z :=
  match calls with
  | [] => acc
  | ClearErrors :: r => latest r a b (if a =? b then 0%Z else 100%Z)
  | c :: r => latest r a b (match names c a b with Some v => v | None => acc end)
  end.
Definition latest_price (calls : list ev_call) (a b : N) : Z :=
  latest calls a b (if a =? b then 0%Z else 100%Z).

(** The explicit price of a pair: last SetError on it since the last clear. *)
Fixpoint explicit (calls : list ev_call) (a b : N) (acc : option Z) : option Z :=
  match calls with
  | [] => acc
  | ClearErrors :: r => explicit r a b None
  | SetError x y v :: r => explicit r a b (if same_pair a b x y then Some v else acc)
  | _ :: r => explicit r a b acc
  end.
(** The price of the group both letters were put in together. *)
Fixpoint common_group (calls : list ev_call) (a b : N) (acc : option Z) : option Z :=
  match calls with
  | [] => acc
  | ClearErrors :: r => common_group r a b None
  | SetGroupError g v :: r => common_group r a b (if memb a g && memb b g then Some v else acc)
  | _ :: r => common_group r a b acc
  end.
(** Explicit pair, else common group, else the default. *)
Definition rule_price (calls : list ev_call) (a b : N) : Z :=
  if a =? b then 0%Z else
  match explicit calls a b None with
  | Some v => v
  | None => match common_group calls a b None with Some v => v | None => 100%Z end
  end.

(** No pair mentioned by a SetError is put in a common group afterwards. *)
Fixpoint pairs_stay (calls : list ev_call) : Prop :=
  match calls with
  | [] => True
  | SetError x y _ :: r => x <> y /\ (forall g v, In (SetGroupError g v) r -> memb x g && memb y g = false) /\ pairs_stay r
  | _ :: r => pairs_stay r
  end.

(** ** The keyboard and the number pad, as drawn *)

(** Rows of the built-in (Finnish) layout. *)
Definition key_rows : list word :=
  [ [49; 50; 51; 52; 53; 54; 55; 56; 57; 48; 43];           (* 1 2 3 4 5 6 7 8 9 0 + *)
    [113; 119; 101; 114; 116; 121; 117; 105; 111; 112; 229]; (* q w e r t y u i o p å *)
    [97; 115; 100; 102; 103; 104; 106; 107; 108; 246; 228; 39]; (* a s d f g h j k l ö ä ' *)
    [122; 120; 99; 118; 98; 110; 109; 44; 46; 45] ].         (* z x c v b n m , . - *)

Fixpoint index_in (l : N) (row : word) : option nat :=
  match row with
  | [] => None
  | x :: r => if l =? x then Some O else match index_in l r with Some i => Some (S i) | None => None end
  end.
Fixpoint place_in (l : N) (rows : list word) : option (nat * nat) :=
  match rows with
  | [] => None
  | row :: r => match index_in l row with
                | Some c => Some (O, c)
                | None => match place_in l r with Some (i, c) => Some (S i, c) | None => None end
                end
  end.
Definition key_place (l : N) : option (nat * nat) := place_in l key_rows.

(** [a] and [b] are side by side in one row. *)
Definition side_by_side (a b : N) : bool :=
  match key_place a, key_place b with
  | Some (r, c), Some (r', c') => Nat.eqb r r' && (Nat.eqb c' (S c) || Nat.eqb c (S c'))
  | _, _ => false
  end.
Definition in_row (n : nat) (a : N) : bool :=
  match key_place a with Some (r, _) => Nat.eqb r n | None => false end.
(** [b] is in the row below [a], in the same column or the one before. *)
Definition just_below (a b : N) : bool :=
  match key_place a, key_place b with
  | Some (r, c), Some (r', c') => Nat.eqb r' (S r) && (Nat.eqb c' c || Nat.eqb (S c') c)
  | _, _ => false
  end.

(** The 3 x 3 number pad: digits and the letters on them. *)
Definition pad_digit_rows : list word := [ [49; 50; 51]; [52; 53; 54]; [55; 56; 57] ].
Definition pad_letter_rows : list (list word) :=
  [ [ []; [97; 98; 99]; [100; 101; 102] ];
    [ [103; 104; 105]; [106; 107; 108]; [109; 110; 111] ];
    [ [112; 113; 114; 115]; [116; 117; 118]; [119; 120; 121; 122] ] ].
Definition digit_place (d : N) : option (nat * nat) := place_in d pad_digit_rows.
Fixpoint letter_place_in (l : N) (rows : list (list word)) : option (nat * nat) :=
  match rows with
  | [] => None
  | row :: r => match place_in l row with
                | Some (c, _) => Some (O, c)
                | None => match letter_place_in l r with Some (i, c) => Some (S i, c) | None => None end
                end
  end.
Definition letter_place (l : N) : option (nat * nat) := letter_place_in l pad_letter_rows.

(** Letter [l] is on the key of digit [d] / on a key touching it by a side. *)
Definition on_key (d l : N) : bool :=
  match digit_place d, letter_place l with
  | Some (r, c), Some (r', c') => Nat.eqb r r' && Nat.eqb c c'
  | _, _ => false
  end.
Definition on_touching_key (d l : N) : bool :=
  match digit_place d, letter_place l with
  | Some (r, c), Some (r', c') =>
    (Nat.eqb r r' && (Nat.eqb c' (S c) || Nat.eqb c (S c'))) || (Nat.eqb c c' && (Nat.eqb r' (S r) || Nat.eqb r (S r')))
  | _, _ => false
  end.
(** The touching keys the code misses: left of the middle column, above the
    middle row. *)
Definition missed (d l : N) : bool :=
  match digit_place d, letter_place l with
  | Some (r, c), Some (r', c') =>
    (Nat.eqb r r' && Nat.eqb c 1 && Nat.eqb c' 0) || (Nat.eqb c c' && Nat.eqb r 1 && Nat.eqb r' 0)
  | _, _ => false
  end.

(** ** The simple prices: what the last call that sets one says *)
Record scalars := mkSc { s_ins : Z; s_del : Z; s_edel : Z; s_sins : Z; s_trans : Z; s_limit : N }.
Definition set_scalar (c : ev_call) (s : scalars) : scalars :=
  match c with
  | SetInsertionError v => mkSc v (s_del s) (s_edel s) (s_sins s) (s_trans s) (s_limit s)
  | SetDeletionError v => mkSc (s_ins s) v (s_edel s) (s_sins s) (s_trans s) (s_limit s)
  | SetEndDeletionError v => mkSc (s_ins s) (s_del s) v (s_sins s) (s_trans s) (s_limit s)
  | SetStartInsertionError v => mkSc (s_ins s) (s_del s) (s_edel s) v (s_trans s) (s_limit s)
  | SetTransposeError v => mkSc (s_ins s) (s_del s) (s_edel s) (s_sins s) v (s_limit s)
  | SetSubstringStartLimit n => mkSc (s_ins s) (s_del s) (s_edel s) (s_sins s) (s_trans s) n
  | SetSubstringMode => mkSc (s_ins s) (s_del s) 15 15 (s_trans s) 3
  | _ => s
  end.
Definition scalars_after (calls : list ev_call) : scalars :=
  fold_left (fun s c => set_scalar c s) calls (mkSc 100 100 100 100 100 0).
