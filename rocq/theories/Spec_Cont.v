(** Independent vocabulary for the container and result-list properties. *)
From Verif Require Import Base TrieM WordM MapM DoubleM ContM.
Local Open Scope m_scope.

(** ** Histories of addText on one Document *)
Definition add_texts (id : N) (calls : list (word * wordlist)) : document :=
  fold_left (fun d c => fst (doc_addText (fst c) (snd c) d)) calls (doc_new id).
(** The last value given for a key. *)
Definition last_for {B} (calls : list (word * B)) (f : word) : option B := assoc (rev calls) f.
(** How often a word occurs. *)
Definition occurrences (w : word) (t : list word) : N := N.of_nat (count_occ (list_eq_dec N.eq_dec) t w).
Definition set_weights (calls : list (word * double)) : weights :=
  fold_left (fun m c => iw_setWeight (fst c) (snd c) m) calls [].

(** ** Histories of a ResultFilter *)
Inductive f_call := FTerm | FSub (field w : word).
Definition f_step (c : f_call) : M rfilter unit :=
  match c with FTerm => rf_addNewTerm | FSub f w => rf_addNewSubTerm f w end.
Fixpoint f_run (calls : list f_call) : M rfilter unit :=
  match calls with [] => ret tt | c :: r => f_step c ;;; f_run r end.
(** The terms one reads in a history: subterms collect in the current term. *)
Fixpoint terms_of (current : list (word * word)) (calls : list f_call) : list (list (word * word)) :=
  match calls with
  | [] => [current]
  | FTerm :: r => current :: terms_of [] r
  | FSub f w :: r => terms_of (current ++ [(f, w)]) r
  end.

(** ** Lists of results *)
Definition same_rel (x y : double * N) : bool := negb (d_lt (fst x) (fst y)) && negb (d_lt (fst y) (fst x)).
(** [view] is [added] reordered: best first, equals in the order they were added. *)
Record best_first (added view : list (double * N)) : Prop := {
  bf_perm : Permutation view added;
  bf_sorted : StronglySorted (fun a b => d_lt (fst a) (fst b) = false) view;
  bf_ties : forall x, is_nan (fst x) = false -> filter (same_rel x) view = filter (same_rel x) added
}.
Definition no_nan (l : list (double * N)) : Prop := Forall (fun x => is_nan (fst x) = false) l.

(** A program that goes on after an exception. *)
Fixpoint w_run (calls : list r_call) : M world unit :=
  match calls with
  | [] => ret tt
  | c :: r => fun w => let (w', o) := w_step c w in
                       match o with
                       | Ok _ | Throw _ => w_run r w'
                       | _ => (w', o)
                       end
  end.
(** What has been added to each object.  copyResult adds some result of the other
    object (which one: C67). *)
Inductive logged : r_call -> list (list (double * N)) -> list (list (double * N)) -> Prop :=
| lg_new L : logged RNew L (L ++ [[]])
| lg_clone L j l : nth_error L j = Some l -> logged (RClone j) L (L ++ [l])
| lg_assign L i j l : nth_error L j = Some l -> logged (RAssign i j) L (upd i l L)
| lg_add L i id x l : nth_error L i = Some l -> logged (RAdd i id x) L (upd i (l ++ [(x, id)]) L)
| lg_addall L i j l l' : nth_error L i = Some l -> nth_error L j = Some l' -> logged (RAddAll i j) L (upd i (l ++ l') L)
| lg_copy L i j k l l' p : nth_error L i = Some l -> nth_error L j = Some l' -> (k < N.of_nat (length l'))%N -> In p l' ->
    logged (RCopy i j k) L (upd i (l ++ [p]) L)
| lg_nocopy L i j k l' : nth_error L j = Some l' -> (N.of_nat (length l') <= k)%N -> logged (RCopy i j k) L L
| lg_id L i k : logged (RGetID i k) L L
| lg_rel L i k : logged (RGetRel i k) L L.
Inductive logged_all : list r_call -> list (list (double * N)) -> list (list (double * N)) -> Prop :=
| la_nil L : logged_all [] L L
| la_cons c r L1 L2 L3 : logged c L1 L2 -> logged_all r L2 L3 -> logged_all (c :: r) L1 L3.
(** The program names objects it has made ([n] so far), adds no NaN, and does not hand
    an object to its own addResults. *)
Fixpoint proper (n : nat) (calls : list r_call) : Prop :=
  match calls with
  | [] => True
  | RNew :: r => proper (S n) r
  | RClone j :: r => (j < n)%nat /\ proper (S n) r
  | RAssign i j :: r => (i < n)%nat /\ (j < n)%nat /\ proper n r
  | RAdd i _ x :: r => (i < n)%nat /\ is_nan x = false /\ proper n r
  | RAddAll i j :: r => (i < n)%nat /\ (j < n)%nat /\ i <> j /\ proper n r
  | RCopy i j _ :: r => (i < n)%nat /\ (j < n)%nat /\ proper n r
  | RGetID i _ :: r | RGetRel i _ :: r => (i < n)%nat /\ proper n r
  end.
(** The same without the condition on NaN. *)
Fixpoint named (n : nat) (calls : list r_call) : Prop :=
  match calls with
  | [] => True
  | RNew :: r => named (S n) r
  | RClone j :: r => (j < n)%nat /\ named (S n) r
  | RAssign i j :: r => (i < n)%nat /\ (j < n)%nat /\ named n r
  | RAdd i _ _ :: r => (i < n)%nat /\ named n r
  | RAddAll i j :: r => (i < n)%nat /\ (j < n)%nat /\ i <> j /\ named n r
  | RCopy i j _ :: r => (i < n)%nat /\ (j < n)%nat /\ named n r
  | RGetID i _ :: r | RGetRel i _ :: r => (i < n)%nat /\ named n r
  end.
(** A NaN among two or more results. *)
Definition poisoned (l : list (double * N)) : Prop := (2 <= length l)%nat /\ exists x, In x l /\ is_nan (fst x) = true.
(** A read of a result. *)
Definition is_read (c : r_call) : Prop := match c with RGetID _ _ | RGetRel _ _ => True | _ => False end.
(** A call that may change object [j]. *)
Definition modifies (j : nat) (c : r_call) : Prop :=
  match c with RAssign i _ | RAdd i _ _ | RAddAll i _ | RCopy i _ _ => i = j | _ => False end.
