(** Outcomes, environment and small list utilities shared by all models. *)
From Coq Require Export List NArith ZArith Lia Bool Permutation Sorted.
Export ListNotations.
#[export] Set Implicit Arguments.
#[export] Unset Strict Implicit.

(** ** Outcomes of a C++ call *)

(** The exception classes thrown anywhere in /repo/src (std::out_of_range,
    std::runtime_error, std::invalid_argument). *)
Inductive exn := EOutOfRange | ERuntime | EInvalidArg.

(** Result of running a C++ function.  [Abort] is a failed assert, [UB] is
    undefined behaviour, [Fuel] is only an artefact of the loop bounds of the
    model (theorems exclude it). *)
Inductive outcome (A : Type) :=
| Ok (a : A)
| Throw (e : exn)
| Abort
| UB
| Fuel.
Arguments Ok {A} a.
Arguments Throw {A} e.
Arguments Abort {A}.
Arguments UB {A}.
Arguments Fuel {A}.

(** Sequencing of calls that change no object: anything but a normal return ends the
    caller too (C++ semantics; no lines of its own). *)
Definition obind {A B} (m : outcome A) (k : A -> outcome B) : outcome B :=
  match m with
  | Ok a => k a
  | Throw e => Throw e
  | Abort => Abort
  | UB => UB
  | Fuel => Fuel
  end.

(** A stateful C++ member function: the object state survives exceptions. *)
Definition M (S A : Type) := S -> S * outcome A.

(** A normal return, without change of the object (C++ semantics). *)
Definition ret {S A} (a : A) : M S A := fun s => (s, Ok a).
(** throw, without change of the object (C++ semantics). *)
Definition mthrow {S A} (e : exn) : M S A := fun s => (s, Throw e).
(** Statement after statement in a member function: the state reached so far stays
    (C++ semantics). *)
Definition mbind {S A B} (m : M S A) (k : A -> M S B) : M S B :=
  fun s => let (s', r) := m s in
           match r with
           | Ok a => k a s'
           | Throw e => (s', Throw e)
           | Abort => (s', Abort)
           | UB => (s', UB)
           | Fuel => (s', Fuel)
           end.
(** A const member function: reads the state only. *)
Definition reads {S A} (f : S -> outcome A) : M S A := fun s => (s, f s).

Declare Scope m_scope.
Delimit Scope m_scope with m.
Notation "'let!' x ':=' m 'in' k" := (obind m (fun x => k))
  (at level 200, x pattern, m at level 100, k at level 200, right associativity).
Notation "x <- m ;; k" := (mbind m (fun x => k))
  (at level 100, m at next level, right associativity, k at level 200) : m_scope.
Notation "m ;;; k" := (mbind m (fun _ => k))
  (at level 100, right associativity) : m_scope.

(** ** Environment: everything the code asks of the outside world. *)
Record env := mkEnv {
  e_ndebug : bool;                        (* built with -DNDEBUG?               *)
  e_os     : N -> bool;                   (* ftruncate+mmap succeed for a size? *)
  e_sort   : list (N * Z) -> list (N * Z);(* std::sort by error (IndexMatches)  *)
  e_order  : list N -> list N -> list N;  (* iteration order of a hash container, 
                                             given its name and its keys        *)
  e_lower  : N -> N;                      (* ICU u_tolower on one code unit     *)
  e_rtl    : bool                         (* function arguments are evaluated
                                             from right to left?                *)
}.

(** [assert(b)] *)
Definition massert {S} (E : env) (b : bool) : M S unit :=
  fun s => if b then (s, Ok tt) else if e_ndebug E then (s, Ok tt) else (s, Abort).
(** [assert(b)] in a const function, e.g. Matcher.cc:182-183. *)
Definition oassert (E : env) (b : bool) : outcome unit :=
  if b then Ok tt else if e_ndebug E then Ok tt else Abort.

(** Assumed behaviour of the environment (a hypothesis of the theorems that
    need it, never an axiom): std::sort returns a permutation ordered by the
    comparator; iterating over a hash container visits every element once. *)
Record env_ok (E : env) : Prop := {
  eo_sort_perm : forall l, Permutation (e_sort E l) l;
  eo_sort_sorted : forall l, Sorted (fun a b => (snd a <= snd b)%Z) (e_sort E l);
  eo_order_perm : forall c l, Permutation (e_order E c l) l
}.

(** ** Machine integers *)
Definition u32 (n : N) : N := (n mod 4294967296)%N.
(** Conversion of a mathematical integer to a 32-bit int by wrapping. *)
Definition wrap_i32 (z : Z) : Z :=
  ((z + 2147483648) mod 4294967296 - 2147483648)%Z.
(** The range of a 32-bit int. *)
Definition in_i32 (z : Z) : bool :=
  ((-2147483648 <=? z) && (z <=? 2147483647))%Z.
(** Signed addition: overflow is undefined behaviour. *)
Definition iadd (a b : Z) : outcome Z :=
  if in_i32 (a + b) then Ok (a + b)%Z else UB.

(** include/ColumbusCore.hh.in:218, with WordID = uint32_t. *)
Definition INVALID_WORDID : N := 4294967295.

(** A word as the API sees it: its sequence of UTF-16 code units. *)
Definition word := list N.

(** Replace the [n]-th element. *)
Fixpoint upd {A} (n : nat) (v : A) (l : list A) : list A :=
  match l, n with
  | [], _ => []
  | _ :: r, O => v :: r
  | x :: r, S n' => x :: upd n' v r
  end.

(** Equality of words as letter sequences. *)
Fixpoint weqb (a b : word) : bool :=
  match a, b with
  | [], [] => true
  | x :: a', y :: b' => (x =? y)%N && weqb a' b'
  | _, _ => false
  end.
Lemma weqb_spec a b : reflect (a = b) (weqb a b).
Proof.
  revert b. induction a as [|x a IH]; intros [|y b]; cbn; try (constructor; congruence).
  destruct (N.eqb_spec x y) as [->|Hne]; cbn.
  - destruct (IH b) as [->|Hne]; constructor; congruence.
  - constructor; congruence.
Qed.
Lemma weqb_refl a : weqb a a = true.
Proof. destruct (weqb_spec a a); congruence. Qed.

(** The value a list of pairs gives to a word; used by specifications, models no
    code. *)
Definition assoc {B} (d : list (word * B)) (w : word) : option B :=
  match find (fun p => weqb w (fst p)) d with Some p => Some (snd p) | None => None end.
