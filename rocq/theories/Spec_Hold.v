(** Vocabulary of C122: programs with several Matchers, and what they should hold of the
    operating system. *)
From Verif Require Import Base TrieM WordStoreM ErrorValuesM LevIndexM WordM MapM DoubleM ContM MatcherM Spec_Hist Spec_EV Spec_Match ResM Spec_Res HoldM.
Local Open Scope N_scope.
Local Open Scope m_scope.

Inductive p_call :=
| PNew                             (* m = new Matcher  *)
| PCall (i : nat) (c : m_call)     (* m_i->c           *)
| PDelete (i : nat).               (* delete m_i       *)
Definition h_do (E : env) (c : m_call) : M hst unit :=
  match c with
  | MIndex c => h_index E c
  | MErr c => h_on_ev (ev_do c)
  | MWeight f x => h_set (h_put_w (iw_setWeight f x))
  | MMatch q p => h_match E q p ;;; ret tt
  | MOnline q f => h_onlineMatch E q f ;;; ret tt
  end.
Definition p_do (E : env) (c : p_call) : M msys unit :=
  match c with
  | PNew => h_new E
  | PCall i c => h_on i (h_do E c)
  | PDelete i => h_delete i
  end.
(** A program that catches all exceptions; the exception each call threw, if any. *)
Fixpoint p_run (E : env) (prog : list p_call) : M msys (list (option exn)) := fun s =>
  match prog with
  | [] => (s, Ok [])
  | c :: r =>
    let (s', o) := p_do E c s in
    let go x := let (s2, os) := p_run E r s' in (s2, let! l := os in Ok (x :: l)) in
    match o with
    | Ok _ => go None
    | Throw e => go (Some e)
    | Abort => (s', Abort)
    | UB => (s', UB)
    | Fuel => (s', Fuel)
    end
  end.
(** The operating system refused what the call asked for. *)
Definition refused_call (c : p_call) (x : option exn) : bool :=
  match c, x with
  | PCall _ (MErr _), _ => false
  | _, Some ERuntime => true
  | _, _ => false
  end.
Definition refusals (prog : list p_call) (xs : list (option exn)) : nat :=
  length (filter (fun t => refused_call (fst t) (snd t)) (combine prog xs)).

Definition p_clean (c : p_call) : Prop := match c with PCall _ c => clean c | _ => True end.
(** The program comes to [s] without crashing. *)
Definition p_reaches (E : env) (prog : list p_call) (xs : list (option exn)) (s : msys) : Prop :=
  Forall p_clean prog /\ p_run E prog msys0 = (s, Ok xs).

(** How many Matchers it made, the calls on Matcher [k], and whether it was destroyed. *)
Definition made (prog : list p_call) : nat := length (filter (fun c => match c with PNew => true | _ => false end) prog).
Definition calls_on (k : nat) (prog : list p_call) : list m_call :=
  flat_map (fun c => match c with PCall i c => if Nat.eqb i k then [c] else [] | _ => [] end) prog.
Definition destroyed (k : nat) (prog : list p_call) : bool :=
  existsb (fun c => match c with PDelete i => Nat.eqb i k | _ => false end) prog.
(** The fields in which words were indexed. *)
Definition fields (calls : list m_call) : list word :=
  nodup (list_eq_dec N.eq_dec) (map (fun x => snd (fst x)) (occ calls)).
(** What a Matcher needs: a trie for its words, and one for each field. *)
Definition needs (k : nat) (prog : list p_call) : nat := S (length (fields (calls_on k prog))).
(** Matcher [k] of the program, not yet destroyed. *)
Definition matcher_at (s : msys) (k : nat) (h : hmatcher) : Prop := nth_error (ms_ms s) k = Some (Some h).
(** Two runs end alike: with the same value or exception, or both crash. *)
Definition crashed {A} (o : outcome A) : Prop := match o with Ok _ | Throw _ => False | _ => True end.
Definition alike {A} (a b : outcome A) : Prop := a = b \/ (crashed a /\ crashed b).
