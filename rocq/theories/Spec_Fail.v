(** Independent vocabulary for a Matcher that runs out of memory. *)
From Verif Require Import Base TrieM WordStoreM ErrorValuesM LevIndexM WordM MapM DoubleM ContM MatcherM FailM
  Spec_Hist Spec_EV Spec_Edit Spec_Lev Spec_Word Spec_Cont Spec_Match.
Local Open Scope N_scope.
Local Open Scope f_scope.

(** The calls of Spec_Match.v on a matcher that may run out of memory. *)
Definition f_do (E : env) (c : m_call) : F unit :=
  match c with
  | MIndex c => f_index E c
  | MErr c => on_m (on_ev (ev_do c))
  | MWeight f x => f_setWeight f x
  | MMatch q p => f_match E q p ;;; val tt
  | MOnline q f => f_onlineMatch E q f ;;; val tt
  end.
(** The client catches std::bad_alloc and goes on with the same matcher; the rest as in
    Spec_Match.v. *)
Definition f_fatal (c : m_call) (o : fres unit) : bool :=
  match o, c with
  | Val _, _ => false
  | Out, _ => false
  | Thrown ERuntime, MErr _ => false
  | Thrown ERuntime, _ => true
  | Thrown _, _ => false
  | _, _ => true
  end.
Fixpoint f_run (E : env) (calls : list m_call) (s : fst_) : option (fst_ * list (fres unit)) :=
  match calls with
  | [] => Some (s, [])
  | c :: r =>
    let (s', o) := f_do E c s in
    if f_fatal c o then None
    else match f_run E r s' with Some (s2, outs) => Some (s2, o :: outs) | None => None end
  end.
(** A new matcher and these calls on it; [plan] says which allocations succeed, [outs] how
    the calls ended, [s] is what is left. *)
Definition f_history (E : env) (calls : list m_call) (plan : list bool) (outs : list (fres unit)) (s : fst_) : Prop :=
  exists m0, mt_new E = Ok m0 /\ f_run E calls (mkF m0 plan []) = Some (s, outs).
(** No allocation failed at the two places that break the matcher. *)
Definition spared (s : fst_) : Prop := ~ In AtWordIndex (f_failed s) /\ ~ In AtCounts (f_failed s).

(** What is left of the calls in the index: of a call that ran out of memory some
    beginning of what it was to index, of every other call all of it. *)
Inductive remains : list m_call -> list (fres unit) -> list step -> Prop :=
| rem_nil : remains [] [] []
| rem_out c calls outs a b done : indexed [c] = a ++ b -> remains calls outs done -> remains (c :: calls) (Out :: outs) (a ++ done)
| rem_done c calls o outs done : o <> Out -> remains calls outs done -> remains (c :: calls) (o :: outs) (indexed [c] ++ done).
(** Every call that ran out of memory was also made with enough of it. *)
Definition retried (calls : list m_call) (outs : list (fres unit)) : Prop :=
  forall i c, nth_error calls i = Some c -> nth_error outs i = Some Out ->
  exists j o, nth_error calls j = Some c /\ nth_error outs j = Some o /\ o <> Out.
(** The calls that did not run out of memory. *)
Fixpoint heeded (calls : list m_call) (outs : list (fres unit)) : list m_call :=
  match calls, outs with
  | _ :: calls, Out :: outs => heeded calls outs
  | c :: calls, _ :: outs => c :: heeded calls outs
  | _, _ => []
  end.
(** How many calls ran out of memory. *)
Definition outages (outs : list (fres unit)) : nat := length (filter (fun o => match o with Out => true | _ => false end) outs).
(** [all] is [o] and a word for each of some of the calls that ran out of memory, as if
    these words belonged to a document [x]. *)
Definition and_lost (outs : list (fres unit)) (x : N) (o all : list (N * word * word)) : Prop :=
  filter (fun y => negb (fst (fst y) =? x)) all = o /\
  (length all <= length o + outages outs)%nat.
(** What onlineMatch gives document [d]: [all] and [done] as above, [wt] the weights of the
    fields.  Two points for each word of the query in field [f], a hundred more if these
    are all its words, and what match gives. *)
Definition f_online_scored (all : list (N * word * word)) (done : list step) (order : list word) (R : word -> word -> Z -> Prop) (q : list word) (wt : word -> double) (f : word) (d : N) (y : double) : Prop :=
  let n := exact_count (occs done) f q d in
  let part := exact_part (last_size done d f None) (N.of_nat (length q)) n in
  (exists z, scored all order R q sp_new wt d z /\ y = d_add part z) \/
  ((forall z, ~ scored all order R q sp_new wt d z) /\ n <> 0 /\ y = part).
