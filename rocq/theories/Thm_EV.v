(** Properties C20 - C29: substitution prices of an ErrorValues object. *)
From Verif Require Import Base ErrorValuesM Spec_EV EVP EVE EVK ScalarP.
Local Open Scope N_scope.

(** A mixed history used by the examples: letters below and above 512, a group
    that is refused, a clear in the middle. *)
Definition ex_calls : list ev_call :=
  [SetError 1 2 9%Z; ClearErrors; SetError 98 97 7%Z; SetGroupError [99; 100; 700] 30%Z;
   SetGroupError [101; 99] 5%Z; SetError 600 700 3%Z; SetTransposeError 50%Z; AddKeyboardErrors].

(** C20.  Whatever was called before (failing calls included), a substitution
    price exists and is symmetric. *)
Theorem C20_symmetric : forall calls a b,
  exists v, getSubstituteError (ev_after calls) a b = Ok v /\ getSubstituteError (ev_after calls) b a = Ok v.
Proof. exact get_symmetric. Qed.
Print Assumptions C20_symmetric.
Example C20_ex : getSubstituteError (ev_after ex_calls) 700 100 = Ok 30%Z /\ getSubstituteError (ev_after ex_calls) 100 700 = Ok 30%Z.
Proof. split; vm_compute; reflexivity. Qed.

(** C21.  setError on two different letters sets that pair and nothing else. *)
Theorem C21_setError_exact : forall calls x y v a b, x <> y ->
  getSubstituteError (ev_after (calls ++ [SetError x y v])) a b =
  if same_pair a b x y then Ok v else getSubstituteError (ev_after calls) a b.
Proof. exact setError_exact. Qed.
Print Assumptions C21_setError_exact.
Example C21_ex : getSubstituteError (ev_after (ex_calls ++ [SetError 97 98 1%Z])) 98 97 = Ok 1%Z
  /\ getSubstituteError (ev_after (ex_calls ++ [SetError 97 98 1%Z])) 600 700 = Ok 3%Z.
Proof. split; vm_compute; reflexivity. Qed.

(** C22 is false: for letters from 512 up an old setError beats a later
    setGroupError. *)
Theorem C22_last_call_decides_refuted : exists calls a b v,
  Forall basic calls /\ all_ok (calls ++ [SetGroupError [a; b] v]) ev_new /\ a <> b /\
  exists w, getSubstituteError (ev_after (calls ++ [SetGroupError [a; b] v])) a b = Ok w /\ w <> v.
Proof. exact last_call_refuted. Qed.
Print Assumptions C22_last_call_decides_refuted.
(** What holds: below 512 the last call naming the pair decides ... *)
Theorem C22_last_call_decides_small : forall calls a b,
  Forall basic calls -> all_ok calls ev_new -> a < 512 -> b < 512 ->
  getSubstituteError (ev_after calls) a b = Ok (latest_price calls a b).
Proof. exact latest_price_ok. Qed.
Print Assumptions C22_last_call_decides_small.
(** ... from 512 up explicit pairs come first, then groups, then the default. *)
Theorem C22_rule_decides_large : forall calls a b,
  Forall basic calls -> all_ok calls ev_new -> 512 <= a \/ 512 <= b ->
  getSubstituteError (ev_after calls) a b = Ok (rule_price calls a b).
Proof. exact price_large. Qed.
Print Assumptions C22_rule_decides_large.
Definition ex_basic : list ev_call :=
  [SetError 97 98 7%Z; SetGroupError [97; 98; 700; 701] 30%Z; SetError 701 700 3%Z; SetInsertionError 4%Z].
Example C22_ex : Forall basic ex_basic /\ all_ok ex_basic ev_new /\
  latest_price ex_basic 97 98 = 30%Z /\ rule_price ex_basic 97 98 = 7%Z /\ rule_price ex_basic 97 700 = 30%Z /\ rule_price ex_basic 700 701 = 3%Z.
Proof. split; [repeat constructor|]. split; [vm_compute; repeat split|repeat split]. Qed.

(** C23.  As long as no explicitly priced pair is put in a common group later
    (and no letter paired with itself), the code value of the letters is not
    observable: one rule gives all prices. *)
Theorem C23_table_unobservable : forall calls a b,
  Forall basic calls -> all_ok calls ev_new -> pairs_stay calls ->
  getSubstituteError (ev_after calls) a b = Ok (rule_price calls a b).
Proof. exact rule_all. Qed.
Print Assumptions C23_table_unobservable.
Definition ex_stay : list ev_call :=
  [SetGroupError [97; 98; 700] 30%Z; SetError 98 97 7%Z; SetError 700 98 3%Z; SetGroupError [99; 800] 20%Z].
Example C23_ex : Forall basic ex_stay /\ all_ok ex_stay ev_new /\ pairs_stay ex_stay /\ rule_price ex_stay 97 98 = 7%Z.
Proof.
  split; [repeat constructor|]. split; [vm_compute; repeat split|]. split; [|reflexivity].
  cbn. repeat split; try discriminate; intros g v H;
    repeat (destruct H as [H|H]; [try discriminate; injection H as <- <-; reflexivity|]); destruct H.
Qed.

(** C24.  Without an explicit setError(a,a,..) a letter costs nothing against
    itself; with one, small letters cost the set value and large ones nothing. *)
Theorem C24_self_costs_nothing : forall calls a,
  (forall v, ~ In (SetError a a v) calls) -> getSubstituteError (ev_after calls) a a = Ok 0%Z.
Proof. exact self_zero. Qed.
Print Assumptions C24_self_costs_nothing.
Theorem C24_self_explicit_small : forall calls a v, a < 512 ->
  getSubstituteError (ev_after (calls ++ [SetError a a v])) a a = Ok v.
Proof. exact self_small. Qed.
Print Assumptions C24_self_explicit_small.
Theorem C24_self_large : forall calls a, 512 <= a -> getSubstituteError (ev_after calls) a a = Ok 0%Z.
Proof. exact self_large. Qed.
Print Assumptions C24_self_large.
Example C24_ex : (forall v, ~ In (SetError 99 99 v) ex_calls) /\ getSubstituteError (ev_after ex_calls) 99 99 = Ok 0%Z
  /\ getSubstituteError (ev_after (ex_calls ++ [SetError 600 600 5%Z])) 600 600 = Ok 0%Z.
Proof. split; [intros v H; cbn in H; repeat (destruct H as [H|H]; [discriminate|]); exact H|]. split; vm_compute; reflexivity. Qed.

(** C25.  clearErrors brings every substitution price back to that of a new
    object and empties all groups. *)
Theorem C25_clear_forgets : forall calls a b,
  getSubstituteError (ev_after (calls ++ [ClearErrors])) a b = getSubstituteError ev_new a b
  /\ isInGroup (ev_after (calls ++ [ClearErrors])) a = false.
Proof. exact clear_forgets. Qed.
Print Assumptions C25_clear_forgets.
(** ... and nothing that happened before is seen in any call after it. *)
Theorem C25_as_new_ever_after : forall calls more, let e := ev_after (calls ++ ClearErrors :: more) in
  (forall a b, getSubstituteError e a b = getSubstituteError (ev_after more) a b) /\ (forall l, isInGroup e l = isInGroup (ev_after more) l) /\
  forall c, snd (ev_do c e) = snd (ev_do c (ev_after more)).
Proof. exact clear_ever_after. Qed.
Print Assumptions C25_as_new_ever_after.
Example C25_ex : getSubstituteError (ev_after ex_calls) 97 98 = Ok 7%Z /\ isInGroup (ev_after ex_calls) 99 = true
  /\ getSubstituteError (ev_after (ex_calls ++ [ClearErrors])) 97 98 = Ok 100%Z /\ getSubstituteError ev_new 97 98 = Ok 100%Z.
Proof. repeat split; vm_compute; reflexivity. Qed.

(** C26.  setGroupError throws exactly when one of its letters already is in a
    group, and otherwise succeeds; ... *)
Theorem C26_group_refused : forall calls g v,
  (snd (ev_do (SetGroupError g v) (ev_after calls)) = Throw ERuntime <-> exists l, In l g /\ isInGroup (ev_after calls) l = true) /\
  (snd (ev_do (SetGroupError g v) (ev_after calls)) = Ok tt <-> forall l, In l g -> isInGroup (ev_after calls) l = false).
Proof. exact group_call. Qed.
Print Assumptions C26_group_refused.
(** ... a grouped letter stays grouped until clearErrors; ... *)
Theorem C26_grouped_stays : forall calls more l, ~ In ClearErrors more ->
  isInGroup (ev_after calls) l = true -> isInGroup (ev_after (calls ++ more)) l = true.
Proof. exact grouped_stays. Qed.
Print Assumptions C26_grouped_stays.
(** ... a successful call prices all pairs of its letters. *)
Theorem C26_group_prices : forall calls g v a b,
  snd (ev_do (SetGroupError g v) (ev_after calls)) = Ok tt -> In a g -> In b g -> a <> b ->
  (a < 512 /\ b < 512) \/ no_explicit calls a b ->
  getSubstituteError (ev_after (calls ++ [SetGroupError g v])) a b = Ok v.
Proof. exact group_prices. Qed.
Print Assumptions C26_group_prices.
(** C71.  A refused call changes no price between letters below 512 ... *)
Theorem C71_refused_keeps_small : forall calls g v a b,
  snd (ev_do (SetGroupError g v) (ev_after calls)) <> Ok tt -> a < 512 -> b < 512 ->
  getSubstituteError (ev_after (calls ++ [SetGroupError g v])) a b = getSubstituteError (ev_after calls) a b.
Proof. exact throw_keeps. Qed.
Print Assumptions C71_refused_keeps_small.
(** ... but may change prices of larger letters. *)
Theorem C71_refused_keeps_large_refuted : exists calls g v a b,
  snd (ev_do (SetGroupError g v) (ev_after calls)) = Throw ERuntime /\
  getSubstituteError (ev_after (calls ++ [SetGroupError g v])) a b <> getSubstituteError (ev_after calls) a b.
Proof. exact throw_changes_refuted. Qed.
Print Assumptions C71_refused_keeps_large_refuted.
Example C26_ex : snd (ev_do (SetGroupError [103; 99] 5%Z) (ev_after ex_calls)) = Throw ERuntime
  /\ snd (ev_do (SetGroupError [103; 900] 5%Z) (ev_after ex_calls)) = Ok tt
  /\ getSubstituteError (ev_after (ex_calls ++ [SetGroupError [103; 900] 5%Z])) 900 103 = Ok 5%Z
  /\ no_explicit ex_calls 900 103 /\ ~ In ClearErrors [SetGroupError [103; 99] 5%Z].
Proof.
  repeat split; try (vm_compute; reflexivity); intros H; cbn in H; repeat (destruct H as [H|H]; [discriminate|]); exact H.
Qed.

(** C28.  After addKeyboardErrors: keys side by side in one of the three upper
    rows, and keys just below one another, cost 30; all other prices are kept. *)
Theorem C28_keyboard_partial : forall calls a b,
  getSubstituteError (ev_after (calls ++ [AddKeyboardErrors])) a b =
  if (side_by_side a b && negb (in_row 3 a)) || just_below a b || just_below b a
  then Ok 30%Z else getSubstituteError (ev_after calls) a b.
Proof. exact keyboard_prices. Qed.
Print Assumptions C28_keyboard_partial.
(** The bottom row is left out. *)
Theorem C28_bottom_row_refuted : exists a b, side_by_side a b = true /\
  getSubstituteError (ev_after [AddKeyboardErrors]) a b = Ok 100%Z.
Proof. exact bottom_row_refuted. Qed.
Print Assumptions C28_bottom_row_refuted.
Example C28_ex : side_by_side 113 119 = true /\ in_row 3 113 = false /\ just_below 119 97 = true /\ just_below 119 122 = false.
Proof. repeat split. Qed.

(** C29.  After addNumberpadErrors a digit costs 0 against the letters of its own
    key and 50 against those of the touching keys the code looks at; all other
    prices are kept. *)
Theorem C29_numberpad_partial : forall calls a b,
  getSubstituteError (ev_after (calls ++ [AddNumberpadErrors])) a b =
  if on_key a b || on_key b a then Ok 0%Z
  else if (on_touching_key a b && negb (missed a b)) || (on_touching_key b a && negb (missed b a)) then Ok 50%Z
  else getSubstituteError (ev_after calls) a b.
Proof. exact numberpad_prices. Qed.
Print Assumptions C29_numberpad_partial.
Theorem C29_touching_key_refuted : exists d l, on_touching_key d l = true /\
  getSubstituteError (ev_after [AddNumberpadErrors]) d l = Ok 100%Z.
Proof. exact pad_refuted. Qed.
Print Assumptions C29_touching_key_refuted.
Example C29_ex : on_key 50 97 = true /\ on_touching_key 50 100 = true /\ missed 50 100 = false /\ on_touching_key 53 112 = false.
Proof. repeat split. Qed.

(** addKeyboardErrors and addNumberpadErrors are sequences of setError calls, so
    C21 - C24 apply to them. *)
Theorem C28_keyboard_is_setErrors : exists l : list (N * N * Z), forall calls,
  ev_after (calls ++ [AddKeyboardErrors]) = ev_after (calls ++ map (fun x => SetError (fst (fst x)) (snd (fst x)) (snd x)) l).
Proof. exact key_prices_ok. Qed.
Print Assumptions C28_keyboard_is_setErrors.
Theorem C29_numberpad_is_setErrors : exists l : list (N * N * Z), forall calls,
  ev_after (calls ++ [AddNumberpadErrors]) = ev_after (calls ++ map (fun x => SetError (fst (fst x)) (snd (fst x)) (snd x)) l).
Proof. exact pad_prices_ok. Qed.
Print Assumptions C29_numberpad_is_setErrors.

(** C80: the simple prices are the ones last set. *)
Theorem C80_simple_prices : forall calls n, let s := scalars_after calls in let e := ev_after calls in
  getInsertionError e = s_ins s /\ getDeletionError e = s_del s /\ getEndDeletionError e = s_edel s /\
  getTransposeError e = s_trans s /\ getStartInsertionError e n = if s_limit s <=? n then s_sins s else s_ins s.
Proof. exact getters_spec. Qed.
Print Assumptions C80_simple_prices.
Example C80_ex : let e := ev_after [SetSubstringMode; SetInsertionError 7%Z; SetSubstringStartLimit 5; AddKeyboardErrors; SetGroupError [2; 2] 3%Z] in
  getStartInsertionError e 4 = 7%Z /\ getStartInsertionError e 5 = 15%Z /\ getEndDeletionError e = 15%Z.
Proof. repeat split. Qed.
