(** Property C126: ErrorValues objects when memory runs out. *)
From Verif Require Import Base WordM OomM ErrorValuesM Spec_EV EvOomM Spec_EvOom EvOomQ EvOomX.
Local Open Scope N_scope.

(** C126: with memory enough nothing is different. *)
Theorem C126_enough calls n : (forall c, In c calls -> readable c) -> v_run calls ev_new (mkMem [] n) = (ev_after calls, mkMem [] n, results calls ev_new).
Proof. exact (@enough_run calls ev_new n EVP.new_wf). Qed.
Print Assumptions C126_enough.
Example C126_enough_ex : (forall c, In c [x_group; AddKeyboardErrors; x_group; SetError 97 700 4%Z] -> readable c) /\
  results [x_group; AddKeyboardErrors; x_group; SetError 97 700 4%Z] ev_new = [Val tt; Val tt; Fail (Thrown ERuntime); Val tt].
Proof. split; [|vm_compute; reflexivity]. intros c [<-|[<-|[<-|[<-|[]]]]]; try exact (proj1 x_readable); intros g []. Qed.
(** C126: whatever ran out of memory before, every price exists and is symmetric. *)
Theorem C126_prices_exist e a b : reached e -> exists v, getSubstituteError e a b = Ok v /\ getSubstituteError e b a = Ok v.
Proof. exact (@prices_exist e a b). Qed.
Print Assumptions C126_prices_exist.
(** C126: a call runs out of memory, or has the effect and the end it has with memory
    enough; it loses at most one allocation, and none unless it runs out. *)
Theorem C126_ends c e m e' m' r : reached e -> readable c -> v_do c e m = (e', m', r) ->
  (live m <= live m' <= live m + 1)%Z /\
  (r <> Fail OutOfMemory -> live m' = live m /\ e' = fst (ev_do c e) /\ r = ended (snd (ev_do c e)) /\ (r = Val tt \/ r = Fail (Thrown ERuntime))).
Proof. exact (@do_ends c e m e' m' r). Qed.
Print Assumptions C126_ends.
(** C126: setError that runs out of memory has no effect. *)
Theorem C126_setError x y v e m e1 m1 p : v_do (SetError x y v) e m = (e1, m1, Fail p) -> e1 = e.
Proof. exact (@set_fail x y v e m e1 m1 p). Qed.
Print Assumptions C126_setError.
Example C126_setError_ex : snd (v_do (SetError 97 700 4%Z) ev_new (mkMem [false] 0)) = Fail OutOfMemory /\
  snd (v_do (SetError 97 700 5%Z) (fst (fst (v_do (SetError 97 700 4%Z) ev_new (mkMem [] 0)))) (mkMem [false] 0)) = Val tt.
Proof. split; vm_compute; reflexivity. Qed.
(** C126, for the calls that make no groups: if one throws it ran out of memory, nothing
    is lost, each price is the old or the new one, the groups are the old ones; and it can
    be repeated: when it returns, the prices are as if it had not failed before.
    Missing: calls that make groups. *)
Theorem C126_no_groups_partial c e m e1 m1 p : reached e -> groups c = [] -> v_do c e m = (e1, m1, Fail p) ->
  p = OutOfMemory /\ live m1 = live m /\ between e e1 (fst (ev_do c e)) /\ (forall l, isInGroup e1 l = isInGroup e l) /\
  forall m2 e2 m3, v_do c e1 m2 = (e2, m3, Val tt) -> same_prices e2 (fst (ev_do c e)).
Proof. exact (@pairs_fail c e m e1 m1 p). Qed.
Print Assumptions C126_no_groups_partial.
(** The 60th allocation of addKeyboardErrors fails: one price is new, another still old. *)
Example C126_keyboard_ex : reached ev_new /\ groups AddKeyboardErrors = [] /\
  exists e1 m1, v_do AddKeyboardErrors ev_new (mkMem (repeat true 59 ++ [false]) 0) = (e1, m1, Fail OutOfMemory) /\
  getSubstituteError e1 49 50 = Ok 30%Z /\ getSubstituteError e1 107 108 = Ok 100%Z.
Proof. split; [constructor|]. split; [reflexivity|exact x_keyboard]. Qed.
(** C126, for setGroupError: either it had been done wholly, or no price between letters
    below 512 has changed and nothing is lost. *)
Theorem C126_group_partial g v e m e1 m1 : reached e -> readable (SetGroupError g v) -> v_do (SetGroupError g v) e m = (e1, m1, Fail OutOfMemory) ->
  (snd (ev_do (SetGroupError g v) e) = Ok tt /\ e1 = fst (ev_do (SetGroupError g v) e)) \/
  (live m1 = live m /\ forall a b, a < 512 -> b < 512 -> getSubstituteError e1 a b = getSubstituteError e a b).
Proof. exact (@group_fail g v e m e1 m1). Qed.
Print Assumptions C126_group_partial.
Example C126_group_ex : x_group = SetGroupError [600; 601; 97; 98] 30%Z /\ readable x_group /\ snd (v_do x_group ev_new (mkMem [true; true; false] 0)) = Fail OutOfMemory.
Proof. split; [reflexivity|]. split; [exact (proj1 x_readable)|vm_compute; reflexivity]. Qed.
(** C126: false from 512 up: a call that throws may have changed prices. *)
Theorem C126_group_refuted : exists e1 m1, v_do (SetGroupError [600; 601; 97; 98] 30%Z) ev_new (mkMem [true; true; true; false] 0) = (e1, m1, Fail OutOfMemory) /\
  getSubstituteError e1 600 601 = Ok 30%Z /\ getSubstituteError ev_new 600 601 = Ok 100%Z /\ getSubstituteError e1 97 98 = Ok 100%Z.
Proof. exact group_changes. Qed.
Print Assumptions C126_group_refuted.
(** C126: false that such a call can be repeated: once one of its letters was put in a
    group it never returns again, however much memory there is... *)
Theorem C126_repeat_refuted c e m e1 m1 g l : reached e -> readable c -> v_do c e m = (e1, m1, Fail OutOfMemory) ->
  In g (groups c) -> In l g -> isInGroup e1 l = true -> forall m2, snd (v_do c e1 m2) <> Val tt.
Proof. exact (@stuck_after c e m e1 m1 g l). Qed.
Print Assumptions C126_repeat_refuted.
(** ...for every group of two new letters: if the third allocation fails. *)
Theorem C126_repeat_group_refuted a b r v e m p : reached e -> readable (SetGroupError (a :: b :: r) v) -> isInGroup e a = false -> isInGroup e b = false -> a <> b ->
  plan m = true :: true :: false :: p -> exists e1 m1, v_do (SetGroupError (a :: b :: r) v) e m = (e1, m1, Fail OutOfMemory) /\
  forall m2, snd (v_do (SetGroupError (a :: b :: r) v) e1 m2) <> Val tt.
Proof. exact (@stuck_second a b r v e m p). Qed.
Print Assumptions C126_repeat_group_refuted.
Example C126_repeat_ex : x_accents = AddAccents [[97; 225]; []; [101; 233]] /\ readable x_accents /\
  exists e1 m1, v_do x_accents ev_new (mkMem (repeat true 8 ++ [false]) 0) = (e1, m1, Fail OutOfMemory) /\
  isInGroup e1 97 = true /\ isInGroup e1 101 = false /\ snd (v_do x_accents e1 (mkMem [] 0)) = Fail (Thrown ERuntime).
Proof. split; [reflexivity|]. split; [exact (proj2 x_readable)|exact accents_stuck]. Qed.
(** C126: false that a call that throws has had no effect, for any letters: the text for
    the debug message is made last, and if that runs out of memory all is done; its
    buffer may be lost. *)
Theorem C126_message_refuted : exists e1 m1, v_do (SetGroupError [97; 98] 30%Z) ev_new (mkMem [true; true; true; true; false] 0) = (e1, m1, Fail OutOfMemory) /\
  getSubstituteError e1 97 98 = Ok 30%Z /\ live m1 = 1%Z.
Proof. exact message_late. Qed.
Print Assumptions C126_message_refuted.
(** C126: but clearErrors helps: whatever ran out of memory before, the prices after it
    and after any later calls with memory enough are those of a new object. *)
Theorem C126_clear e n more : reached e -> (forall c, In c more -> readable c) ->
  let e' := fst (fst (v_run (ClearErrors :: more) e (mkMem [] n))) in
  (forall a b, getSubstituteError e' a b = getSubstituteError (ev_after more) a b) /\ (forall l, isInGroup e' l = isInGroup (ev_after more) l) /\
  forall c, snd (ev_do c e') = snd (ev_do c (ev_after more)).
Proof. exact (@clear_reached e n more). Qed.
Print Assumptions C126_clear.
Example C126_clear_ex : exists e1, reached e1 /\ isInGroup e1 600 = true /\ isInGroup e1 601 = false /\
  getSubstituteError (ev_after [x_group]) 97 601 = Ok 30%Z /\ isInGroup (ev_after [x_group]) 97 = true.
Proof. exact x_clear. Qed.
(** C126: an object whose constructor runs out of memory leaves nothing behind. *)
Theorem C126_new m m' r : v_new m = (m', r) -> (r = Val ev_new /\ live m' = (live m + 2)%Z) \/ (r = Fail OutOfMemory /\ live m' = live m).
Proof. exact (@new_clean m m' r). Qed.
Print Assumptions C126_new.
