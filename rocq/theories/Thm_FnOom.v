(** C137: getFieldNames that runs out of memory.  The functions: [d_getFieldNames] of
    FnOomM.v and the programs of OomM.v, where a list of booleans says which allocations
    succeed and a number counts the blocks allocated; vocabulary: [the_doc] and [the_list],
    the values that a Document and a WordList show, and [undamaged] of Spec_Oom.v. *)
From Verif Require Import Base TrieM WordM MapM DoubleM ContM OwnM Spec_Own Demo OomM Spec_Oom OomX FnOomM FnOomP FnOomX.
Local Open Scope Z_scope.

(** C137: after every program, the names of the fields of a Document are added to a WordList.
    It returns and all are added behind what was there, or throws and the first ones are, not
    all.  Either way the WordList can be destroyed, and then as much is allocated as if it
    had been destroyed before. *)
Theorem C137_ends E p ops m vs fs x y d l : runs E ops (mkMem p 0) [] = (m, vs, fs) -> undamaged E ops (mkMem p 0) [] ->
  nth_error vs x = Some (Some (ODoc d)) -> nth_error vs y = Some (Some (OList l)) ->
  exists m' l' e k, d_getFieldNames d l m = (m', Val (l', e)) /\ the_list l' = the_list l ++ firstn k (map fst (d_texts (the_doc d))) /\
  (e = None -> k = length (d_texts (the_doc d))) /\ (e <> None -> (k < length (d_texts (the_doc d)))%nat /\ plan m <> []) /\
  exists m1 m2, l_destroy l m = (m1, Val tt) /\ l_destroy l' m' = (m2, Val tt) /\ live m2 = live m1.
Proof. exact (fun H Hn Hx Hy => @fn_ok E p ops m vs fs H Hn x y d l Hx Hy). Qed.
Print Assumptions C137_ends.
(** C137: whether it threw or not, the program can go on with that WordList: nothing is
    undefined but what is so anyway, an asUtf8 that overflows and a Word made of no letters;
    the statements have the effects they should have; and when all objects are destroyed
    nothing is left but what other statements that threw may have lost. *)
Theorem C137_usable E p ops m vs fs x y d l m' l' e ops2 m2 vs2 fs2 : runs E ops (mkMem p 0) [] = (m, vs, fs) -> undamaged E ops (mkMem p 0) [] -> no_crash fs ->
  nth_error vs x = Some (Some (ODoc d)) -> nth_error vs y = Some (Some (OList l)) -> d_getFieldNames d l m = (m', Val (l', e)) ->
  runs E ops2 m' (upd y (Some (OList l')) vs) = (m2, vs2, fs2) -> undamaged E ops2 m' (upd y (Some (OList l')) vs) ->
  ~ In Died_fuel fs2 /\
  (forall k, nth_error fs2 k = Some Died_undefined -> nth_error ops2 k = Some (SWordLetters []) \/ exists z w, nth_error ops2 k = Some (SWordUtf8 z) /\ nth_error (the_values vs2) z = Some (Some (VWord (WGood w))) /\ asUtf8 w = UB) /\
  (e_ndebug E = false -> never_threw assigns ops2 fs2 -> v_prog E (map same (done ops2 fs2)) (the_values (upd y (Some (OList l')) vs)) = (the_values vs2, Ok (map (fun _ => Ok tt) (done ops2 fs2)))) /\
  (no_crash fs2 -> (forall v, In v vs2 -> v = None) -> 0 <= live m2 <= may_be_lost ops fs + may_be_lost ops2 fs2).
Proof. exact (fun H Hn Hc Hx Hy => @fn_usable E p ops m vs fs H Hn x y d l m' l' e ops2 m2 vs2 fs2 Hc Hx Hy). Qed.
Print Assumptions C137_usable.

Example C137_ex : exists m vs fs d l m' l' m2 vs2, runs demo x_fields (mkMem (fails_at 33) 0) [] = (m, vs, fs) /\ undamaged demo x_fields (mkMem (fails_at 33) 0) [] /\ no_crash fs /\
  nth_error vs 0 = Some (Some (ODoc d)) /\ nth_error vs 2 = Some (Some (OList l)) /\ map fst (d_texts (the_doc d)) = [[97; 98]; [8364; 8364]]%N /\ the_list l = [[99; 100]; [101; 102]]%N /\
  d_getFieldNames d l m = (m', Val (l', Some OutOfMemory)) /\ the_list l' = [[99; 100]; [101; 102]; [97; 98]]%N /\
  runs demo x_ending m' (upd 2 (Some (OList l')) vs) = (m2, vs2, repeat Done 5) /\ undamaged demo x_ending m' (upd 2 (Some (OList l')) vs) /\ (forall v, In v vs2 -> v = None) /\ live m2 = 0.
Proof. exact x_names. Qed.
Example C137_all_ex : exists m vs fs d l m' l', runs demo x_fields (mkMem [] 0) [] = (m, vs, fs) /\ undamaged demo x_fields (mkMem [] 0) [] /\ nth_error vs 0 = Some (Some (ODoc d)) /\ nth_error vs 2 = Some (Some (OList l)) /\
  plan m = [] /\ d_getFieldNames d l m = (m', Val (l', None)) /\ the_list l' = [[99; 100]; [101; 102]; [97; 98]; [8364; 8364]]%N.
Proof. exact x_all_names. Qed.
