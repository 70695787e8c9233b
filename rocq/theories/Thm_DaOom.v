(** C136: the assignment of a Document that runs out of memory.  The functions: [d_assign]
    of DaOomM.v and the programs of OomM.v, where a list of booleans says which allocations
    succeed and a number counts the blocks allocated; vocabulary: [the_doc], the value that
    a Document shows, and [undamaged] of Spec_Oom.v. *)
From Verif Require Import Base TrieM WordM MapM DoubleM ContM OwnM Spec_Own Demo OomM Spec_Oom OomX DaOomM DaOomP DaOomX.
Local Open Scope Z_scope.

(** C136: after every program, one Document is assigned to another: nothing is undefined and
    nothing asserts.  Either it returns and the two are equal, or it throws and the one
    assigned to has the new identifier and no text.  Either way it can be destroyed; then as
    much is allocated as if it had been destroyed instead, but for one block if it threw while
    it copied texts that have words.
    Missing: that it keeps its value if it throws, and that no block is lost. *)
Theorem C136_ends_partial E p ops m vs fs x y a b : runs E ops (mkMem p 0) [] = (m, vs, fs) -> undamaged E ops (mkMem p 0) [] -> x <> y ->
  nth_error vs x = Some (Some (ODoc a)) -> nth_error vs y = Some (Some (ODoc b)) ->
  exists m' a' e, d_assign a b m = (m', Val (a', e)) /\ (e = None -> the_doc a' = the_doc b) /\ (e <> None -> the_doc a' = mkDoc (d_id (the_doc b)) []) /\
  exists m1 m2 lost, d_destroy a m = (m1, Val tt) /\ d_destroy a' m' = (m2, Val tt) /\ live m2 = live m1 + lost /\ (e = None -> lost = 0) /\ (Forall (fun t => snd t = []) (d_texts (the_doc b)) -> lost = 0) /\ 0 <= lost <= 1.
Proof. exact (fun H Hn _ Ha Hb => @da_ends E p ops m vs fs H Hn x y a b Ha Hb). Qed.
Print Assumptions C136_ends_partial.
(** C136: it throws only if an allocation can fail: the list is at its end, after which all
    succeed. *)
Theorem C136_enough E p ops m vs fs x y a b : runs E ops (mkMem p 0) [] = (m, vs, fs) -> undamaged E ops (mkMem p 0) [] -> x <> y ->
  nth_error vs x = Some (Some (ODoc a)) -> nth_error vs y = Some (Some (ODoc b)) -> plan m = [] ->
  exists m' a', d_assign a b m = (m', Val (a', None)) /\ the_doc a' = the_doc b.
Proof. exact (fun H Hn _ Ha Hb => @da_enough E p ops m vs fs H Hn x y a b Ha Hb). Qed.
Print Assumptions C136_enough.
(** C136: whether it threw or not, the program can go on with the Document as assigned to:
    nothing is undefined but what is so anyway, an asUtf8 that overflows and a Word made of
    no letters; the statements have the effects they should have; and when all objects are
    destroyed what is left is what the statements that threw may have lost, and one block
    if the assignment threw. *)
Theorem C136_usable_partial E p ops m vs fs x y a b m' a' e ops2 m2 vs2 fs2 : runs E ops (mkMem p 0) [] = (m, vs, fs) -> undamaged E ops (mkMem p 0) [] -> no_crash fs -> x <> y ->
  nth_error vs x = Some (Some (ODoc a)) -> nth_error vs y = Some (Some (ODoc b)) -> d_assign a b m = (m', Val (a', e)) ->
  runs E ops2 m' (upd x (Some (ODoc a')) vs) = (m2, vs2, fs2) ->
  undamaged E ops2 m' (upd x (Some (ODoc a')) vs) ->
  ~ In Died_fuel fs2 /\
  (forall k, nth_error fs2 k = Some Died_undefined -> nth_error ops2 k = Some (SWordLetters []) \/ exists z w, nth_error ops2 k = Some (SWordUtf8 z) /\ nth_error (the_values vs2) z = Some (Some (VWord (WGood w))) /\ asUtf8 w = UB) /\
  (e_ndebug E = false -> never_threw assigns ops2 fs2 -> v_prog E (map same (done ops2 fs2)) (the_values (upd x (Some (ODoc a')) vs)) = (the_values vs2, Ok (map (fun _ => Ok tt) (done ops2 fs2)))) /\
  (no_crash fs2 -> (forall v, In v vs2 -> v = None) -> 0 <= live m2 <= may_be_lost ops fs + (match e with None => 0 | Some _ => 1 end) + may_be_lost ops2 fs2).
Proof. exact (fun H Hn Hc _ Ha Hb => @da_usable E p ops m vs fs H Hn x y a b m' a' e ops2 m2 vs2 fs2 Hc Ha Hb). Qed.
Print Assumptions C136_usable_partial.
(** C136: false that a Document keeps its value if the assignment throws... *)
Theorem C136_kept_refuted : x_assigned 27 (Some OutOfMemory) (mkDoc 2 []) 0.
Proof. exact x_emptied. Qed.
Print Assumptions C136_kept_refuted.
(** ... and that nothing is lost. *)
Theorem C136_leak_refuted : x_assigned 30 (Some OutOfMemory) (mkDoc 2 []) 1.
Proof. exact x_leaks1. Qed.
Print Assumptions C136_leak_refuted.

(** The same program where the allocation after those of the assignment would fail. *)
Example C136_ex : x_assigned 32 None x_new 0 /\ x_old <> x_new /\ 0%nat <> 3%nat.
Proof. split; [exact x_done|]. split; discriminate. Qed.
Example C136_enough_ex : exists m vs fs a b, runs demo x_two (mkMem [] 0) [] = (m, vs, fs) /\ nth_error vs 0 = Some (Some (ODoc a)) /\ nth_error vs 3 = Some (Some (ODoc b)) /\
  undamaged demo x_two (mkMem [] 0) [] /\ plan m = [].
Proof. exact x_plenty. Qed.
(** An assignment that throws where the only text has no words. *)
Example C136_bare_ex : exists m vs fs a b m' a', runs demo x_bare (mkMem (fails_at 12) 0) [] = (m, vs, fs) /\ nth_error vs 0 = Some (Some (ODoc a)) /\ nth_error vs 3 = Some (Some (ODoc b)) /\
  undamaged demo x_bare (mkMem (fails_at 12) 0) [] /\ d_texts (the_doc b) = [([97; 98], [])]%N /\ d_assign a b m = (m', Val (a', Some OutOfMemory)).
Proof. exact x_bare_run. Qed.
Example C136_usable_ex : exists m vs fs a b m' a' m2 vs2, runs demo x_two (mkMem (fails_at 30) 0) [] = (m, vs, fs) /\ no_crash fs /\ nth_error vs 0 = Some (Some (ODoc a)) /\ nth_error vs 3 = Some (Some (ODoc b)) /\
  d_assign a b m = (m', Val (a', Some OutOfMemory)) /\ runs demo x_rest m' (upd 0 (Some (ODoc a')) vs) = (m2, vs2, repeat Done 5) /\ undamaged demo x_rest m' (upd 0 (Some (ODoc a')) vs) /\
  (forall v, In v vs2 -> v = None) /\ live m2 = 1.
Proof. exact x_goes_on. Qed.
