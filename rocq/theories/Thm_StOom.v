(** C132: a WordStore, used alone, that runs out of memory.  The functions: [s_getID] in
    StOomM.v and [ws_hasWord], [ws_hasID], [ws_getWord] in WordStoreM.v; clients: [s_all],
    where a list of booleans says which allocations succeed; with memory enough:
    [getID_all] of Spec_Hist.v; vocabulary: Spec_StOom.v. *)
From Verif Require Import Base TrieM WordStoreM Spec_Hist FailM StOomM Spec_StOom Demo StoreX StOomP StOomX.
Local Open Scope N_scope.

(** C132: every call gives a number or runs out of memory, unless the operating system
    refuses storage (C06), which ends the store (C68). *)
Theorem C132_ends : forall E s0 ws plan st os, ws_new E = Ok s0 -> Forall insertable ws -> s_all E ws (mkSO s0 plan) = (st, os) ->
  (length os = length ws /\ went_on os) \/ exists os', os = os' ++ [Thrown ERuntime] /\ went_on os' /\ exists sz, 1024 < sz /\ sz <= 72 + 64 * word_letters ws /\ grow_ok E (u32 sz) = false.
Proof. exact so_ends. Qed.
Print Assumptions C132_ends.

(** C132: a call repeated for the same word gives a number, the same as before if there was one. *)
Theorem C132_again : forall E s0 ws plan st os, ws_new E = Ok s0 -> Forall insertable ws -> s_all E ws (mkSO s0 plan) = (st, os) -> went_on os ->
  forall i j w o, (i < j)%nat -> asked ws os i w o -> nth_error ws j = Some w -> exists id, asked ws os j w (Val id) /\ forall k, o = Val k -> k = id.
Proof. exact so_again. Qed.
Print Assumptions C132_again.

(** C132: a number given for a word stands for it for ever, and for no other.  Missing: words
    for which a call ran out of memory. *)
Theorem C132_names_partial : forall E s0 ws plan st os, ws_new E = Ok s0 -> Forall insertable ws -> s_all E ws (mkSO s0 plan) = (st, os) -> went_on os ->
  forall i w id, asked ws os i w (Val id) -> lucky ws os w -> (ws_hasID (so_store st) id = true /\ (constructible E w -> ws_getWord E (so_store st) id = Ok w)) /\
    forall j v, asked ws os j v (Val id) -> lucky ws os v -> w = v.
Proof. exact (fun E s0 ws plan st os Hn Ha Hr Hg i w id Hi Hl => conj (so_names Hn Ha Hr Hg Hi Hl) (fun j v Hj => so_distinct Hn Ha Hr Hg Hi Hj Hl)). Qed.
Print Assumptions C132_names_partial.
(** C132: false of the others: the number given when the call is repeated may be that of
    another word ... *)
Theorem C132_clash_refuted : exists E s0 w v plan st, ws_new E = Ok s0 /\ insertable w /\ insertable v /\ w <> v /\
  s_all E [w; v; w] (mkSO s0 plan) = (st, [Out; Val 0; Val 0]) /\ ws_getWord E (so_store st) 0 = Ok v.
Proof. exact so_clash. Qed.
Print Assumptions C132_clash_refuted.
(** ... or of none. *)
Theorem C132_unknown_refuted : exists E s0 w plan st, ws_new E = Ok s0 /\ insertable w /\ s_all E [w; w] (mkSO s0 plan) = (st, [Out; Val 0]) /\
  ws_hasWord (so_store st) w = Ok true /\ ws_hasID (so_store st) 0 = false /\ ws_getWord E (so_store st) 0 = Throw EOutOfRange.
Proof. exact so_unknown. Qed.
Print Assumptions C132_unknown_refuted.

(** C132: the store knows the words it was asked for, also those for which memory ran out,
    and only numbers that it gave. *)
Theorem C132_known : forall E s0 ws plan st os, ws_new E = Ok s0 -> Forall insertable ws -> s_all E ws (mkSO s0 plan) = (st, os) -> went_on os ->
  (forall w, Forall nonnul w -> exists b, ws_hasWord (so_store st) w = Ok b /\ (b = true <-> In w ws)) /\
  forall id, (ws_hasID (so_store st) id = true -> exists i w, asked ws os i w (Val id) /\ lucky ws os w) /\ (ws_hasID (so_store st) id = false -> ws_getWord E (so_store st) id = Throw EOutOfRange).
Proof. exact (fun E s0 ws plan st os Hn Ha Hr Hg => conj (fun w Hw => so_has_iff Hn Ha Hr Hg Hw) (so_known Hn Ha Hr Hg)). Qed.
Print Assumptions C132_known.

(** C132: with memory enough, and if no call ran out, all is as in C02 and C03. *)
Theorem C132_enough : forall E ws s s' ids, getID_all E ws s = (s', Ok ids) -> s_all E ws (mkSO s []) = (mkSO s' [], map Val ids).
Proof. exact s_enough. Qed.
Print Assumptions C132_enough.
Theorem C132_told : forall E ws s plan st ids, s_all E ws (mkSO s plan) = (st, map Val ids) -> getID_all E ws s = (so_store st, Ok ids).
Proof. exact s_told. Qed.
Print Assumptions C132_told.

(** Memory runs out for "a" only. *)
Example C132_ex : ws_new demo = Ok (store0 demo) /\ Forall insertable so_words /\ s_all demo so_words (mkSO (store0 demo) so_plan0) = (so_st, so_os) /\
  so_os = [Val 0; Out; Val 1; Val 0; Val 1] /\ went_on so_os /\ asked so_words so_os 0 w_abc (Val 0) /\ lucky so_words so_os w_abc /\ constructible demo w_abc.
Proof.
  split; [exact store0_demo|]. split; [exact so_words_ok|]. split; [exact so_run_eq|]. split; [exact so_os_eq|]. split; [exact so_went|]. split; [exact so_first|]. split; [exact so_lucky|now exists w_abc].
Qed.
Example C132_enough_ex : getID_all demo demo_words (store0 demo) = (fst (getID_all demo demo_words (store0 demo)), Ok [0; 1; 0; 2]).
Proof. exact demo_ids. Qed.
