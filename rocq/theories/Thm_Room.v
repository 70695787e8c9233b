(** Theorems about the storage a matcher needs (C106).  The vocabulary is in Spec_Room.v: the
    letters that were given to the matcher, and what the operating system must grant. *)
From Verif Require Import Base TrieM Spec_Hist Spec_Edit ContM MatcherM Spec_Match Spec_Word Spec_Room MatchG Demo StoreX MatchX RoomX.
Local Open Scope N_scope.

(** C106: with enough storage indexing a corpus without empty words succeeds. *)
Theorem C106_index : forall E calls m c, env_ok E -> Forall clean calls -> history E calls m -> clean (MIndex c) -> no_empty (MIndex c) ->
  enough E (calls ++ [MIndex c]) -> exists m', mt_index E c m = (m', Ok tt).
Proof. intros E calls m c HE Hc HH. exact (index_works HE Hc HH (c := c)). Qed.
Print Assumptions C106_index.

(** C106: and so does a search. *)
Theorem C106_match : forall E calls m q p, env_ok E -> Forall clean calls -> history E calls m -> clean (MMatch q p) -> no_empty (MMatch q p) ->
  sound_setup E calls -> sound_query calls q -> enough E (calls ++ [MMatch q p]) -> exists m' r, mt_match E q p m = (m', Ok r).
Proof. intros E calls m q p HE Hc HH. exact (match_works HE Hc HH (q := q) (p := p)). Qed.
Print Assumptions C106_match.

(** C106: no history ends early. *)
Theorem C106_runs : forall E calls, env_ok E -> sound_history E calls -> Forall nameable calls ->
  (forall q f, In (MOnline q f) calls -> well_formed f) -> enough E calls ->
  exists m0 m, mt_new E = Ok m0 /\ m_run E calls m0 = (m, Ok tt).
Proof. exact run_works_all. Qed.
Print Assumptions C106_runs.

(** C106: whenever indexing or a search ends with runtime_error, the system did refuse a size
    that is within these bounds. *)
Theorem C106_index_blame : forall E calls m c m', env_ok E -> Forall clean calls -> history E calls m -> clean (MIndex c) ->
  mt_index E c m = (m', Throw ERuntime) -> too_little E (calls ++ [MIndex c]).
Proof. intros E calls m c m' HE Hc HH. exact (index_blame HE Hc HH (c := c) (m' := m')). Qed.
Print Assumptions C106_index_blame.
Theorem C106_match_blame : forall E calls m q p m', env_ok E -> Forall clean calls -> history E calls m -> clean (MMatch q p) ->
  sound_setup E calls -> sound_query calls q -> mt_match E q p m = (m', Throw ERuntime) -> too_little E (calls ++ [MMatch q p]).
Proof. intros E calls m q p m' HE Hc HH. exact (match_blame HE Hc HH (q := q) (p := p) (m' := m')). Qed.
Print Assumptions C106_match_blame.

Example C106_ex : Forall clean calls_m /\ history demo calls_m m_ex /\ clean (MIndex docs_ex) /\ no_empty (MIndex docs_ex) /\
  sound_history demo calls_h /\ Forall nameable calls_h /\ letters_given calls_h = 47 /\ enough demo (calls_m ++ [MIndex docs_ex]) /\
  env_ok demo_small /\ history demo_small [] (after demo_small []) /\ clean (MIndex long_doc) /\ letters_given [MIndex long_doc] = 42 /\
  snd (mt_index demo_small long_doc (after demo_small [])) = Throw ERuntime /\
  history demo_small [MIndex docs_ex] (after demo_small [MIndex docs_ex]) /\ sound_setup demo_small [MIndex docs_ex] /\ sound_query [MIndex docs_ex] q_ex /\
  snd (mt_match demo_small q_ex (mkSP true [[(repeat 97 20, repeat 98 20)]] []) (after demo_small [MIndex docs_ex])) = Throw ERuntime.
Proof. exact room_example. Qed.
