(** C123, C124: a Matcher that runs out of memory. *)
From Verif Require Import Base TrieM WordStoreM ErrorValuesM LevIndexM WordM MapM DoubleM ContM MatcherM FailM
  Spec_Hist Spec_EV Spec_Edit Spec_Lev Spec_Word Spec_Cont Spec_Match Spec_Fail FailU FailV MatchX FailX Demo.
Local Open Scope N_scope.

(** C123: after any calls, some of which ran out of memory, every further call runs out of memory or ends as the same call may end on a matcher that always had enough; missing: two places where running out breaks the matcher, see the refuted theorems. *)
Theorem C123_safe_partial : forall E calls plan outs s c s' o, env_ok E -> Forall clean calls -> clean c -> nameable c ->
  match c with MMatch q _ | MOnline q _ => sound_setup E calls /\ sound_query calls q | _ => True end ->
  f_history E calls plan outs s -> f_do E c s = (s', o) -> spared s' ->
  o = Out \/ exists po, o = as_res po /\ expected c po.
Proof. exact oom_safe. Qed.
Print Assumptions C123_safe_partial.

(** C123: with enough memory nothing fails, and the matcher is the one of the other theorems. *)
Theorem C123_enough : forall E calls plan outs s, f_history E calls plan outs s -> Forall (eq true) plan ->
  history E calls (f_m s) /\ f_failed s = [].
Proof. exact oom_enough. Qed.
Print Assumptions C123_enough.

(** C123: once there is memory enough again, no further call runs out: it ends as the same call may end on a matcher that always had enough; missing: the two places. *)
Theorem C123_recovers_partial : forall E calls plan outs s c s' o, env_ok E -> Forall clean calls -> clean c -> nameable c ->
  match c with MMatch q _ | MOnline q _ => sound_setup E calls /\ sound_query calls q | _ => True end ->
  f_history E calls plan outs s -> spared s -> Forall (eq true) (f_plan s) -> f_do E c s = (s', o) ->
  exists po, o = as_res po /\ expected c po.
Proof. exact oom_recovers. Qed.
Print Assumptions C123_recovers_partial.

(** C123: every failure shows: if no call threw bad_alloc, the matcher is the one of the other theorems. *)
Theorem C123_told : forall E calls plan outs s, f_history E calls plan outs s -> Forall (fun o => o <> Out) outs ->
  history E calls (f_m s).
Proof. exact oom_caught. Qed.
Print Assumptions C123_told.

(** C123 fails if memory runs out while a word that is already in the trie of a field is to be counted: the next search reads outside its matrix. *)
Theorem C123_counts_refuted : exists E calls plan outs s q s', sound_setup E calls /\ sound_query calls q /\ f_history E calls plan outs s /\ outs = [Out] /\
  f_do E (MMatch q sp_new) s = (s', Undefined).
Proof. exact counts_refuted. Qed.
Print Assumptions C123_counts_refuted.

(** C123 fails if memory runs out while a new word is to get its number: even when the same call succeeds afterwards, searches throw. *)
Theorem C123_words_refuted : exists E calls plan outs s q s', sound_setup E calls /\ sound_query calls q /\ f_history E calls plan outs s /\ retried calls outs /\
  nth_error outs 1 = Some (Val tt) /\ ~ In AtCounts (f_failed s) /\ f_do E (MMatch q sp_new) s = (s', Thrown EOutOfRange).
Proof. exact words_refuted. Qed.
Print Assumptions C123_words_refuted.

(** C124: what is found is decided by what was indexed before memory ran out: of every call that ran out a beginning of its words, of every other call all; missing: the two places of C123. *)
Theorem C124_found_partial : forall E calls plan outs s, sound_setup E calls -> f_history E calls plan outs s -> spared s ->
  exists done, remains calls outs done /\ forall q p s' r, sound_query calls q -> clean (MMatch q p) -> f_match E q p s = (s', Val r) ->
  exists view, shows r view /\ ranked view /\
    forall d, (exists y, In (y, d) view) <->
      (exists f w qw err, In (d, f, w) (occs done) /\ searching p f /\ In qw q /\ reached (prices_after calls) p qw w err) /\
      filter_holds (occs done) (sp_filter p) d.
Proof. exact oom_found. Qed.
Print Assumptions C124_found_partial.

(** C124: once every call that ran out of memory has been repeated with enough of it, searches find what they would have found. *)
Theorem C124_retry_partial : forall E calls plan outs s q p s' r, sound_setup E calls -> f_history E calls plan outs s -> spared s -> retried calls outs ->
  sound_query calls q -> clean (MMatch q p) -> f_match E q p s = (s', Val r) ->
  exists view, shows r view /\ ranked view /\
    forall d, (exists y, In (y, d) view) <->
      (exists f w qw err, In (d, f, w) (occ calls) /\ searching p f /\ In qw q /\ reached (prices_after calls) p qw w err) /\
      filter_holds (occ calls) (sp_filter p) d.
Proof. exact oom_retry. Qed.
Print Assumptions C124_retry_partial.

(** C124: the relevancies are those of what was indexed and, for some of the calls that ran out, of one more word each, which is counted and belongs to no document. *)
Theorem C124_relevancy_partial : forall E calls plan outs s, sound_setup E calls -> f_history E calls plan outs s -> spared s ->
  exists done x all order, remains calls outs done /\ and_lost outs x (occs done) all /\ NoDup order /\ forall q p s' r, sound_query calls q -> clean (MMatch q p) -> f_match E q p s = (s', Val r) ->
  exists view, shows r view /\ ranked view /\
    forall y d, In (y, d) view <-> d <> x /\ scored all order (reached (prices_after calls) p) q p (weight_after (heeded calls outs)) d y /\ filter_holds (occs done) (sp_filter p) d.
Proof. exact oom_scores. Qed.
Print Assumptions C124_relevancy_partial.

(** C124: onlineMatch finds the documents with a word close to one of the query, and those with a word of the query in the field, among what was indexed before memory ran out. *)
Theorem C124_online_partial : forall E calls plan outs s, sound_setup E calls -> f_history E calls plan outs s -> spared s ->
  exists done, remains calls outs done /\ forall q f s' r, sound_query calls q -> clean (MOnline q f) -> f_onlineMatch E q f s = (s', Val r) ->
  exists view, shows r view /\ ranked view /\
    forall d, (exists y, In (y, d) view) <->
      (exists g w qw err, In (d, g, w) (occs done) /\ In qw q /\ reached (prices_after calls) sp_new qw w err) \/
      (exists w, In (d, f, w) (occs done) /\ In w q).
Proof. exact oom_online. Qed.
Print Assumptions C124_online_partial.

(** C124: what onlineMatch finds once every call that ran out of memory has been repeated. *)
Theorem C124_online_retry_partial : forall E calls plan outs s q f s' r, sound_setup E calls -> f_history E calls plan outs s -> spared s -> retried calls outs ->
  sound_query calls q -> clean (MOnline q f) -> f_onlineMatch E q f s = (s', Val r) ->
  exists view, shows r view /\ ranked view /\
    forall d, (exists y, In (y, d) view) <->
      (exists g w qw err, In (d, g, w) (occ calls) /\ In qw q /\ reached (prices_after calls) sp_new qw w err) \/
      (exists w, In (d, f, w) (occ calls) /\ In w q).
Proof. exact oom_online_retry. Qed.
Print Assumptions C124_online_retry_partial.

(** C124: the relevancies of onlineMatch; the points for exact words and the bonus are those of what was indexed. *)
Theorem C124_online_relevancy_partial : forall E calls plan outs s, sound_setup E calls -> f_history E calls plan outs s -> spared s ->
  exists done x all order, remains calls outs done /\ and_lost outs x (occs done) all /\ NoDup order /\ forall q f s' r, sound_query calls q -> clean (MOnline q f) -> f_onlineMatch E q f s = (s', Val r) ->
  exists view, shows r view /\ ranked view /\
    forall y d, In (y, d) view <-> d <> x /\ f_online_scored all done order (reached (prices_after calls) sp_new) q (weight_after (heeded calls outs)) f d y.
Proof. exact oom_online_scores. Qed.
Print Assumptions C124_online_relevancy_partial.

(** C124 fails if memory runs out while a new word is to get its number: the next new word gets the same number, and documents are found by words they do not have. *)
Theorem C124_clash_refuted : exists E calls plan outs s q s' r d, sound_setup E calls /\ sound_query calls q /\ f_history E calls plan outs s /\ retried calls outs /\
  f_match E q sp_new s = (s', Val r) /\ (exists k, snd (mr_getDocumentID k r) = Ok d) /\
  forall f w qw err, In (d, f, w) (occ calls) -> In qw q -> ~ reached (prices_after calls) sp_new qw w err.
Proof. exact clash_refuted. Qed.
Print Assumptions C124_clash_refuted.

(** C124 fails for the relevancies: repeating a call that ran out of memory does not give those of the calls that had enough. *)
Theorem C124_counted_refuted : exists E calls plan outs s m q s' r m' r2, sound_setup E calls /\ sound_query calls q /\ f_history E calls plan outs s /\ spared s /\ retried calls outs /\
  history E (heeded calls outs) m /\ f_match E q sp_new s = (s', Val r) /\ mt_match E q sp_new m = (m', Ok r2) /\
  snd (mr_getDocumentID 0 r) = snd (mr_getDocumentID 0 r2) /\ snd (mr_getRelevancy 0 r) <> snd (mr_getRelevancy 0 r2).
Proof. exact counted_refuted. Qed.
Print Assumptions C124_counted_refuted.

Example C123_ex : env_ok demo /\ sound_setup demo x_calls /\ sound_query x_calls [w_abc; w_xyz] /\ f_history demo x_calls x_plan x_ends (left_of x_calls x_plan) /\
  spared (left_of x_calls x_plan) /\ f_failed (left_of x_calls x_plan) = [AtReverse; AtWeights; AtReverse] /\
  snd (f_do demo (MOnline [w_abc] w_title) (left_of x_calls x_plan)) = Val tt /\ snd (f_do demo (MOnline [w_abc] [113]) (left_of x_calls x_plan)) = Thrown EInvalidArg.
Proof. split; [exact demo_ok|]. split; [exact x_setup|]. split; [exact x_query|]. split; [exact x_history|]. split; [exact x_spared|]. vm_compute. repeat split. Qed.
Example C123_recovers_ex : spared (left_of x_calls y_plan) /\ f_failed (left_of x_calls y_plan) = [AtReverse; AtWeights] /\ Forall (eq true) (f_plan (left_of x_calls y_plan)) /\
  snd (f_do demo (MMatch [w_abc] sp_new) (left_of x_calls y_plan)) = Val tt.
Proof. split; [exact y_spared|]. vm_compute. repeat constructor. Qed.
Example C124_ex : f_history demo x_calls y_plan y_ends (left_of x_calls y_plan) /\ spared (left_of x_calls y_plan) /\ retried x_calls y_ends /\
  map snd (f_found [w_abc] sp_new (left_of x_calls y_plan)) = [1; 2; 3] /\ map snd (f_found [w_abc] p_filter (left_of x_calls y_plan)) = [1; 2].
Proof. split; [exact y_history|]. split; [exact y_spared|]. split; [exact y_retried|]. vm_compute. repeat split. Qed.
Example C124_online_ex : clean (MOnline [w_abc] w_title) /\
  map snd (viewb (res_of mr_new (snd (f_onlineMatch demo [w_abc] w_title (left_of x_calls y_plan))))) = [2; 1; 3].
Proof. split; [|vm_compute; reflexivity]. split; repeat constructor; discriminate. Qed.
