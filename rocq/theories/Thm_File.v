(** Theorems about the data files and the standard errors. *)
From Verif Require Import Base TrieM ErrorValuesM WordM DataFileM Spec_EV Spec_File Demo DataP DataX.
Local Open Scope N_scope.

(** C63.  If the variable is not set the file is looked for in the built-in directory, ... *)
Theorem C63_lookup_default : forall W name, w_var W = None ->
  findDataFile W name = Ok (if w_exists W (w_dir W ++ name) then w_dir W ++ name else []).
Proof. exact find_unset. Qed.
Print Assumptions C63_lookup_default.
(** ... if it is set to something, in that directory, with one separator, ... *)
Theorem C63_lookup_variable : forall W name d, w_var W = Some d -> d <> [] ->
  exists path, joined d name path /\ findDataFile W name = Ok (if w_exists W path then path else []).
Proof. exact find_set. Qed.
Print Assumptions C63_lookup_variable.
(** ... but if it is set to nothing the lookup is not memory safe. *)
Theorem C63_empty_variable_refuted : forall W name, w_var W = Some [] -> findDataFile W name = UB.
Proof. exact find_empty. Qed.
Print Assumptions C63_empty_variable_refuted.
Example C63_ex : findDataFile (disk None) (data_file GreekAccents) = Ok (dir_d ++ data_file GreekAccents) /\
  findDataFile (disk (Some [47; 100])) (data_file GreekAccents) = Ok (dir_d ++ data_file GreekAccents) /\
  findDataFile (disk (Some dir_d)) (data_file GreekAccents) = Ok (dir_d ++ data_file GreekAccents) /\
  findDataFile (disk None) [120] = Ok [] /\ joined [47; 100] [120] [47; 100; 47; 120] /\ joined dir_d [120] [47; 100; 47; 120].
Proof.
  repeat (split; [vm_compute; reflexivity|]). split.
  - right. split; [|reflexivity]. intros d H. change [47; 100] with ([47] ++ [100]) in H. apply app_inj_tail in H as [_ H]. discriminate.
  - left. exists [47; 100]. now split.
Qed.

(** C27.  With the shipped files addStandardErrors succeeds on a new object, and then
    letters of one group and neighbouring keys cost 30, others 100. *)
Theorem C27_first : forall E W, folds_shipped E -> shipped W ->
  snd (addStandardErrors_file E W ev_new) = Ok tt /\
  forall a b, getSubstituteError (fst (addStandardErrors_file E W ev_new)) a b = Ok (standard_price a b).
Proof.
  exact (fun E W HE HW => conj
    (eq_trans (f_equal snd (@shipped_standard E W ev_new HE HW)) standard_new_ok)
    (fun a b => eq_trans (f_equal (fun r => getSubstituteError (fst r) a b) (@shipped_standard E W ev_new HE HW)) (standard_new_prices a b))).
Qed.
Print Assumptions C27_first.
(** On an object with any history it either succeeds, and no letter of the files was in a
    group before, or throws, and one was. *)
Theorem C27_any : forall E W calls, folds_shipped E -> shipped W ->
  let r := addStandardErrors_file E W (ev_after calls) in
  (snd r = Ok tt /\ (forall g l, In g shipped_groups -> In l g -> isInGroup (ev_after calls) l = false) /\
   forall g l, In g shipped_groups -> In l g -> isInGroup (fst r) l = true) \/
  (snd r = Throw ERuntime /\ exists g l, In g shipped_groups /\ In l g /\ isInGroup (ev_after calls) l = true).
Proof. exact standard_file_outcome. Qed.
Print Assumptions C27_any.
(** If it succeeds its effect is that of setGroupError on each line and addKeyboardErrors, ... *)
Theorem C27_effect : forall E W calls, folds_shipped E -> shipped W ->
  snd (addStandardErrors_file E W (ev_after calls)) = Ok tt ->
  fst (addStandardErrors_file E W (ev_after calls)) =
  ev_after (calls ++ map (fun g => SetGroupError g 30%Z) shipped_groups ++ [AddKeyboardErrors]).
Proof. exact standard_file_effect. Qed.
Print Assumptions C27_effect.
(** ... so prices of other pairs are kept. *)
Theorem C27_others_kept : forall E W calls a b, folds_shipped E -> shipped W ->
  snd (addStandardErrors_file E W (ev_after calls)) = Ok tt -> near_keys a b = false -> one_group a b = false ->
  getSubstituteError (fst (addStandardErrors_file E W (ev_after calls))) a b = getSubstituteError (ev_after calls) a b.
Proof. exact standard_file_kept. Qed.
Print Assumptions C27_others_kept.
(** Once it has succeeded, and until clearErrors, every further call throws and changes
    no price and no group. *)
Theorem C27_second : forall E W calls more, folds_shipped E -> shipped W ->
  snd (addStandardErrors_file E W (ev_after calls)) = Ok tt -> ~ In ClearErrors more ->
  let e := ev_run more (fst (addStandardErrors_file E W (ev_after calls))) in
  let r := addStandardErrors_file E W e in
  snd r = Throw ERuntime /\ (forall a b, getSubstituteError (fst r) a b = getSubstituteError e a b) /\
  (forall l, isInGroup (fst r) l = isInGroup e l).
Proof. exact standard_file_twice. Qed.
Print Assumptions C27_second.
Example C27_ex : folds_shipped demo_file /\ shipped (disk None) /\ shipped (disk (Some [47; 100])) /\
  snd (addStandardErrors_file demo_file (disk None) ev_new) = Ok tt /\
  standard_price 97 225 = 30%Z /\ standard_price 225 7855 = 30%Z /\ standard_price 97 115 = 30%Z /\ standard_price 97 122 = 30%Z /\
  standard_price 97 98 = 100%Z /\ standard_price 225 225 = 0%Z /\ near_keys 97 98 = false /\ one_group 97 98 = false.
Proof.
  split; [exact fold_ok|]. split; [now apply disk_ok; left|]. split; [now apply disk_ok; right; left|].
  split; [exact (proj1 (C27_first fold_ok (@disk_ok None (or_introl eq_refl))))|]. repeat split; vm_compute; reflexivity.
Qed.

(** C26, continued: a successful setGroupError changes no price of a pair that is not in it. *)
Theorem C26_group_others : forall calls g v a b,
  snd (ev_do (SetGroupError g v) (ev_after calls)) = Ok tt -> (~ In a g \/ ~ In b g) ->
  getSubstituteError (ev_after (calls ++ [SetGroupError g v])) a b = getSubstituteError (ev_after calls) a b.
Proof. exact group_else_after. Qed.
Print Assumptions C26_group_others.
Example C26_others_ex : snd (ev_do (SetGroupError [97; 900] 5%Z) (ev_after [SetError 98 900 7%Z])) = Ok tt /\ ~ In 98 [97; 900].
Proof. split; [reflexivity|]. intros [H|[H|[]]]; discriminate. Qed.

(** C82.  A data file that is not found or cannot be opened makes addAccents throw and
    leaves the object as it was. *)
Theorem C82_missing_file : forall E W g e,
  findDataFile W (data_file g) = Ok [] \/ (exists f, findDataFile W (data_file g) = Ok f /\ w_read W f = None) ->
  addAccents_file E W g e = (e, Throw ERuntime).
Proof. exact file_missing. Qed.
Print Assumptions C82_missing_file.
(** If the lines are good words the call is setGroupError on each nonempty line, ... *)
Theorem C82_good_file : forall E W g f bytes lines texts ws, findDataFile W (data_file g) = Ok f -> f <> [] -> w_read W f = Some bytes ->
  file_lines bytes lines -> Forall2 line_text lines texts -> Forall2 (fun s w => word_of_utf8 E s = Ok w) texts ws ->
  forall e, addAccents_file E W g e = set_groups ws e.
Proof. exact good_file. Qed.
Print Assumptions C82_good_file.
(** ... and if one is not, the lines before it are added and its exception is thrown. *)
Theorem C82_bad_line : forall E W g f bytes before line after texts text ws x,
  findDataFile W (data_file g) = Ok f -> f <> [] -> w_read W f = Some bytes ->
  file_lines bytes (before ++ line :: after) -> Forall2 line_text before texts -> Forall2 (fun s w => word_of_utf8 E s = Ok w) texts ws ->
  line_text line text -> word_of_utf8 E text = Throw x ->
  forall e, addAccents_file E W g e = match set_groups ws e with (e', Ok _) => (e', Throw x) | stopped => stopped end.
Proof. exact bad_line. Qed.
Print Assumptions C82_bad_line.
Example C82_ex : findDataFile bad_disk (data_file LatinAccents) = Ok (dir_d ++ data_file LatinAccents) /\
  w_read bad_disk (dir_d ++ data_file LatinAccents) = Some bad_file /\
  file_lines bad_file ([[97; 98]] ++ [255] :: [[99; 100]]) /\ line_text [97; 98] [97; 98] /\ line_text [255] [255] /\
  line_text [97; 0; 98] [97] /\ file_lines [97; 10; 10; 98] [[97]; []; [98]] /\
  word_of_utf8 demo [97; 98] = Ok [97; 98] /\ word_of_utf8 demo [255] = Throw ERuntime /\
  snd (addAccents_file demo bad_disk LatinAccents ev_new) = Throw ERuntime /\
  isInGroup (fst (addAccents_file demo bad_disk LatinAccents ev_new)) 97 = true /\
  isInGroup (fst (addAccents_file demo bad_disk LatinAccents ev_new)) 99 = false /\
  findDataFile (disk (Some [47])) (data_file LatinAccents) = Ok [].
Proof. exact bad_lines. Qed.

(** C83 is false: y and y with an acute accent cost as much as any two letters, for the
    line of y in the data file lacks the plain letter. *)
Theorem C83_accents_cheap_refuted : forall E W, folds_shipped E -> shipped W ->
  getSubstituteError (fst (addStandardErrors_file E W ev_new)) 121 253 = Ok 100%Z.
Proof. exact (fun E W HE HW => proj2 (C27_first HE HW) 121 253). Qed.
Print Assumptions C83_accents_cheap_refuted.
(** All other plain letters with an accented form in the file cost 30 against each of their forms. *)
Theorem C83_accents_cheap_partial : forall E W g a b, folds_shipped E -> shipped W -> In g shipped_groups -> In a g -> In b g -> a <> b ->
  getSubstituteError (fst (addStandardErrors_file E W ev_new)) a b = Ok 30%Z.
Proof. exact accents_cheap. Qed.
Print Assumptions C83_accents_cheap_partial.
Example C83_ex : exists g, In g shipped_groups /\ In 97 g /\ In 225 g.
Proof. exists (hd [] shipped_groups). split; [now left|]. split; [now left|]. now right; left. Qed.
