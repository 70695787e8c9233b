(** What running out of memory should do to MatchResults, ResultFilter and
    SearchParameters: a statement that throws has no effect and loses nothing. *)
From Verif Require Import Base TrieM WordM MapM DoubleM ContM OwnM OomM Spec_Oom ParM.
Local Open Scope N_scope.

(** The values of variables. *)
Inductive pvalue := YRes (r : mresults) | YFilter (f : rfilter) | YParams (p : sparams).
Definition pvalues := list (option pvalue).
Definition y_res (vs : pvalues) (x : nat) : option mresults := match nth_error vs x with Some (Some (YRes r)) => Some r | _ => None end.
Definition y_filter (vs : pvalues) (x : nat) : option rfilter := match nth_error vs x with Some (Some (YFilter f)) => Some f | _ => None end.
Definition y_params (vs : pvalues) (x : nat) : option sparams := match nth_error vs x with Some (Some (YParams p)) => Some p | _ => None end.
(** The method returned; [None] if it did not. *)
Definition returned {S A} (m : M S A) (s : S) : option S := match m s with (s', Ok _) => Some s' | _ => None end.
(** What a statement does to the values, with memory enough (ContM); [None]: it does not
    return, and r.addResults(r) is undefined. *)
Definition y_step (c : pstmt) (vs : pvalues) : option pvalues :=
  let set x o := option_map (fun v => upd x (Some v) vs) o in
  match c with
  | QRes => Some (vs ++ [Some (YRes mr_new)])
  | QResCopy x => option_map (fun r => vs ++ [Some (YRes r)]) (y_res vs x)
  | QResAssign x y => match y_res vs x, y_res vs y with Some _, Some r => set x (Some (YRes r)) | _, _ => None end
  | QResAdd x id d => match y_res vs x with Some r => set x (option_map YRes (returned (mr_addResult id d) r)) | _ => None end
  | QResAddAll x y => match y_res vs x, y_res vs y with Some r, Some r2 => if Nat.eqb x y then None else set x (option_map YRes (returned (mr_addResults r2) r)) | _, _ => None end
  | QResTake x y i => match y_res vs x, y_res vs y with Some r, Some r2 => set x (option_map YRes (returned (mr_copyResult r2 i) r)) | _, _ => None end
  | QFilter => Some (vs ++ [Some (YFilter rf_new)])
  | QTerm x => match y_filter vs x with Some f => set x (option_map YFilter (returned rf_addNewTerm f)) | _ => None end
  | QSubTerm x k w => match y_filter vs x with Some f => set x (option_map YFilter (returned (rf_addNewSubTerm k w) f)) | _ => None end
  | QParams => Some (vs ++ [Some (YParams sp_new)])
  | QDynamic x b => match y_params vs x with Some p => set x (Some (YParams (sp_setDynamic b p))) | _ => None end
  | QField x w => match y_params vs x with Some p => set x (Some (YParams (sp_addNonsearchingField w p))) | _ => None end
  | QParamsTerm x =>
    match y_params vs x with
    | Some p => set x (option_map (fun f => YParams (mkSP (sp_dynamic p) f (sp_nosearch p))) (returned rf_addNewTerm (sp_filter p)))
    | _ => None
    end
  | QParamsSubTerm x k w =>
    match y_params vs x with
    | Some p => set x (option_map (fun f => YParams (mkSP (sp_dynamic p) f (sp_nosearch p))) (returned (rf_addNewSubTerm k w) (sp_filter p)))
    | _ => None
    end
  | QDestroy x => match nth_error vs x with Some (Some _) => Some (upd x None vs) | _ => None end
  end.
(** Statement after statement. *)
Fixpoint y_run (ops : list pstmt) (vs : pvalues) : option pvalues :=
  match ops with
  | [] => Some vs
  | c :: r => match y_step c vs with Some vs' => y_run r vs' | None => None end
  end.
(** Those that were done. *)
Fixpoint p_done (ops : list pstmt) (fs : list fate) : list pstmt :=
  match ops, fs with
  | c :: ops', f :: fs' => match f with Done => c :: p_done ops' fs' | _ => p_done ops' fs' end
  | _, _ => []
  end.
(** The value an object shows. *)
Definition the_filter (f : ofilter) : rfilter := map (fun t => map (fun p => (the_word (fst p), the_word (snd p))) (v_elems t)) (v_elems f).
Definition the_pobj (c : pobj) : pvalue :=
  match c with
  | PRes r => YRes (mkMR (v_elems (or_vec r)) (or_sorted r))
  | PFilter f => YFilter (the_filter f)
  | PParams p => YParams (mkSP (op_dynamic p) (the_filter (op_filter p)) (map (fun o => (the_word o, tt)) (op_fields p)))
  end.
Definition the_pvalues (vs : pvars) : pvalues := map (option_map the_pobj) vs.
(** The statements that lose an allocation when they run out of memory: copies of
    MatchResults, and the constructors of ResultFilter and SearchParameters. *)
Definition p_loses (c : pstmt) : Z := match c with QResCopy _ | QFilter | QParams => 1 | _ => 0 end%Z.
Fixpoint p_lost (ops : list pstmt) (fs : list fate) : Z :=
  match ops, fs with
  | c :: ops', f :: fs' => (match f with Threw _ => p_loses c | _ => 0 end + p_lost ops' fs')%Z
  | _, _ => 0%Z
  end.
