(** Python programs. *)
From Verif Require Import Base TrieM WordStoreM ErrorValuesM LevIndexM WordM MapM DoubleM ContM MatcherM DataFileM
  Spec_Hist Spec_EV Spec_Word Spec_Cont Spec_Edit Spec_Lev Spec_Match Spec_File Spec_CApi Demo StoreX DataX MatchX WordP CApiX PyM Spec_Py PyP PyQ PyR PyS PyT PyU PyV PyW.
From Coq Require Import ZifyBool ZifyN ZifyNat.
Local Open Scope N_scope.

(** ** The history as a function *)
Definition err_of (s : py_state) (k n : nat) : bool :=
  match snd (look k s) with
  | Ok (inl (Points (AtErrors j) _)) => Nat.eqb j n && match snd (held j s) with Ok (inl (OMatcher _)) => true | _ => false end
  | _ => false
  end.
Definition weights_of (s : py_state) (k n : nat) : bool :=
  match snd (look k s) with
  | Ok (inl (Points (AtWeights j) _)) => Nat.eqb j n && match snd (held j s) with Ok (inl (OMatcher _)) => true | _ => false end
  | _ => false
  end.
Definition calls_fn (E : env) (c : py_call) (s : py_state) (n : nat) : option m_call :=
  match c with
  | index k j => match snd (matcher_arg k s), snd (corpus_arg j s) with Ok (inl _), Ok (inl cp) => if Nat.eqb k n then Some (MIndex cp) else None | _, _ => None end
  | match_ k (Utf8 t) => match snd (matcher_arg k s), splitToWords E (c_str t) with Ok (inl _), Ok q => if Nat.eqb k n then Some (MMatch q sp_new) else None | _, _ => None end
  | add_standard_errors k => if err_of s k n then Some (MErr (AddStandardErrors latin_groups greek_groups)) else None
  | set_substring_mode k => if err_of s k n then Some (MErr SetSubstringMode) else None
  | clear_errors k => if err_of s k n then Some (MErr ClearErrors) else None
  | set_end_deletion_error k v => if err_of s k n && in_i32 v then Some (MErr (SetEndDeletionError v)) else None
  | set_weight k j x => match snd (word_arg j s) with Ok (inl f) => if weights_of s k n then Some (MWeight f x) else None | _ => None end
  | _ => None
  end.
Lemma err_iff s k n : err_of s k n = true <-> exists m w, bound s k /\ refers s k (AtErrors n) w /\ holds s n (OMatcher m).
Proof.
  unfold err_of. split.
  - destruct (look k s) as [s1 o1] eqn:H1. cbn [snd]. destruct o1 as [[[|[]]|]| | | |]; try discriminate. apply (reading_inv (@look_reading _ _ CErrors)) in H1 as [-> [Hb Hr]].
    intros H. apply andb_true_iff in H as [Hn H]. apply Nat.eqb_eq in Hn as ->. destruct (held n s) as [s2 o2] eqn:H2. cbn [snd] in H. destruct o2 as [[[]|]| | | |]; try discriminate.
    apply (reading_inv (@held_reading _ _)) in H2 as [-> Hh]. eauto 6.
  - intros (m & w & Hb & Hr & Hh). rewrite (look_ok Hb Hr). cbn [snd]. rewrite Nat.eqb_refl, (held_ok Hh). reflexivity.
Qed.
Lemma weights_iff s k n : weights_of s k n = true <-> exists m w, bound s k /\ refers s k (AtWeights n) w /\ holds s n (OMatcher m).
Proof.
  unfold weights_of. split.
  - destruct (look k s) as [s1 o1] eqn:H1. cbn [snd]. destruct o1 as [[[|[]]|]| | | |]; try discriminate. apply (reading_inv (@look_reading _ _ CErrors)) in H1 as [-> [Hb Hr]].
    intros H. apply andb_true_iff in H as [Hn H]. apply Nat.eqb_eq in Hn as ->. destruct (held n s) as [s2 o2] eqn:H2. cbn [snd] in H. destruct o2 as [[[]|]| | | |]; try discriminate.
    apply (reading_inv (@held_reading _ _)) in H2 as [-> Hh]. eauto 6.
  - intros (m & w & Hb & Hr & Hh). rewrite (look_ok Hb Hr). cbn [snd]. rewrite Nat.eqb_refl, (held_ok Hh). reflexivity.
Qed.
Lemma calls_fn_ok E c s n mc : calls_fn E c s n = Some mc <-> py_calls E c s n mc.
Proof.
  destruct c; cbn [calls_fn py_calls]; try (split; [discriminate|contradiction]).
  - split.
    + destruct (matcher_arg m s) as [s1 o1] eqn:H1. destruct (corpus_arg c s) as [s2 o2] eqn:H2. cbn [snd]. destruct o1 as [[m'|]| | | |]; try discriminate. destruct o2 as [[cp|]| | | |]; try discriminate.
      apply (reading_inv (@matcher_reading _ _)) in H1 as [-> H1]. apply (reading_inv (@corpus_reading _ _)) in H2 as [-> H2]. destruct (Nat.eqb_spec m n) as [->|]; [|discriminate]. intros [= <-]. exists m', cp. auto.
    + intros (m' & cp & -> & Hm & Hc & ->). rewrite (matcher_ok Hm), (corpus_ok Hc). cbn [snd]. now rewrite Nat.eqb_refl.
  - destruct s0 as [t| |]; [|split; [discriminate|contradiction]|split; [discriminate|contradiction]]. split.
    + destruct (matcher_arg m s) as [s1 o1] eqn:H1. cbn [snd]. destruct o1 as [[m'|]| | | |]; try discriminate. destruct (splitToWords E (c_str t)) as [q| | | |] eqn:Hq; try discriminate.
      apply (reading_inv (@matcher_reading _ _)) in H1 as [-> H1]. destruct (Nat.eqb_spec m n) as [->|]; [|discriminate]. intros [= <-]. exists m', (c_str t), q. pose proof (c_str_nul t). auto.
    + intros (m' & r & q & -> & Hm & Hr & Hq & ->). rewrite (matcher_ok Hm). apply nul_unique in Hr as ->. rewrite Hq. cbn [snd]. now rewrite Nat.eqb_refl.
  - split; [destruct (err_of s e n) eqn:H; [|discriminate]; apply err_iff in H as (m & w & H); intros [= <-]; exists m, w; tauto|].
    intros (m & w & H1 & H2 & H3 & ->). now rewrite (proj2 (err_iff s e n)) by eauto.
  - split; [destruct (err_of s e n) eqn:H; [|discriminate]; apply err_iff in H as (m & w & H); intros [= <-]; exists m, w; tauto|].
    intros (m & w & H1 & H2 & H3 & ->). now rewrite (proj2 (err_iff s e n)) by eauto.
  - split; [destruct (err_of s e n) eqn:H; [|discriminate]; apply err_iff in H as (m & w & H); cbn [andb]; destruct (in_i32 v) eqn:Hv; [|discriminate]; intros [= <-]; exists m, w; tauto|].
    intros (m & w & H1 & H2 & H3 & Hv & ->). rewrite (proj2 (err_iff s e n)) by eauto. now rewrite Hv.
  - split; [destruct (err_of s e n) eqn:H; [|discriminate]; apply err_iff in H as (m & w & H); intros [= <-]; exists m, w; tauto|].
    intros (m & w & H1 & H2 & H3 & ->). now rewrite (proj2 (err_iff s e n)) by eauto.
  - split.
    + destruct (word_arg f s) as [s1 o1] eqn:H1. cbn [snd]. destruct o1 as [[g|]| | | |]; try discriminate. apply (reading_inv (@word_reading _ _)) in H1 as [-> H1].
      destruct (weights_of s w n) eqn:H; [|discriminate]. apply weights_iff in H as (m & v & H). intros [= <-]. exists m, v, g. tauto.
    + intros (m & v & g & H1 & H2 & H3 & Hg & ->). rewrite (word_ok Hg). cbn [snd]. now rewrite (proj2 (weights_iff s w n)) by eauto.
Qed.
Fixpoint hist_fn (E : env) (W : world) (n : nat) (prog : list (py_call * bool)) (s : py_state) : list m_call :=
  match prog with
  | [] => []
  | (c, b) :: r => match calls_fn E c s n with Some mc => [mc] | None => [] end ++ hist_fn E W n r (fst (py_do E W b c s))
  end.
Lemma hist_fn_ok E W n prog : forall s, py_history E W n prog s (hist_fn E W n prog s).
Proof.
  induction prog as [|[c b] prog IH]; intros s; [constructor|]. cbn [hist_fn]. destruct (calls_fn E c s n) as [mc|] eqn:H.
  - apply h_call; [now apply calls_fn_ok|apply IH].
  - apply h_skip; [intros mc Hmc; apply calls_fn_ok in Hmc; congruence|apply IH].
Qed.

(** ** A program that indexes and searches *)
Definition w_title : word := s_title.
Definition py_prog : list (py_call * bool) := map (fun c => (c, true))
  [ Matcher_;                                  (* 0 *)
    Corpus_;                                   (* 1 *)
    Word_ (Utf8 s_title);                      (* 2 *)
    Document_ 7;                               (* 3 *)
    add_text 3 2 (Utf8 s_hello);
    get_text 3 2;                              (* 4 *)
    getitem 4 1;                               (* 5 *)
    add_document 1 3;
    del 3;
    get_errorvalues 0;                         (* 6 *)
    add_standard_errors 6;
    set_substring_mode 6;
    set_end_deletion_error 6 20;
    get_indexweights 0;                        (* 7 *)
    set_weight 7 2 (d_of_Z 2);
    index 0 1;
    Word_ (Utf8 s_xy) ].
Definition py_at : py_state := fst (py_run demo_file the_disk py_prog py_start).
Definition py_vals : list py_res :=
  [ Returns (VObj 0); Returns (VObj 1); Returns (VObj 2); Returns (VObj 3); Returns VNone; Returns (VObj 4); Returns (VObj 5); Returns VNone; Returns VNone; Returns (VObj 6);
    Returns VNone; Returns VNone; Returns VNone; Returns (VObj 7); Returns VNone; Returns VNone; Raises PyValueError ].
Lemma py_prog_run : py_run demo_file the_disk py_prog py_start = (py_at, Ok py_vals).
Proof. apply run_eq. vm_compute. reflexivity. Qed.
Lemma py_prog_reached : py_reached demo_file the_disk py_prog py_at.
Proof. exists py_vals. exact py_prog_run. Qed.
Lemma py_prog_text : Forall (fun x => py_text (fst x)) py_prog.
Proof.
  assert (Hv : forall t, Forall (fun c => c < 128) t -> valid_utf8 t).
  { intros t Ht. exists t. split; [eapply Forall_impl; [|exact Ht]; intros c Hc; cbv beta in Hc; unfold scalar; lia|].
    induction Ht as [|c t Hc _ IH]; [reflexivity|]. unfold bytes_of in *. cbn [flat_map]. rewrite <- IH. unfold utf8. destruct (N.ltb_spec c 128); [reflexivity|lia]. }
  repeat (apply Forall_cons; [first [exact I|apply Hv; repeat (apply Forall_cons; [reflexivity|]); apply Forall_nil]|]). apply Forall_nil.
Qed.
Lemma s_helo_valid : valid_utf8 s_helo.
Proof. exists s_helo. split; [repeat (apply Forall_cons; [unfold scalar; lia|]); apply Forall_nil|reflexivity]. Qed.
Lemma s_helo_nul : before_nul s_helo s_helo.
Proof. split; [cbn [In s_helo]; lia|now left]. Qed.
Definition sort_of (s : py_state) (n : nat) : N :=
  match nth_error (py_objs s) n with
  | Some (Some (Holds (OWord _))) => 1 | Some (Some (Holds (OList _))) => 2 | Some (Some (Holds (ODoc _))) => 3 | Some (Some (Holds (OMatcher _))) => 4 | Some (Some (Holds (OResults _))) => 5
  | Some (Some (Holds (OCorpus _))) => 6 | Some (Some (Points (AtWord (LText _ _) _ _) _)) => 7 | Some (Some (Points (AtText _ _) _)) => 8 | Some (Some (Points (AtErrors 0) 0)) => 9
  | Some (Some (Points (AtWeights 0) 0)) => 10 | Some None => 11 | Some (Some _) => 12 | None => 0
  end.
Definition py_mat : matcher := match nth_error (py_objs py_at) 0 with Some (Some (Holds (OMatcher m))) => m | _ => dmatcher end.
Lemma py_mat_var : matcher_var py_at 0 py_mat.
Proof.
  split; [vm_compute; reflexivity|]. assert (H : sort_of py_at 0 = 4) by (vm_compute; reflexivity). unfold holds, py_mat, sort_of in *.
  destruct (nth_error (py_objs py_at) 0) as [[[[]|[[]| | |] ]|]|]; try discriminate H; try reflexivity; destruct n, ward; discriminate H.
Qed.
Definition py_hist : list m_call := hist_fn demo_file the_disk 0 py_prog py_start.
Lemma py_hist_ok : py_history demo_file the_disk 0 py_prog py_start py_hist.
Proof. apply hist_fn_ok. Qed.
Definition is_call (c : m_call) : N := match c with MIndex _ => 1 | MErr (AddStandardErrors _ _) => 2 | MErr SetSubstringMode => 3 | MErr (SetEndDeletionError _) => 4 | MErr _ => 5 | MWeight _ _ => 6 | _ => 7 end.
Lemma py_hist_calls : map is_call py_hist = [2; 3; 4; 6; 1].
Proof. vm_compute. reflexivity. Qed.
Lemma py_hist_history : history demo_file py_hist py_mat.
Proof.
  destruct (py_as_cpp fold_ok the_disk_ok py_prog_reached (proj2 py_mat_var)) as [_ H]. destruct (H _ py_hist_ok) as (m0 & H0 & Hm).
  assert (Ho : snd (m_run demo_file py_hist (get_ok dmatcher (mt_new demo_file))) = Ok tt) by (vm_compute; reflexivity).
  rewrite H0 in Ho. cbn [get_ok] in Ho. exists m0. split; [exact H0|]. apply run_eq in Ho. pose proof (run_all Ho) as Ha. rewrite <- Hm in Ha. now rewrite <- Ha.
Qed.
Definition ends_of (cs : list m_call) : list Z := flat_map (fun c => match c with MErr (SetEndDeletionError v) => [v] | _ => [] end) cs.
Lemma in_ends cs v : In (MErr (SetEndDeletionError v)) cs -> In v (ends_of cs).
Proof. intros Hin. apply in_flat_map. exists (MErr (SetEndDeletionError v)). split; [exact Hin|now left]. Qed.
Lemma py_hist_calm : py_calm demo_file py_hist py_mat.
Proof.
  split; [exact py_hist_history|]. assert (Hw : map snd (weight_calls py_hist) = [d_of_Z 2]) by (vm_compute; reflexivity). split; [|split].
  - intros v Hin. apply in_ends in Hin. assert (He : ends_of py_hist = [20%Z]) by (vm_compute; reflexivity). rewrite He in Hin. destruct Hin as [<-|[]]. lia.
  - intros f x Hin. apply (in_map snd) in Hin. cbn [snd] in Hin. rewrite Hw in Hin. destruct Hin as [<-|[]]. exact I.
  - assert (Ho : length (occ py_hist) = 2%nat) by (vm_compute; reflexivity). now rewrite Ho.
Qed.
Lemma py_helo_moderate : moderate py_hist q_helo.
Proof.
  split.
  - intros qw [<-|[]]. reflexivity.
  - intros d f w Hin. apply (in_map (fun x => N.of_nat (length (snd x)))) in Hin. assert (Ho : map (fun x => N.of_nat (length (snd x))) (occ py_hist) = [5; 5]) by (vm_compute; reflexivity).
    rewrite Ho in Hin. cbn in Hin. lia.
Qed.
(** What it finds. *)
Definition py_at2 : py_state := fst (py_do demo_file the_disk true (match_ 0 (Utf8 s_helo)) py_at).
Lemma py_found : snd (py_do demo_file the_disk true (match_ 0 (Utf8 s_helo)) py_at) = Ok (Returns (VObj 8)) /\
  snd (py_run demo_file the_disk [(len_results 8, true); (get_document_id 8 0, true); (get_document_id 8 1, true); (get_document_id 8 (-1), true); (get_string 5, true); (get_text 3 2, true); (len_list 4, true)] py_at2) =
    Ok [Returns (VInt 1); Returns (VInt 7); Raises PyIndexError; Raises PyOverflowError; Returns (VStr [119; 111; 114; 108; 100]); Raises PyNameError; Returns (VInt 2)].
Proof. split; vm_compute; reflexivity. Qed.
Lemma py_prepared_match : py_prepared demo_file the_disk py_prog py_at (match_ 0 (Utf8 s_helo)).
Proof.
  split; [intros k [[=]|[]]|]. intros m cs r q [_ Hm] Hc Hr Hq. assert (m = py_mat) by (pose proof (holds_eq Hm (proj2 py_mat_var)); congruence). subst m. assert (cs = py_hist) by exact (history_eq Hc py_hist_ok). subst cs.
  assert (r = s_helo) by (rewrite (nul_unique Hr); symmetry; exact (nul_unique s_helo_nul)). subst r. rewrite q_helo_split in Hq. injection Hq as <-. exact (conj py_hist_calm py_helo_moderate).
Qed.
(** The document is kept by the view of its text, and the view by its word. *)
Lemma py_at_kept : sort_of py_at 3 = 3 /\ sort_of py_at 4 = 8 /\ sort_of py_at 5 = 7 /\ map (fun k => nth k (py_bound py_at) false) (seq 0 8) = [true; true; true; false; true; true; true; true].
Proof. repeat split; vm_compute; reflexivity. Qed.
(** ** What is undefined *)
Lemma demo_set_up : set_up demo_file the_disk.
Proof. exact (conj file_env_ok (conj file_lower_ok (conj fold_ok the_disk_ok))). Qed.
(** ["a"; "b"] *)
Definition list_prog : list (py_call * bool) :=
  [(WordList_, false); (Word_ (Utf8 [97]), false); (Word_ (Utf8 [98]), false); (add_word 0 1, false); (add_word 0 2, true); (getitem 0 1, false)].
Definition list_at_ : py_state := fst (py_run demo_file the_disk list_prog py_start).
Lemma list_reached : py_reached demo_file the_disk list_prog list_at_.
Proof. eexists. apply run_eq. vm_compute. reflexivity. Qed.
Lemma list_text : Forall (fun x => py_text (fst x)) list_prog.
Proof.
  assert (Hv : forall c, c < 128 -> valid_utf8 [c]) by (intros c Hc; exists [c]; split; [repeat constructor; unfold scalar; lia|]; cbn; unfold utf8; destruct (N.ltb_spec c 128); [reflexivity|lia]).
  repeat (apply Forall_cons; [first [exact I|apply Hv; reflexivity]|]). apply Forall_nil.
Qed.
Lemma list_is : list_var list_at_ 0 (LVal 0) [[97]; [98]].
Proof. constructor; reflexivity. Qed.
Lemma list_b : word_var list_at_ 3 [98].
Proof. eapply list_word with (l := LVal 0) (i := 1) (n := 0%nat); [reflexivity|reflexivity|constructor; reflexivity|reflexivity|reflexivity]. Qed.
Lemma list_a : word_var list_at_ 1 [97].
Proof. apply own_word; reflexivity. Qed.
(** A word of a list, after the list has grown. *)
Lemma stale_refuted : exists E W prog s k l j s' w, set_up E W /\ Forall (fun x => py_text (fst x)) prog /\ py_reached E W prog s /\
  word_var s k w /\ list_var s l (LVal l) [[97]; [98]] /\ py_do E W true (add_word l j) s = (s', Ok (Returns VNone)) /\ has_class s' k CWord /\ snd (py_do E W true (get_string k) s') = UB.
Proof.
  exists demo_file, the_disk, list_prog, list_at_, 3%nat, 0%nat, 1%nat. eexists. exists [98]. split; [exact demo_set_up|]. split; [exact list_text|]. split; [exact list_reached|]. split; [exact list_b|]. split; [exact list_is|].
  split; [vm_compute; reflexivity|]. split; [split; [reflexivity|eexists; split; reflexivity]|vm_compute; reflexivity].
Qed.
Lemma none_undefined E W b s : snd (py_do E W b (split_to_words PyNone) s) = UB.
Proof. reflexivity. Qed.
Lemma self_undefined E W b s k r : results_var s k r -> snd (py_do E W b (add_results k k) s) = UB.
Proof. apply results_add_self. Qed.
Lemma self_refuted : exists E W prog s k r, set_up E W /\ py_reached E W prog s /\ results_var s k r /\ snd (py_do E W true (add_results k k) s) = UB.
Proof.
  exists demo_file, the_disk, [(MatchResults_, true)], (fst (py_run demo_file the_disk [(MatchResults_, true)] py_start)), 0%nat, mr_new. split; [exact demo_set_up|].
  split; [eexists; apply run_eq; vm_compute; reflexivity|]. split; [split; reflexivity|vm_compute; reflexivity].
Qed.
(** ** Strings *)
Lemma len_refuted : exists E W b prog s c s' n, set_up E W /\ py_reached E W prog s /\ scalar c /\ ~ blank c /\ makes E W b s (Word_ (Utf8 (bytes_of [c]))) (Holds (OWord n)) /\
  s' = plus s (Holds (OWord n)) /\ gives E W b s' (len_word (fresh s)) (VInt 2).
Proof.
  exists demo_file, the_disk, true, [], py_start, 65536, (plus py_start (Holds (OWord [55296; 56320]))), [55296; 56320]. split; [exact demo_set_up|]. split; [now exists []|].
  split; [unfold scalar; lia|]. split; [unfold blank; lia|]. split; [vm_compute; reflexivity|]. split; [reflexivity|vm_compute; reflexivity].
Qed.
(** ** Documents and their texts *)
Definition doc_prog : list (py_call * bool) :=
  [(Word_ (Utf8 s_title), false); (Document_ 3, false); (add_text 1 0 (Utf8 s_hello), true); (get_text 1 0, false); (get_text 1 0, false); (del 1, false)].
Definition doc_at : py_state := fst (py_run demo_file the_disk doc_prog py_start).
Lemma doc_reached : py_reached demo_file the_disk doc_prog doc_at.
Proof. eexists. apply run_eq. vm_compute. reflexivity. Qed.
Definition the_words : list word := [[104; 101; 108; 108; 111]; [119; 111; 114; 108; 100]].
Definition the_doc : document := mkDoc 3 [(s_title, the_words)].
Lemma doc_held : holds doc_at 1 (ODoc the_doc) /\ ~ bound doc_at 1 /\ list_var doc_at 2 (LText 1 s_title) the_words /\ list_var doc_at 3 (LText 1 s_title) the_words /\ word_var doc_at 0 s_title /\ bound doc_at 2.
Proof.
  assert (Hh : holds doc_at 1 (ODoc the_doc)) by (vm_compute; reflexivity). split; [exact Hh|]. split; [vm_compute; discriminate|].
  split; [apply (@doc_list doc_at 2 1 s_title the_words 1); [vm_compute; reflexivity|vm_compute; reflexivity|apply (contents_text Hh); vm_compute; reflexivity]|].
  split; [apply (@doc_list doc_at 3 1 s_title the_words 1); [vm_compute; reflexivity|vm_compute; reflexivity|apply (contents_text Hh); vm_compute; reflexivity]|].
  split; [apply own_word; vm_compute; reflexivity|vm_compute; reflexivity].
Qed.
Definition doc_prog1 : list (py_call * bool) := removelast doc_prog.
Definition doc_at1 : py_state := fst (py_run demo_file the_disk doc_prog1 py_start).
Lemma doc_reached1 : py_reached demo_file the_disk doc_prog1 doc_at1.
Proof. eexists. apply run_eq. vm_compute. reflexivity. Qed.
Lemma doc_held1 : doc_var doc_at1 1 the_doc /\ word_var doc_at1 0 s_title /\ list_var doc_at1 2 (LText 1 s_title) the_words /\ splitToWords demo_file s_helo = Ok q_helo.
Proof.
  assert (Hh : holds doc_at1 1 (ODoc the_doc)) by (vm_compute; reflexivity). split; [split; [vm_compute; reflexivity|exact Hh]|]. split; [apply own_word; vm_compute; reflexivity|].
  split; [apply (@doc_list doc_at1 2 1 s_title the_words 1); [vm_compute; reflexivity|vm_compute; reflexivity|apply (contents_text Hh); vm_compute; reflexivity]|exact q_helo_split].
Qed.
(** Everything deleted. *)
Definition gone_prog : list (py_call * bool) := doc_prog ++ [(getitem 2 1, false); (del 2, false); (del 3, false); (del 0, false); (del 4, false)].
Definition gone_at : py_state := fst (py_run demo_file the_disk gone_prog py_start).
Lemma gone_reached : py_reached demo_file the_disk gone_prog gone_at /\ (forall k, ~ bound gone_at k).
Proof.
  split; [eexists; apply run_eq; vm_compute; reflexivity|]. assert (H : forall k, nth k (py_bound gone_at) false = false).
  { assert (Hb : py_bound gone_at = [false; false; false; false; false]) by (vm_compute; reflexivity). rewrite Hb. intros k. do 6 (destruct k as [|k]; [reflexivity|]). reflexivity. }
  intros k Hk. apply bound_nth in Hk. rewrite H in Hk. discriminate.
Qed.
(** ** A class error *)
Lemma list_no_doc : ~ has_class list_at_ 0 CDoc /\ ~ has_class list_at_ 9 CWord /\ (forall k, ~ stale list_at_ k).
Proof.
  split; [intros (_ & x & H & Hc); vm_compute in H; injection H as <-; discriminate Hc|]. split; [intros (H & _); vm_compute in H; discriminate H|].
  intros k ((Hb & x & Hx & Hc) & Hn). do 4 (destruct k as [|k]; [first [exact (Hn _ list_a)|exact (Hn _ list_b)|vm_compute in Hx; injection Hx as <-; try discriminate Hc; apply (Hn [98]); apply own_word; vm_compute; reflexivity]|]).
  unfold bound in Hb. assert (Hl : py_bound list_at_ = [true; true; true; true]) by (vm_compute; reflexivity). rewrite Hl in Hb. destruct k; discriminate Hb.
Qed.
Lemma py_hist_some : py_hist <> [].
Proof. intros H. assert (Hc : map is_call py_hist = map is_call []) by now rewrite H. rewrite py_hist_calls in Hc. discriminate Hc. Qed.
Lemma py_errors : exists n e put, errors_var py_at 6 n e put.
Proof. do 3 eexists. eapply matcher_errors with (n := 0%nat) (w := 0%nat); [vm_compute; reflexivity|vm_compute; reflexivity|exact (proj2 py_mat_var)]. Qed.
Lemma ascii_valid t : Forall (fun c => c < 128) t -> valid_utf8 t.
Proof.
  intros Ht. exists t. split; [eapply Forall_impl; [|exact Ht]; intros c Hc; cbv beta in Hc; unfold scalar; lia|].
  induction Ht as [|c t Hc _ IH]; [reflexivity|]. unfold bytes_of in *. cbn [flat_map]. rewrite <- IH. unfold utf8. destruct (N.ltb_spec c 128); [reflexivity|lia].
Qed.
Lemma strings_ex : Forall (fun x => py_text (fst x)) doc_prog1 /\ py_reached demo_file the_disk doc_prog1 doc_at1 /\ word_var doc_at1 0 (letters_of s_title) /\ short s_title /\
  Forall (fun c => c < 65536) s_title /\ (forall c, In c s_title -> ~ blank c /\ c <> 0).
Proof.
  split; [repeat (apply Forall_cons; [first [exact I|apply ascii_valid; repeat (apply Forall_cons; [reflexivity|]); apply Forall_nil]|]); apply Forall_nil|].
  split; [exact doc_reached1|]. split; [exact (proj1 (proj2 doc_held1))|]. split; [reflexivity|].
  split; [repeat (apply Forall_cons; [reflexivity|]); apply Forall_nil|]. intros c Hc. cbn [In s_title] in Hc. unfold blank. lia.
Qed.
