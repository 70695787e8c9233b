(** A C program: it makes a document, indexes it and searches. *)
From Verif Require Import Base TrieM WordStoreM ErrorValuesM LevIndexM WordM MapM DoubleM ContM MatcherM DataFileM CApiM
  Spec_Hist Spec_EV Spec_Word Spec_Cont Spec_Edit Spec_Lev Spec_Match Spec_File Spec_CApi Demo StoreX DataX MatchX WordP CApiP CApiQ CApiR CApiS.
From Coq Require Import ZifyBool ZifyN ZifyNat.
Local Open Scope N_scope.

Lemma file_env_ok : env_ok demo_file.
Proof. constructor; cbn; [apply isort_perm|apply isort_sorted|reflexivity]. Qed.
Lemma file_lower_ok : lower_ok demo_file.
Proof.
  constructor; cbn; unfold fold_file, ascii_lower, blank, scalar; intros l.
  all: destruct (N.eqb_spec l 304) as [->|Hn]; cbn; try lia.
  all: destruct ((65 <=? l) && (l <=? 90))%bool eqn:Hl; try lia.
  all: intros; repeat match goal with |- context [if ?b then _ else _] => destruct b eqn:? end; lia.
Qed.
(** "title", "Hello World", "helo", "x y" *)
Definition s_title : list N := [116; 105; 116; 108; 101].
Definition s_hello : list N := [72; 101; 108; 108; 111; 32; 87; 111; 114; 108; 100].
Definition s_helo : list N := [104; 101; 108; 111].
Definition s_xy : list N := [120; 32; 121].
Definition the_disk : world := disk None.
Definition c_prog : list c_call :=
  [ col_matcher_new;                                       (* object 0 *)
    col_corpus_new;                                        (* 1 *)
    col_word_new s_title;                                  (* 2 *)
    col_document_new 7;                                    (* 3 *)
    col_document_add_text (PAt 3) (PAt 2) s_hello;
    col_corpus_add_document (PAt 1) (PAt 3);
    col_document_delete (PAt 3);
    col_matcher_get_error_values (PAt 0);
    col_error_values_add_standard_errors (PErr 0);
    col_error_values_set_substring_mode (PErr 0);
    col_matcher_get_index_weights (PAt 0);
    col_index_weights_set_weight (PWeights 0) (PAt 2) (d_of_Z 2);
    col_matcher_index (PAt 0) (PAt 1);
    col_word_new s_xy ].
Definition c_heap : heap := fst (c_run demo_file the_disk c_prog []).
Definition c_vals : list c_val :=
  [ VPtr (PAt 0); VPtr (PAt 1); VPtr (PAt 2); VPtr (PAt 3); VVoid; VVoid; VVoid; VPtr (PErr 0); VVoid; VVoid; VPtr (PWeights 0); VVoid; VVoid; VPtr PNull ].
Lemma c_prog_run : c_run demo_file the_disk c_prog [] = (c_heap, Ok c_vals).
Proof. apply run_eq. vm_compute. reflexivity. Qed.
Lemma c_prog_reached : c_reached demo_file the_disk c_prog c_heap.
Proof. exists c_vals. exact c_prog_run. Qed.
Lemma c_prog_strings : Forall c_strings c_prog.
Proof. repeat (apply Forall_cons; [first [exact I|unfold c_strings, c_text; repeat (apply Forall_cons; [lia|]); apply Forall_nil]|]). apply Forall_nil. Qed.
Definition c_mat : matcher := match nth_error c_heap 0 with Some (Some (OMatcher m)) => m | _ => dmatcher end.
Definition kind (h : heap) (n : nat) : N := match nth_error h n with Some (Some (OWord _)) => 1 | Some (Some (ODoc _)) => 2 | Some (Some (OMatcher _)) => 3 | Some (Some (OResults _)) => 4 | Some (Some (OCorpus _)) => 5 | _ => 0 end.
Lemma c_mat_live : live c_heap 0 (OMatcher c_mat).
Proof.
  assert (H : kind c_heap 0 = 3) by (vm_compute; reflexivity). unfold live, c_mat, kind in *. destruct (nth_error c_heap 0) as [[[]|]|]; try discriminate H. reflexivity.
Qed.
Definition c_hist : list m_call := cpp_history demo_file the_disk c_prog [] 0.
Lemma run_all E calls : forall m m', m_run E calls m = (m', Ok tt) -> m' = m_all E calls m.
Proof.
  induction calls as [|c calls IH]; intros m m' H; [now injection H|]. cbn [m_run] in H. unfold m_all. cbn [fold_left]. destruct (m_do E c m) as [m1 o]. cbn [fst].
  destruct (fatal c o) eqn:Hf; [|exact (IH _ _ H)]. injection H as <- Ho. subst o. destruct c; discriminate Hf.
Qed.
Lemma c_hist_history : history demo_file c_hist c_mat.
Proof.
  destruct (as_cpp fold_ok (@disk_ok None (or_introl eq_refl)) c_prog_strings c_prog_reached c_mat_live) as (m0 & H0 & Hm). fold the_disk c_hist in Hm.
  assert (Ho : snd (m_run demo_file c_hist (get_ok dmatcher (mt_new demo_file))) = Ok tt) by (vm_compute; reflexivity).
  rewrite H0 in Ho. cbn [get_ok] in Ho. exists m0. split; [exact H0|]. apply run_eq in Ho. pose proof (run_all Ho) as Ha. rewrite <- Hm in Ha. now rewrite <- Ha.
Qed.
Lemma c_hist_calm : calm demo_file the_disk c_prog 0 c_mat.
Proof.
  split; [exact c_hist_history|]. fold c_hist. assert (Hw : map snd (weight_calls c_hist) = [d_of_Z 2]) by (vm_compute; reflexivity). split.
  - intros f x Hin. apply (in_map snd) in Hin. cbn [snd] in Hin. rewrite Hw in Hin. destruct Hin as [<-|[]]. exact I.
  - assert (Ho : length (occ c_hist) = 2%nat) by (vm_compute; reflexivity). now rewrite Ho.
Qed.
Definition q_helo : list word := [[104; 101; 108; 111]].
Lemma q_helo_split : splitToWords demo_file s_helo = Ok q_helo.
Proof. vm_compute. reflexivity. Qed.
Lemma q_helo_moderate : moderate c_hist q_helo.
Proof.
  split.
  - intros qw [<-|[]]. reflexivity.
  - intros d f w Hin. apply (in_map (fun x => N.of_nat (length (snd x)))) in Hin. assert (Ho : map (fun x => N.of_nat (length (snd x))) (occ c_hist) = [5; 5]) by (vm_compute; reflexivity).
    rewrite Ho in Hin. cbn in Hin. lia.
Qed.
(** What it finds. *)
Definition c_heap2 : heap := fst (c_do demo_file the_disk (col_matcher_match (PAt 0) s_helo) c_heap).
Definition c_results : list c_call := [col_match_results_size (PAt 4); col_match_results_get_id (PAt 4) 0; col_match_results_get_id (PAt 4) 1; col_match_results_get_relevancy (PAt 4) 0].
Lemma c_found : snd (c_do demo_file the_disk (col_matcher_match (PAt 0) s_helo) c_heap) = Ok (VPtr (PAt 4)) /\
  snd (c_run demo_file the_disk c_results c_heap2) = Ok [VSize 1; VDocID 7; VDocID INVALID_DOCID; VDouble (d_of_Z 7)].
Proof. split; vm_compute; reflexivity. Qed.
(** ** The wrong accessor, and null handles *)
Lemma relevancy_wrong E W h n r view i : live h n (OResults r) -> shows r view ->
  snd (c_do E W (col_match_results_get_relevancy (PAt n) i) h) =
    Ok (VDouble (match nth_error view (N.to_nat i) with Some x => d_of_Z (Z.of_N (snd x)) | None => d_of_Z (-1) end)).
Proof.
  intros Hl [_ G]. destruct (results_relevancy E W i Hl) as [_ H]. destruct (G i) as (r' & A & _). rewrite A in H. cbn [snd] in H. destruct (nth_error view (N.to_nat i)); exact H.
Qed.
Definition c_res : mresults := match nth_error c_heap2 4 with Some (Some (OResults r)) => r | _ => mr_new end.
Lemma c_res_live : live c_heap2 4 (OResults c_res).
Proof.
  assert (H : kind c_heap2 4 = 4) by (vm_compute; reflexivity). unfold live, c_res, kind in *. destruct (nth_error c_heap2 4) as [[[]|]|]; try discriminate H. reflexivity.
Qed.
Lemma reached_snoc E W calls h c v h' : c_reached E W calls h -> c_do E W c h = (h', Ok v) -> c_reached E W (calls ++ [c]) h'.
Proof.
  intros (vs & Hr) Hc. unfold c_reached. revert Hr. generalize (@nil (option obj)). revert vs. induction calls as [|k calls IH]; intros vs h0 Hr.
  - injection Hr as <- <-. exists [v]. cbn. unfold mbind. now rewrite Hc.
  - cbn [c_run] in Hr. apply bind_ok in Hr as (h1 & v1 & H1 & Hr). apply bind_ok in Hr as (h2 & v2 & H2 & Hr). injection Hr as <- _.
    destruct (IH _ _ H2) as (vs' & Hvs). exists (v1 :: vs'). cbn. unfold mbind. now rewrite H1, Hvs.
Qed.
Definition c_prog2 : list c_call := c_prog ++ [col_matcher_match (PAt 0) s_helo].
Lemma c_prog2_reached : c_reached demo_file the_disk c_prog2 c_heap2.
Proof. eapply reached_snoc; [exact c_prog_reached|]. apply run_eq. vm_compute. reflexivity. Qed.
Lemma relevancy_refuted : exists E W calls h n r i x, c_reached E W calls h /\ live h n (OResults r) /\ snd (mr_getRelevancy i r) = Ok x /\
  snd (c_do E W (col_match_results_get_relevancy (PAt n) i) h) <> Ok (VDouble x).
Proof.
  exists demo_file, the_disk, c_prog2, c_heap2, 4%nat, c_res, 0, (match snd (mr_getRelevancy 0 c_res) with Ok x => x | _ => S754_nan end).
  split; [exact c_prog2_reached|]. split; [exact c_res_live|]. split; [vm_compute; reflexivity|]. vm_compute. discriminate.
Qed.
Lemma null_refuted : exists E W calls h s, c_reached E W calls h /\ Forall c_strings calls /\ c_strings (col_word_new s) /\ snd (c_do E W (col_word_new s) h) = Ok (VPtr PNull) /\
  snd (c_do E W (col_word_length PNull) h) = UB /\ snd (c_do E W (col_document_add_text (PAt 0) PNull s) h) = UB.
Proof.
  exists demo_file, the_disk, [], [], s_xy. split; [now exists []|]. split; [constructor|]. split; [unfold c_strings, c_text; repeat (apply Forall_cons; [lia|]); apply Forall_nil|].
  repeat split; vm_compute; reflexivity.
Qed.
Lemma null_undefined E W h c : (exists s, c = col_document_add_text PNull PNull s \/ c = col_matcher_match PNull s) \/ (exists p, c = col_matcher_index PNull p \/ c = col_corpus_add_document PNull p) \/
  (exists i, c = col_match_results_get_id PNull i \/ c = col_match_results_get_relevancy PNull i \/ c = col_word_as_utf8 PNull i) \/
  In c [col_word_length PNull; col_document_get_id PNull; col_match_results_size PNull; col_matcher_get_error_values PNull; col_matcher_get_index_weights PNull;
        col_error_values_add_standard_errors PNull; col_error_values_set_substring_mode PNull] ->
  snd (c_do E W c h) = UB.
Proof.
  intros [(s & [->| ->])|[(p & [->| ->])|[(i & [->|[->| ->]])|H]]]; try reflexivity.
  cbn in H. repeat destruct H as [<-|H]; try reflexivity. destruct H.
Qed.
Lemma the_disk_ok : shipped the_disk.
Proof. exact (@disk_ok None (or_introl eq_refl)). Qed.
Lemma s_helo_text : c_text s_helo.
Proof. unfold c_text, s_helo. repeat (apply Forall_cons; [lia|]). apply Forall_nil. Qed.
Lemma c_match_prepared : prepared demo_file the_disk c_prog c_heap (col_matcher_match (PAt 0) s_helo).
Proof.
  cbn [prepared]. intros m Hm. assert (m = c_mat) by (pose proof c_mat_live; unfold live in *; congruence). subst m. split; [exact c_hist_calm|].
  intros q Hq. rewrite q_helo_split in Hq. injection Hq as <-. exact q_helo_moderate.
Qed.
Lemma same_results h n r r' : live h n (OResults r) -> live h n (OResults r') -> r = r'.
Proof. unfold live. congruence. Qed.
Lemma one_result r view : shows r view -> mr_size r = 1 -> snd (mr_getDocumentID 0 r) = Ok 7 -> map snd view = [7].
Proof.
  intros [Hs Hg] H1 H2. rewrite H1 in Hs. destruct view as [|x [|y view]]; cbn [length] in Hs; try lia. destruct (Hg 0) as (r' & A & _).
  rewrite A in H2. cbn in H2. injection H2 as H2. cbn. now rewrite H2.
Qed.
Lemma c_view_some : exists r view, creates demo_file the_disk c_heap (col_matcher_match (PAt 0) s_helo) (OResults r) /\ shows r view.
Proof.
  destruct (c_search file_env_ok file_lower_ok fold_ok the_disk_ok c_prog_strings c_prog_reached c_mat_live c_hist_calm s_helo_text q_helo_split q_helo_moderate) as (r & view & Hc & Hv & _).
  exists r, view. exact (conj Hc Hv).
Qed.
Lemma created_live E W h c r n : creates E W h c (OResults r) -> fresh h = n -> live (fst (c_do E W c h)) n (OResults r).
Proof. intros [[H _] _] <-. exact H. Qed.
Lemma c_heap2_eq : c_heap2 = fst (c_do demo_file the_disk (col_matcher_match (PAt 0) s_helo) c_heap).
Proof. reflexivity. Qed.
Lemma c_view_ok : exists view, shows c_res view /\ map snd view = [7].
Proof.
  destruct c_view_some as (r & view & Hc & Hv). assert (Hf : fresh c_heap = 4%nat) by (vm_compute; reflexivity).
  pose proof (created_live Hc Hf) as Hl. rewrite <- c_heap2_eq in Hl. assert (r = c_res) as -> by exact (same_results Hl c_res_live).
  exists view. split; [exact Hv|]. apply (one_result Hv); vm_compute; reflexivity.
Qed.
Lemma word_null E W h s : lower_ok E -> (snd (c_do E W (col_word_new s) h) = Ok (VPtr PNull) <-> ~ valid_utf8 s \/ exists cs c, Forall scalar cs /\ s = bytes_of cs /\ In c cs /\ blank c).
Proof.
  intros HE. pose proof (word_new E W h s) as Hn. split.
  - intros Hs. destruct (valid_dec s) as [(cs & Hcs & ->)|Hv]; [right|now left]. destruct (blank_dec cs) as [Hb|(c & Hc & Hb)]; [exfalso|now exists cs, c].
    rewrite (word_valid HE Hcs Hb) in Hn. destruct Hn as [_ Hn]. rewrite Hs in Hn. discriminate Hn.
  - intros [Hv|(cs & c & Hcs & -> & Hc & Hb)].
    + rewrite (word_invalid E Hv) in Hn. unfold only_says in Hn. now rewrite Hn.
    + rewrite (word_blank HE Hcs (ex_intro _ c (conj Hc Hb))) in Hn. unfold only_says in Hn. now rewrite Hn.
Qed.
