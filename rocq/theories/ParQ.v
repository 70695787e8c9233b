(** Proofs about ParM: SearchParameters and programs. *)
From Verif Require Import Base TrieM WordM WordP WordQ MapM DoubleM ContM OwnM OwnP OwnQ Spec_Own OomM Spec_Oom OomP OomQ OomR OomT ParM Spec_Par ParP.
Local Open Scope Z_scope.

Definition full_f (f : ofilter) : Prop := whole_f f /\ v_elems f <> [].
Lemma map_some A B (g : A -> B) l : map g l <> [] -> l <> [].
Proof. destruct l; cbn; congruence. Qed.
Lemma term_full f : full_f f -> does (f_addTerm f) (fst (rf_addNewTerm (the_filter f))) full_f the_filter (fun r => fp_filter r - fp_filter f) 0.
Proof.
  intros [Hf Hn] m. eapply sp_does; [apply (addTerm_does Hf)| |].
  - intros m1 r Wr Vr Lr Qr. split; [split; [exact Wr|]|auto]. apply (@map_some _ _ the_term). change (the_filter r <> []). rewrite Vr. cbn. intros X. now apply app_eq_nil in X.
  - intros m1 P1 L1. oom.
Qed.
Lemma fnew_full : does f_new rf_new full_f the_filter fp_filter 1.
Proof.
  intros m. eapply sp_does; [apply fnew_does| |].
  - intros m1 r Wr Vr Lr Qr. split; [split; [exact Wr|]|auto]. apply (@map_some _ _ the_term). change (the_filter r <> []). rewrite Vr. discriminate.
  - intros m1 P1 L1. oom.
Qed.
Lemma arg_whole w : whole_w (arg w) /\ the_word (arg w) = w.
Proof. destruct w as [|a w]; [split; reflexivity|]. exact (@stored (a :: w) _ eq_refl). Qed.
Lemma sub_full f k w : full_f f -> does (f_addSub f (arg k) (arg w)) (fst (rf_addNewSubTerm k w (the_filter f))) full_f the_filter (fun r => fp_filter r - fp_filter f) 0 /\
  snd (rf_addNewSubTerm k w (the_filter f)) = Ok tt.
Proof.
  intros [Hf Hn]. destruct (arg_whole k) as [K1 K2], (arg_whole w) as [W1 W2]. destruct (addSub_does Hf Hn K1 W1) as [H1 H2]. rewrite K2, W2 in *. split; assumption.
Qed.

(** ** SearchParameters *)
Definition whole_p (p : oparams) : Prop := full_f (op_filter p) /\ Forall whole_w (op_fields p).
Definition the_params (p : oparams) : sparams := mkSP (op_dynamic p) (the_filter (op_filter p)) (map (fun o => (the_word o, tt)) (op_fields p)).
Definition fp_key (o : oword) : Z := fp_w o + 1.
Definition fp_params (p : oparams) : Z := sum fp_key (op_fields p) + (fp_filter (op_filter p) + 1).
Lemma params_frees p : whole_p p -> frees (p_destroy p) (fp_params p).
Proof.
  intros [[H1 _] H2]. apply frees_bind.
  - apply (@all_frees _ _ fp_key whole_w); [|exact H2]. intros o Ho. apply frees_bind; [now apply word_frees|apply frees_free].
  - apply frees_bind; [now apply filter_frees|apply frees_free].
Qed.
Lemma pnew_does : does p_new sp_new whole_p the_params fp_params 1.
Proof.
  intros m. apply sp_bind, sp_alloc; intros m1 L1 P1; [|oom]. apply sp_bind, sp_cleanup. eapply sp_does; [apply fnew_full| |].
  - intros m2 f Wf Vf Lf Qf. apply sp_val. split; [split; [exact Wf|constructor]|]. split; [unfold the_params; cbn; now rewrite Vf|].
    unfold fp_params. cbn [op_fields op_filter]. rewrite sum_nil. split; [lia|unfold quiet in *; auto].
  - intros m2 P2 L2. apply sp_free. intros m3 L3 P3. oom.
Qed.
Lemma on_filter p g f : whole_p p -> does (g (op_filter p)) f full_f the_filter (fun r => fp_filter r - fp_filter (op_filter p)) 0 ->
  does (p_onFilter p g) (mkSP (sp_dynamic (the_params p)) f (sp_nosearch (the_params p))) whole_p the_params (fun r => fp_params r - fp_params p) 0.
Proof.
  intros [H1 H2] Hg m. apply sp_bind. eapply sp_does; [apply Hg| |].
  - intros m1 r Wr Vr Lr Qr. cbn beta in Lr. apply sp_val. split; [split; assumption|]. split; [unfold the_params; cbn; now rewrite Vr|].
    unfold fp_params. cbn [op_fields op_filter]. split; [lia|exact Qr].
  - intros m1 P1 L1. oom.
Qed.
Lemma fields_val l : Forall whole_w l -> forall m, t_map o_read l m = (m, Val (map the_word l)).
Proof. induction 1 as [|o l Ho Hl IH]; intros m; [reflexivity|]. cbn [t_map map]. unfold tbind. rewrite (read_val Ho). unfold val at 1. rewrite IH. reflexivity. Qed.
Lemma upd_id A i (x : A) l : nth_error l i = Some x -> upd i x l = l.
Proof. revert i. induction l as [|y l IH]; intros [|i] H; try discriminate H; cbn in *; [congruence|]. now rewrite IH. Qed.
Lemma field_does p w : whole_p p -> does (p_addField p (arg w)) (sp_addNonsearchingField w (the_params p)) whole_p the_params (fun r => fp_params r - fp_params p) 0.
Proof.
  intros [H1 H2] m. destruct (arg_whole w) as [W1 W2]. unfold p_addField. apply sp_bind. unfold sp at 1. rewrite (fields_val H2).
  apply sp_bind. rewrite (read_val W1), W2. apply sp_val.
  assert (Hset : mp_set wltb w tt (sp_nosearch (the_params p)) = let (i, b) := key_at w (map the_word (op_fields p)) in
    if b then sp_nosearch (the_params p) else ins i (w, tt) (sp_nosearch (the_params p))).
  { rewrite set_at. cbn [the_params sp_nosearch]. rewrite map_map. cbn [fst]. change (map (fun x => the_word x) (op_fields p)) with (map the_word (op_fields p)). destruct (key_at w _) as [i []]; [|reflexivity].
    destruct (nth_error (map (fun o => (the_word o, tt)) (op_fields p)) i) as [[k []]|] eqn:Hn; [|reflexivity]. now apply upd_id. }
  unfold sp_addNonsearchingField. rewrite Hset. destruct (key_at w (map the_word (op_fields p))) as [i []].
  - apply sp_val. split; [now split|]. split; [reflexivity|]. split; [lia|red; auto].
  - apply sp_bind, sp_alloc; intros m1 L1 P1; [|oom]. apply sp_bind, sp_cleanup. eapply sp_does; [apply (copy_does W1)| |].
    + intros m2 c Wc Vc Lc Qc. apply sp_val. split; [split; [exact H1|now apply ins_Forall]|]. split.
      * unfold the_params. cbn [op_dynamic op_filter op_fields sp_dynamic sp_filter sp_nosearch]. rewrite ins_map, Vc, W2. reflexivity.
      * unfold fp_params. cbn [op_fields op_filter]. rewrite ins_sum. unfold fp_key at 1. split; [lia|unfold quiet in *; auto].
    + intros m2 P2 L2. apply sp_free. intros m3 L3 P3. oom.
Qed.

(** ** Programs *)
Definition whole_o (c : pobj) : Prop := match c with PRes _ => True | PFilter f => full_f f | PParams p => whole_p p end.
Definition whole_v (v : option pobj) : Prop := match v with Some c => whole_o c | None => True end.
Definition fp_o (c : pobj) : Z := match c with PRes r => fp_res r | PFilter f => fp_filter f | PParams p => fp_params p end.
Definition fp_v (v : option pobj) : Z := match v with Some c => fp_o c | None => 0 end.
Definition held (vs : pvars) : Z := sum fp_v vs.
Lemma kill_frees c : whole_o c -> frees (p_kill c) (fp_o c).
Proof. destruct c; cbn; intros H; [apply res_frees|apply filter_frees, (proj1 H)|now apply params_frees]. Qed.
Definition too_far (c : pstmt) (vs : pvalues) : Prop :=
  exists x y i r r2, c = QResTake x y i /\ y_res vs x = Some r /\ y_res vs y = Some r2 /\ (mr_size r2 <= i)%N.
Definition good_step (c : pstmt) (vs : pvars) (f : T pvars) (m : memory) : Prop := sp f m
  (fun m' vs' => Forall whole_v vs' /\ y_step c (the_pvalues vs) = Some (the_pvalues vs') /\ live m' - held vs' = live m - held vs /\ quiet m m')
  (fun m' p => (p = OutOfMemory /\ plan m <> [] /\ lost (p_loses c) m m' /\ y_step c (the_pvalues vs) <> None) \/ (p = Thrown EOutOfRange /\ m' = m /\ too_far c (the_pvalues vs)))
  (fun b => b = CUndef /\ exists x, c = QResAddAll x x).
Lemma the_app vs c : the_pvalues (vs ++ [Some c]) = the_pvalues vs ++ [Some (the_pobj c)].
Proof. unfold the_pvalues. now rewrite map_app. Qed.
Lemma the_upd x c vs : the_pvalues (upd x (Some c) vs) = upd x (Some (the_pobj c)) (the_pvalues vs).
Proof. unfold the_pvalues. now rewrite upd_map. Qed.
Lemma the_nth vs x c : nth_error vs x = Some (Some c) -> nth_error (the_pvalues vs) x = Some (Some (the_pobj c)).
Proof. intros H. unfold the_pvalues. rewrite nth_error_map, H. reflexivity. Qed.
Lemma res_in vs x r : a_res vs x = Some r -> nth_error vs x = Some (Some (PRes r)) /\ y_res (the_pvalues vs) x = Some (the_res r).
Proof. unfold a_res, y_res. destruct (nth_error vs x) as [[[]|]|] eqn:H; try discriminate. intros [= ->]. rewrite (the_nth H). split; reflexivity. Qed.
Lemma filter_in vs x r : a_filter vs x = Some r -> nth_error vs x = Some (Some (PFilter r)) /\ y_filter (the_pvalues vs) x = Some (the_filter r).
Proof. unfold a_filter, y_filter. destruct (nth_error vs x) as [[[]|]|] eqn:H; try discriminate. intros [= ->]. rewrite (the_nth H). split; reflexivity. Qed.
Lemma params_in vs x r : a_params vs x = Some r -> nth_error vs x = Some (Some (PParams r)) /\ y_params (the_pvalues vs) x = Some (the_params r).
Proof. unfold a_params, y_params. destruct (nth_error vs x) as [[[]|]|] eqn:H; try discriminate. intros [= ->]. rewrite (the_nth H). split; reflexivity. Qed.
Lemma whole_in vs x c : Forall whole_v vs -> nth_error vs x = Some (Some c) -> whole_o c.
Proof. rewrite Forall_forall. intros H Hn. exact (H _ (nth_error_In _ _ Hn)). Qed.
Lemma make_good c vs A V (g : T A) (v : V) whole the fp (obj : A -> pobj) (tov : V -> pvalue) m f : Forall whole_v vs -> does g v whole the fp (p_loses c) ->
  (forall a, whole a -> whole_o (obj a)) -> (forall a, the_pobj (obj a) = tov (the a)) -> (forall a, fp_o (obj a) = fp a) ->
  y_step c (the_pvalues vs) = Some (the_pvalues vs ++ [Some (tov v)]) -> p_make g obj vs = Some f -> good_step c vs f m.
Proof.
  intros Hvs Hg H1 H2 H3 Hy [= <-]. apply sp_bind. eapply sp_does; [apply Hg| |].
  - intros m1 a Wa Va La Qa. apply sp_val. split; [apply Forall_app; split; [exact Hvs|constructor; [now apply H1|constructor]]|].
    split; [now rewrite Hy, the_app, H2, Va|]. split; [|exact Qa]. unfold held. rewrite sum_app, sum_cons, sum_nil. cbn [fp_v]. rewrite H3. lia.
  - intros m1 P1 L1. left. rewrite Hy. repeat split; auto; try apply L1. discriminate.
Qed.
Lemma update_good c vs x old A V (g : T A) (v : V) whole the fp (obj : A -> pobj) (tov : V -> pvalue) m f : Forall whole_v vs -> nth_error vs x = Some (Some old) ->
  does g v whole the fp (p_loses c) ->
  (forall a, whole a -> whole_o (obj a)) -> (forall a, the_pobj (obj a) = tov (the a)) -> (forall a, fp_o (obj a) - fp_o old = fp a) ->
  y_step c (the_pvalues vs) = Some (upd x (Some (tov v)) (the_pvalues vs)) -> p_update x g obj vs = Some f -> good_step c vs f m.
Proof.
  intros Hvs Hn Hg H1 H2 H3 Hy [= <-]. apply sp_bind. eapply sp_does; [apply Hg| |].
  - intros m1 a Wa Va La Qa. apply sp_val. split; [apply upd_Forall; [now apply H1|exact Hvs]|].
    split; [now rewrite Hy, the_upd, H2, Va|]. split; [|exact Qa]. unfold held. rewrite (upd_sum fp_v (Some (obj a)) Hn). cbn [fp_v]. rewrite <- H3 in La. lia.
  - intros m1 P1 L1. left. rewrite Hy. repeat split; auto; try apply L1. discriminate.
Qed.
Lemma step_ok c vs f m : Forall whole_v vs -> p_step c vs = Some f -> good_step c vs f m.
Proof.
  intros Hvs Hs. destruct c as [|x|x y|x id d|x y|x y i| |x|x k w| |x b|x w|x|x k w|x]; cbn [p_step] in Hs.
  - eapply (@make_good QRes); try exact Hs; try exact Hvs; [exact new_does|easy|reflexivity|reflexivity|reflexivity].
  - destruct (a_res vs x) as [r|] eqn:Hr; [|discriminate]. destruct (res_in Hr) as [R1 R2].
    eapply (@make_good (QResCopy x)) with (tov := YRes); try exact Hs; try exact Hvs; [exact (rcopy_does r)|easy|reflexivity|reflexivity|]. cbn. now rewrite R2.
  - destruct (a_res vs x) as [r|] eqn:Hr; [|discriminate]. destruct (a_res vs y) as [r2|] eqn:Hr2; [|discriminate]. destruct (res_in Hr) as [R1 R2], (res_in Hr2) as [R3 R4].
    destruct (Nat.eqb_spec x y) as [<-|Hne].
    + injection Hs as <-. apply sp_val. split; [exact Hvs|]. split; [|split; [lia|red; auto]]. cbn. rewrite R2. cbn. f_equal. apply upd_id. now rewrite (the_nth R1).
    + eapply (@update_good (QResAssign x y)) with (tov := YRes); try exact Hs; try exact Hvs; [exact R1|exact (assign_does r r2)|easy|reflexivity|reflexivity|]. cbn. now rewrite R2, R4.
  - destruct (a_res vs x) as [r|] eqn:Hr; [|discriminate]. destruct (res_in Hr) as [R1 R2].
    eapply (@update_good (QResAdd x id d)) with (tov := YRes); try exact Hs; try exact Hvs; [exact R1|exact (radd_does r id d)|easy|reflexivity|reflexivity|]. cbn. now rewrite R2.
  - destruct (a_res vs x) as [r|] eqn:Hr; [|discriminate]. destruct (a_res vs y) as [r2|] eqn:Hr2; [|discriminate]. destruct (res_in Hr) as [R1 R2], (res_in Hr2) as [R3 R4].
    destruct (Nat.eqb_spec x y) as [<-|Hne].
    + injection Hs as <-. unfold good_step, sp. split; [reflexivity|now exists x].
    + eapply (@update_good (QResAddAll x y)) with (tov := YRes); try exact Hs; try exact Hvs; [exact R1|exact (raddAll_does r r2)|easy|reflexivity|reflexivity|]. cbn. rewrite R2, R4. apply Nat.eqb_neq in Hne. now rewrite Hne.
  - destruct (a_res vs x) as [r|] eqn:Hr; [|discriminate]. destruct (a_res vs y) as [r2|] eqn:Hr2; [|discriminate]. destruct (res_in Hr) as [R1 R2], (res_in Hr2) as [R3 R4].
    pose proof (rtake_does r r2 i) as Ht. destruct (at_or_throw (v_elems (or_vec r2)) i) as [e|e| | |] eqn:He; try contradiction.
    + eapply (@update_good (QResTake x y i)) with (tov := YRes); try exact Hs; try exact Hvs; [exact R1|exact Ht|easy|reflexivity|reflexivity|].
      cbn. rewrite R2, R4. unfold returned, mr_copyResult. cbn [the_res mr_results]. rewrite He. reflexivity.
    + injection Hs as <-. unfold good_step. apply sp_bind. unfold sp. rewrite Ht. right.
      unfold at_or_throw in He. destruct (N.leb_spec (N.of_nat (length (v_elems (or_vec r2)))) i) as [Hle|]; [|destruct (nth_error (v_elems (or_vec r2)) (N.to_nat i)); discriminate He]. injection He as <-.
      split; [reflexivity|]. split; [reflexivity|]. exists x, y, i, (the_res r), (the_res r2). repeat split; auto.
  - eapply (@make_good QFilter) with (tov := YFilter); try exact Hs; try exact Hvs; [exact fnew_full|easy|reflexivity|reflexivity|reflexivity].
  - destruct (a_filter vs x) as [r|] eqn:Hr; [|discriminate]. destruct (filter_in Hr) as [R1 R2]. pose proof (whole_in Hvs R1) as W.
    eapply (@update_good (QTerm x)) with (tov := YFilter); try exact Hs; try exact Hvs; [exact R1|exact (term_full W)|easy|reflexivity|reflexivity|]. cbn [y_step]. now rewrite R2.
  - destruct (a_filter vs x) as [r|] eqn:Hr; [|discriminate]. destruct (filter_in Hr) as [R1 R2]. pose proof (whole_in Hvs R1) as W. destruct (sub_full k w W) as [S1 S2].
    eapply (@update_good (QSubTerm x k w)) with (tov := YFilter); try exact Hs; try exact Hvs; [exact R1|exact S1|easy|reflexivity|reflexivity|].
    cbn [y_step]. rewrite R2. unfold returned. destruct (rf_addNewSubTerm k w (the_filter r)); cbn in S2 |- *. now subst.
  - eapply (@make_good QParams) with (tov := YParams); try exact Hs; try exact Hvs; [exact pnew_does|easy|reflexivity|reflexivity|reflexivity].
  - destruct (a_params vs x) as [p|] eqn:Hr; [|discriminate]. destruct (params_in Hr) as [R1 R2]. pose proof (whole_in Hvs R1) as W.
    eapply (@update_good (QDynamic x b)) with (tov := YParams) (v := sp_setDynamic b (the_params p)) (whole := whole_p) (the := the_params) (fp := fun r => fp_params r - fp_params p); try exact Hs; try exact Hvs; [exact R1| |easy|reflexivity|reflexivity|].
    + intros m'. apply sp_val. split; [exact W|]. split; [reflexivity|]. unfold fp_params. cbn [op_fields op_filter]. split; [lia|red; auto].
    + cbn [y_step]. now rewrite R2.
  - destruct (a_params vs x) as [p|] eqn:Hr; [|discriminate]. destruct (params_in Hr) as [R1 R2]. pose proof (whole_in Hvs R1) as W.
    eapply (@update_good (QField x w)) with (tov := YParams); try exact Hs; try exact Hvs; [exact R1|exact (field_does w W)|easy|reflexivity|reflexivity|]. cbn [y_step]. now rewrite R2.
  - destruct (a_params vs x) as [p|] eqn:Hr; [|discriminate]. destruct (params_in Hr) as [R1 R2]. pose proof (whole_in Hvs R1) as W.
    eapply (@update_good (QParamsTerm x)) with (tov := YParams); try exact Hs; try exact Hvs; [exact R1|exact (on_filter W (term_full (proj1 W)))|easy|reflexivity|reflexivity|]. cbn [y_step]. now rewrite R2.
  - destruct (a_params vs x) as [p|] eqn:Hr; [|discriminate]. destruct (params_in Hr) as [R1 R2]. pose proof (whole_in Hvs R1) as W. destruct (sub_full k w (proj1 W)) as [S1 S2].
    eapply (@update_good (QParamsSubTerm x k w)) with (tov := YParams); try exact Hs; try exact Hvs; [exact R1|exact (@on_filter p (fun f => f_addSub f (arg k) (arg w)) _ W S1)|easy|reflexivity|reflexivity|].
    cbn [y_step]. rewrite R2. unfold returned. cbn [the_params sp_filter]. destruct (rf_addNewSubTerm k w (the_filter (op_filter p))); cbn in S2 |- *. now subst.
  - destruct (nth_error vs x) as [[c|]|] eqn:Hn; try discriminate. injection Hs as <-. apply sp_bind. eapply sp_frees; [exact (kill_frees (whole_in Hvs Hn))|]. intros m1 L1 P1.
    apply sp_val. split; [apply upd_Forall; [exact I|exact Hvs]|]. split; [cbn [y_step]; rewrite (the_nth Hn); unfold the_pvalues; now rewrite upd_map|].
    split; [|unfold quiet; congruence]. unfold held. rewrite (upd_sum fp_v None Hn). cbn [fp_v]. lia.
Qed.
(** A statement that names what is there. *)
Lemma step_there c vs : p_step c vs = None -> y_step c (the_pvalues vs) = None /\ ~ too_far c (the_pvalues vs).
Proof.
  assert (NR : forall x, a_res vs x = None -> y_res (the_pvalues vs) x = None).
  { intros x. unfold a_res, y_res, the_pvalues. rewrite nth_error_map. destruct (nth_error vs x) as [[[]|]|]; cbn; auto; discriminate. }
  assert (NF : forall x, a_filter vs x = None -> y_filter (the_pvalues vs) x = None).
  { intros x. unfold a_filter, y_filter, the_pvalues. rewrite nth_error_map. destruct (nth_error vs x) as [[[]|]|]; cbn; auto; discriminate. }
  assert (NP : forall x, a_params vs x = None -> y_params (the_pvalues vs) x = None).
  { intros x. unfold a_params, y_params, the_pvalues. rewrite nth_error_map. destruct (nth_error vs x) as [[[]|]|]; cbn; auto; discriminate. }
  intros H. split.
  - destruct c as [|x|x y|x id d|x y|x y i| |x|x k w| |x b|x w|x|x k w|x]; cbn [p_step y_step] in *; try discriminate H;
      try (destruct (a_res vs x) eqn:H1; [try discriminate H|now rewrite (NR _ H1)]);
      try (destruct (a_res vs y) eqn:H2; [try (destruct (Nat.eqb x y); discriminate H); discriminate H|rewrite (NR _ H2); now destruct (y_res (the_pvalues vs) x)]);
      try (destruct (a_filter vs x) eqn:H1; [discriminate H|now rewrite (NF _ H1)]);
      try (destruct (a_params vs x) eqn:H1; [discriminate H|now rewrite (NP _ H1)]).
    unfold the_pvalues. rewrite nth_error_map. destruct (nth_error vs x) as [[c|]|]; try discriminate H; reflexivity.
  - intros (x & y & i & r & r2 & -> & X & Y & _). cbn [p_step] in H. destruct (a_res vs x) eqn:H1; [|now rewrite (NR _ H1) in X]. destruct (a_res vs y) eqn:H2; [discriminate H|now rewrite (NR _ H2) in Y].
Qed.
