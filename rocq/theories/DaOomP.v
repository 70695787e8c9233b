(** Assignments of Documents that run out of memory. *)
From Verif Require Import Base TrieM WordM WordP WordQ MapM DoubleM ContM OwnM OwnP OwnQ Spec_Own OomM Spec_Oom OomP OomQ OomR OomS OomT DaOomM Demo.
Local Open Scope Z_scope.

Notation nodes := (list (oword * olist)).
(** What copying does: nothing here asserts, and nothing depends on the build. *)
Definition goes {A V} (f : T A) (v : V) (whole : A -> Prop) (the : A -> V) (fp : A -> Z) (before leak : Z) : Prop := forall m, sp f m
  (fun m' a => whole a /\ the a = v /\ live m' = live m - before + fp a /\ quiet m m')
  (fun m' p => live m - before <= live m' <= live m - before + leak /\ plan m <> [])
  (fun _ => False).
Lemma node_goes t : whole_n t -> goes (node_copy t) (the_node t) whole_n the_node fp_node 0 1.
Proof.
  intros Ht m. pose proof (node_ref demo Ht m) as H1. pose proof (node_ref demo_release Ht m) as H2. unfold sp in *. destruct (node_copy t m) as [m' [a|p| | |]].
  - destruct H1 as (W & V & L & Q). split; [exact W|]. split; [|split; [lia|exact Q]]. assert (Hd : Ok (the_node t) = Ok (the_node a)) by (apply V; left; reflexivity). congruence.
  - destruct H1 as (L & Q). unfold lost in L. split; [lia|]. intros Hp. destruct (Q Hp) as (_ & e & _ & X). discriminate X.
  - destruct H2 as (X & _). discriminate X.
  - discriminate H1.
  - destruct H1.
Qed.
Lemma word_goes o : whole_w o -> goes (o_copy o) (the_word o) whole_w the_word fp_w 0 0.
Proof.
  intros Ho m. pose proof (copy_ref demo Ho m) as H1. pose proof (copy_ref demo_release Ho m) as H2. unfold sp in *. destruct (o_copy o m) as [m' [a|p| | |]].
  - destruct H1 as (W & V & L & Q). split; [exact W|]. split; [|split; [lia|exact Q]]. assert (Hd : Ok (the_word o) = Ok (the_word a)) by (apply V; left; reflexivity). congruence.
  - destruct H1 as (L & Q). unfold lost in L. split; [lia|]. intros Hp. destruct (Q Hp) as (_ & e & _ & X). discriminate X.
  - destruct H2 as (X & _). discriminate X.
  - discriminate H1.
  - destruct H1.
Qed.
(** Only the copy of a WordList with words loses memory. *)
Lemma node_goes0 t : whole_n t -> v_elems (snd t) = [] -> goes (node_copy t) (the_node t) whole_n the_node fp_node 0 0.
Proof.
  intros [H1 H2] He m. unfold node_copy. apply sp_bind, sp_alloc; intros m1 L1 P1; [|split; [lia|exact P1]].
  apply sp_bind, sp_cleanup. eapply sp_mono; [apply (word_goes H1)| | |auto]; cbn beta.
  - intros m2 k (Wk & Vk & L2 & Q2). apply sp_bind, sp_cleanup. unfold l_copy. rewrite He. apply sp_bind, sp_alloc; intros m3 L3 P3.
    + apply sp_val. split; [split; [exact Wk|constructor]|]. split; [unfold the_node; cbn [fst snd]; f_equal; [exact Vk|unfold the_list; now rewrite He]|].
      split; [unfold fp_node, fp_list; cbn in *; lia|unfold quiet in *; auto].
    + eapply sp_frees; [apply frees_bind; [apply word_frees, Wk|apply frees_free]|]. intros m4 L4 P4. split; [lia|]. unfold quiet in *. auto.
  - intros m2 p (L2 & P2). apply sp_free. intros m3 L3 P3. split; [lia|auto].
Qed.
(** What copying an element may lose. *)
Definition loses (k : Z) (t : oword * olist) : Prop := k = 1 \/ k = 0 /\ v_elems (snd t) = [].
Lemma node_goes_k k t : whole_n t -> loses k t -> goes (node_copy t) (the_node t) whole_n the_node fp_node 0 k.
Proof. intros H [->|[-> He]]; [now apply node_goes|now apply node_goes0]. Qed.
Lemma fill_eq t m : exists m0, node_fill t m = node_copy t m0 /\ live m0 = live m - 1 /\ (plan m0 = [] <-> plan m = []).
Proof.
  destruct m as [p l]. exists (mkMem (match p with [] => [] | _ => true :: p end) (l - 1)). split; [|split; [reflexivity|destruct p; split; easy]].
  change (node_copy t) with (tbind alloc (fun _ => node_fill t)). unfold tbind at 1, alloc. cbn [plan live]. destruct p as [|b p]; cbn [plan live]; now replace (l - 1 + 1) with l by lia.
Qed.
Lemma fill_goes k t : whole_n t -> loses k t -> goes (node_fill t) (the_node t) whole_n the_node fp_node 1 k.
Proof.
  intros Ht Hk m. destruct (fill_eq t m) as (m0 & He & Hl & Hp). pose proof (node_goes_k Ht Hk m0) as H. unfold sp in *. rewrite He. destruct (node_copy t m0) as [m' [a|p| | |]]; try exact H.
  - destruct H as (W & V & L & Q). split; [exact W|]. split; [exact V|]. split; [lia|]. unfold quiet in *. intros X. apply Q. now apply Hp.
  - destruct H as (L & Q). split; [lia|]. intros X. apply Q. now apply Hp.
Qed.
Lemma reuse_goes k old t : whole_n old -> whole_n t -> loses k t -> goes (node_reuse old t) (the_node t) whole_n the_node fp_node (fp_node old) k.
Proof.
  intros [H1 H2] Ht Hk m. unfold node_reuse. apply sp_bind. eapply sp_frees; [apply word_frees, H1|]. intros m1 L1 P1. apply sp_bind. eapply sp_frees; [apply list_frees, H2|]. intros m2 L2 P2.
  eapply sp_mono; [apply (fill_goes Ht Hk)| | |auto]; cbn beta; unfold fp_node at 2; unfold quiet.
  - intros m' a (W & V & L & Q). split; [exact W|]. split; [exact V|]. split; [lia|]. intros X. apply Q. congruence.
  - intros m' p (L & Q). unfold fp_node. split; [lia|congruence].
Qed.
Lemma texts_goes k : 0 <= k -> forall from old, Forall whole_n old -> Forall whole_n from -> Forall (loses k) from -> goes (texts_assign old from) (map the_node from) (Forall whole_n) (map the_node) (sum fp_node) (sum fp_node old) k.
Proof.
  intros Hk0. induction from as [|t r IH]; intros old Ho Hf Hk m; cbn [texts_assign].
  - apply sp_bind. eapply sp_frees; [eapply all_frees; [apply node_frees|exact Ho]|]. intros m1 L1 P1. apply sp_val. split; [constructor|]. split; [reflexivity|]. split; [cbn; lia|]. unfold quiet. congruence.
  - pose proof (Forall_inv Hf) as Ht. pose proof (Forall_inv_tail Hf) as Hr. pose proof (Forall_inv Hk) as Hkt. pose proof (Forall_inv_tail Hk) as Hkr.
    assert (Hrest : forall rest n m1, Forall whole_n rest -> whole_n n -> the_node n = the_node t -> live m1 = live m - sum fp_node old + sum fp_node rest + fp_node n -> (plan m = [] -> plan m1 = []) ->
      sp (ns <- cleanup (texts_assign rest r) (node_destroy n) ;; val (n :: ns))%t m1
        (fun m' a => Forall whole_n a /\ map the_node a = map the_node (t :: r) /\ live m' = live m - sum fp_node old + sum fp_node a /\ quiet m m')
        (fun m' p => live m - sum fp_node old <= live m' <= live m - sum fp_node old + k /\ plan m <> []) (fun _ => False)).
    { intros rest n m1 Wr Wn Vn L1 Q1. apply sp_bind, sp_cleanup. eapply sp_mono; [apply (IH rest Wr Hr Hkr)| | |auto]; cbn beta.
      - intros m2 ns (W & V & L & Q). apply sp_val. split; [now constructor|]. split; [cbn; now rewrite V, Vn|]. rewrite sum_cons. split; [lia|]. unfold quiet in *. auto.
      - intros m2 p (L & Q). eapply sp_frees; [apply node_frees, Wn|]. intros m3 L3 P3. split; [lia|auto]. }
    destruct old as [|x rest].
    + apply sp_bind. eapply sp_mono; [apply (node_goes_k Ht Hkt)| | |auto]; cbn beta.
      * intros m1 n (W & V & L & Q). apply Hrest; auto. cbn. lia.
      * intros m1 p (L & Q). split; [cbn; lia|exact Q].
    + apply sp_bind, sp_cleanup. eapply sp_mono; [apply (reuse_goes (Forall_inv Ho) Ht Hkt)| | |auto]; cbn beta.
      * intros m1 n (W & V & L & Q). apply Hrest; auto; [exact (Forall_inv_tail Ho)|]. rewrite sum_cons. lia.
      * intros m1 p (L & Q). eapply sp_frees; [eapply all_frees; [apply node_frees|exact (Forall_inv_tail Ho)]|]. intros m2 L2 P2. rewrite sum_cons. split; [lia|exact Q].
Qed.
Lemma assign_ok k x d m : 0 <= k -> Forall (loses k) (od_texts d) -> whole_d x -> whole_d d -> exists m' x' e, d_assign x d m = (m', Val (x', e)) /\ whole_d x' /\
  match e with
  | None => the_doc x' = the_doc d /\ live m' - fp_doc x' = live m - fp_doc x /\ quiet m m'
  | Some _ => the_doc x' = doc_new (od_id d) /\ live m - fp_doc x <= live m' - fp_doc x' <= live m - fp_doc x + k /\ plan m <> []
  end.
Proof.
  intros Hk Hl Hx Hd. pose proof (@texts_goes k Hk (od_texts d) (od_texts x) Hx Hd Hl m) as H. unfold d_assign, tbind, try. unfold sp in H. destruct (texts_assign (od_texts x) (od_texts d) m) as [m' [ts|p| | |]]; [| |destruct H|destruct H|destruct H].
  - destruct H as (W & V & L & Q). exists m', (mkOD (od_id d) ts), None. split; [reflexivity|]. split; [exact W|]. split; [|split; [unfold fp_doc; cbn [od_texts]; lia|exact Q]].
    unfold the_doc. cbn [od_id od_texts]. f_equal. exact V.
  - destruct H as (L & Q). exists m', (mkOD (od_id d) []), (Some p). split; [reflexivity|]. split; [constructor|]. split; [reflexivity|]. split; [unfold fp_doc; cbn [od_texts sum fold_right]; lia|exact Q].
Qed.

Lemma loses_of d : exists k, 0 <= k <= 1 /\ Forall (loses k) (od_texts d) /\ (Forall (fun t => snd t = []) (d_texts (the_doc d)) -> k = 0).
Proof.
  assert (H : Forall (fun t => v_elems (snd t) = []) (od_texts d) <-> Forall (fun t => snd t = []) (d_texts (the_doc d))).
  { unfold the_doc. cbn [d_texts]. rewrite Forall_map. split; apply Forall_impl; intros [k l]; cbn [fst snd]; unfold the_list; destruct (v_elems l); easy. }
  assert (D : Forall (fun t : oword * olist => v_elems (snd t) = []) (od_texts d) \/ ~ Forall (fun t : oword * olist => v_elems (snd t) = []) (od_texts d)).
  { clear H. induction (od_texts d) as [|t r IH]; [left; constructor|]. destruct (v_elems (snd t)) eqn:Ht; [|right; intros X; apply Forall_inv in X; congruence].
    destruct IH as [IH|IH]; [left; now constructor|right; intros X; apply IH; exact (Forall_inv_tail X)]. }
  destruct D as [Y|N].
  - exists 0. split; [lia|]. split; [|reflexivity]. revert Y. apply Forall_impl. intros t Ht. now right.
  - exists 1. split; [lia|]. split; [|intros X; now apply H in X]. apply Forall_forall. intros t _. now left.
Qed.

Section Program.
Variables (E : env) (p : list bool) (ops : list stmt) (m : memory) (vs : ovars) (fs : list fate).
Hypothesis (Hr : runs E ops (mkMem p 0) [] = (m, vs, fs)) (Hn : undamaged E ops (mkMem p 0) []).
Lemma vars_whole : Forall whole_v vs.
Proof. destruct (@runs_ok E _ _ _ _ _ _ Hr ltac:(constructor) Hn) as (H & _). exact H. Qed.
Lemma da_ok x y a b : nth_error vs x = Some (Some (ODoc a)) -> nth_error vs y = Some (Some (ODoc b)) ->
  exists m' a' e, d_assign a b m = (m', Val (a', e)) /\ the_doc a' = (match e with None => the_doc b | Some _ => doc_new (od_id b) end) /\ (e <> None -> plan m <> []) /\
  exists m1 m2 lost, d_destroy a m = (m1, Val tt) /\ d_destroy a' m' = (m2, Val tt) /\ live m2 = live m1 + lost /\ (e = None -> lost = 0) /\ (Forall (fun t => snd t = []) (d_texts (the_doc b)) -> lost = 0) /\ 0 <= lost <= 1.
Proof.
  intros Ha Hb. assert (Wa : whole_d a) by exact (whole_in vars_whole Ha). assert (Wb : whole_d b) by exact (whole_in vars_whole Hb).
  destruct (loses_of b) as (k & Hk & Hl & Hn0).
  destruct (@assign_ok k a b m ltac:(lia) Hl Wa Wb) as (m' & a' & e & He & W' & H). exists m', a', e. split; [exact He|]. split; [destruct e; apply H|]. split; [intros X; destruct e; [apply H|now destruct X]|].
  exists (mkMem (plan m) (live m - fp_doc a)), (mkMem (plan m') (live m' - fp_doc a')), ((live m' - fp_doc a') - (live m - fp_doc a)).
  split; [apply (doc_frees Wa)|]. split; [apply (doc_frees W')|]. cbn [live]. split; [lia|]. destruct e; [split; [discriminate|split; [intros X; apply Hn0 in X; lia|lia]]|split; [lia|split; lia]].
Qed.
Lemma da_ends x y a b : nth_error vs x = Some (Some (ODoc a)) -> nth_error vs y = Some (Some (ODoc b)) ->
  exists m' a' e, d_assign a b m = (m', Val (a', e)) /\ (e = None -> the_doc a' = the_doc b) /\ (e <> None -> the_doc a' = mkDoc (d_id (the_doc b)) []) /\
  exists m1 m2 lost, d_destroy a m = (m1, Val tt) /\ d_destroy a' m' = (m2, Val tt) /\ live m2 = live m1 + lost /\ (e = None -> lost = 0) /\ (Forall (fun t => snd t = []) (d_texts (the_doc b)) -> lost = 0) /\ 0 <= lost <= 1.
Proof.
  intros Ha Hb. destruct (da_ok Ha Hb) as (m' & a' & e & He & V & _ & Hl). exists m', a', e. split; [exact He|]. split; [intros ->; exact V|]. split; [|exact Hl].
  intros X. destruct e as [q|]; [exact V|now destruct X].
Qed.
Lemma da_enough x y a b : nth_error vs x = Some (Some (ODoc a)) -> nth_error vs y = Some (Some (ODoc b)) -> plan m = [] ->
  exists m' a', d_assign a b m = (m', Val (a', None)) /\ the_doc a' = the_doc b.
Proof.
  intros Ha Hb Hp. destruct (da_ok Ha Hb) as (m' & a' & e & He & V & Q & _). destruct e as [q|]; [exfalso; apply Q; [discriminate|exact Hp]|]. exists m', a'. split; [exact He|exact V].
Qed.
(** The Document can be used as before. *)
Lemma da_usable x y a b m' a' e ops2 m2 vs2 fs2 : no_crash fs -> nth_error vs x = Some (Some (ODoc a)) -> nth_error vs y = Some (Some (ODoc b)) -> d_assign a b m = (m', Val (a', e)) ->
  runs E ops2 m' (upd x (Some (ODoc a')) vs) = (m2, vs2, fs2) ->
  undamaged E ops2 m' (upd x (Some (ODoc a')) vs) ->
  ~ In Died_fuel fs2 /\
  (forall k, nth_error fs2 k = Some Died_undefined -> nth_error ops2 k = Some (SWordLetters []) \/ exists z w, nth_error ops2 k = Some (SWordUtf8 z) /\ nth_error (the_values vs2) z = Some (Some (VWord (WGood w))) /\ asUtf8 w = UB) /\
  (e_ndebug E = false -> never_threw assigns ops2 fs2 -> v_prog E (map same (done ops2 fs2)) (the_values (upd x (Some (ODoc a')) vs)) = (the_values vs2, Ok (map (fun _ => Ok tt) (done ops2 fs2)))) /\
  (no_crash fs2 -> (forall v, In v vs2 -> v = None) -> 0 <= live m2 <= may_be_lost ops fs + (match e with None => 0 | Some _ => 1 end) + may_be_lost ops2 fs2).
Proof.
  intros Hc Ha Hb He Hr2 Hn2. assert (Wa : whole_d a) by exact (whole_in vars_whole Ha). assert (Wb : whole_d b) by exact (whole_in vars_whole Hb).
  destruct (loses_of b) as (k & Hk & Hl & _). destruct (@assign_ok k a b m ltac:(lia) Hl Wa Wb) as (m'' & a'' & e' & He' & W' & H). rewrite He in He'. injection He' as <- <- <-.
  assert (Wv : Forall whole_v (upd x (Some (ODoc a')) vs)) by (apply upd_Forall; [exact W'|exact vars_whole]).
  destruct (@runs_ok E _ _ _ _ _ _ Hr2 Wv Hn2) as (W2 & L2 & V2 & F2 & _ & U2 & _).
  split; [exact F2|]. split; [|split; [intros Hd Ht; apply V2; [exact Ht|now left]|]].
  - intros j Hj. destruct (U2 j Hj) as (c & Hcj & Hu & f & Hf). destruct (ub_only W2 Hf Hu) as [->|(z & w & -> & Hx & Hw)]; [left; exact Hcj|right; exists z, w; auto].
  - intros Hc2 Hg. apply not_crashed in Hc. apply not_crashed in Hc2. destruct L2 as [L2|L2]; [tauto|]. destruct (@runs_ok E _ _ _ _ _ _ Hr ltac:(constructor) Hn) as (_ & [L1|L1] & _); [tauto|].
    assert (Hh : held vs2 = 0) by exact (gone_held Hg). rewrite Hh in L2. unfold held in L2. rewrite (upd_sum fp_v _ Ha) in L2. cbn [fp_v fp_o] in L2. cbn in L1. unfold held in L1. destruct e; lia.
Qed.
End Program.
