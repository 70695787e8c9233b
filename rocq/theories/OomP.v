(** Proofs about OomM: what each function does whichever allocations fail. *)
From Verif Require Import Base TrieM WordM WordP WordQ MapM DoubleM ContM OwnM OwnP OwnQ Spec_Own OomM Spec_Oom.
Local Open Scope Z_scope.

Inductive crash := CAbort | CUndef | CFuel.
Definition sp {A} (f : T A) (m : memory) (Q : memory -> A -> Prop) (P : memory -> stop -> Prop) (B : crash -> Prop) : Prop :=
  match f m with
  | (m', Val a) => Q m' a
  | (m', Fail p) => P m' p
  | (_, Aborted) => B CAbort
  | (_, Undefined) => B CUndef
  | (_, NoFuel) => B CFuel
  end.
#[global] Arguments sp : simpl never.
Lemma sp_mono A (f : T A) m (Q Q' : memory -> A -> Prop) (P P' : memory -> stop -> Prop) (B B' : crash -> Prop) :
  sp f m Q P B -> (forall m' a, Q m' a -> Q' m' a) -> (forall m' p, P m' p -> P' m' p) -> (forall c, B c -> B' c) -> sp f m Q' P' B'.
Proof. unfold sp. destruct (f m) as [m' []]; auto. Qed.
Lemma sp_bind A C (f : T A) (k : A -> T C) m Q P B : sp f m (fun m1 a => sp (k a) m1 Q P B) P B -> sp (tbind f k) m Q P B.
Proof. unfold sp, tbind. destruct (f m) as [m' []]; auto. Qed.
Lemma sp_val A (a : A) m (Q : memory -> A -> Prop) P B : Q m a -> sp (val a) m Q P B.
Proof. intros H. exact H. Qed.
Lemma sp_fail A p m (Q : memory -> A -> Prop) (P : memory -> stop -> Prop) B : P m p -> sp (fail p) m Q P B.
Proof. intros H. exact H. Qed.
Lemma sp_try A (f : T A) m Q P B : sp f m (fun m1 a => Q m1 (inl a)) (fun m1 p => Q m1 (inr p)) B -> sp (try f) m Q P B.
Proof. unfold sp, try. destruct (f m) as [m' []]; auto. Qed.
Lemma sp_cleanup A (f : T A) (undo : T unit) m Q P B :
  sp f m Q (fun m1 p => sp undo m1 (fun m2 _ => P m2 p) P B) B -> sp (cleanup f undo) m Q P B.
Proof.
  intros H. unfold cleanup. apply sp_bind, sp_try. eapply sp_mono; [exact H| | |auto]; cbn.
  - intros m' a Ha. exact Ha.
  - intros m' p Hp. apply sp_bind. eapply sp_mono; [exact Hp| | |]; auto.
Qed.
Lemma sp_alloc m (Q : memory -> unit -> Prop) (P : memory -> stop -> Prop) B :
  (forall m1, live m1 = live m + 1 -> (plan m = [] -> plan m1 = []) -> Q m1 tt) ->
  (forall m1, live m1 = live m -> plan m <> [] -> P m1 OutOfMemory) -> sp alloc m Q P B.
Proof.
  intros HQ HP. unfold sp, alloc. destruct m as [[|[] r] l]; cbn in *; [apply HQ|apply HQ|apply HP]; cbn; auto; discriminate.
Qed.
Lemma sp_free m (Q : memory -> unit -> Prop) P B : (forall m1, live m1 = live m - 1 -> plan m1 = plan m -> Q m1 tt) -> sp free m Q P B.
Proof. intros HQ. unfold sp, free. apply HQ; reflexivity. Qed.
(** A step that leaves memory alone but for freeing. *)
Definition frees (f : T unit) (k : Z) : Prop := forall m, f m = (mkMem (plan m) (live m - k), Val tt).
Lemma sp_frees f k m (Q : memory -> unit -> Prop) P B : frees f k -> (forall m1, live m1 = live m - k -> plan m1 = plan m -> Q m1 tt) -> sp f m Q P B.
Proof. intros Hf HQ. unfold sp. rewrite Hf. apply HQ; reflexivity. Qed.
Lemma frees_bind f g j k : frees f j -> frees g k -> frees (f ;;; g)%t (j + k).
Proof. intros Hf Hg m. unfold tbind. rewrite Hf, Hg. cbn. f_equal. f_equal. lia. Qed.
Lemma frees_val : frees (val tt) 0.
Proof. intros [p l]. unfold val. cbn. f_equal. f_equal. lia. Qed.
Lemma frees_free : frees free 1.
Proof. intros m. reflexivity. Qed.
Lemma frees_eq f j k : frees f j -> j = k -> frees f k.
Proof. congruence. Qed.

(** ** How much an object holds, and when it is whole *)
Definition sum {A} (fp : A -> Z) (l : list A) : Z := fold_right (fun x s => fp x + s) 0 l.
Lemma sum_app A (fp : A -> Z) a b : sum fp (a ++ b) = sum fp a + sum fp b.
Proof. induction a as [|x a IH]; cbn; [reflexivity|]. change (fold_right _ 0 (a ++ b)) with (sum fp (a ++ b)). change (fold_right _ 0 a) with (sum fp a). lia. Qed.
Lemma sum_cons A (fp : A -> Z) x l : sum fp (x :: l) = fp x + sum fp l.
Proof. reflexivity. Qed.
Lemma sum_nil A (fp : A -> Z) : sum fp [] = 0.
Proof. reflexivity. Qed.
Definition fp_w (o : oword) : Z := match o_text o with TOwn _ => 1 | _ => 0 end.
Definition fp_st {A} (v : vec A) : Z := if Nat.eqb (v_cap v) 0 then 0 else 1.
Definition fp_vec {A} (fp : A -> Z) (v : vec A) : Z := sum fp (v_elems v) + fp_st v.
Definition fp_list (l : olist) : Z := fp_vec fp_w l + 1.
Definition fp_node (t : oword * olist) : Z := fp_w (fst t) + fp_list (snd t) + 1.
Definition fp_doc (d : odoc) : Z := sum fp_node (od_texts d) + 1.
Definition fp_corpus (c : ocorpus) : Z := fp_vec fp_doc c + 1.
Definition whole_w (o : oword) : Prop :=
  match o_text o with TNull => o_len o = 0%N | TOwn ls => (o_len o < N.of_nat (length ls))%N | TDangling => False end.
Definition whole_l (l : olist) : Prop := Forall whole_w (v_elems l).
Definition whole_n (t : oword * olist) : Prop := whole_w (fst t) /\ whole_l (snd t).
Definition whole_d (d : odoc) : Prop := Forall whole_n (od_texts d).
Definition whole_c (c : ocorpus) : Prop := Forall whole_d (v_elems c).

Lemma delete_frees o : whole_w o -> frees (t_delete (o_text o)) (fp_w o).
Proof. unfold whole_w, fp_w, t_delete. destruct (o_text o) as [|ls|]; intros H; [apply frees_val|apply frees_free|destruct H]. Qed.
Lemma word_frees o : whole_w o -> frees (o_destroy o) (fp_w o).
Proof. exact (@delete_frees o). Qed.
Lemma all_frees A (f : A -> T unit) (fp : A -> Z) (whole : A -> Prop) l : (forall x, whole x -> frees (f x) (fp x)) -> Forall whole l -> frees (t_all f l) (sum fp l).
Proof. intros Hf. induction 1 as [|x l Hx _ IH]; cbn [t_all]; [apply frees_val|]. rewrite sum_cons. apply frees_bind; auto. Qed.
Lemma st_frees A (v : vec A) : frees (v_free v) (fp_st v).
Proof. unfold v_free, fp_st. destruct (Nat.eqb _ _); [apply frees_val|apply frees_free]. Qed.
Lemma vec_frees A (f : A -> T unit) (fp : A -> Z) (whole : A -> Prop) v : (forall x, whole x -> frees (f x) (fp x)) -> Forall whole (v_elems v) -> frees (v_destroy f v) (fp_vec fp v).
Proof. intros Hf Hv. unfold v_destroy, fp_vec. apply frees_bind; [|apply st_frees]. eapply all_frees; eauto. Qed.
Lemma list_frees l : whole_l l -> frees (l_destroy l) (fp_list l).
Proof. intros H. unfold l_destroy, fp_list. apply frees_bind; [|apply frees_free]. eapply vec_frees; [apply word_frees|exact H]. Qed.
Lemma node_frees t : whole_n t -> frees (node_destroy t) (fp_node t).
Proof.
  intros [H1 H2]. unfold node_destroy. eapply frees_eq; [apply frees_bind; [apply word_frees, H1|apply frees_bind; [apply list_frees, H2|apply frees_free]]|]. unfold fp_node. lia.
Qed.
Lemma doc_frees d : whole_d d -> frees (d_destroy d) (fp_doc d).
Proof. intros H. unfold d_destroy, fp_doc. apply frees_bind; [|apply frees_free]. eapply all_frees; [apply node_frees|exact H]. Qed.
Lemma corpus_frees c : whole_c c -> frees (c_destroy c) (fp_corpus c).
Proof. intros H. unfold c_destroy, fp_corpus. apply frees_bind; [|apply frees_free]. eapply vec_frees; [apply doc_frees|exact H]. Qed.

Lemma broken_kind E ls : forall a b, match broken_loop E a b ls with Ok _ => True | Abort => e_ndebug E = false | _ => False end.
Proof.
  induction ls as [|c l IH]; intros a b; cbn [broken_loop]; [exact I|].
  destruct (_ && _)%bool; [exact I|]. destruct (is_surrogate c); [|apply IH]. destruct (_ && _)%bool; [exact I|]. unfold oassert. destruct (b || _)%bool; cbn [obind].
  - destruct b; apply IH.
  - destruct (e_ndebug E) eqn:He; cbn [obind]; [destruct b; apply IH|reflexivity].
Qed.
Lemma validate_kind E ls : match validate E ls with Ok _ | Throw _ => True | Abort => e_ndebug E = false | _ => False end.
Proof.
  unfold validate. destruct (has_ws ls); [exact I|]. unfold has_broken. pose proof (broken_kind E ls false true) as H. destruct (broken_loop _ _ _ _) as [[]| | | |]; cbn; auto; destruct H.
Qed.
Lemma letters_kind E ls : match word_of_letters E ls with Ok _ | Throw _ => True | Abort => e_ndebug E = false | UB => ls = [] | Fuel => False end.
Proof.
  unfold word_of_letters. destruct (rev ls) as [|x r] eqn:Hr.
  - apply (f_equal (@rev N)) in Hr. now rewrite rev_involutive in Hr.
  - pose proof (validate_kind E (if (x =? 0)%N then rev r else ls)) as H. unfold validate in H. cbv zeta. destruct (if has_ws _ then _ else _); auto; destruct H.
Qed.
Lemma utf8_kind w : match asUtf8 w with Ok _ | Throw _ | UB => True | _ => False end.
Proof.
  unfold asUtf8, w_toUtf8, internalToUtf8. destruct (iconv_16_8 _ _) as [l|]; cbn [obind]; [|exact I]. destruct (_ <? _)%N; cbn [obind]; [|exact I].
  generalize (l ++ [0%N]). intros b. induction b as [|x b IH]; cbn [c_str]; [exact I|]. destruct (x =? 0)%N; [exact I|]. destruct (c_str b); cbn [obind]; auto.
Qed.
(** ** Functions that compute a value *)
Definition lost (leak : Z) (m m' : memory) : Prop := live m <= live m' <= live m + leak.
Definition quiet (m m' : memory) : Prop := plan m = [] -> plan m' = [].
Section Ref.
Variable E : env.
(** [f] computes what [o] says: a whole object of that value; or it throws, and loses
    nothing beyond [leak] allocations. *)
Definition ref {A V} (f : T A) (o : outcome V) (whole : A -> Prop) (the : A -> V) (fp : A -> Z) (leak : Z) : Prop := forall m, sp f m
  (fun m' a => whole a /\ (e_ndebug E = false \/ plan m = [] -> o = Ok (the a)) /\ live m' = live m + fp a /\ quiet m m')
  (fun m' p => lost leak m m' /\ (plan m = [] -> plan m' = [] /\ exists e, p = Thrown e /\ o = Throw e))
  (fun c => match c with CAbort => e_ndebug E = false /\ (plan m = [] -> o = Abort) | CUndef => o = UB | CFuel => False end).
Lemma lost_leak leak m m' : lost leak m m' -> live m <= live m'.
Proof. unfold lost. lia. Qed.

(** *** Word *)
Lemma read_val o : whole_w o -> o_read o = val (the_word o).
Proof.
  unfold whole_w, o_read, the_word. intros H. destruct (N.eqb_spec (o_len o) 0) as [->|Hn].
  - destruct (o_text o); reflexivity.
  - destruct (o_text o) as [|ls|]; [easy| |easy]. apply N.ltb_lt in H. now rewrite H.
Qed.
Lemma the_word_length o : whole_w o -> N.of_nat (length (the_word o)) = o_len o.
Proof.
  unfold whole_w, the_word. destruct (o_text o) as [|ls|]; cbn; [congruence| |tauto]. intros H. rewrite firstn_length. lia.
Qed.
Lemma stored w n : n = N.of_nat (length w) -> whole_w (mkOW (TOwn (w ++ [0%N])) n) /\ the_word (mkOW (TOwn (w ++ [0%N])) n) = w.
Proof.
  intros ->. unfold whole_w, the_word. cbn. rewrite app_length. cbn. split; [lia|]. rewrite Nnat.Nat2N.id, firstn_app, firstn_all, Nat.sub_diag. cbn. apply app_nil_r.
Qed.
(** duplicateFrom. *)
Lemma duplicate_ok x o m P B : whole_w x -> whole_w o -> sp (o_duplicate x o) m
  (fun m' r => match snd r with
    | None => whole_w (fst r) /\ the_word (fst r) = the_word o /\ live m' = live m - fp_w x + fp_w (fst r)
    | Some p => p = OutOfMemory /\ plan m <> [] /\ live m' = live m - fp_w x end /\ quiet m m') P B.
Proof.
  intros Hx Ho. unfold o_duplicate. apply sp_bind. eapply sp_frees; [apply delete_frees, Hx|]. intros m1 L1 P1.
  destruct (N.eqb_spec (o_len o) 0) as [H0|Hn].
  - apply sp_val. cbn. split; [|unfold quiet; congruence]. split; [reflexivity|]. split; [|change (fp_w (mkOW TNull 0)) with 0; lia].
    pose proof (the_word_length Ho) as Hl. rewrite H0 in Hl. destruct (the_word o); [reflexivity|cbn in Hl; lia].
  - apply sp_bind, sp_try, sp_alloc; intros m2 L2 P2.
    + apply sp_bind. rewrite (read_val Ho). apply sp_val, sp_val. cbn. destruct (@stored (the_word o) (o_len o)) as [S1 S2]; [now rewrite the_word_length|].
      rewrite P1 in P2. split; [|exact P2]. split; [exact S1|]. split; [exact S2|]. change (fp_w (mkOW (TOwn (the_word o ++ [0%N])) (o_len o))) with 1. lia.
    + apply sp_val. cbn. rewrite P1 in P2. split; [|unfold quiet; easy]. split; [reflexivity|]. split; [exact P2|lia].
Qed.
Lemma copy_ref o : whole_w o -> ref (o_copy o) (Ok (the_word o)) whole_w the_word fp_w 0.
Proof.
  intros Ho m. unfold o_copy, construct. apply sp_bind. eapply sp_mono; [apply (@duplicate_ok o_empty o m (fun _ _ => False) (fun _ => False)); [reflexivity|exact Ho]| |easy|easy].
  intros m' [r [p|]] [H HQ]; cbn in *.
  - apply sp_fail. destruct H as (-> & H1 & H2). change (fp_w o_empty) with 0 in H2. split; [unfold lost; lia|]. easy.
  - apply sp_val. destruct H as (H1 & H2 & H3). change (fp_w o_empty) with 0 in H3. rewrite H2. repeat split; auto. lia.
Qed.
Lemma message_ok e m (Q : memory -> stop -> Prop) P B : (forall m1 p, live m1 = live m -> (plan m = [] -> plan m1 = [] /\ p = Thrown e) -> Q m1 p) -> sp (message e) m Q P B.
Proof.
  intros HQ. unfold message. apply sp_bind, sp_try, sp_alloc; intros m1 L1 P1.
  - apply sp_bind, sp_free. intros m2 L2 P2. apply sp_val, HQ; [lia|]. rewrite P2. auto.
  - apply sp_val, HQ; [lia|]. easy.
Qed.
(** convertString: the Word is there, or not. *)
Definition gone (o : oword) : Prop := o_text o = TNull.
Lemma finish_ok s ls m : sp (o_finish E s ls) m
  (fun m' r => quiet m m' /\ match snd r with
    | None => whole_w (fst r) /\ the_word (fst r) = ls /\ validate E ls = Ok ls /\ live m' = live m - 1 + fp_w (fst r)
    | Some p => gone (fst r) /\ live m - 1 <= live m' <= live m /\ (plan m = [] -> exists e, p = Thrown e /\ validate E ls = Throw e) end)
  (fun _ _ => False) (fun c => match c with CAbort => e_ndebug E = false /\ (plan m = [] -> validate E ls = Abort) | _ => False end).
Proof.
  unfold o_finish. cbv zeta. apply sp_bind.
  assert (Hgo : forall m1, live m1 = live m -> quiet m m1 -> sp
    match validate E ls with
     | Throw e => (free ;;; p <- message e ;; val (mkOW TNull (N.of_nat (length ls)), Some p))%t
     | o => (_ <- pure o ;; val (mkOW (TOwn (ls ++ [0%N])) (N.of_nat (length ls)), None))%t
     end m1
    (fun m' r => quiet m m' /\ match snd r with
    | None => whole_w (fst r) /\ the_word (fst r) = ls /\ validate E ls = Ok ls /\ live m' = live m - 1 + fp_w (fst r)
    | Some p => gone (fst r) /\ live m - 1 <= live m' <= live m /\ (plan m = [] -> exists e, p = Thrown e /\ validate E ls = Throw e) end)
    (fun _ _ => False) (fun c => match c with CAbort => e_ndebug E = false /\ (plan m = [] -> validate E ls = Abort) | _ => False end)).
  { intros m1 L1 P1. pose proof (@stored ls _ eq_refl) as [S1 S2]. destruct (validate E ls) as [w|e| | |] eqn:Hv.
    - apply sp_bind. unfold pure, sp at 1. apply sp_val. cbn. pose proof (validate_id Hv) as ->. repeat split; auto. unfold fp_w. cbn. lia.
    - apply sp_bind, sp_free. intros m2 L2 P2. apply sp_bind, message_ok. intros m3 p L3 P3. apply sp_val. cbn. rewrite P2 in P3. unfold quiet in *.
      split; [intros H0; apply P3, P1, H0|]. split; [reflexivity|]. split; [lia|]. intros H0. exists e. split; [|reflexivity]. apply P3, P1, H0.
    - apply sp_bind. unfold pure, sp. split; [|reflexivity]. pose proof (validate_kind E ls) as Hk. now rewrite Hv in Hk.
    - exfalso. pose proof (validate_kind E ls) as Hk. now rewrite Hv in Hk.
    - exfalso. pose proof (validate_kind E ls) as Hk. now rewrite Hv in Hk. }
  destruct (_ <? _)%N.
  - apply sp_try, sp_bind, sp_alloc; intros m1 L1 P1.
    + apply sp_free. intros m2 L2 P2. apply Hgo; [lia|]. unfold quiet. rewrite P2. exact P1.
    + apply sp_val. cbn. split; [unfold quiet; easy|]. split; [reflexivity|]. split; [lia|]. easy.
  - apply sp_val. apply Hgo; [reflexivity|]. unfold quiet. auto.
Qed.
Lemma convert_ok s m : sp (o_convert E s) m
  (fun m' r => quiet m m' /\ match snd r with
    | None => whole_w (fst r) /\ (e_ndebug E = false \/ plan m = [] -> word_of_utf8 E s = Ok (the_word (fst r))) /\ live m' = live m + fp_w (fst r)
    | Some p => gone (fst r) /\ live m <= live m' <= live m + 1 /\ (plan m = [] -> exists e, p = Thrown e /\ word_of_utf8 E s = Throw e) end)
  (fun _ _ => False) (fun c => match c with CAbort => e_ndebug E = false /\ (plan m = [] -> word_of_utf8 E s = Abort) | _ => False end).
Proof.
  unfold o_convert. apply sp_bind, sp_try, sp_alloc; intros m1 L1 P1.
  2: { apply sp_val. cbn. split; [unfold quiet; easy|]. split; [reflexivity|]. split; [lia|]. easy. }
  apply sp_bind, sp_try, sp_alloc; intros m2 L2 P2.
  - apply sp_bind, sp_free. intros m3 L3 P3. unfold word_of_utf8. destruct (internal_cases E s) as [[w Hw]|Hw]; rewrite Hw; cbn [obind].
    + apply sp_bind. unfold pure, sp at 1. eapply sp_mono; [apply finish_ok| | |]; cbn.
      * intros m' [r [p|]] [Q' H]; cbn in *; (split; [unfold quiet in *; intros H0; apply Q'; rewrite P3; auto|]).
        -- destruct H as (H1 & H2 & H3). split; [exact H1|]. split; [lia|]. intros H0. apply H3. rewrite P3. auto.
        -- destruct H as (H1 & H2 & H3 & H4). split; [exact H1|]. split; [now rewrite H2|lia].
      * easy.
      * intros []; try easy. intros [H1 H2]. split; [exact H1|]. intros H0. apply H2. rewrite P3. auto.
    + apply sp_bind, message_ok. intros m4 p L4 P4. apply sp_val. cbn. rewrite P3 in P4. unfold quiet. split; [intros H0; apply P4; auto|]. split; [reflexivity|]. split; [lia|].
      intros H0. exists ERuntime. split; [|reflexivity]. apply P4; auto.
  - destruct (e_ndebug E) eqn:Hnd.
    + eapply sp_mono; [apply finish_ok| | |]; cbn.
      * intros m' [r [p|]] [Q' H]; cbn in *; (split; [unfold quiet in *; intros H0; apply Q'; destruct (P2 (P1 H0))|]).
        -- destruct H as (H1 & H2 & H3). split; [exact H1|]. split; [lia|]. intros H0. destruct (P2 (P1 H0)).
        -- destruct H as (H1 & H2 & H3 & H4). split; [exact H1|]. split; [|lia]. intros [H0|H0]; [discriminate|destruct (P2 (P1 H0))].
      * easy.
      * intros []; try easy. intros [H1 H2]. congruence.
    + unfold sp. split; [reflexivity|]. intros H0. destruct (P2 (P1 H0)).
Qed.
Lemma of_text_ref s : ref (o_of_text E s) (word_of_utf8 E s) whole_w the_word fp_w 1.
Proof.
  intros m. unfold o_of_text, construct. apply sp_bind. eapply sp_mono; [apply convert_ok| |easy|].
  - intros m' [r [p|]] [HQ H]; cbn in *.
    + apply sp_fail. destruct H as (H1 & H2 & H3). split; [exact H2|]. auto.
    + apply sp_val. destruct H as (H1 & H2 & H3). auto.
  - intros []; easy.
Qed.
Lemma of_letters_ref ls : ref (o_of_letters E ls) (word_of_letters E ls) whole_w the_word fp_w 0.
Proof.
  intros m. unfold o_of_letters. apply sp_bind, sp_alloc; intros m1 L1 P1.
  - destruct (word_of_letters E ls) as [w|e| | |] eqn:Hw.
    + apply sp_bind. unfold pure, sp at 1. apply sp_val. pose proof (@stored w _ eq_refl) as [S1 S2]. rewrite S2. repeat split; auto.
    + apply sp_bind, sp_free. intros m2 L2 P2. apply sp_bind, message_ok. intros m3 p L3 P3. apply sp_fail. split; [unfold lost; lia|]. intros H0. rewrite P2 in P3. destruct (P3 (P1 H0)) as [H3 ->]. eauto.
    + apply sp_bind. unfold pure, sp. split; [|reflexivity]. pose proof (letters_kind E ls) as Hk. now rewrite Hw in Hk.
    + apply sp_bind. unfold pure, sp. reflexivity.
    + apply sp_bind. unfold pure, sp. pose proof (letters_kind E ls) as Hk. now rewrite Hw in Hk.
  - split; [unfold lost; lia|]. easy.
Qed.
Lemma join_ref x y : whole_w x -> whole_w y -> ref (o_join x y) (Ok (the_word x ++ the_word y)) whole_w the_word fp_w 0.
Proof.
  intros Hx Hy m. unfold o_join. apply sp_bind, sp_alloc; intros m1 L1 P1.
  - rewrite (read_val Hx), (read_val Hy). apply sp_bind, sp_val, sp_bind, sp_val, sp_val. unfold w_join.
    destruct (@stored (the_word x ++ the_word y) (o_len x + o_len y)) as [S1 S2]; [rewrite app_length, Nnat.Nat2N.inj_add, !the_word_length by assumption; reflexivity|].
    rewrite S2. repeat split; auto.
  - split; [unfold lost; lia|]. easy.
Qed.
Lemma asUtf8_ref o : whole_w o -> ref (o_asUtf8 o) (asUtf8 (the_word o)) (fun _ => True) (fun s => s) (fun _ => 0) 1.
Proof.
  intros Ho m. unfold o_asUtf8. pose proof (utf8_kind (the_word o)) as Hk. apply sp_bind, sp_alloc; intros m1 L1 P1; [|split; [unfold lost; lia|easy]].
  rewrite (read_val Ho). apply sp_bind, sp_val. destruct (asUtf8 (the_word o)) as [s|e| | |] eqn:Hs; try easy.
  - apply sp_bind. unfold pure, sp at 1. apply sp_bind, sp_alloc; intros m2 L2 P2; [|split; [unfold lost; lia|]; intros H0; destruct (P2 (P1 H0))].
    apply sp_bind, sp_free. intros m3 L3 P3. apply sp_bind, sp_free. intros m4 L4 P4. apply sp_val. repeat split; auto; [lia|]. unfold quiet. rewrite P4, P3. auto.
  - apply sp_bind, message_ok. intros m2 p L2 P2. apply sp_fail. split; [unfold lost; lia|]. intros H0. destruct (P2 (P1 H0)) as [H3 ->]. eauto.
Qed.
End Ref.
