(** Memory as a list of cells; every operation takes one list to another. *)
From Verif Require Import Base TrieM WordM MapM DoubleM ContM OwnM Spec_Own.
From Coq Require Import ZifyBool ZifyN ZifyNat.
Local Open Scope N_scope.

Definition cell : Type := nat * block.
Fixpoint lsum (f : cell -> nat) (l : list cell) : nat := match l with [] => O | x :: r => (f x + lsum f r)%nat end.
Lemma lsum_app f a b : lsum f (a ++ b) = (lsum f a + lsum f b)%nat.
Proof. induction a; cbn; lia. Qed.
Lemma lsum_cons f x l : lsum f (x :: l) = (f x + lsum f l)%nat.
Proof. reflexivity. Qed.
Lemma lsum_nil f : lsum f [] = O.
Proof. reflexivity. Qed.

Fixpoint lives (k : nat) (m : mem) : list cell :=
  match m with
  | [] => []
  | Some b :: r => (k, b) :: lives (S k) r
  | None :: r => lives (S k) r
  end.
(** The cells of [m], weighed by [f]; [W] lies in [m]. *)
Definition ms (m : mem) (f : cell -> nat) : nat := lsum f (lives 0 m).
Definition sub (W : list cell) (m : mem) : Prop := forall f, (lsum f W <= ms m f)%nat.
Ltac hs := unfold sub in *; intros; repeat match goal with
  | f : cell -> nat, H : forall g : cell -> nat, _ |- _ => specialize (H f) end;
  repeat rewrite ?lsum_app, ?lsum_cons, ?lsum_nil in *; lia.

Lemma block_dec (a b : block) : {a = b} + {a <> b}.
Proof.
  assert (forall a b : double, {a = b} + {a <> b}) by (intros; repeat decide equality).
  repeat decide equality.
Defined.
Lemma cell_dec (a b : cell) : {a = b} + {a <> b}.
Proof. destruct a as [i a], b as [j b]. destruct (PeanoNat.Nat.eq_dec i j) as [->|H], (block_dec a b) as [->|G]; [left; reflexivity|right; congruence..]. Defined.

Definition is_cell (c x : cell) : nat := if cell_dec c x then 1%nat else 0%nat.
Lemma in_lsum c l : In c l <-> (0 < lsum (is_cell c) l)%nat.
Proof.
  induction l as [|x l IH]; cbn; [lia|]. unfold is_cell at 1. destruct (cell_dec c x) as [->|H]; split; intros; try lia; [now left| |].
  - destruct H0 as [->|H0]; [congruence|]. apply IH in H0. lia.
  - right. apply IH. lia.
Qed.
Lemma lives_at m : forall k a b, In (a, b) (lives k m) <-> (k <= a)%nat /\ nth_error m (a - k) = Some (Some b).
Proof.
  induction m as [|[x|] m IH]; intros k a b; cbn [lives].
  - split; [intros []|]. intros [_ H]. now rewrite nth_error_nil in H || destruct (a - k)%nat.
  - cbn [In]. rewrite IH. split.
    + intros [H|[Hk H]]; [injection H as <- <-; rewrite PeanoNat.Nat.sub_diag; split; [lia|reflexivity]|]. split; [lia|].
      replace (a - k)%nat with (S (a - S k)) by lia. exact H.
    + intros [Hk H]. destruct (PeanoNat.Nat.eq_dec a k) as [->|Hn].
      * rewrite PeanoNat.Nat.sub_diag in H. injection H as ->. now left.
      * right. split; [lia|]. replace (a - k)%nat with (S (a - S k)) in H by lia. exact H.
  - rewrite IH. split.
    + intros [Hk H]. split; [lia|]. replace (a - k)%nat with (S (a - S k)) by lia. exact H.
    + intros [Hk H]. destruct (PeanoNat.Nat.eq_dec a k) as [->|Hn]; [rewrite PeanoNat.Nat.sub_diag in H; discriminate H|].
      split; [lia|]. replace (a - k)%nat with (S (a - S k)) in H by lia. exact H.
Qed.
Lemma lives_app m : forall k x, lives k (m ++ [Some x]) = lives k m ++ [(k + length m, x)%nat].
Proof.
  induction m as [|[y|] m IH]; intros k x; cbn [lives app length].
  - now rewrite PeanoNat.Nat.add_0_r.
  - rewrite IH. cbn [app]. now rewrite <- PeanoNat.Nat.add_succ_comm.
  - rewrite IH. now rewrite <- PeanoNat.Nat.add_succ_comm.
Qed.
Lemma lives_upd f m : forall k a b (c : option block), nth_error m a = Some (Some b) ->
  (lsum f (lives k (upd a c m)) + f ((k + a)%nat, b) = lsum f (lives k m) + match c with Some x => f ((k + a)%nat, x) | None => 0 end)%nat.
Proof.
  induction m as [|y m IH]; intros k a b c H; [destruct a; discriminate H|]. destruct a as [|a]; cbn [nth_error] in H.
  - injection H as ->. cbn [upd]. rewrite PeanoNat.Nat.add_0_r. destruct c; cbn [lives lsum]; lia.
  - specialize (IH (S k) a b c H). cbn [upd]. replace (k + S a)%nat with (S k + a)%nat by lia. destruct y; cbn [lives lsum]; lia.
Qed.

(** ** The four operations *)
Lemma ms_new m b : exists m' a, new b m = (m', Ok a) /\ forall f, ms m' f = (ms m f + f (a, b))%nat.
Proof.
  exists (m ++ [Some b]), (length m). split; [reflexivity|]. intros f. unfold ms. rewrite lives_app, lsum_app. cbn [lsum plus]. lia.
Qed.
Lemma ms_at m a b : sub [(a, b)] m -> nth_error m a = Some (Some b).
Proof.
  intros H. assert (Hi : In (a, b) (lives 0 m)).
  { apply in_lsum. specialize (H (is_cell (a, b))). unfold ms in H. cbn [lsum] in H. unfold is_cell in H at 1. destruct (cell_dec (a, b) (a, b)); [lia|congruence]. }
  apply lives_at in Hi as [_ Hi]. now rewrite PeanoNat.Nat.sub_0_r in Hi.
Qed.
Lemma ms_get m a b : sub [(a, b)] m -> get (Some a) m = (m, Ok b).
Proof. intros H. unfold get. now rewrite (ms_at H). Qed.
Lemma ms_del m a b : sub [(a, b)] m -> exists m', del (Some a) m = (m', Ok tt) /\ forall f, (ms m' f + f (a, b) = ms m f)%nat.
Proof.
  intros H. pose proof (ms_at H) as Ha. exists (upd a None m). unfold del. rewrite Ha. split; [reflexivity|].
  intros f. pose proof (lives_upd f 0 None Ha) as Hu. unfold ms. cbn [plus] in Hu. lia.
Qed.
Lemma ms_put m a b c : sub [(a, b)] m -> exists m', put (Some a) c m = (m', Ok tt) /\ forall f, (ms m' f + f (a, b) = ms m f + f (a, c))%nat.
Proof.
  intros H. pose proof (ms_at H) as Ha. exists (upd a (Some c) m). unfold put. rewrite Ha. split; [reflexivity|].
  intros f. pose proof (lives_upd f 0 (Some c) Ha) as Hu. unfold ms. cbn [plus] in Hu. lia.
Qed.

Lemma bind_eq S A B (f : M S A) (k : A -> M S B) s s1 a : f s = (s1, Ok a) -> mbind f k s = k a s1.
Proof. intros H. unfold mbind. now rewrite H. Qed.
Lemma bind_lift A B (a : A) (k : A -> M mem B) m : mbind (lift (Ok a)) k m = k a m.
Proof. reflexivity. Qed.
Lemma on_throw_throw A (f : M mem A) u m m1 e : f m = (m1, Throw e) -> on_throw f u m = (u e ;;; mthrow e)%m m1.
Proof. intros H. unfold on_throw. now rewrite H. Qed.
Lemma on_throw_ok A (f : M mem A) u m m1 a : f m = (m1, Ok a) -> on_throw f u m = (m1, Ok a).
Proof. intros H. unfold on_throw. now rewrite H. Qed.

(** ** Words *)
Inductive rep_word : word -> hword -> list cell -> Prop :=
| rw_null : rep_word [] hw_empty []
| rw_text w a : rep_word w (mkHW (Some a) (N.of_nat (length w))) [(a, BText (w ++ [0]))].
Lemma read_ok w o W m : rep_word w o W -> sub W m -> hw_read o m = (m, Ok w).
Proof.
  intros [|w' a] Hs; [reflexivity|]. unfold hw_read. cbn [hw_len hw_text]. destruct (N.eqb_spec (N.of_nat (length w')) 0) as [H0|H0].
  - destruct w'; [reflexivity|cbn in H0; lia].
  - rewrite (bind_eq _ (ms_get Hs)). replace (_ <? _) with true by (symmetry; apply N.ltb_lt; rewrite app_length; cbn; lia).
    rewrite Nnat.Nat2N.id, firstn_app, PeanoNat.Nat.sub_diag, firstn_all. cbn. now rewrite app_nil_r.
Qed.
Lemma destroy_ok w o W m : rep_word w o W -> sub W m -> exists m', hw_destroy o m = (m', Ok tt) /\ forall f, (ms m' f + lsum f W = ms m f)%nat.
Proof.
  intros [|w' a] Hs; [exists m; split; [reflexivity|hs]|]. destruct (ms_del Hs) as (m' & H & Hm). exists m'. split; [exact H|hs].
Qed.
Lemma copy_ok w o W m : rep_word w o W -> sub W m -> exists m' o' W', hw_copy o m = (m', Ok o') /\ rep_word w o' W' /\ forall f, ms m' f = (ms m f + lsum f W')%nat.
Proof.
  intros Hr Hs. unfold hw_copy. destruct (N.eqb_spec (hw_len o) 0) as [H0|H0].
  - exists m, hw_empty, []. destruct Hr as [|w a]; [|destruct w; [|cbn in H0; lia]]; (split; [reflexivity|]; split; [constructor|hs]).
  - destruct (ms_new m (BText [])) as (m1 & a & H1 & M1). rewrite (bind_eq _ H1).
    rewrite (bind_eq _ (read_ok Hr (m := m1) ltac:(hs))). destruct (@ms_put m1 a (BText []) (BText (w ++ [0])) ltac:(hs)) as (m2 & H2 & M2). rewrite (bind_eq _ H2).
    exists m2, (mkHW (Some a) (hw_len o)), [(a, BText (w ++ [0]))]. split; [reflexivity|]. split; [|hs].
    destruct Hr as [|w' a']; [now destruct H0|]. apply (rw_text w' a).
Qed.
(** The value, or broken. *)
Inductive rep_wv : wval -> hword -> list cell -> Prop :=
| rv_good w o W : rep_word w o W -> rep_wv (WGood w) o W
| rv_broken n : 0 < n -> rep_wv (WBroken n) (mkHW None n) [].
Lemma del_text v o W m : rep_wv v o W -> sub W m -> exists m', del (hw_text o) m = (m', Ok tt) /\ forall f, (ms m' f + lsum f W = ms m f)%nat.
Proof. intros [w o' W' Hr|n Hn] Hs; [exact (destroy_ok Hr Hs)|]. exists m. split; [reflexivity|hs]. Qed.
Lemma utf8_ok E s m : match utf8ToInternal E s with
  | Ok ls => exists m' a, h_utf8ToInternal E s m = (m', Ok (a, ls)) /\ forall f, ms m' f = (ms m f + f (a, BText (ls ++ [0%N])))%nat
  | Throw e => exists m' c, h_utf8ToInternal E s m = (m', Throw e) /\ forall f, ms m' f = (ms m f + f c)%nat
  | _ => True end.
Proof.
  destruct (ms_new m (BText [])) as (m1 & a & H1 & M1). destruct (ms_new m1 BChars) as (m2 & t & H2 & M2).
  destruct (@ms_del m2 t BChars ltac:(hs)) as (m3 & H3 & M3).
  assert (H : h_utf8ToInternal E s m = (ls <- lift (utf8ToInternal E s) ;;
   if 2 * N.of_nat (length ls) <? N.of_nat (length s)
   then a2 <- new (BText (ls ++ [0])) ;; del (Some a) ;;; ret (a2, ls)
   else put (Some a) (BText (ls ++ [0])) ;;; ret (a, ls))%m m3).
  { unfold h_utf8ToInternal. rewrite (bind_eq _ H1), (bind_eq _ H2), (bind_eq _ H3). reflexivity. }
  rewrite H. clear H. destruct (utf8ToInternal E s) as [ls|e| | |]; try exact I.
  - rewrite bind_lift. destruct (_ <? _).
    + destruct (ms_new m3 (BText (ls ++ [0]))) as (m4 & a2 & H4 & M4). rewrite (bind_eq _ H4). destruct (@ms_del m4 a (BText []) ltac:(hs)) as (m5 & H5 & M5).
      rewrite (bind_eq _ H5). exists m5, a2. split; [reflexivity|hs].
    + destruct (@ms_put m3 a (BText []) (BText (ls ++ [0])) ltac:(hs)) as (m4 & H4 & M4). rewrite (bind_eq _ H4). exists m4, a. split; [reflexivity|hs].
  - exists m3, (a, BText []). split; [reflexivity|hs].
Qed.
Lemma validate_id E ls w : validate E ls = Ok w -> w = ls.
Proof. unfold validate. destruct (has_ws ls); [discriminate|]. destruct (has_broken E ls) as [[]| | | |]; cbn; congruence. Qed.
Lemma convert_ok E s m : match utf8ToInternal E s with
  | Ok ls => match validate E ls with
      | Ok _ => exists m' a, hw_convert E s m = (m', Ok (mkHW (Some a) (N.of_nat (length ls)), Ok tt)) /\ forall f, ms m' f = (ms m f + f (a, BText (ls ++ [0%N])))%nat
      | Throw e => exists m', hw_convert E s m = (m', Ok (mkHW None (N.of_nat (length ls)), Throw e)) /\ forall f, ms m' f = ms m f
      | _ => True end
  | Throw e => exists m' c, hw_convert E s m = (m', Ok (hw_empty, Throw e)) /\ forall f, ms m' f = (ms m f + f c)%nat
  | _ => True end.
Proof.
  pose proof (utf8_ok E s m) as Hu. unfold hw_convert. destruct (utf8ToInternal E s) as [ls|e| | |] eqn:He; try exact I.
  - destruct Hu as (m1 & a & H1 & M1). rewrite H1. destruct (validate E ls) as [w|e| | |] eqn:Hv; try exact I.
    + exists m1, a. split; [reflexivity|exact M1].
    + destruct (@ms_del m1 a (BText (ls ++ [0])) ltac:(hs)) as (m2 & H2 & M2). exists m2. rewrite (bind_eq _ H2). split; [reflexivity|hs].
  - destruct Hu as (m1 & c & H1 & M1). rewrite H1. exists m1, c. split; [reflexivity|exact M1].
Qed.
Lemma broken_throw E ls e : forall a b, broken_loop E a b ls <> Throw e.
Proof.
  induction ls as [|c ls IH]; intros a b; cbn [broken_loop]; [discriminate|]. destruct (_ && _); [discriminate|]. destruct (is_surrogate c); [|apply IH].
  destruct (_ && _); [discriminate|]. unfold oassert. destruct (b || _)%bool; [|destruct (e_ndebug E)]; cbn [obind]; try discriminate; destruct b; apply IH.
Qed.
Lemma validate_throw E ls e : validate E ls = Throw e -> e = EInvalidArg.
Proof.
  unfold validate. destruct (has_ws ls); [congruence|]. destruct (has_broken E ls) as [[]|x| | |] eqn:Hb; cbn; try congruence. now destruct (@broken_throw E ls x false true).
Qed.
Lemma utf8_throw E s e : utf8ToInternal E s = Throw e -> e = ERuntime.
Proof.
  unfold utf8ToInternal. destruct (iconv_8_16 _ _); [|congruence]. destruct (_ <? _); [destruct (_ <=? _)|]; cbn [obind]; try discriminate; destruct (_ <=? _); discriminate.
Qed.
(** What a function leaves: [k] cells more after runtime_error. *)
Definition lost_by (k : nat) (e : exn) : nat := match e with ERuntime => k | _ => 0 end.
Lemma of_text_ok E s m : match word_of_utf8 E s with
  | Ok w => exists m' o W, hw_of_text E s m = (m', Ok o) /\ rep_word w o W /\ forall f, ms m' f = (ms m f + lsum f W)%nat
  | Throw e => exists m' L, hw_of_text E s m = (m', Throw e) /\ length L = lost_by 1 e /\ forall f, ms m' f = (ms m f + lsum f L)%nat
  | _ => True end.
Proof.
  pose proof (convert_ok E s m) as Hc. unfold word_of_utf8, hw_of_text. destruct (utf8ToInternal E s) as [ls|e| | |] eqn:He; cbn [obind]; try exact I.
  - destruct (validate E ls) as [w|e| | |] eqn:Hv; try exact I.
    + destruct Hc as (m1 & a & H1 & M1). rewrite (bind_eq _ H1). apply validate_id in Hv as ->. eexists m1, _, _. split; [reflexivity|]. split; [apply rw_text|hs].
    + destruct Hc as (m1 & H1 & M1). rewrite (bind_eq _ H1). apply validate_throw in Hv as ->. exists m1, []. split; [reflexivity|]. split; [reflexivity|hs].
  - destruct Hc as (m1 & c & H1 & M1). rewrite (bind_eq _ H1). apply utf8_throw in He as ->. exists m1, [c]. split; [reflexivity|]. split; [reflexivity|hs].
Qed.
Lemma letters_throw E ls e : word_of_letters E ls = Throw e -> e = EInvalidArg.
Proof.
  unfold word_of_letters. destruct (rev ls) as [|x r]; [discriminate|]. intros H. exact (@validate_throw E _ e H).
Qed.
Lemma of_letters_ok E ls m : match word_of_letters E ls with
  | Ok w => exists m' o W, hw_of_letters E ls m = (m', Ok o) /\ rep_word w o W /\ forall f, ms m' f = (ms m f + lsum f W)%nat
  | Throw e => exists m', hw_of_letters E ls m = (m', Throw e) /\ forall f, ms m' f = ms m f
  | _ => True end.
Proof.
  unfold hw_of_letters. destruct (ms_new m (BText [])) as (m1 & a & H1 & M1). destruct (word_of_letters E ls) as [w|e| | |] eqn:Hw; try exact I.
  - destruct (@ms_put m1 a (BText []) (BText (w ++ [0])) ltac:(hs)) as (m2 & H2 & M2). rewrite (bind_eq _ H1). unfold on_throw. rewrite bind_lift.
    rewrite (bind_eq _ H2). eexists m2, _, _. split; [reflexivity|]. split; [apply rw_text|hs].
  - destruct (@ms_del m1 a (BText []) ltac:(hs)) as (m2 & H2 & M2). rewrite (bind_eq _ H1). erewrite on_throw_throw by reflexivity.
    rewrite (bind_eq _ H2). exists m2. split; [reflexivity|hs].
Qed.
Lemma rep_len w o W : rep_word w o W -> hw_len o = N.of_nat (length w).
Proof. now intros [|]. Qed.
Lemma join_ok v w o k V W m : rep_word v o V -> rep_word w k W -> sub V m -> sub W m ->
  exists m' r R, hw_join o k m = (m', Ok r) /\ rep_word (v ++ w) r R /\ forall f, ms m' f = (ms m f + lsum f R)%nat.
Proof.
  intros Hv Hw Sv Sw. unfold hw_join. destruct (ms_new m (BText [])) as (m1 & a & H1 & M1). rewrite (bind_eq _ H1).
  rewrite (bind_eq _ (read_ok Hv (m := m1) ltac:(hs))), (bind_eq _ (read_ok Hw (m := m1) ltac:(hs))).
  destruct (@ms_put m1 a (BText []) (BText (w_join v w ++ [0])) ltac:(hs)) as (m2 & H2 & M2). rewrite (bind_eq _ H2).
  eexists m2, _, [(a, BText (w_join v w ++ [0]))]. split; [reflexivity|]. split; [|hs].
  rewrite (rep_len Hv), (rep_len Hw). replace (N.of_nat (length v) + N.of_nat (length w)) with (N.of_nat (length (v ++ w))) by (rewrite app_length; lia). apply rw_text.
Qed.
Lemma asUtf8_throw w e : asUtf8 w = Throw e -> e = ERuntime.
Proof.
  unfold asUtf8, w_toUtf8, internalToUtf8. destruct (iconv_16_8 _ _); cbn [obind]; [|congruence]. destruct (_ <? _); cbn [obind]; [|discriminate].
  generalize (l ++ [0]). intros b. revert e. induction b as [|x b IH]; intros e; cbn [c_str]; [discriminate|]. destruct (x =? 0); [discriminate|].
  destruct (c_str b); cbn [obind]; try discriminate. intros [= <-]. now apply IH.
Qed.
Lemma asUtf8_ok w o W m : rep_word w o W -> sub W m -> match asUtf8 w with
  | Ok t => exists m', hw_asUtf8 o m = (m', Ok t) /\ forall f, ms m' f = ms m f
  | Throw e => exists m' c, hw_asUtf8 o m = (m', Throw e) /\ forall f, ms m' f = (ms m f + f c)%nat
  | _ => True end.
Proof.
  intros Hr Hs. unfold hw_asUtf8. destruct (ms_new m BChars) as (m1 & a & H1 & M1). destruct (asUtf8 w) as [t|e| | |] eqn:Ht; try exact I.
  - destruct (@ms_del m1 a BChars ltac:(hs)) as (m2 & H2 & M2). exists m2. rewrite (bind_eq _ H1), (bind_eq _ (read_ok Hr (m := m1) ltac:(hs))), Ht.
    rewrite bind_lift. rewrite (bind_eq _ H2). split; [reflexivity|hs].
  - exists m1, (a, BChars). rewrite (bind_eq _ H1), (bind_eq _ (read_ok Hr (m := m1) ltac:(hs))), Ht. split; [reflexivity|hs].
Qed.
