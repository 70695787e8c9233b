(** Lists, documents and corpora in memory. *)
From Verif Require Import Base TrieM WordM MapM DoubleM ContM OwnM Spec_Own OwnP.
From Coq Require Import ZifyBool ZifyN ZifyNat.
Local Open Scope N_scope.

(** ** Sequences of objects *)
Section All.
Context {V O : Type} (R : V -> O -> list cell -> Prop).
Inductive rep_all : list V -> list O -> list cell -> Prop :=
| ra_nil : rep_all [] [] []
| ra_cons v o W vs os W' : R v o W -> rep_all vs os W' -> rep_all (v :: vs) (o :: os) (W ++ W').
Definition copies (f : O -> M mem O) : Prop := forall v o W m, R v o W -> sub W m ->
  exists m' o' W', f o m = (m', Ok o') /\ R v o' W' /\ forall g, ms m' g = (ms m g + lsum g W')%nat.
Definition frees (f : O -> M mem unit) : Prop := forall v o W m, R v o W -> sub W m ->
  exists m', f o m = (m', Ok tt) /\ forall g, (ms m' g + lsum g W = ms m g)%nat.
Lemma all_copies f : copies f -> forall vs os W, rep_all vs os W -> forall m, sub W m ->
  exists m' os' W', h_map f os m = (m', Ok os') /\ rep_all vs os' W' /\ forall g, ms m' g = (ms m g + lsum g W')%nat.
Proof.
  intros Hf vs os W Hr. induction Hr as [|v o W vs os W' Ho Hr IH]; intros m Hs.
  - exists m, [], []. split; [reflexivity|]. split; [constructor|hs].
  - destruct (Hf v o W m Ho ltac:(hs)) as (m1 & o' & X & H1 & R1 & M1). destruct (IH m1 ltac:(hs)) as (m2 & os' & X' & H2 & R2 & M2).
    exists m2, (o' :: os'), (X ++ X'). cbn [h_map]. rewrite (bind_eq _ H1), (bind_eq _ H2). split; [reflexivity|]. split; [now constructor|hs].
Qed.
Lemma all_frees f : frees f -> forall vs os W, rep_all vs os W -> forall m, sub W m ->
  exists m', h_all f os m = (m', Ok tt) /\ forall g, (ms m' g + lsum g W = ms m g)%nat.
Proof.
  intros Hf vs os W Hr. induction Hr as [|v o W vs os W' Ho Hr IH]; intros m Hs.
  - exists m. split; [reflexivity|hs].
  - destruct (Hf v o W m Ho ltac:(hs)) as (m1 & H1 & M1). destruct (IH m1 ltac:(hs)) as (m2 & H2 & M2).
    exists m2. cbn [h_all]. rewrite (bind_eq _ H1). split; [exact H2|hs].
Qed.
Lemma all_length vs os W : rep_all vs os W -> length vs = length os.
Proof. induction 1; cbn; congruence. Qed.
(** One of them; and what happens if it is replaced. *)
Lemma all_nth vs os W : rep_all vs os W -> forall i v, nth_error vs i = Some v ->
  exists o X Y, nth_error os i = Some o /\ R v o X /\ (forall g, lsum g W = (lsum g X + lsum g Y)%nat) /\
    forall v' o' X', R v' o' X' -> exists W', rep_all (upd i v' vs) (upd i o' os) W' /\ forall g, lsum g W' = (lsum g X' + lsum g Y)%nat.
Proof.
  induction 1 as [|v0 o0 W0 vs os W' Ho Hr IH]; intros i v Hi; [destruct i; discriminate Hi|]. destruct i as [|i]; cbn [nth_error] in *.
  - injection Hi as <-. exists o0, W0, W'. split; [reflexivity|]. split; [exact Ho|]. split; [hs|]. intros v' o' X' Hx. exists (X' ++ W'). split; [now constructor|hs].
  - destruct (IH i v Hi) as (o & X & Y & H1 & H2 & H3 & H4). exists o, X, (W0 ++ Y). split; [exact H1|]. split; [exact H2|]. split; [hs|].
    intros v' o' X' Hx. destruct (H4 v' o' X' Hx) as (W1 & Hw & Hg). exists (W0 ++ W1). split; [now constructor|hs].
Qed.
Lemma all_two vs os W : rep_all vs os W -> forall i j v u, i <> j -> nth_error vs i = Some v -> nth_error vs j = Some u ->
  exists o X q Y Z, nth_error os i = Some o /\ R v o X /\ nth_error os j = Some q /\ R u q Y /\ (forall g, lsum g W = (lsum g X + lsum g Y + lsum g Z)%nat) /\
    (forall v' o' X', R v' o' X' -> exists W', rep_all (upd i v' vs) (upd i o' os) W' /\ forall g, lsum g W' = (lsum g X' + lsum g Y + lsum g Z)%nat) /\
    (forall v' o' X' u' q' Y', R v' o' X' -> R u' q' Y' -> exists W', rep_all (upd j u' (upd i v' vs)) (upd j q' (upd i o' os)) W' /\ forall g, lsum g W' = (lsum g X' + lsum g Y' + lsum g Z)%nat).
Proof.
  induction 1 as [|v0 o0 W0 vs os W' Ho Hr IH]; intros i j v u Hn Hi Hj; [destruct i; discriminate Hi|]. destruct i as [|i], j as [|j]; cbn [nth_error] in *; [congruence| | |].
  - injection Hi as <-. destruct (all_nth Hr Hj) as (q & Y & Z & H1 & H2 & H3 & H4). exists o0, W0, q, Y, Z. repeat (split; [first [reflexivity|eassumption|hs]|]). split.
    + intros v' o' X' Hx. exists (X' ++ W'). split; [now constructor|hs].
    + intros v' o' X' u' q' Y' Hx Hy. destruct (H4 _ _ _ Hy) as (W1 & Hw & Hg). exists (X' ++ W1). split; [now constructor|hs].
  - injection Hj as <-. destruct (all_nth Hr Hi) as (q & Y & Z & H1 & H2 & H3 & H4). exists q, Y, o0, W0, Z. repeat (split; [first [reflexivity|eassumption|hs]|]). split.
    + intros v' o' X' Hx. destruct (H4 _ _ _ Hx) as (W1 & Hw & Hg). exists (W0 ++ W1). split; [now constructor|hs].
    + intros v' o' X' u' q' Y' Hx Hy. destruct (H4 _ _ _ Hx) as (W1 & Hw & Hg). exists (Y' ++ W1). split; [now constructor|hs].
  - destruct (IH i j v u ltac:(congruence) Hi Hj) as (o & X & q & Y & Z & H1 & H2 & H3 & H4 & H5 & H6 & H7). exists o, X, q, Y, (W0 ++ Z). repeat (split; [first [eassumption|hs]|]). split.
    + intros v' o' X' Hx. destruct (H6 _ _ _ Hx) as (W1 & Hw & Hg). exists (W0 ++ W1). split; [now constructor|hs].
    + intros v' o' X' u' q' Y' Hx Hy. destruct (H7 _ _ _ _ _ _ Hx Hy) as (W1 & Hw & Hg). exists (W0 ++ W1). split; [now constructor|hs].
Qed.
Lemma all_none vs os W i : rep_all vs os W -> nth_error vs i = None -> nth_error os i = None.
Proof. intros H. rewrite !nth_error_None. rewrite (all_length H). auto. Qed.
Lemma all_app vs os W : rep_all vs os W -> forall us qs X, rep_all us qs X -> exists Y, rep_all (vs ++ us) (os ++ qs) Y /\ forall g, lsum g Y = (lsum g W + lsum g X)%nat.
Proof.
  induction 1 as [|v0 o0 W0 vs os W' Ho Hr IH]; intros us qs X Hx; [now exists X|]. destruct (IH us qs X Hx) as (Y & Hy & Hg).
  exists (W0 ++ Y). split; [now constructor|hs].
Qed.
Lemma all_snoc vs os W v o X : rep_all vs os W -> R v o X -> exists Y, rep_all (vs ++ [v]) (os ++ [o]) Y /\ forall g, lsum g Y = (lsum g W + lsum g X)%nat.
Proof.
  intros Hr Hx. destruct (all_app Hr (ra_cons Hx ra_nil)) as (Y & Hy & Hg). exists Y. split; [exact Hy|]. hs.
Qed.
Lemma all_ins i : forall vs os W v o X, rep_all vs os W -> R v o X -> exists Y, rep_all (ins i v vs) (ins i o os) Y /\ forall g, lsum g Y = (lsum g W + lsum g X)%nat.
Proof.
  induction i as [|i IH]; intros vs os W v o X Hr Hx.
  - exists (X ++ W). split; [destruct Hr; constructor; auto; constructor; auto|hs].
  - destruct Hr as [|v0 o0 W0 vs os W' Ho Hr].
    + exists (X ++ []). split; [now constructor; [|constructor]|hs].
    + destruct (IH _ _ _ _ _ _ Hr Hx) as (Y & Hy & Hg). exists (W0 ++ Y). split; [now constructor|hs].
Qed.
End All.

Lemma word_copies : copies rep_word hw_copy.
Proof. intros v o W m. apply copy_ok. Qed.
Lemma word_frees : frees rep_word hw_destroy.
Proof. intros v o W m. apply destroy_ok. Qed.

(** ** WordList *)
Definition rep_list (ws : wordlist) (p : ptr) (W : list cell) : Prop :=
  exists a os X, p = Some a /\ rep_all rep_word ws os X /\ W = (a, BWords os) :: X.
Lemma words_ok a os X m : sub ((a, BWords os) :: X) m -> hl_words (Some a) m = (m, Ok os).
Proof. intros Hs. unfold hl_words. rewrite (bind_eq _ (@ms_get m a (BWords os) ltac:(hs))). reflexivity. Qed.
Lemma list_new m : exists m' p W, hl_new m = (m', Ok p) /\ rep_list [] p W /\ forall g, ms m' g = (ms m g + lsum g W)%nat.
Proof.
  destruct (ms_new m (BWords [])) as (m1 & a & H1 & M1). exists m1, (Some a), [(a, BWords [])]. unfold hl_new. rewrite (bind_eq _ H1). split; [reflexivity|].
  split; [exists a, [], []; split; [reflexivity|]; split; [constructor|reflexivity]|hs].
Qed.
Lemma list_frees : frees rep_list hl_destroy.
Proof.
  intros ws p W m (a & os & X & -> & Hx & ->) Hs. destruct (all_frees word_frees Hx (m := m) ltac:(hs)) as (m1 & H1 & M1).
  destruct (@ms_del m1 a (BWords os) ltac:(hs)) as (m2 & H2 & M2). exists m2. cbn [hl_destroy]. rewrite (bind_eq _ (words_ok Hs)), (bind_eq _ H1). split; [exact H2|hs].
Qed.
Lemma list_set ws p W vs q X m : rep_list ws p W -> rep_list vs q X -> (forall g, (lsum g W + lsum g X <= ms m g)%nat) ->
  exists m' W', hl_set p q m = (m', Ok tt) /\ rep_list vs p W' /\ forall g, (ms m' g + lsum g W = ms m g + lsum g W')%nat.
Proof.
  intros (a & os & Y & -> & Hy & ->) (b & qs & Z & -> & Hz & ->) Hs. unfold hl_set. rewrite (bind_eq _ (@words_ok b qs Z m ltac:(hs))).
  destruct (all_copies word_copies Hz (m := m) ltac:(hs)) as (m1 & cs & C & H1 & R1 & M1). rewrite (bind_eq _ H1).
  rewrite (bind_eq _ (@words_ok a os Y m1 ltac:(hs))). destruct (all_frees word_frees Hy (m := m1) ltac:(hs)) as (m2 & H2 & M2). rewrite (bind_eq _ H2).
  destruct (@ms_put m2 a (BWords os) (BWords cs) ltac:(hs)) as (m3 & H3 & M3). exists m3, ((a, BWords cs) :: C). split; [exact H3|].
  split; [exists a, cs, C; split; [reflexivity|split; [exact R1|reflexivity]]|hs].
Qed.
Lemma list_copies : copies rep_list hl_copy.
Proof.
  intros ws p W m Hr Hs. unfold hl_copy. destruct (list_new m) as (m1 & q & X & H1 & R1 & M1). rewrite (bind_eq _ H1).
  destruct (list_set R1 Hr (m := m1) ltac:(hs)) as (m2 & X' & H2 & R2 & M2). rewrite (bind_eq _ H2). exists m2, q, X'. split; [reflexivity|]. split; [exact R2|hs].
Qed.
Lemma list_add ws p W w o X m : rep_list ws p W -> rep_word w o X -> sub W m -> sub X m ->
  exists m' W', hl_add p o m = (m', Ok tt) /\ rep_list (ws ++ [w]) p W' /\ forall g, (ms m' g + lsum g W = ms m g + lsum g W')%nat.
Proof.
  intros (a & os & Y & -> & Hy & ->) Hw Sw Sx. unfold hl_add. destruct (copy_ok Hw (m := m) ltac:(hs)) as (m1 & c & C & H1 & R1 & M1). rewrite (bind_eq _ H1).
  rewrite (bind_eq _ (@words_ok a os Y m1 ltac:(hs))). destruct (@ms_put m1 a (BWords os) (BWords (os ++ [c])) ltac:(hs)) as (m2 & H2 & M2).
  destruct (all_snoc Hy R1) as (Z & Hz & Hg). exists m2, ((a, BWords (os ++ [c])) :: Z). split; [exact H2|]. split; [|hs].
  exists a, (os ++ [c]), Z. split; [reflexivity|split; [exact Hz|reflexivity]].
Qed.
Lemma at_cases A (l : list A) i : at_or_throw l i = match nth_error l (N.to_nat i) with Some x => Ok x | None => Throw EOutOfRange end.
Proof.
  unfold at_or_throw. destruct (N.leb_spec (N.of_nat (length l)) i) as [H|H]; destruct (nth_error l (N.to_nat i)) eqn:Hn; try reflexivity.
  - assert (nth_error l (N.to_nat i) <> None) by congruence. apply nth_error_Some in H0. lia.
  - apply nth_error_None in Hn. lia.
Qed.
Lemma all_at V O (R : V -> O -> list cell -> Prop) vs os W i : rep_all R vs os W -> match at_or_throw vs i with
  | Ok v => exists o X, at_or_throw os i = Ok o /\ R v o X /\ forall g, (lsum g X <= lsum g W)%nat
  | Throw e => at_or_throw os i = Throw e /\ e = EOutOfRange
  | _ => False end.
Proof.
  intros Hr. rewrite !at_cases. destruct (nth_error vs (N.to_nat i)) as [v|] eqn:Hi.
  - destruct (all_nth Hr Hi) as (o & X & Z & H1 & H2 & H3 & _). rewrite H1. exists o, X. split; [reflexivity|]. split; [exact H2|hs].
  - now rewrite (all_none Hr Hi).
Qed.
Lemma list_at ws p W m i : rep_list ws p W -> sub W m -> match wl_at ws i with
  | Ok w => exists o X, hl_at p i m = (m, Ok o) /\ rep_word w o X /\ forall g, (lsum g X <= lsum g W)%nat
  | Throw e => hl_at p i m = (m, Throw e) /\ e = EOutOfRange
  | _ => False end.
Proof.
  intros (a & os & Y & -> & Hy & ->) Hs. unfold hl_at. rewrite (bind_eq _ (words_ok Hs)). unfold wl_at, lift. pose proof (all_at i Hy) as Ha.
  destruct (at_or_throw ws i) as [w|e| | |]; try exact Ha.
  - destruct Ha as (o & X & H1 & H2 & H3). exists o, X. rewrite H1. split; [reflexivity|]. split; [exact H2|hs].
  - destruct Ha as [H1 H2]. rewrite H1. now split.
Qed.

(** ** split *)
Lemma split_loop_ok E chars s : forall fuel end_ bufSize buf acc p m W B,
  rep_list acc p W -> (buf = None /\ B = [] \/ exists b, buf = Some b /\ B = [(b, BChars)]) -> (buf = None -> bufSize = 0%nat) -> (forall g, (lsum g W + lsum g B <= ms m g)%nat) ->
  match split_loop E fuel chars s end_ bufSize acc with
  | Ok ws => exists m' W', h_split_loop E fuel chars s end_ bufSize buf p m = (m', Ok tt) /\ rep_list ws p W' /\ forall g, (ms m' g + lsum g W + lsum g B = ms m g + lsum g W')%nat
  | Throw e => exists m' W' L ws, h_split_loop E fuel chars s end_ bufSize buf p m = (m', Throw e) /\ rep_list ws p W' /\ length L = lost_by 2 e /\
      forall g, (ms m' g + lsum g W + lsum g B = ms m g + lsum g W' + lsum g L)%nat
  | _ => True end.
Proof.
  induction fuel as [|fuel IH]; intros end_ bufSize buf acc p m W B Hr Hb H0 Hs; [exact I|]. cbn [split_loop h_split_loop].
  assert (Hdel : forall m B buf, (buf = None /\ B = [] \/ exists b, buf = Some b /\ B = [(b, BChars)]) -> sub B m -> exists m', del buf m = (m', Ok tt) /\ forall g, (ms m' g + lsum g B = ms m g)%nat).
  { clear. intros m B buf [[-> ->]|(b & -> & ->)] Hs; [exists m; split; [reflexivity|hs]|]. destruct (ms_del Hs) as (m' & H & Hm). exists m'. split; [exact H|hs]. }
  destruct (skip_loop (S (length s)) true chars s end_) as [begin_|e| | |] eqn:Hk1; cbn [obind]; try exact I.
  2: { exfalso. clear -Hk1. revert Hk1. generalize (S (length s)), true, end_. intros n. induction n as [|n IH]; intros b i; cbn [skip_loop]; [discriminate|].
       unfold text_at. destruct (nth_error s i); [|destruct (Nat.eqb i (length s)); [|discriminate]]; cbn [obind]; destruct (_ && _); try discriminate; apply IH. }
  rewrite bind_lift. destruct (Nat.leb (length s) begin_).
  { destruct (Hdel m B buf Hb ltac:(hs)) as (m1 & H1 & M1). exists m1, W. split; [exact H1|]. split; [exact Hr|hs]. }
  destruct (skip_loop (S (length s)) false chars s (S begin_)) as [end2|e| | |] eqn:Hk2; cbn [obind]; try exact I.
  2: { exfalso. clear -Hk2. revert Hk2. generalize (S (length s)), false, (S begin_). intros n. induction n as [|n IH]; intros b i; cbn [skip_loop]; [discriminate|].
       unfold text_at. destruct (nth_error s i); [|destruct (Nat.eqb i (length s)); [|discriminate]]; cbn [obind]; destruct (_ && _); try discriminate; apply IH. }
  rewrite bind_lift. set (wordLen := (end2 - begin_)%nat). set (bufSize2 := if Nat.ltb bufSize (wordLen + 1) then _ else _).
  assert (Hz : bufSize2 <> 0%nat) by (unfold bufSize2; destruct (Nat.ltb_spec bufSize (wordLen + 1)); lia).
  assert (Hlt : Nat.ltb bufSize2 (wordLen + 1) = false) by (unfold bufSize2; destruct (Nat.ltb_spec bufSize (wordLen + 1)); [apply PeanoNat.Nat.ltb_irrefl|now apply PeanoNat.Nat.ltb_ge]).
  rewrite Hlt.
  assert (Hbuf : exists m1 b, (if Nat.ltb bufSize (wordLen + 1) then del buf ;;; b <- new BChars ;; ret (Some b) else ret buf)%m m = (m1, Ok (Some b)) /\
                 forall g, (ms m1 g + lsum g B = ms m g + g (b, BChars))%nat).
  { destruct (Nat.ltb_spec bufSize (wordLen + 1)) as [Hl|Hl].
    - destruct (Hdel m B buf Hb ltac:(hs)) as (m1 & H1 & M1). destruct (ms_new m1 BChars) as (m2 & b & H2 & M2). exists m2, b. rewrite (bind_eq _ H1), (bind_eq _ H2). split; [reflexivity|hs].
    - destruct Hb as [[-> ->]|(b & -> & ->)].
      + exfalso. specialize (H0 eq_refl). lia.
      + exists m, b. split; [reflexivity|hs]. }
  destruct Hbuf as (m1 & b & H1 & M1). rewrite (bind_eq _ H1). pose proof (of_text_ok E (firstn wordLen (skipn begin_ s)) m1) as Ht.
  destruct (word_of_utf8 E (firstn wordLen (skipn begin_ s))) as [w|e| | |] eqn:Hw; cbn [obind]; try exact I.
  - destruct Ht as (m2 & o & X & H2 & R2 & M2). destruct (list_add Hr R2 (m := m2) ltac:(hs) ltac:(hs)) as (m3 & W3 & H3 & R3 & M3).
    destruct (destroy_ok R2 (m := m3) ltac:(hs)) as (m4 & H4 & M4).
    assert (Hin : on_throw (w0 <- hw_of_text E (firstn wordLen (skipn begin_ s)) ;; hl_add p w0 ;;; hw_destroy w0)%m (fun e => match e with EInvalidArg => del (Some b) | _ => ret tt end) m1 = (m4, Ok tt)).
    { apply on_throw_ok. now rewrite (bind_eq _ H2), (bind_eq _ H3). }
    rewrite (bind_eq _ Hin). destruct (Nat.ltb end2 (length s)).
    + specialize (IH end2 bufSize2 (Some b) (acc ++ [w]) p m4 W3 [(b, BChars)] R3 (or_intror (ex_intro _ b (conj eq_refl eq_refl))) ltac:(discriminate) ltac:(hs)).
      destruct (split_loop E fuel chars s end2 bufSize2 (acc ++ [w])) as [ws|e| | |]; try exact I.
      * destruct IH as (m5 & W5 & H5 & R5 & M5). exists m5, W5. split; [exact H5|]. split; [exact R5|hs].
      * destruct IH as (m5 & W5 & L & ws & H5 & R5 & Hl & M5). exists m5, W5, L, ws. split; [exact H5|]. split; [exact R5|]. split; [exact Hl|hs].
    + destruct (@ms_del m4 b BChars ltac:(hs)) as (m5 & H5 & M5). exists m5, W3. split; [exact H5|]. split; [exact R3|hs].
  - destruct Ht as (m2 & L & H2 & Hl & M2).
    assert (Hin : (w0 <- hw_of_text E (firstn wordLen (skipn begin_ s)) ;; hl_add p w0 ;;; hw_destroy w0)%m m1 = (m2, Throw e)) by (unfold mbind at 1; now rewrite H2).
    unfold mbind at 1. rewrite (on_throw_throw _ Hin). destruct e.
    + exfalso. unfold word_of_utf8 in Hw. destruct (utf8ToInternal E _) as [ls|e| | |] eqn:Hu; cbn [obind] in Hw; try discriminate Hw; [apply validate_throw in Hw; discriminate Hw|].
      apply utf8_throw in Hu. congruence.
    + exists m2, W, ((b, BChars) :: L), acc. split; [reflexivity|]. split; [exact Hr|]. split; [cbn in *; lia|hs].
    + destruct (@ms_del m2 b BChars ltac:(hs)) as (m3 & H3 & M3). exists m3, W, L, acc. rewrite (bind_eq _ H3). split; [reflexivity|]. split; [exact Hr|]. split; [exact Hl|hs].
Qed.
Lemma split_ok E s m : match splitToWords E s with
  | Ok ws => exists m' p W, h_split E s m = (m', Ok p) /\ rep_list ws p W /\ forall g, ms m' g = (ms m g + lsum g W)%nat
  | Throw e => exists m' L, h_split E s m = (m', Throw e) /\ length L = lost_by 2 e /\ forall g, ms m' g = (ms m g + lsum g L)%nat
  | _ => True end.
Proof.
  unfold splitToWords, split, h_split. destruct (list_new m) as (m1 & p & W & H1 & R1 & M1). rewrite (bind_eq _ H1).
  pose proof (@split_loop_ok E whitespaceLetters s (S (length s)) 0 0 None [] p m1 W [] R1 (or_introl (conj eq_refl eq_refl)) (fun _ => eq_refl) ltac:(hs)) as Hl.
  destruct (split_loop E (S (length s)) whitespaceLetters s 0 0 []) as [ws|e| | |]; try exact I.
  - destruct Hl as (m2 & W2 & H2 & R2 & M2). rewrite (bind_eq _ (on_throw_ok _ H2)). exists m2, p, W2. split; [reflexivity|]. split; [exact R2|hs].
  - destruct Hl as (m2 & W2 & L & ws & H2 & R2 & Hn & M2). destruct (list_frees R2 (m := m2) ltac:(hs)) as (m3 & H3 & M3).
    unfold mbind at 1. rewrite (on_throw_throw _ H2), (bind_eq _ H3). exists m3, L. split; [reflexivity|]. split; [exact Hn|hs].
Qed.

(** ** Document *)
Definition rep_text (t : word * wordlist) (o : hword * ptr) (W : list cell) : Prop :=
  exists X Y, rep_word (fst t) (fst o) X /\ rep_list (snd t) (snd o) Y /\ W = X ++ Y.
Lemma text_copies : copies rep_text text_copy.
Proof.
  intros t o W m (X & Y & Hx & Hy & ->) Hs. unfold text_copy. destruct (copy_ok Hx (m := m) ltac:(hs)) as (m1 & k & X' & H1 & R1 & M1). rewrite (bind_eq _ H1).
  destruct (list_copies Hy (m := m1) ltac:(hs)) as (m2 & l & Y' & H2 & R2 & M2). rewrite (bind_eq _ H2). exists m2, (k, l), (X' ++ Y'). split; [reflexivity|]. split; [now exists X', Y'|hs].
Qed.
Lemma text_frees : frees rep_text text_destroy.
Proof.
  intros t o W m (X & Y & Hx & Hy & ->) Hs. unfold text_destroy. destruct (destroy_ok Hx (m := m) ltac:(hs)) as (m1 & H1 & M1). rewrite (bind_eq _ H1).
  destruct (list_frees Hy (m := m1) ltac:(hs)) as (m2 & H2 & M2). exists m2. split; [exact H2|hs].
Qed.
Definition rep_doc (d : document) (a : nat) (W : list cell) : Prop :=
  exists ts X, rep_all rep_text (d_texts d) ts X /\ W = (a, BDoc (d_id d) ts) :: X.
Lemma doc_get a id ts X m : sub ((a, BDoc id ts) :: X) m -> hd_get a m = (m, Ok (id, ts)).
Proof. intros Hs. unfold hd_get. rewrite (bind_eq _ (@ms_get m a (BDoc id ts) ltac:(hs))). reflexivity. Qed.
Lemma doc_made id m : exists m' a W, hd_new id m = (m', Ok a) /\ rep_doc (doc_new id) a W /\ forall g, ms m' g = (ms m g + lsum g W)%nat.
Proof.
  destruct (ms_new m (BDoc id [])) as (m1 & a & H1 & M1). exists m1, a, [(a, BDoc id [])]. split; [exact H1|]. split; [|hs]. exists [], []. split; [constructor|reflexivity].
Qed.
Lemma doc_frees : frees rep_doc hd_destroy.
Proof.
  intros d a W m (ts & X & Hx & ->) Hs. unfold hd_destroy. rewrite (bind_eq _ (doc_get Hs)). cbn [snd].
  destruct (all_frees text_frees Hx (m := m) ltac:(hs)) as (m1 & H1 & M1). rewrite (bind_eq _ H1).
  destruct (@ms_del m1 a (BDoc (d_id d) ts) ltac:(hs)) as (m2 & H2 & M2). exists m2. split; [exact H2|hs].
Qed.
Lemma doc_set d a W e b X m : rep_doc d a W -> rep_doc e b X -> (forall g, (lsum g W + lsum g X <= ms m g)%nat) ->
  exists m' W', hd_set a b m = (m', Ok tt) /\ rep_doc e a W' /\ forall g, (ms m' g + lsum g W = ms m g + lsum g W')%nat.
Proof.
  intros (ts & Y & Hy & ->) (us & Z & Hz & ->) Hs. unfold hd_set. rewrite (bind_eq _ (@doc_get b (d_id e) us Z m ltac:(hs))). cbn [snd fst].
  destruct (all_copies text_copies Hz (m := m) ltac:(hs)) as (m1 & cs & C & H1 & R1 & M1). rewrite (bind_eq _ H1).
  rewrite (bind_eq _ (@doc_get a (d_id d) ts Y m1 ltac:(hs))). cbn [snd]. destruct (all_frees text_frees Hy (m := m1) ltac:(hs)) as (m2 & H2 & M2). rewrite (bind_eq _ H2).
  destruct (@ms_put m2 a (BDoc (d_id d) ts) (BDoc (d_id e) cs) ltac:(hs)) as (m3 & H3 & M3). exists m3, ((a, BDoc (d_id e) cs) :: C). split; [exact H3|]. split; [now exists cs, C|hs].
Qed.
Lemma doc_copies : copies rep_doc hd_copy.
Proof.
  intros d a W m Hr Hs. unfold hd_copy. destruct (doc_made 0 m) as (m1 & q & X & H1 & R1 & M1). rewrite (bind_eq _ H1).
  destruct (doc_set R1 Hr (m := m1) ltac:(hs)) as (m2 & X' & H2 & R2 & M2). rewrite (bind_eq _ H2). exists m2, q, X'. split; [reflexivity|]. split; [exact R2|hs].
Qed.
(** The map of texts. *)
Lemma key_bound k ks : snd (key_at k ks) = true -> (fst (key_at k ks) < length ks)%nat.
Proof.
  induction ks as [|x ks IH]; cbn; [discriminate|]. destruct (wltb k x); [discriminate|]. destruct (wltb x k); [|cbn; lia]. destruct (key_at k ks); cbn in *. intros H. specialize (IH H). lia.
Qed.
Lemma set_at V k (v : V) ts : mp_set wltb k v ts = let (i, b) := key_at k (map fst ts) in
  if b then match nth_error ts i with Some t => upd i (fst t, v) ts | None => ts end else ins i (k, v) ts.
Proof.
  induction ts as [|[x y] ts IH]; [reflexivity|]. cbn [mp_set map key_at fst]. destruct (wltb k x); [reflexivity|]. destruct (wltb x k); [|reflexivity].
  rewrite IH. destruct (key_at k (map fst ts)) as [i []]; cbn [nth_error]; [|reflexivity]. destruct (nth_error ts i) as [t|]; reflexivity.
Qed.
Lemma find_at V k (ts : list (word * V)) : mp_find wltb k ts = let (i, b) := key_at k (map fst ts) in
  if b then match nth_error ts i with Some t => Some (snd t) | None => None end else None.
Proof.
  induction ts as [|[x y] ts IH]; [reflexivity|]. cbn [mp_find map key_at fst]. destruct (wltb k x); [reflexivity|]. destruct (wltb x k); [|reflexivity].
  rewrite IH. now destruct (key_at k (map fst ts)) as [i []].
Qed.
Lemma upd_id A i (x : A) l : nth_error l i = Some x -> upd i x l = l.
Proof. revert i. induction l as [|y l IH]; intros [|i] H; try discriminate H; cbn in *; [congruence|now rewrite IH]. Qed.
Lemma keys_read ts os W m : rep_all rep_text ts os W -> sub W m -> h_map (fun t : hword * ptr => hw_read (fst t)) os m = (m, Ok (map fst ts)).
Proof.
  induction 1 as [|t o W ts os W' (X & Y & Hx & _ & ->) Hr IH]; intros Hs; [reflexivity|]. cbn [h_map map]. rewrite (bind_eq _ (read_ok Hx (m := m) ltac:(hs))), (bind_eq _ (IH ltac:(hs))). reflexivity.
Qed.
Lemma find_ok ts os W k o X m : rep_all rep_text ts os W -> rep_word k o X -> sub W m -> sub X m -> hd_find os o m = (m, Ok (key_at k (map fst ts))).
Proof. intros Ht Hk Sw Sx. unfold hd_find. rewrite (bind_eq _ (keys_read Ht Sw)), (bind_eq _ (read_ok Hk Sx)). reflexivity. Qed.
Lemma text_at_ok d a W k o X m : rep_doc d a W -> rep_word k o X -> sub W m -> sub X m -> match doc_getText d k with
  | Ok l => exists i ts p Y, hd_text a o m = (m, Ok (InDoc a i, p)) /\ nth_error (d_texts d) i = Some ts /\ snd ts = l /\ rep_list l p Y /\ (forall g, (lsum g Y <= lsum g W)%nat) /\
            (exists os o, nth_error m a = Some (Some (BDoc (d_id d) os)) /\ nth_error os i = Some (o, p))
  | Throw e => hd_text a o m = (m, Throw e) /\ e = EInvalidArg
  | _ => False end.
Proof.
  intros (ts & Y & Hy & ->) Hk Sw Sx. unfold doc_getText, hd_text. rewrite find_at. rewrite (bind_eq _ (doc_get Sw)). cbn [snd]. rewrite (bind_eq _ (find_ok Hy Hk (m := m) ltac:(hs) Sx)).
  pose proof (@key_bound k (map fst (d_texts d))) as Hb. destruct (key_at k (map fst (d_texts d))) as [i []]; cbn [fst snd] in *; [|now split]. specialize (Hb eq_refl). rewrite map_length in Hb.
  destruct (nth_error (d_texts d) i) as [t|] eqn:Hi; [|apply nth_error_None in Hi; lia]. destruct (all_nth Hy Hi) as ([ko p] & Xi & Z & H1 & (Xk & Xl & Hxk & Hxl & ->) & H3 & _). rewrite H1.
  exists i, t, p, Xl. split; [reflexivity|]. split; [exact Hi|]. split; [reflexivity|]. split; [exact Hxl|]. split; [hs|]. exists ts, ko. split; [exact (@ms_at m a (BDoc (d_id d) ts) ltac:(hs))|exact H1].
Qed.
Lemma loc_eqb_ok l k : loc_eqb l k = true <-> l = k.
Proof.
  destruct l, k; cbn; try (split; congruence); [rewrite PeanoNat.Nat.eqb_eq; split; congruence|]. rewrite Bool.andb_true_iff, !PeanoNat.Nat.eqb_eq. split; [intros [-> ->]; reflexivity|intros [= -> ->]; now split].
Qed.
Definition source (d : document) (a : nat) (W : list cell) (l : wordlist) (at_ : l_loc) (p : ptr) (m : mem) : Prop :=
  (exists i t os o, at_ = InDoc a i /\ nth_error (d_texts d) i = Some t /\ snd t = l /\ nth_error m a = Some (Some (BDoc (d_id d) os)) /\ nth_error os i = Some (o, p)) \/
  ((forall i, at_ <> InDoc a i) /\ exists Y, rep_list l p Y /\ forall g, (lsum g W + lsum g Y <= ms m g)%nat).
Lemma add_text_ok d a W f o X at_ l p m : rep_doc d a W -> rep_word f o X -> sub W m -> sub X m -> source d a W l at_ p m ->
  exists m' W', hd_addText a o at_ p m = (m', Ok tt) /\ rep_doc (fst (doc_addText f l d)) a W' /\ forall g, (ms m' g + lsum g W = ms m g + lsum g W')%nat.
Proof.
  intros (ts & Y & Hy & ->) Hf Sw Sx Hsrc. unfold hd_addText, doc_addText. rewrite set_at. rewrite (bind_eq _ (doc_get Sw)). cbn [snd fst]. rewrite (bind_eq _ (find_ok Hy Hf (m := m) ltac:(hs) Sx)).
  pose proof (@key_bound f (map fst (d_texts d))) as Hb. destruct (key_at f (map fst (d_texts d))) as [j []]; cbn [fst snd] in *.
  - specialize (Hb eq_refl). rewrite map_length in Hb. destruct (nth_error (d_texts d) j) as [t|] eqn:Hj; [|apply nth_error_None in Hj; lia].
    assert (Hdo : forall Xk q Xl Z L, rep_list (snd t) q Xl -> rep_word (fst t) (fst (nth j ts (hw_empty, None))) Xk -> rep_list l p L -> (forall g, lsum g Y = (lsum g Xk + lsum g Xl + lsum g Z)%nat) ->
      (forall g, (lsum g Xl + lsum g L <= ms m g)%nat) -> nth_error ts j = Some (fst (nth j ts (hw_empty, None)), q) ->
      (forall v' o' X', rep_text v' o' X' -> exists W', rep_all rep_text (upd j v' (d_texts d)) (upd j o' ts) W' /\ forall g, lsum g W' = (lsum g X' + lsum g Z)%nat) ->
      exists m' W', hl_set q p m = (m', Ok tt) /\ rep_doc (mkDoc (d_id d) (upd j (fst t, l) (d_texts d))) a W' /\ forall g, (ms m' g + lsum g ((a, BDoc (d_id d) ts) :: Y) = ms m g + lsum g W')%nat).
    { intros Xk q Xl Z L Hl Hk Hp Hg Hs Hn Hu. destruct (list_set Hl Hp Hs) as (m1 & Xl' & H1 & R1 & M1).
      destruct (Hu (fst t, l) (fst (nth j ts (hw_empty, None)), q) (Xk ++ Xl')) as (W' & HW & Hw); [now exists Xk, Xl'|].
      rewrite (upd_id Hn) in HW. exists m1, ((a, BDoc (d_id d) ts) :: W'). split; [exact H1|]. split; [now exists ts, W'|hs]. }
    destruct Hsrc as [(i & t' & os & o' & -> & Hi & <- & Hm & Ho)|(Hn & L & HL & Hs)].
    + assert (os = ts) as -> by (pose proof (@ms_at m a (BDoc (d_id d) ts) ltac:(hs)); congruence).
      destruct (PeanoNat.Nat.eq_dec i j) as [->|Hij].
      * rewrite Ho. replace (loc_eqb (InDoc a j) (InDoc a j)) with true by (symmetry; now apply loc_eqb_ok). assert (t' = t) as -> by congruence.
        exists m, ((a, BDoc (d_id d) ts) :: Y). split; [reflexivity|]. split; [|hs]. exists ts, Y. split; [|reflexivity]. cbn [d_texts]. replace (fst t, snd t) with t by (now destruct t). now rewrite (upd_id Hj).
      * destruct (all_two Hy (i := j) (j := i) (not_eq_sym Hij) Hj Hi) as (oj & Xj & oi & Xi & Z & H1 & (Xjk & Xjl & Rk & Rl & ->) & H3 & (Xik & Xil & Rik & Ril & ->) & H5 & H6 & _).
        rewrite H1. replace (loc_eqb _ _) with false by (symmetry; apply Bool.not_true_is_false; rewrite loc_eqb_ok; congruence). cbn [snd].
        assert (Hnj : nth j ts (hw_empty, None) = oj) by now apply nth_error_nth. rewrite H3 in Ho. injection Ho as ->.
        destruct (Hdo Xjk (snd oj) Xjl (Xik ++ Xil ++ Z) Xil) as (m1 & W1 & G1 & G2 & G3); [exact Rl|now rewrite Hnj|exact Ril|hs|hs|rewrite Hnj; rewrite H1; now destruct oj|..].
        { intros v' q' X' Hx. destruct (H6 v' q' X' Hx) as (W' & A & B). exists W'. split; [exact A|hs]. }
        exists m1, W1. split; [exact G1|]. split; [exact G2|exact G3].
    + destruct (all_nth Hy Hj) as (oj & Xj & Z & H1 & (Xjk & Xjl & Rk & Rl & ->) & H3 & H4). rewrite H1.
      replace (loc_eqb _ _) with false by (symmetry; apply Bool.not_true_is_false; rewrite loc_eqb_ok; apply Hn). cbn [snd]. assert (Hnj : nth j ts (hw_empty, None) = oj) by now apply nth_error_nth.
      destruct (Hdo Xjk (snd oj) Xjl Z L) as (m1 & W1 & G1 & G2 & G3); [exact Rl|now rewrite Hnj|exact HL|hs|hs|rewrite Hnj; rewrite H1; now destruct oj|exact H4|].
      exists m1, W1. split; [exact G1|]. split; [exact G2|exact G3].
  - assert (Hl : exists L, rep_list l p L /\ forall g, (lsum g [(a, BDoc (d_id d) ts)] + lsum g L <= ms m g)%nat).
    { destruct Hsrc as [(i & t' & os & o' & -> & Hi & <- & Hm & Ho)|(Hn & L & HL & Hs)]; [|exists L; split; [exact HL|hs]].
      assert (os = ts) as -> by (pose proof (@ms_at m a (BDoc (d_id d) ts) ltac:(hs)); congruence).
      destruct (all_nth Hy Hi) as (oi & Xi & Z & H1 & (Xik & Xil & Rik & Ril & ->) & H3 & _). rewrite H1 in Ho. injection Ho as ->. exists Xil. split; [exact Ril|hs]. }
    destruct Hl as (L & HL & SL). destruct (copy_ok Hf Sx) as (m1 & k & K & H1 & R1 & M1). rewrite (bind_eq _ H1).
    destruct (list_new m1) as (m2 & q & Q & H2 & R2 & M2). rewrite (bind_eq _ H2).
    destruct (@ms_put m2 a (BDoc (d_id d) ts) (BDoc (d_id d) (ins j (k, q) ts)) ltac:(hs)) as (m3 & H3 & M3). rewrite (bind_eq _ H3).
    destruct (list_set R2 HL (m := m3) ltac:(hs)) as (m4 & Q' & H4 & R4 & M4).
    destruct (@all_ins _ _ rep_text j _ _ _ (f, l) (k, q) (K ++ Q') Hy) as (Y' & HY & Hg); [now exists K, Q'|].
    exists m4, ((a, BDoc (d_id d) (ins j (k, q) ts)) :: Y'). split; [exact H4|]. split; [now exists (ins j (k, q) ts), Y'|hs].
Qed.
Lemma fields_ok d a W ws p X m : rep_doc d a W -> rep_list ws p X -> (forall g, (lsum g W + lsum g X <= ms m g)%nat) ->
  exists m' X', hd_fields a p m = (m', Ok tt) /\ rep_list (ws ++ map fst (d_texts d)) p X' /\ forall g, (ms m' g + lsum g X = ms m g + lsum g X')%nat.
Proof.
  intros (ts & Y & Hy & ->) Hl Hs. unfold hd_fields. rewrite (bind_eq _ (@doc_get a (d_id d) ts Y m ltac:(hs))). cbn [snd].
  assert (HsY : forall g, (lsum g Y + lsum g X <= ms m g)%nat) by hs. clear Hs. revert ws X m Hl HsY. induction Hy as [|t o Wt us os W' (Xk & Xl & Hk & _ & ->) Hr IH]; intros ws X m Hl Hs.
  - exists m, X. split; [reflexivity|]. cbn [map]. rewrite app_nil_r. split; [exact Hl|hs].
  - destruct (list_add Hl Hk (m := m) ltac:(hs) ltac:(hs)) as (m1 & X1 & H1 & R1 & M1). destruct (IH _ X1 m1 R1 ltac:(hs)) as (m2 & X2 & H2 & R2 & M2).
    exists m2, X2. cbn [h_all map]. rewrite (bind_eq _ H1). split; [exact H2|]. rewrite <- app_assoc in R2. split; [exact R2|hs].
Qed.

(** ** Corpus *)
Definition rep_corpus (c : corpus) (a : nat) (W : list cell) : Prop :=
  exists ds X, rep_all rep_doc c ds X /\ W = (a, BDocs ds) :: X.
Lemma corpus_docs a ds X m : sub ((a, BDocs ds) :: X) m -> hc_docs a m = (m, Ok ds).
Proof. intros Hs. unfold hc_docs. rewrite (bind_eq _ (@ms_get m a (BDocs ds) ltac:(hs))). reflexivity. Qed.
Lemma corpus_frees : frees rep_corpus hc_destroy.
Proof.
  intros d a W m (ts & X & Hx & ->) Hs. unfold hc_destroy. rewrite (bind_eq _ (corpus_docs Hs)).
  destruct (all_frees doc_frees Hx (m := m) ltac:(hs)) as (m1 & H1 & M1). rewrite (bind_eq _ H1).
  destruct (@ms_del m1 a (BDocs ts) ltac:(hs)) as (m2 & H2 & M2). exists m2. split; [exact H2|hs].
Qed.
Lemma corpus_add c a W d b X m : rep_corpus c a W -> rep_doc d b X -> sub W m -> sub X m ->
  exists m' W', hc_add a b m = (m', Ok tt) /\ rep_corpus (c ++ [d]) a W' /\ forall g, (ms m' g + lsum g W = ms m g + lsum g W')%nat.
Proof.
  intros (ds & Y & Hy & ->) Hd Sw Sx. unfold hc_add. destruct (doc_copies Hd Sx) as (m1 & k & C & H1 & R1 & M1). rewrite (bind_eq _ H1).
  rewrite (bind_eq _ (@corpus_docs a ds Y m1 ltac:(hs))). destruct (@ms_put m1 a (BDocs ds) (BDocs (ds ++ [k])) ltac:(hs)) as (m2 & H2 & M2).
  destruct (all_snoc Hy R1) as (Z & Hz & Hg). exists m2, ((a, BDocs (ds ++ [k])) :: Z). split; [exact H2|]. split; [now exists (ds ++ [k]), Z|hs].
Qed.
