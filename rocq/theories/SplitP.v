(** Proofs about split and splitToWords. *)
From Verif Require Import Base TrieM WordM Spec_Word WordP WordQ.
From Coq Require Import ZifyBool ZifyN ZifyNat.
Local Open Scope N_scope.

Section Split.
Variables (chars s : list N).
Notation insep b := (isInList (char_letter b) chars).

Lemma skipn_nth (i : nat) : forall b t, skipn i s = b :: t -> nth_error s i = Some b /\ skipn (S i) s = t /\ (i < length s)%nat.
Proof.
  revert i. induction s as [|x l IH]; intros [|i] b t H; cbn in *; try discriminate.
  - injection H as <- <-. repeat split. lia.
  - apply IH in H as (H1 & H2 & H3). repeat split; [exact H1|exact H2|lia].
Qed.
Lemma skip_spec inside : forall t f i, skipn i s = t -> (i <= length s)%nat -> (length t < f)%nat ->
  exists pre rest, t = pre ++ rest /\ Forall (fun b => insep b = inside) pre /\
    (rest = [] \/ exists b r, rest = b :: r /\ insep b = negb inside) /\
    skip_loop f inside chars s i = Ok (i + length pre)%nat /\ skipn (i + length pre) s = rest.
Proof.
  induction t as [|b t IH]; intros f i Ht Hi Hf; (destruct f as [|f]; [cbn in Hf; lia|]); cbn [skip_loop].
  - assert (Hl : i = length s). { assert (length (skipn i s) = 0%nat) by now rewrite Ht. rewrite skipn_length in H. lia. }
    exists [], []. split; [reflexivity|]. split; [constructor|]. split; [now left|].
    unfold text_at. rewrite (proj2 (nth_error_None s i)) by lia. rewrite Hl, Nat.eqb_refl. cbn [obind].
    rewrite Nat.ltb_irrefl, andb_false_r. cbn [length]. rewrite Nat.add_0_r. split; [reflexivity|]. now rewrite <- Hl.
  - destruct (skipn_nth Ht) as (Hn & Hs & Hlt). unfold text_at. rewrite Hn. cbn [obind].
    replace (Nat.ltb i (length s)) with true by lia. rewrite andb_true_r.
    destruct (Bool.eqb_spec (insep b) inside) as [He|He].
    + destruct (IH f (S i) Hs ltac:(lia) ltac:(cbn in Hf; lia)) as (pre & rest & -> & Hp & Hr & Hk & Hk2).
      exists (b :: pre), rest. split; [reflexivity|]. split; [now constructor|]. split; [exact Hr|].
      cbn [length]. replace (i + S (length pre))%nat with (S i + length pre)%nat by lia. now split.
    + exists [], (b :: t). split; [reflexivity|]. split; [constructor|]. split.
      * right. exists b, t. split; [reflexivity|]. destruct (insep b), inside; cbn; congruence.
      * cbn [length]. rewrite Nat.add_0_r. now split.
Qed.

Notation sep := (fun b => insep b = true).
Variable E : env.

Lemma split_spec : forall f t i bs acc, skipn i s = t -> (i <= length s)%nat -> (length t < f)%nat ->
  exists runs, cut sep t runs /\
    split_loop E f chars s i bs acc = let! ws := all_of (word_of_utf8 E) runs in Ok (acc ++ ws).
Proof.
  induction f as [|f IH]; intros t i bs acc Ht Hi Hf; [lia|]. cbn [split_loop].
  assert (Hlen : length t = (length s - i)%nat) by (rewrite <- Ht; apply skipn_length).
  destruct (@skip_spec true t (S (length s)) i Ht Hi ltac:(lia)) as (g & r0 & -> & Hg & Hr0 & -> & Hk0). cbn [obind].
  rewrite app_length in Hlen, Hf.
  destruct Hr0 as [->|(b & r1 & -> & Hb)].
  - replace (Nat.leb (length s) (i + length g)) with true by (cbn in Hlen; lia).
    exists []. rewrite app_nil_r. split; [now constructor|]. cbn. now rewrite app_nil_r.
  - cbn [length] in Hlen, Hf. replace (Nat.leb (length s) (i + length g)) with false by lia.
    destruct (skipn_nth Hk0) as (Hn & Hs1 & Hlt).
    destruct (@skip_spec false r1 (S (length s)) (S (i + length g)) Hs1 ltac:(lia) ltac:(lia)) as (run & rest & -> & Hrun & Hrest & -> & Hk1). cbn [obind].
    rewrite app_length in Hlen, Hf.
    set (wl := (S (i + length g) + length run - (i + length g))%nat).
    assert (Hwl : wl = S (length run)) by (unfold wl; lia).
    cbv zeta. replace (if Nat.ltb bs (wl + 1) then (wl + 1)%nat else bs) with (Nat.max bs (wl + 1)) by (destruct (Nat.ltb_spec bs (wl + 1)); lia).
    replace (Nat.ltb (Nat.max bs (wl + 1)) (wl + 1)) with false by lia.
    assert (Hword : firstn wl (skipn (i + length g) s) = b :: run).
    { rewrite Hk0, Hwl. cbn [firstn]. f_equal. rewrite firstn_app, Nat.sub_diag, firstn_O, app_nil_r. apply firstn_all. }
    rewrite Hword.
    assert (Hnsep : Forall (fun x => ~ (insep x = true)) (b :: run)).
    { constructor; [now rewrite Hb|]. eapply Forall_impl; [|exact Hrun]. cbn. intros x Hx. now rewrite Hx. }
    destruct Hrest as [->|(b2 & r2 & -> & Hb2)].
    + exists [b :: run]. split.
      { replace (g ++ b :: run ++ []) with (g ++ (b :: run)) by now rewrite app_nil_r. now apply cut_last. }
      cbn [all_of]. destruct (word_of_utf8 E (b :: run)) as [w| | | |]; try reflexivity. cbn [obind].
      replace (Nat.ltb _ _) with false by (cbn in Hlen; lia). reflexivity.
    + cbn [length] in Hlen, Hf.
      destruct (IH (b2 :: r2) (S (i + length g) + length run)%nat (Nat.max bs (wl + 1))
                  (acc ++ [match word_of_utf8 E (b :: run) with Ok w => w | _ => [] end]) Hk1 ltac:(lia) ltac:(cbn; lia)) as (runs & Hcut & Heq).
      exists ((b :: run) :: runs). split.
      { change (g ++ b :: run ++ b2 :: r2) with (g ++ (b :: run) ++ b2 :: r2). now apply cut_more. }
      cbn [all_of]. destruct (word_of_utf8 E (b :: run)) as [w| | | |]; try reflexivity. cbn [obind].
      replace (Nat.ltb _ _) with true by lia. rewrite Heq.
      destruct (all_of _ runs) as [ws| | | |]; try reflexivity. cbn [obind]. now rewrite <- app_assoc.
Qed.
End Split.

(** ** Uniqueness of the cut *)
Lemma app_split (sep : N -> Prop) : forall a1 a2 b1 b2,
  a1 ++ b1 = a2 ++ b2 -> Forall sep a1 -> Forall sep a2 ->
  (b1 = [] \/ exists x r, b1 = x :: r /\ ~ sep x) -> (b2 = [] \/ exists x r, b2 = x :: r /\ ~ sep x) -> a1 = a2 /\ b1 = b2.
Proof.
  induction a1 as [|x a1 IH]; intros [|y a2] b1 b2 He H1 H2 Hb1 Hb2; cbn in He.
  - now split.
  - subst b1. destruct Hb1 as [Hb1|(x & r & Hb1 & Hn)]; [discriminate|]. injection Hb1 as <- _. now apply Forall_cons_iff in H2 as [? _].
  - subst b2. destruct Hb2 as [Hb2|(z & r & Hb2 & Hn)]; [discriminate|]. injection Hb2 as <- _. now apply Forall_cons_iff in H1 as [? _].
  - injection He as <- He. apply Forall_cons_iff in H1 as [_ H1], H2 as [_ H2].
    destruct (IH a2 b1 b2 He H1 H2 Hb1 Hb2) as [-> ->]. now split.
Qed.
Lemma head_not (sep : N -> Prop) (r t : list N) : r <> [] -> Forall (fun b => ~ sep b) r -> r ++ t = [] \/ exists x l, r ++ t = x :: l /\ ~ sep x.
Proof. destruct r as [|x r]; [congruence|]. intros _ H. apply Forall_cons_iff in H as [H _]. right. exists x, (r ++ t). now split. Qed.
Lemma cut_unique (sep : N -> Prop) s r1 : cut sep s r1 -> forall r2, cut sep s r2 -> r1 = r2.
Proof.
  assert (Hnn : forall (b : N) rest, sep b -> b :: rest = [] \/ exists x l, b :: rest = x :: l /\ ~ (fun y => ~ sep y) x).
  { intros b rest Hb. right. exists b, rest. split; [reflexivity|]. intros H. now apply H. }
  induction 1 as [g Hg|g r Hg Hr Hn|g r b rest l Hg Hr Hn Hb Hc IH]; intros r2 H2.
  - inversion H2 as [g' Hg'|g' r' Hg' Hr' Hn' He|g' r' b' rest' l' Hg' Hr' Hn' Hb' Hc' He]; subst; [reflexivity| |].
    + destruct r' as [|x r']; [congruence|]. apply Forall_app in Hg as [_ Hg]. apply Forall_cons_iff in Hg as [Hx _]. now apply Forall_cons_iff in Hn' as [? _].
    + destruct r' as [|x r']; [congruence|]. apply Forall_app in Hg as [_ Hg]. apply Forall_cons_iff in Hg as [Hx _]. now apply Forall_cons_iff in Hn' as [? _].
  - inversion H2 as [g' Hg' He|g' r' Hg' Hr' Hn' He|g' r' b' rest' l' Hg' Hr' Hn' Hb' Hc' He].
    + exfalso. subst g'. destruct r as [|x r]; [congruence|]. apply Forall_app in Hg' as [_ Hg']. apply Forall_cons_iff in Hg' as [Hx _]. now apply Forall_cons_iff in Hn as [? _].
    + apply (@app_split sep) in He as [_ ->]; try assumption; [reflexivity| |].
      * pose proof (head_not [] Hr' Hn') as Hx. now rewrite app_nil_r in Hx.
      * pose proof (head_not [] Hr Hn) as Hx. now rewrite app_nil_r in Hx.
    + apply (@app_split sep) in He as [_ He]; try assumption.
      * exfalso. rewrite <- He in Hn. apply Forall_app in Hn as [_ Hn]. now apply Forall_cons_iff in Hn as [? _].
      * now apply head_not.
      * pose proof (head_not [] Hr Hn) as Hx. now rewrite app_nil_r in Hx.
  - inversion H2 as [g' Hg' He|g' r' Hg' Hr' Hn' He|g' r' b' rest' l' Hg' Hr' Hn' Hb' Hc' He].
    + exfalso. subst g'. destruct r as [|x r]; [congruence|]. apply Forall_app in Hg' as [_ Hg']. apply Forall_cons_iff in Hg' as [Hx _]. now apply Forall_cons_iff in Hn as [? _].
    + exfalso. apply (@app_split sep) in He as [_ He]; try assumption.
      * subst r'. apply Forall_app in Hn' as [_ Hn']. now apply Forall_cons_iff in Hn' as [? _].
      * pose proof (head_not [] Hr' Hn') as Hx. now rewrite app_nil_r in Hx.
      * now apply head_not.
    + apply (@app_split sep) in He as [_ He]; try assumption; [|now apply head_not|now apply head_not].
      apply (@app_split (fun y => ~ sep y)) in He as [-> He]; try assumption; [|now apply Hnn|now apply Hnn].
      injection He as -> ->. f_equal. now apply IH.
Qed.

(** ** splitToWords *)
Lemma sep_ext (p q : N -> Prop) s runs : (forall b, In b s -> (p b <-> q b)) -> cut p s runs -> cut q s runs.
Proof.
  intros H Hc. induction Hc as [g Hg|g r Hg Hr Hn|g r b rest l Hg Hr Hn Hb Hc IH].
  - constructor. apply Forall_forall. intros x Hx. rewrite Forall_forall in Hg. apply H; [exact Hx|now apply Hg].
  - apply cut_last; [|exact Hr|].
    + apply Forall_forall. intros x Hx. rewrite Forall_forall in Hg. apply H; [apply in_or_app; now left|now apply Hg].
    + apply Forall_forall. intros x Hx. rewrite Forall_forall in Hn. rewrite <- (H x); [now apply Hn|apply in_or_app; now right].
  - apply cut_more; [|exact Hr| | |].
    + apply Forall_forall. intros x Hx. rewrite Forall_forall in Hg. apply H; [apply in_or_app; now left|now apply Hg].
    + apply Forall_forall. intros x Hx. rewrite Forall_forall in Hn. rewrite <- (H x); [now apply Hn|].
      apply in_or_app. right. apply in_or_app. now left.
    + apply H; [|exact Hb]. apply in_or_app. right. apply in_or_app. right. now left.
    + apply IH. intros x Hx. apply H. apply in_or_app. right. apply in_or_app. now right.
Qed.
Lemma ws_sep b : isInList (char_letter b) whitespaceLetters = true <-> blank b.
Proof. unfold isInList, whitespaceLetters, char_letter, blank. cbn [existsb]. destruct (b <? 128) eqn:H; lia. Qed.
Lemma obind_ok A (o : outcome A) : obind o (fun a => Ok a) = o.
Proof. destruct o; reflexivity. Qed.
Lemma split_general E s chars runs : cut (fun b => isInList (char_letter b) chars = true) s runs ->
  split E s chars = all_of (word_of_utf8 E) runs.
Proof.
  intros Hc. unfold split. destruct (@split_spec chars s E (S (length s)) s 0 0 [] eq_refl ltac:(lia) ltac:(lia)) as (r & Hr & ->).
  rewrite (cut_unique Hc Hr). cbn [app]. apply obind_ok.
Qed.
Lemma cut_exists chars s : exists runs, cut (fun b => isInList (char_letter b) chars = true) s runs.
Proof.
  destruct (@split_spec chars s (mkEnv false (fun _ => false) (fun l => l) (fun _ l => l) (fun l => l) false) (S (length s)) s 0 0 [] eq_refl ltac:(lia) ltac:(lia)) as (r & Hr & _). now exists r.
Qed.
Lemma split_ws E s runs : cut blank s runs -> splitToWords E s = all_of (word_of_utf8 E) runs.
Proof.
  intros Hc. apply split_general. revert Hc. apply sep_ext. intros b _. split; apply ws_sep.
Qed.
Lemma cut_ws_exists s : exists runs, cut blank s runs.
Proof.
  destruct (cut_exists whitespaceLetters s) as [r Hr]. exists r. revert Hr. apply sep_ext. intros b _. apply ws_sep.
Qed.
Lemma blank_bytes c : scalar c -> (blank c -> utf8 c = [c]) /\ (~ blank c -> utf8 c <> [] /\ Forall (fun b => ~ blank b) (utf8 c)).
Proof.
  intros Hs. unfold blank, utf8, scalar in *. split.
  - intros Hb. replace (c <? 128) with true by lia. reflexivity.
  - intros Hb. destruct (c <? 128); [split; [discriminate|]; constructor; [exact Hb|constructor]|].
    destruct (c <? 2048); [split; [discriminate|]; repeat (constructor; [lia|]); constructor|].
    destruct (c <? 65536); (split; [discriminate|]; repeat (constructor; [lia|]); constructor).
Qed.
Lemma cut_bytes cs runs : Forall scalar cs -> cut blank cs runs -> cut blank (bytes_of cs) (map bytes_of runs).
Proof.
  assert (Hg : forall g, Forall scalar g -> Forall blank g -> Forall blank (bytes_of g)).
  { intros g Hs Hb. induction g as [|c g IH]; [constructor|]. apply Forall_cons_iff in Hs as [Hc Hs], Hb as [Hx Hb].
    rewrite bytes_cons. rewrite (proj1 (blank_bytes Hc) Hx). constructor; [exact Hx|now apply IH]. }
  assert (Hr : forall r, Forall scalar r -> Forall (fun c => ~ blank c) r -> Forall (fun c => ~ blank c) (bytes_of r)).
  { intros r Hs Hb. induction r as [|c r IH]; [constructor|]. apply Forall_cons_iff in Hs as [Hc Hs], Hb as [Hx Hb].
    rewrite bytes_cons. apply Forall_app. split; [apply (proj2 (blank_bytes Hc) Hx)|now apply IH]. }
  assert (Hne : forall r, Forall scalar r -> Forall (fun c => ~ blank c) r -> r <> [] -> bytes_of r <> []).
  { intros [|c r] Hs Hb Hn; [congruence|]. apply Forall_cons_iff in Hs as [Hc _], Hb as [Hx _].
    rewrite bytes_cons. destruct (proj2 (blank_bytes Hc) Hx) as [H _]. destruct (utf8 c); [congruence|discriminate]. }
  intros Hs Hc. induction Hc as [g Hb|g r Hb Hn Hnb|g r b rest l Hb Hn Hnb Hx Hc IH].
  - constructor. now apply Hg.
  - apply Forall_app in Hs as [Hs1 Hs2]. unfold bytes_of. rewrite flat_map_app. fold (bytes_of g) (bytes_of r).
    cbn [map]. apply cut_last; [now apply Hg|now apply Hne|now apply Hr].
  - apply Forall_app in Hs as [Hs1 Hs2]. apply Forall_app in Hs2 as [Hs2 Hs3].
    unfold bytes_of at 1. rewrite !flat_map_app. fold (bytes_of g) (bytes_of r). fold (bytes_of (b :: rest)).
    specialize (IH Hs3). cbn [map]. rewrite bytes_cons in *. apply Forall_cons_iff in Hs3 as [Hs3 _].
    rewrite (proj1 (blank_bytes Hs3) Hx) in *. cbn [app] in *. apply cut_more; [now apply Hg|now apply Hne|now apply Hr|exact Hx|exact IH].
Qed.
Lemma cut_runs (sep : N -> Prop) s runs : cut sep s runs ->
  Forall (fun r => r <> [] /\ (forall b, In b r -> In b s /\ ~ sep b)) runs.
Proof.
  assert (Hf : forall r, Forall (fun b => ~ sep b) r -> forall b, In b r -> ~ sep b) by (intros r H; now rewrite Forall_forall in H).
  induction 1 as [g Hg|g r Hg Hr Hn|g r b rest l Hg Hr Hn Hb Hc IH]; [constructor| |].
  - constructor; [|constructor]. split; [exact Hr|]. intros b Hb. split; [apply in_or_app; now right|now apply (Hf r)].
  - constructor.
    + split; [exact Hr|]. intros x Hx. split; [apply in_or_app; right; apply in_or_app; now left|now apply (Hf r)].
    + eapply Forall_impl; [|exact IH]. cbn. intros r' [H1 H2]. split; [exact H1|]. intros x Hx. destruct (H2 x Hx) as [H3 H4].
      split; [|exact H4]. apply in_or_app. right. apply in_or_app. now right.
Qed.
Lemma split_valid E cs runs : lower_ok E -> Forall scalar cs -> cut blank cs runs ->
  splitToWords E (bytes_of cs) = Ok (map (fun r => letters_of (map (fold E) r)) runs).
Proof.
  intros HE Hs Hc. rewrite (@split_ws E _ _ (cut_bytes Hs Hc)). pose proof (cut_runs Hc) as Hr. clear Hc.
  induction Hr as [|r runs [_ Hr] _ IH]; [reflexivity|]. cbn [map all_of]. rewrite word_valid; [|exact HE| |].
  - cbn [obind]. now rewrite IH.
  - apply Forall_forall. intros c Hin. rewrite Forall_forall in Hs. now apply Hs, Hr.
  - intros c Hin. now apply Hr.
Qed.
Lemma split_fails E s runs : lower_ok E -> cut blank s runs ->
  (forall r, In r runs -> valid_utf8 r) \/ (exists r, In r runs /\ ~ valid_utf8 r) /\ splitToWords E s = Throw ERuntime.
Proof.
  intros HE Hc. rewrite (@split_ws E _ _ Hc). pose proof (cut_runs Hc) as Hr. clear Hc.
  induction Hr as [|r runs [_ Hr] _ IH]; [left; intros r []|].
  destruct (valid_dec r) as [Hv|Hn].
  - destruct IH as [IH|[(r' & Hin & Hn) IH]].
    + left. intros x [<-|Hx]; [exact Hv|now apply IH].
    + right. split; [exists r'; split; [now right|exact Hn]|]. cbn [all_of]. rewrite IH.
      destruct Hv as (cs & Hs & ->). rewrite word_valid; [reflexivity|exact HE|exact Hs|].
      intros c Hcin Hb. assert (Hx : In c (bytes_of cs)).
      { apply in_flat_map. exists c. split; [exact Hcin|]. rewrite Forall_forall in Hs. rewrite (proj1 (blank_bytes (Hs c Hcin)) Hb). now left. }
      now apply Hr in Hx as [_ Hx].
  - right. split; [exists r; split; [now left|exact Hn]|]. cbn [all_of]. now rewrite word_invalid.
Qed.

(** ** A word so long that asUtf8 miscomputes its buffer *)
Lemma asUtf8_overflow n : n = 1431655764 -> asUtf8 (repeat 97 (N.to_nat n)) = UB.
Proof.
  intros Hn. assert (Hl : forall k, letters_of (repeat 97 k) = repeat 97 k /\ bytes_of (repeat 97 k) = repeat 97 k /\ Forall scalar (repeat 97 k)).
  { induction k as [|k (H1 & H2 & H3)]; [repeat split; constructor|]. cbn [repeat]. rewrite letters_cons, bytes_cons, H1, H2. repeat split.
    constructor; [unfold scalar; lia|exact H3]. }
  destruct (Hl (N.to_nat n)) as (H1 & H2 & H3). unfold asUtf8. cbv zeta.
  rewrite repeat_length, N2Nat.id.
  rewrite <- H1. rewrite toUtf8_letters by exact H3. rewrite H2, repeat_length, N2Nat.id.
  assert (Hu : u32 (4 * (n + 1)) = n) by (subst n; reflexivity). rewrite Hu, N.ltb_irrefl, N.eqb_refl. reflexivity.
Qed.
