(** C programs whose matchers run out of memory: what a call does to the objects. *)
From Verif Require Import Base TrieM WordStoreM ErrorValuesM LevIndexM WordM MapM DoubleM ContM MatcherM DataFileM CApiM FailM
  Spec_CApi Spec_Fail CMatM Spec_CMat CApiP CApiQ FailP FailU CMatP CMatQ CMatR.
From Coq Require Import ZifyBool ZifyN ZifyNat.
Local Open Scope N_scope.

Lemma upd_id A (a : A) l : forall n, nth_error l n = Some a -> upd n a l = l.
Proof. induction l as [|o l IH]; intros n Hn; [now destruct n|]. destruct n as [|n]; [injection Hn as ->; reflexivity|]. cbn. f_equal. now apply IH. Qed.

Lemma matcher_at h n m : live h n (OMatcher m) -> the_matcher (PAt n) h = (h, Ok (n, m)).
Proof. intros H. apply live_get in H. unfold the_matcher, deref, mbind. now rewrite H. Qed.
Lemma corpus_at h n cp : get_obj h n = Some (OCorpus cp) -> the_corpus (PAt n) h = (h, Ok (n, cp)).
Proof. intros H. unfold the_corpus, deref, mbind. now rewrite H. Qed.
Lemma word_at h n w : get_obj h n = Some (OWord w) -> the_word (PAt n) h = (h, Ok w).
Proof. intros H. unfold the_word, deref, mbind. now rewrite H. Qed.

(** ** A call that did not run out *)
Lemma pure_gave E W c st st' v : x_pure E W c st = (st', Gave v) -> c_do E W c (x_heap st) = (x_heap st', Ok v).
Proof. unfold x_pure. destruct (c_do E W c (x_heap st)) as [h []]; intros H; try discriminate H; injection H as <- <-; reflexivity. Qed.
Lemma one_gave E W c fb st st' v : x_one E W c fb st = (st', Gave v) -> c_do E W c (x_heap st) = (x_heap st', Ok v).
Proof.
  unfold x_one. destruct (x_take st) as [b st1] eqn:Ht. destruct (take_same Ht) as [<- _]. destruct b; [apply pure_gave|]. intros H. apply short_same in H as [_ [H|H]]; discriminate H.
Qed.
Lemma on_gave A n m (f : F A) p fb k st st' v : er f p -> x_on n m f fb k st = (st', Gave v) ->
  (exists m' a st1, p m = (m', Ok a) /\ x_heap st1 = upd n (Some (OMatcher m')) (x_heap st) /\ k a st1 = (st', Gave v)) \/
  (exists m' x, p m = (m', Throw x) /\ x_heap st' = upd n (Some (OMatcher m')) (x_heap st) /\ v = fb).
Proof.
  intros He. destruct (He (mkF m (x_plan st) [])) as (s' & o & Hr & Ho). unfold x_on. rewrite Hr. destruct Ho as [->|(po & Hp & ->)]; [discriminate|]. cbn [f_m] in Hp.
  destruct po as [a|x| | |]; cbn [as_res]; intros H; try discriminate H.
  - left. eexists _, _, _. split; [exact Hp|]. split; [|exact H]. reflexivity.
  - right. injection H as <- <-. eexists _, _. split; [exact Hp|]. now split.
Qed.
Lemma on_void n m (f : F unit) p st st' v : er f p -> x_on n m f VVoid (fun _ st1 => (st1, Gave VVoid)) st = (st', Gave v) ->
  (match mbind (method n m OMatcher p) (fun _ => ret VVoid) (x_heap st) with (h, Throw _) => (h, Ok VVoid) | r => r end) = (x_heap st', Ok v).
Proof.
  intros He H. unfold mbind, method, ret. destruct (on_gave He H) as [(m' & a & st1 & -> & Hh & Hk)|(m' & x & -> & -> & ->)]; [|reflexivity]. injection Hk as <- <-. now rewrite Hh.
Qed.
Lemma x_gave E W c st st' v : x_do E W c st = (st', Gave v) -> c_do E W c (x_heap st) = (x_heap st', Ok v).
Proof.
  intros H. destruct c; cbn [x_do] in H; try (exact (pure_gave H)); try (exact (one_gave H)).
  - destruct (x_take st) as [b st1] eqn:Ht. destruct (take_same Ht) as [<- _]. destruct b; [|apply short_same in H as [_ [H|H]]; discriminate H].
    destruct (x_take st1) as [b st2] eqn:Ht2. destruct (take_same Ht2) as [<- _]. destruct b; [exact (pure_gave H)|]. destruct (x_has (x_heap st2) doc field_name); [discriminate H|].
    destruct (x_pure E W (col_document_add_text doc field_name []) st2) as [st3 e] eqn:Hp. destruct e; try discriminate H.
  - destruct m as [|n| |]; try exact (pure_gave H). destruct c as [|j| |]; try exact (pure_gave H). destruct (x_matcher (x_heap st) n) as [m|] eqn:Hm; [|discriminate H]. destruct (get_obj (x_heap st) j) as [[]|] eqn:Hj; try discriminate H.
    apply xmat in Hm. cbn [c_do]. unfold caught, mbind at 1 2. rewrite (matcher_at Hm), (corpus_at Hj). cbn [fst snd]. refine (on_void _ H); apply er_index.
  - destruct m as [|n| |]; try exact (pure_gave H). destruct (x_matcher (x_heap st) n) as [m|] eqn:Hm; [|discriminate H]. apply xmat in Hm. pose proof Hm as Hl.
    cbn [c_do]. unfold caught, mbind at 1. rewrite (matcher_at Hm). cbn [fst snd]. unfold mbind, method, mt_match_utf8, reads, ret. unfold mbind. cbn [fst snd].
    destruct (splitToWords E query_as_utf8) as [q|x| | |]; try discriminate H; [|injection H as <- <-; now rewrite (upd_id Hl)].
    destruct (on_gave (@er_match E q sp_new) H) as [(m' & a & st1 & -> & Hh & Hk)|(m' & x & -> & -> & ->)]; [|reflexivity].
    unfold x_results in Hk. destruct (x_take st1) as [b st2] eqn:Ht. destruct (take_same Ht) as [Hs _]. destruct b; [|discriminate Hk]. injection Hk as <- <-. cbn [x_heap]. unfold alloc. now rewrite <- Hh, Hs.
  - destruct ev as [| |n|]; try exact (pure_gave H). destruct (x_matcher (x_heap st) n) as [m|] eqn:Hm; [|discriminate H]. apply xmat in Hm.
    cbn [c_do]. unfold caught, mbind at 1. cbn [the_errors]. rewrite (matcher_at Hm). cbn [fst snd]. exact (on_void (@er_on _ (on_ev (addStandardErrors_file E W))) H).
  - destruct ev as [| |n|]; try exact (pure_gave H). destruct (x_matcher (x_heap st) n) as [m|] eqn:Hm; [|discriminate H]. apply xmat in Hm.
    cbn [c_do]. unfold caught, mbind at 1. cbn [the_errors]. rewrite (matcher_at Hm). cbn [fst snd]. exact (on_void (@er_on _ (on_ev (fun e => (setSubstringMode e, Ok tt)))) H).
  - destruct weights as [| | |n]; try exact (pure_gave H). destruct field as [|j| |]; try exact (pure_gave H). destruct (x_matcher (x_heap st) n) as [m|] eqn:Hm; [|discriminate H]. destruct (get_obj (x_heap st) j) as [[]|] eqn:Hj; try discriminate H.
    apply xmat in Hm. cbn [c_do]. unfold caught, mbind at 1 2. cbn [the_weights]. rewrite (matcher_at Hm), (word_at Hj). cbn [fst snd].
    refine (on_void (p := set_w (iw_setWeight w new_weight)) _ H). unfold f_setWeight. apply er_need_if, er_on.
Qed.
Lemma x_told E W calls : forall st st' vs, x_run E W calls st = (st', map Gave vs) -> c_run E W calls (x_heap st) = (x_heap st', Ok vs).
Proof.
  induction calls as [|c calls IH]; intros st st' vs H; cbn [x_run c_run] in *; [destruct vs; [injection H as <-; reflexivity|discriminate H]|].
  destruct (x_do E W c st) as [st1 e] eqn:H1. destruct e; try (destruct vs as [|v0 vs]; discriminate H).
  2:{ destruct (x_run E W calls st1) as [st2 es2]. destruct vs as [|v0 vs]; discriminate H. }
  destruct (x_run E W calls st1) as [st2 es2] eqn:H2. destruct vs as [|v0 vs]; [discriminate H|]. injection H as <- -> ->. unfold mbind. rewrite (x_gave H1), (IH _ _ _ H2). reflexivity.
Qed.

(** ** A call that ran out *)
Definition rest (k : nat -> Prop) (h h' : heap) : Prop := length h' = length h /\ forall n, ~ k n -> nth_error h' n = nth_error h n.
Lemma rest_same k h : rest k h h.
Proof. now split. Qed.
Lemma rest_upd (k : nat -> Prop) n o h : k n -> rest k h (upd n o h).
Proof. intros Hn. split; [apply upd_len|]. intros j Hj. apply upd_other. intros ->. exact (Hj Hn). Qed.
Lemma one_rest E W c fb st st' v k : x_one E W c fb st = (st', Short v) -> rest k (x_heap st) (x_heap st').
Proof.
  unfold x_one. destruct (x_take st) as [b st1] eqn:Ht. destruct (take_same Ht) as [<- _]. destruct b; intros H; [now apply pure_short in H|]. apply short_same in H as [-> _]. apply rest_same.
Qed.
Lemma on_rest A n m (f : F A) fb k st st' v (P : nat -> Prop) : P n -> (forall a s s' v, k a s = (s', Short v) -> x_heap s' = x_heap s) -> x_on n m f fb k st = (st', Short v) -> rest P (x_heap st) (x_heap st').
Proof.
  intros Hn Hk. unfold x_on. destruct (f (mkF m (x_plan st) [])) as [s o]. destruct o as [a| |x| | |]; intros H; try discriminate H.
  - rewrite (Hk _ _ _ _ H). cbn [x_heap]. now apply rest_upd.
  - injection H as <- _. cbn [x_heap]. now apply rest_upd.
Qed.
Lemma x_rest E W c st st' v : x_do E W c st = (st', Short v) -> rest (may_change c) (x_heap st) (x_heap st').
Proof.
  intros H. destruct c; cbn [x_do may_change] in *; try (now apply pure_short in H); try (exact (one_rest _ H)).
  - destruct (x_take st) as [b st1] eqn:Ht. destruct (take_same Ht) as [<- _]. destruct b; [|apply short_same in H as [-> _]; apply rest_same].
    destruct (x_take st1) as [b st2] eqn:Ht2. destruct (take_same Ht2) as [<- _]. destruct b; [now apply pure_short in H|]. destruct (x_has (x_heap st2) doc field_name); [discriminate H|].
    unfold x_pure in H. cbn [c_do] in H. unfold caught, mbind in H.
    destruct (the_doc doc (x_heap st2)) as [h1 o1] eqn:H1. apply the_doc_inv in H1 as [-> [->|(n & d & -> & Hn & ->)]]; [discriminate H|].
    destruct (the_word field_name (x_heap st2)) as [h2 o2] eqn:H2. apply the_word_inv in H2 as [-> [->|(j & w & -> & Hj & ->)]]; [discriminate H|].
    unfold method in H. cbn [fst snd] in H. destruct (doc_addText_utf8 E w [] _) as [d2 o2]. destruct o2; try discriminate H; injection H as <- _; now apply rest_upd.
  - destruct m as [|n| |]; try (now apply pure_short in H). destruct c as [|j| |]; try (now apply pure_short in H). destruct (x_matcher (x_heap st) n), (get_obj (x_heap st) j) as [[]|]; try discriminate H. refine (on_rest _ _ H); [reflexivity|]. intros ? ? ? ? Hk. discriminate Hk.
  - destruct m as [|n| |]; try (now apply pure_short in H). destruct (x_matcher (x_heap st) n); [|discriminate H]. destruct (splitToWords E query_as_utf8); try discriminate H. refine (on_rest _ _ H); [reflexivity|].
    intros ? s9 ? ? Hk. unfold x_results in Hk. destruct (x_take s9) as [b s2] eqn:Ht. destruct (take_same Ht) as [<- _]. destruct b; [discriminate Hk|]. now injection Hk as <- _.
  - destruct ev as [| |n|]; try (now apply pure_short in H). destruct (x_matcher (x_heap st) n) as [m|]; [|discriminate H]. unfold x_on, on_m in H. destruct (on_ev _ _) as [m2 o]. destruct o; discriminate H.
  - destruct ev as [| |n|]; try (now apply pure_short in H). destruct (x_matcher (x_heap st) n) as [m|]; [|discriminate H]. unfold x_on, on_m in H. destruct (on_ev _ _) as [m2 o]. destruct o; discriminate H.
  - destruct weights as [| | |n]; try (now apply pure_short in H). destruct field as [|j| |]; try (now apply pure_short in H). destruct (x_matcher (x_heap st) n), (get_obj (x_heap st) j) as [[]|]; try discriminate H. refine (on_rest _ _ H); [reflexivity|]. intros ? ? ? ? Hk. discriminate Hk.
Qed.
