(** Matcher out of memory: indexing.  A word that was put in the index of its field but not in
    the reverse index belongs, in the proof, to a document [x] that does not exist. *)
From Verif Require Import Base TrieM TrieA TrieP TrieP2 TrieD WordStoreM Spec_Hist TrieH WordStoreP ErrorValuesM LevIndexM
  Spec_Edit Spec_EV Spec_Lev EVP LevP WordM MapM DoubleM ContM MatcherM MapP Spec_Cont ContP Spec_Match MatchP MatchQ FailM FailP.
From Coq Require Import ZifyBool ZifyN ZifyNat.
Local Open Scope N_scope.
Local Open Scope f_scope.

(** ** The matcher and its twin *)
Record V (x : N) (m mv : matcher) : Prop := {
  v_idx : mt_idx mv = mt_idx m;
  v_ev : mt_ev mv = mt_ev m;
  v_w : mt_w mv = mt_w m;
  v_store : mt_store mv = mt_store m;
  v_rs : msorted pair_lt (mt_rev m) /\ forall k s, mp_find pair_lt k (mt_rev m) = Some s -> msorted N.ltb s;
  v_rev : forall wi fi d, documentHasTerm (mt_rev m) wi fi d = true <-> d <> x /\ documentHasTerm (mt_rev mv) wi fi d = true;
  v_ss : msorted pair_lt (mt_sizes m);
  v_sizes : forall d k, d <> x -> mp_find pair_lt (d, k) (mt_sizes m) = mp_find pair_lt (d, k) (mt_sizes mv)
}.
Definition bad (s : fst_) : Prop := In AtWordIndex (f_failed s) \/ In AtCounts (f_failed s).
Lemma bad_mono {A} (c : F A) s s' o : mono c -> c s = (s', o) -> bad s -> bad s'.
Proof. intros Hm Hr Hb. destruct (Hm _ _ _ Hr) as [t Ht]. unfold bad. rewrite Ht, !in_app_iff. destruct Hb; auto. Qed.

Lemma V_store {A} x m mv (f : M wstore A) m' o : V x m mv -> on_store f m = (m', o) -> exists mv', on_store f mv = (mv', o) /\ V x m' mv'.
Proof.
  intros [V1 V2 V3 V4 V5 V6 V7 V8] H. unfold on_store in *. rewrite V4. destruct (f (mt_store m)) as [s' q]. injection H as <- <-.
  eexists. split; [reflexivity|]. now constructor.
Qed.
Lemma V_stats x m mv st : V x m mv -> V x (mkMt (mt_idx m) (mt_rev m) (mt_ev m) (mt_w m) st (mt_store m) (mt_sizes m)) mv.
Proof. intros [V1 V2 V3 V4 V5 V6 V7 V8]. now constructor. Qed.
Lemma V_size x m mv d k n : V x m mv -> msorted pair_lt (mt_sizes mv) -> V x (fst (set_size d k n m)) (fst (set_size d k n mv)).
Proof.
  intros [V1 V2 V3 V4 V5 V6 V7 V8] Hs. constructor; cbn [fst set_size mt_idx mt_rev mt_ev mt_w mt_stats mt_store mt_sizes]; auto; [now apply (set_sorted pair_order)|].
  intros d' k' Hd. assert (Hc : (d', k') = (d, k) \/ (d', k') <> (d, k)) by (destruct (N.eq_dec d' d), (N.eq_dec k' k); [left|right|right|right]; congruence).
  destruct Hc as [->|Hc]; [now rewrite !(find_set_same pair_order)|]. rewrite !(find_set_other pair_order) by assumption. now apply V8.
Qed.
Lemma V_size_x x m mv k n : V x m mv -> msorted pair_lt (mt_sizes mv) -> V x m (fst (set_size x k n mv)).
Proof.
  intros [V1 V2 V3 V4 V5 V6 V7 V8] Hs. constructor; cbn [fst set_size mt_idx mt_rev mt_ev mt_w mt_stats mt_store mt_sizes]; auto.
  intros d' k' Hd. rewrite (find_set_other pair_order); [now apply V8|exact Hs|congruence].
Qed.
Lemma V_rev x m mv wi fi d : V x m mv -> d <> x -> msorted pair_lt (mt_rev mv) /\ (forall k s, mp_find pair_lt k (mt_rev mv) = Some s -> msorted N.ltb s) ->
  V x (fst (set_rev (rev_add wi fi d) m)) (fst (set_rev (rev_add wi fi d) mv)).
Proof.
  intros [V1 V2 V3 V4 V5 V6 V7 V8] Hd Hs. constructor; cbn [fst set_rev mt_idx mt_rev mt_ev mt_w mt_stats mt_store mt_sizes]; auto; [now apply rev_add_sorted|].
  intros wi' fi' d'. rewrite !rev_add_spec by (apply V5 || apply Hs). rewrite V6. intuition congruence.
Qed.
Lemma V_rev_x x m mv wi fi : V x m mv -> msorted pair_lt (mt_rev mv) /\ (forall k s, mp_find pair_lt k (mt_rev mv) = Some s -> msorted N.ltb s) ->
  V x m (fst (set_rev (rev_add wi fi x) mv)).
Proof.
  intros [V1 V2 V3 V4 V5 V6 V7 V8] Hs. constructor; cbn [fst set_rev mt_idx mt_rev mt_ev mt_w mt_stats mt_store mt_sizes]; auto.
  intros wi' fi' d'. rewrite !rev_add_spec by apply Hs. rewrite V6. intuition congruence.
Qed.
Lemma V_emptied x m mv wi fi m' : V x m mv -> emptied wi fi m m' -> V x m' mv.
Proof.
  intros [V1 V2 V3 V4 V5 V6 V7 V8] [->|[Hf ->]]; [now constructor|].
  constructor; cbn [fst set_rev mt_idx mt_rev mt_ev mt_w mt_stats mt_store mt_sizes]; auto.
  - split; [now apply (set_sorted pair_order)|]. intros k s Hk. assert (Hc : k = (fi, wi) \/ k <> (fi, wi)) by (destruct k as [a b]; destruct (N.eq_dec a fi), (N.eq_dec b wi); [left|right|right|right]; congruence).
    destruct Hc as [->|Hc]; [rewrite (find_set_same pair_order) in Hk by apply V5; injection Hk as <-; constructor|]. rewrite (find_set_other pair_order) in Hk by (apply V5 || exact Hc). now apply V5 in Hk.
  - intros wi' fi' d. rewrite <- V6. unfold documentHasTerm.
    assert (Hc : (fi', wi') = (fi, wi) \/ (fi', wi') <> (fi, wi)) by (destruct (N.eq_dec fi' fi), (N.eq_dec wi' wi); [left|right|right|right]; congruence).
    destruct Hc as [->|Hc]; [rewrite (find_set_same pair_order) by apply V5; now rewrite Hf|]. rewrite (find_set_other pair_order) by (apply V5 || exact Hc). reflexivity.
Qed.
Lemma addTo_V x m mv E w wi fi m' o : V x m mv -> addToIndex E w wi fi m = (m', o) -> exists mv', addToIndex E w wi fi mv = (mv', o) /\ V x m' mv'.
Proof.
  intros [V1 V2 V3 V4 V5 V6 V7 V8] H. unfold addToIndex in *. rewrite V1. destruct (mp_find N.ltb fi (mt_idx m)) as [li|].
  - destruct (li_insertWord E w wi li) as [li' q]. injection H as <- <-. eexists. split; [reflexivity|]. constructor; cbn; auto; now rewrite V1.
  - destruct (li_new E) as [li|e| | |]; [destruct (li_insertWord E w wi li) as [li' q]|..]; injection H as <- <-; (eexists; split; [reflexivity|]); constructor; cbn; auto; now rewrite ?V1.
Qed.
Lemma MI_known m l w : MI m l -> In w (names l) -> MI m (l ++ [SName w]).
Proof.
  intros H Hw. destruct (mi_store H) as (es & ids & S). pose proof (@MI_name m l w (mt_store m) H (known_insertable H Hw)) as G.
  rewrite (distinct_known Hw) in G. specialize (G (ex_intro _ es (ex_intro _ ids S))). now destruct m.
Qed.

(** ** What an indexing step leaves behind *)
Definition part (x : N) (o : fres unit) (steps y : list step) : Prop :=
  (o = Val tt /\ ~ stops steps /\ y = steps) \/
  (o = Thrown EOutOfRange /\ stops steps /\ y = told steps) \/
  (o = Out /\ exists a b, told steps = a ++ b /\
     (y = a \/ (exists n, y = a ++ [SName n]) \/ (exists d f w b', b = SWord d f w :: b' /\ y = a ++ [SName w; SField x f 1; SWord x f w]))).
Definition fdoes (x : N) (c : F unit) (steps : list step) (s : fst_) (mv : matcher) (l : list step) : Prop :=
  exists s' o, c s = (s', o) /\ (bad s' \/ o = Thrown ERuntime \/
    exists mv' y, V x (f_m s') mv' /\ same_conf mv mv' /\ MI mv' (l ++ y) /\ part x o steps y).
Lemma fdoes_seq x c1 c2 a b s mv l : mono c2 -> fdoes x c1 a s mv l ->
  (forall s' mv', ~ stops a -> V x (f_m s') mv' -> MI mv' (l ++ a) -> fdoes x c2 b s' mv' (l ++ a)) -> fdoes x (c1 ;;; c2) (a ++ b) s mv l.
Proof.
  intros Hm (s1 & o1 & H1 & C1) Hy. unfold fdoes, fbind. rewrite H1.
  destruct C1 as [B|[->|(mv1 & y & V1 & S1 & I1 & P)]].
  - destruct o1 as [a0| |e| | |]; [|eexists _, _; (split; [reflexivity|]); now left..]. destruct (c2 s1) as [s2 o2] eqn:H2. eexists _, _. split; [reflexivity|]. left. exact (bad_mono Hm H2 B).
  - eexists _, _. split; [reflexivity|]. right. now left.
  - destruct P as [(-> & N1 & ->)|[(-> & N1 & ->)|(-> & p & r & Ht & C)]].
    + destruct (Hy s1 mv1 N1 V1 I1) as (s2 & o2 & H2 & C2). exists s2, o2. split; [exact H2|]. destruct C2 as [B|[->|(mv2 & y2 & V2 & S2 & I2 & P2)]]; [now left|right; now left|].
      right. right. exists mv2, (a ++ y2). split; [exact V2|]. split; [exact (same_trans S1 S2)|]. split; [now rewrite app_assoc|]. unfold part. rewrite (told_all b N1), stops_app.
      destruct P2 as [(-> & N2 & ->)|[(-> & N2 & ->)|(-> & p & r & Ht & C)]]; [left; tauto|right; left; tauto|].
      right. right. split; [reflexivity|]. exists (a ++ p), r. split; [now rewrite Ht, app_assoc|].
      destruct C as [->|[(n & ->)|(d & f & w & b' & Hb & ->)]]; [now left|right; left; exists n; now rewrite app_assoc|]. right. right. exists d, f, w, b'. split; [exact Hb|]. now rewrite app_assoc.
    + eexists _, _. split; [reflexivity|]. right. right. exists mv1, (told a). split; [exact V1|]. split; [exact S1|]. split; [exact I1|]. right. left. rewrite (told_stop b N1), stops_app. tauto.
    + eexists _, _. split; [reflexivity|]. right. right. exists mv1, y. split; [exact V1|]. split; [exact S1|]. split; [exact I1|]. right. right. split; [reflexivity|].
      assert (Hc : exists r', told (a ++ b) = p ++ r ++ r').
      { clear - Ht. revert p r Ht. induction a as [|q a IH]; intros p r Ht; cbn in *; [symmetry in Ht; apply app_eq_nil in Ht as [-> ->]; now eexists|].
        destruct (said q); [symmetry in Ht; apply app_eq_nil in Ht as [-> ->]; now exists []|]. destruct p as [|p0 p]; cbn in *.
        - destruct r as [|r0 r]; [discriminate|]. injection Ht as <- Ht. destruct (IH [] r Ht) as [r' Hr]. exists r'. cbn in *. now rewrite Hr.
        - injection Ht as <- Ht. destruct (IH p r Ht) as [r' Hr]. exists r'. now rewrite Hr. }
      destruct Hc as [r' Hc]. exists p, (r ++ r'). split; [exact Hc|]. destruct C as [->|[(n & ->)|(d & f & w & b' & -> & ->)]]; [now left|right; left; now exists n|]. right. right. exists d, f, w, (b' ++ r'). now split.
Qed.
Lemma fdoes_nil x s mv l : V x (f_m s) mv -> MI mv l -> fdoes x (val tt) [] s mv l.
Proof.
  intros HV H. exists s, (Val tt). split; [reflexivity|]. right. right. exists mv, []. split; [exact HV|]. split; [now split|]. rewrite app_nil_r. split; [exact H|]. left. split; [reflexivity|]. split; [intros []|reflexivity].
Qed.

(** ** Getting a number *)
Lemma get_step x E w s mv l : V x (f_m s) mv -> MI mv l -> insertable w -> exists s' o, f_getID E w s = (s', o) /\
  (bad s' \/ o = Thrown ERuntime \/ (exists mv', o = Val (wid (names (l ++ [SName w])) w) /\ V x (f_m s') mv' /\ same_conf mv mv' /\ MI mv' (l ++ [SName w]) /\
     mt_idx mv' = mt_idx mv /\ mt_rev mv' = mt_rev mv /\ mt_sizes mv' = mt_sizes mv)).
Proof.
  intros HV H Hw. destruct (getID_sim E w s) as [(s' & R & B)|(s' & o & R & P & _)].
  - exists s', Out. split; [exact R|]. left. now left.
  - exists s', (as_res o). split; [exact R|]. right. destruct (V_store HV P) as (mv' & Pv & HV').
    destruct (name_step E H Hw) as [(m1 & Hr & S1 & H1 & A & B & C)|(m1 & Hr & _)]; rewrite Hr in Pv; injection Pv as <- <-; [|now left].
    right. exists m1. split; [reflexivity|]. auto 10.
Qed.
Lemma get_none x E s mv l : V x (f_m s) mv -> MI mv l -> exists s', f_getID E [] s = (s', Thrown EOutOfRange) /\ f_m s' = f_m s \/ f_getID E [] s = (s', Out) /\ bad s'.
Proof.
  intros HV H. destruct (getID_sim E [] s) as [(s' & R & B)|(s' & o & R & P & _)].
  - exists s'. right. split; [exact R|now left].
  - exists s'. left. pose proof (name_empty E H) as Hn. destruct (V_store HV P) as (mv' & Pv & HV'). rewrite Hn in Pv. injection Pv as <- <-. split; [exact R|].
    unfold on_store in P, Hn. destruct (ws_getID E [] (mt_store (f_m s))) as [st q] eqn:Hq. rewrite (v_store HV), Hq in Hn. injection Hn as Hn _. injection P as Pm _.
    rewrite <- Pm. assert (Hst : st = mt_store (f_m s)) by (rewrite <- (v_store HV), <- Hn; reflexivity). rewrite Hst. now destruct (f_m s).
Qed.
Lemma fbind_bad {A B} (c : F A) (k : A -> F B) s s1 o : c s = (s1, o) -> bad s1 -> (forall a, mono (k a)) -> exists s' o', fbind c k s = (s', o') /\ bad s'.
Proof.
  intros Hc Hb Hk. unfold fbind. rewrite Hc. destruct o as [a| |e| | |]; [|eexists _, _; (split; [reflexivity|exact Hb])..].
  destruct (k a s1) as [s2 o2] eqn:E. eexists _, _. split; [reflexivity|]. exact (bad_mono (Hk a) E Hb).
Qed.
Lemma addTo_rev E w wi fi m m' o : addToIndex E w wi fi m = (m', o) -> mt_rev m' = mt_rev m.
Proof.
  unfold addToIndex. destruct (mp_find N.ltb fi (mt_idx m)) as [li|]; [|destruct (li_new E) as [li|e| | |]]; try destruct (li_insertWord E w wi li) as [li' q]; intros [= <- <-]; reflexivity.
Qed.

Section Index.
Variables (E : env) (li0 : levindex) (x : N).
Hypothesis Hli : li_new E = Ok li0.
Definition one_word (d fid : N) (w : word) : F unit :=
  wordID <- f_getID E w ;;
  need_if AtStats (fun m => match st_find (mt_stats m) wordID with Some _ => false | None => true end) ;;;
  on_m (set_stats (st_wordProcessed wordID)) ;;;
  f_addToIndex E w wordID fid ;;;
  f_add wordID fid d.
Lemma word_fdoes d f w s mv l : V x (f_m s) mv -> MI mv l -> In f (names l) -> last_size l d f None <> None -> usable w -> d <> x ->
  fdoes x (one_word d (wid (names l) f) w) [SWord d f w] s mv l.
Proof.
  intros HV H Hf Hsz Hu Hd. unfold one_word. destruct Hu as [->|Hw].
  { destruct (get_none E HV H) as (s' & [[R M]|[R B]]).
    - exists s', (Thrown EOutOfRange). rewrite (fbind_thrown _ R). split; [reflexivity|]. right. right. exists mv, []. rewrite M. split; [exact HV|]. split; [now split|]. rewrite app_nil_r. split; [exact H|].
      right. left. split; [reflexivity|]. split; [now left|reflexivity].
    - exists s', Out. rewrite (fbind_out _ R). split; [reflexivity|now left]. }
  assert (Hns : ~ stops [SWord d f w]) by (intros [Hx|[]]; cbn in Hx; subst; now destruct Hw).
  assert (Hl : length w <> 0%nat) by (destruct Hw as [Hw0 _]; destruct w; [congruence|discriminate]).
  destruct (get_step E HV H Hw) as (s1 & o1 & R1 & C1). destruct C1 as [B1|[->|(mv1 & -> & V1 & S1 & H1 & A1 & A2 & A3)]].
  { destruct (@fbind_bad N unit _ (fun wordID => need_if AtStats (fun m => match st_find (mt_stats m) wordID with Some _ => false | None => true end) ;;;
      on_m (set_stats (st_wordProcessed wordID)) ;;; f_addToIndex E w wordID (wid (names l) f) ;;; f_add wordID (wid (names l) f) d) s s1 o1 R1 B1) as (s' & o' & R & B); [intros a; mono|].
    exists s', o'. split; [exact R|now left]. }
  { exists s1, (Thrown ERuntime). rewrite (fbind_thrown _ R1). split; [reflexivity|]. right. now left. }
  rewrite <- (wid_keep [SName w] Hf). set (wi := wid (names (l ++ [SName w])) w) in *. set (fi := wid (names (l ++ [SName w])) f).
  unfold fdoes. rewrite (fbind_val _ R1).
  assert (Half : forall s2, f_m s2 = f_m s1 \/ (exists st, f_m s2 = mkMt (mt_idx (f_m s1)) (mt_rev (f_m s1)) (mt_ev (f_m s1)) (mt_w (f_m s1)) st (mt_store (f_m s1)) (mt_sizes (f_m s1))) ->
    exists mv' y, V x (f_m s2) mv' /\ same_conf mv mv' /\ MI mv' (l ++ y) /\ part x Out [SWord d f w] y).
  { intros s2 Hm. exists mv1, [SName w]. split; [destruct Hm as [->|[st ->]]; [exact V1|now apply V_stats]|]. split; [exact S1|]. split; [exact H1|]. right. right. split; [reflexivity|].
    exists [], (told [SWord d f w]). split; [reflexivity|]. right. left. now exists w. }
  match goal with |- context [fbind (need_if AtStats ?b) _ ?s0] => destruct (need_if_cases AtStats b s0) as [(s2 & R2 & M2 & F2)|(s2 & R2 & M2 & F2)] end.
  2:{ rewrite (fbind_out _ R2). eexists _, _. split; [reflexivity|]. right. right. apply Half. now left. }
  rewrite (fbind_val _ R2). erewrite fbind_val by (apply on_m_ok; reflexivity). set (s3 := mkF _ (f_plan s2) (f_failed s2)).
  assert (V3 : V x (f_m s3) mv1) by (cbn; rewrite M2; now apply V_stats).
  assert (Hi3 : msorted N.ltb (mt_idx (f_m s3))) by (rewrite <- (v_idx V3); apply (mi_isorted H1)).
  destruct (@addTo_sim E w wi fi s3 Hl) as [(s4 & R4 & C4)|(s4 & o4 & R4 & P4 & F4)].
  { rewrite (fbind_out _ R4). eexists _, _. split; [reflexivity|]. destruct C4 as [B4|M4]; [left; now right|]. right. right. apply Half. right. rewrite M4. cbn. rewrite M2. eexists. reflexivity. }
  destruct (addTo_V V3 P4) as (mv4 & Q4 & V4).
  destruct (word_entry (d := d) Hli H1 Hw Hf Hsz) as [(m' & Hr & S' & H')|(m' & Hr & _)]; fold wi fi in Hr; rewrite Q4 in Hr; injection Hr as <- ->.
  2:{ rewrite (fbind_thrown _ R4). eexists _, _. split; [reflexivity|]. right. now left. }
  rewrite (fbind_val _ R4). fold wi fi in H'. destruct (add_sim wi fi d s4) as [(s5 & R5 & M5)|(s5 & R5 & M5 & F5)]; exists s5, (match snd (f_add wi fi d s4) with o => o end); rewrite R5; (split; [reflexivity|]); right; right; cbn [snd].
  - (* the word is lost *)
    pose proof (MI_field x 1 (MI_known H1 (names_keep [SName w] Hf))) as H2. set (l2 := (l ++ [SName w]) ++ [SField x f 1]) in *.
    assert (Hfi : wid (names ((l ++ [SName w]) ++ [SName f])) f = fi) by (apply wid_keep; now apply names_keep). rewrite Hfi in H2.
    set (mvx := fst (set_size x fi 1 mv1)) in *. assert (Vx : V x (f_m s3) mvx) by (apply V_size_x; [exact V3|apply (mi_ssorted H1)]).
    assert (Hw2 : In w (names l2)) by (apply names_keep, name_new). assert (Hf2 : In f (names l2)) by (now apply names_keep, names_keep).
    pose proof (MI_known H2 Hw2) as H3. destruct (addTo_V Vx P4) as (mvx4 & Qx & Vx4).
    assert (Hwi : wid (names (l2 ++ [SName w])) w = wi) by (rewrite (wid_keep [SName w] Hw2); apply wid_keep, name_new).
    assert (Hfi2 : wid (names (l2 ++ [SName w])) f = fi) by (rewrite (wid_keep [SName w] Hf2); apply wid_keep; now apply names_keep).
    destruct (word_entry (d := x) Hli H3 Hw Hf2 (@last_size_some (l ++ [SName w]) x f 1)) as [(m'' & Hr & S'' & H'')|(m'' & Hr & _)]; rewrite Hwi, Hfi2, Qx in Hr; [injection Hr as <-|discriminate].
    rewrite Hwi, Hfi2 in H''. exists (fst (set_rev (rev_add wi fi x) mvx4)), [SName w; SField x f 1; SWord x f w].
    split; [apply (V_emptied (m := f_m s4) (wi := wi) (fi := fi)); [apply V_rev_x; [exact Vx4|rewrite (addTo_rev Qx); cbn; exact (mi_rsorted H1)]|exact M5]|].
    split; [destruct S1, S''; split; cbn in *; congruence|]. unfold l2 in H''. rewrite <- !app_assoc in H''. split; [exact H''|].
    right. right. split; [reflexivity|]. exists [], [SWord d f w]. split; [now apply told_id|]. right. right. exists d, f, w, []. now split.
  - exists (fst (set_rev (rev_add wi fi d) mv4)), [SWord d f w]. rewrite M5. split; [apply V_rev; [exact V4|exact Hd|rewrite (addTo_rev Q4); exact (mi_rsorted H1)]|].
    split; [destruct S1, S'; split; cbn in *; congruence|]. split; [exact H'|]. left. now split.
Qed.
Lemma fbind_assoc {A B C} (c : F A) (g : A -> F B) (h : B -> F C) s : fbind (fbind c g) h s = fbind c (fun a => fbind (g a) h) s.
Proof. unfold fbind. destruct (c s) as [s' [a| |e| | |]]; reflexivity. Qed.
Lemma fbind_ext {A B} (c : F A) (g h : A -> F B) s : (forall a s', g a s' = h a s') -> fbind c g s = fbind c h s.
Proof. intros H. unfold fbind. destruct (c s) as [s' [a| |e| | |]]; [apply H|reflexivity..]. Qed.
Lemma fdoes_ext c c' a s mv l : (forall s, c s = c' s) -> fdoes x c a s mv l -> fdoes x c' a s mv l.
Proof. intros H (s' & o & Hr & C). exists s', o. rewrite <- H. now split. Qed.
Lemma words_fdo d f ws : d <> x -> forall s mv l, V x (f_m s) mv -> MI mv l -> In f (names l) -> last_size l d f None <> None -> Forall usable ws ->
  fdoes x (f_words E d (wid (names l) f) ws) (map (SWord d f) ws) s mv l.
Proof.
  intros Hd. induction ws as [|w ws IH]; intros s mv l HV H Hf Hsz Hu; [now apply fdoes_nil|]. apply Forall_cons_iff in Hu as [Hw Hu].
  pose proof (word_fdoes HV H Hf Hsz Hw Hd) as D.
  refine (@fdoes_ext _ _ _ _ _ _ _ (@fdoes_seq x _ (f_words E d (wid (names l) f) ws) [SWord d f w] (map (SWord d f) ws) s mv l (@mono_words E d _ ws) D _)).
  - intros s0. cbn [f_words]. unfold one_word. rewrite fbind_assoc. apply fbind_ext. intros a s1. rewrite fbind_assoc. apply fbind_ext. intros [] s2.
    rewrite fbind_assoc. apply fbind_ext. intros [] s3. apply fbind_assoc.
  - intros s' mv' Hn HV' H'. rewrite <- (wid_keep [SWord d f w] Hf). apply IH; [exact HV'|exact H'|now apply names_keep|now apply last_size_keep|exact Hu].
Qed.
Definition one_field (d : document) (f : word) : F unit :=
  fieldID <- f_getID E f ;;
  text <- on_m (reads (fun _ => doc_getText d f)) ;;
  need_if AtSizes (fun m => match mp_find pair_lt (doc_getID d, fieldID) (mt_sizes m) with Some _ => false | None => true end) ;;;
  on_m (set_size (doc_getID d) fieldID (wl_size text)) ;;;
  f_words E (doc_getID d) fieldID text.
Lemma field_fdoes d f t s mv l : doc_getID d <> x -> V x (f_m s) mv -> MI mv l -> usable f -> Forall usable t -> doc_getText d f = Ok t ->
  fdoes x (one_field d f) (plan_field d f) s mv l.
Proof.
  intros Hx HV H Hf Ht Hd. unfold plan_field, one_field. rewrite Hd. destruct Hf as [->|Hf].
  { destruct (get_none E HV H) as (s' & [[R M]|[R B]]).
    - exists s', (Thrown EOutOfRange). rewrite (fbind_thrown _ R). split; [reflexivity|]. right. right. exists mv, []. rewrite M. split; [exact HV|]. split; [now split|]. rewrite app_nil_r. split; [exact H|].
      right. left. split; [reflexivity|]. split; [now left|reflexivity].
    - exists s', Out. rewrite (fbind_out _ R). split; [reflexivity|now left]. }
  destruct (get_step E HV H Hf) as (s1 & o1 & R1 & C1). destruct C1 as [B1|[->|(mv1 & -> & V1 & S1 & H1 & A1 & A2 & A3)]].
  { match goal with |- fdoes x (fbind _ ?k) _ _ _ _ => destruct (@fbind_bad N unit _ k s s1 o1 R1 B1) as (s' & o' & R & B); [intros a; mono|] end.
    exists s', o'. split; [exact R|now left]. }
  { exists s1, (Thrown ERuntime). rewrite (fbind_thrown _ R1). split; [reflexivity|]. right. now left. }
  unfold fdoes. rewrite (fbind_val _ R1). erewrite fbind_reads by reflexivity.
  set (fi := wid (names (l ++ [SName f])) f) in *. set (st := SField (doc_getID d) f (wl_size t)).
  assert (Hns : ~ stops [st]) by (intros [Hz|[]]; cbn in Hz; subst; now destruct Hf).
  change (SField (doc_getID d) f (N.of_nat (length t)) :: map (SWord (doc_getID d) f) t) with ([st] ++ map (SWord (doc_getID d) f) t).
  match goal with |- context [fbind (need_if AtSizes ?b) _ ?s0] => destruct (need_if_cases AtSizes b s0) as [(s2 & R2 & M2 & F2)|(s2 & R2 & M2 & F2)] end.
  2:{ rewrite (fbind_out _ R2). eexists _, _. split; [reflexivity|]. right. right. exists mv1, [SName f]. rewrite M2. split; [exact V1|]. split; [exact S1|]. split; [exact H1|].
      right. right. split; [reflexivity|]. eexists [], _. split; [reflexivity|]. right. left. now exists f. }
  rewrite (fbind_val _ R2). erewrite fbind_val by (apply on_m_ok; reflexivity). set (s3 := mkF _ (f_plan s2) (f_failed s2)).
  pose proof (MI_field (doc_getID d) (wl_size t) H1) as H2. fold fi in H2. fold st in H2.
  assert (V3 : V x (f_m s3) (fst (set_size (doc_getID d) fi (wl_size t) mv1))) by (cbn [s3 f_m]; rewrite M2; apply V_size; [exact V1|exact (mi_ssorted H1)]).
  set (mv2 := fst (set_size (doc_getID d) fi (wl_size t) mv1)) in *.
  assert (Hin : In f (names (l ++ [st]))) by (apply names_in; rewrite map_app; apply in_app_iff; right; now left).
  assert (Hnm : wid (names (l ++ [st])) f = fi) by (unfold fi; now rewrite !names_app).
  destruct (words_fdo Hx V3 H2 Hin (@last_size_some l (doc_getID d) f (wl_size t)) Ht) as (s4 & o & R4 & C4). rewrite Hnm in R4.
  exists s4, o. split; [exact R4|]. destruct C4 as [B|[->|(mv4 & y & V4 & S4 & H4 & P4)]]; [now left|right; now left|]. right. right.
  exists mv4, ([st] ++ y). split; [exact V4|]. split; [destruct S1, S4; split; cbn in *; congruence|]. rewrite app_assoc. split; [exact H4|].
  unfold part in *. rewrite (@told_all [st] _ Hns), stops_app.
  destruct P4 as [(-> & N2 & ->)|[(-> & N2 & ->)|(-> & p & r & Hp & C)]]; [left; tauto|right; left; tauto|]. right. right. split; [reflexivity|].
  exists ([st] ++ p), r. split; [now rewrite Hp, app_assoc|]. destruct C as [->|[(n & ->)|(d' & f' & w & b' & Hb & ->)]]; [now left|right; left; exists n; now rewrite app_assoc|]. right. right. exists d', f', w, b'. split; [exact Hb|]. now rewrite app_assoc.
Qed.
Lemma fields_fdo d fs : doc_getID d <> x -> forall s mv l, V x (f_m s) mv -> MI mv l -> Forall (fun f => exists t, doc_getText d f = Ok t /\ usable f /\ Forall usable t) fs ->
  fdoes x (f_fields E d fs) (flat_map (plan_field d) fs) s mv l.
Proof.
  intros Hx. induction fs as [|f fs IH]; intros s mv l HV H Hu; [now apply fdoes_nil|]. apply Forall_cons_iff in Hu as [(t & Ht & Hf & Hu1) Hu].
  pose proof (field_fdoes Hx HV H Hf Hu1 Ht) as D. cbn [flat_map].
  refine (@fdoes_ext _ _ _ _ _ _ _ (@fdoes_seq x _ (f_fields E d fs) (plan_field d f) (flat_map (plan_field d) fs) s mv l (@mono_fields E d fs) D _)).
  - intros s0. cbn [f_fields]. unfold one_field. rewrite fbind_assoc. apply fbind_ext. intros a s1. rewrite fbind_assoc. apply fbind_ext. intros b s2.
    rewrite fbind_assoc. apply fbind_ext. intros [] s3. apply fbind_assoc.
  - intros s' mv' Hn HV' H'. now apply IH.
Qed.
Lemma docs_fdo c : Forall (fun d => doc_getID d <> x) c -> forall s mv l, V x (f_m s) mv -> MI mv l -> Forall doc_ok c -> Forall (fun s => usable (said s)) (flat_map plan_doc c) ->
  fdoes x (f_index E c) (flat_map plan_doc c) s mv l.
Proof.
  induction c as [|d c IH]; intros Hx s mv l HV H Hd Hu; [now apply fdoes_nil|]. apply Forall_cons_iff in Hd as [Hd1 Hd]. apply Forall_cons_iff in Hx as [Hx1 Hx]. cbn [flat_map] in *.
  apply Forall_app in Hu as [Hu1 Hu]. cbn [f_index].
  assert (G : fdoes x (need AtLocal ;;; f_fields E d (fst (doc_getFieldNames d []))) (plan_doc d) s mv l).
  { unfold fdoes. destruct (need_cases AtLocal s) as [(s1 & R1 & M1 & _)|(s1 & R1 & M1 & _)].
    - rewrite (fbind_val _ R1). rewrite <- M1 in HV. apply fields_fdo; [exact Hx1|exact HV|exact H|]. rewrite Forall_forall. intros f Hf.
      assert (Ht : exists t, doc_getText d f = Ok t).
      { cbn in Hf. destruct Hd1 as (id & calls & ->). unfold doc_getText. destruct (mp_find wltb f (d_texts (add_texts id calls))) as [t|] eqn:Hz; [now exists t|].
        exfalso. apply (find_none wltb_order) in Hz; [now apply Hz|]. destruct (texts_build id calls) as [_ ->]. apply build_sorted. }
      destruct Ht as [t Ht]. exists t. split; [exact Ht|]. rewrite Forall_forall in Hu1.
      assert (G : forall s, In s (plan_field d f) -> usable (said s)).
      { intros s0 Hs. apply Hu1. unfold plan_doc. apply in_flat_map. exists f. split; [exact Hf|exact Hs]. }
      unfold plan_field in G. rewrite Ht in G. split; [apply (G (SField (doc_getID d) f (N.of_nat (length t)))); now left|].
      rewrite Forall_forall. intros w Hw. apply (G (SWord (doc_getID d) f w)). right. now apply in_map.
    - rewrite (fbind_out _ R1). eexists _, _. split; [reflexivity|]. right. right. exists mv, []. rewrite M1. split; [exact HV|]. split; [now split|]. rewrite app_nil_r. split; [exact H|].
      right. right. split; [reflexivity|]. eexists [], _. split; [reflexivity|]. now left. }
  refine (@fdoes_ext _ _ _ _ _ _ _ (@fdoes_seq x _ (f_index E c) (plan_doc d) (flat_map plan_doc c) s mv l (@mono_index E c) G _)).
  - intros s0. apply fbind_assoc.
  - intros s' mv' Hn HV' H'. now apply IH.
Qed.
End Index.
