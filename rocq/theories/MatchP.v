(** Matcher: the invariant tying the indexes to what was told, and indexing. *)
From Verif Require Import Base TrieM TrieA TrieP TrieP2 TrieD WordStoreM Spec_Hist TrieH WordStoreP ErrorValuesM LevIndexM
  Spec_Edit Spec_EV Spec_Lev EVP LevP WordM MapM DoubleM ContM MatcherM MapP Spec_Cont ContP Spec_Match.
From Coq Require Import ZifyBool ZifyN ZifyNat.
Local Open Scope N_scope.
Local Open Scope m_scope.

(** ** Numbers of words *)
Definition wid (ws : list word) (w : word) : N := match position w ws with Some i => N.of_nat i | None => 0 end.
Definition names (l : list step) : list word := distinct [] (map said l).

Lemma distinct_app2 a : forall seen b, distinct seen (a ++ b) = distinct (distinct seen a) b.
Proof. induction a as [|w a IH]; intros seen b; cbn; [reflexivity|]. destruct (position w seen); apply IH. Qed.
Lemma names_app a b : names (a ++ b) = distinct (names a) (map said b).
Proof. unfold names. rewrite map_app. apply distinct_app2. Qed.
Lemma names_in l w : In w (names l) <-> In w (map said l).
Proof. unfold names. rewrite distinct_in. cbn. tauto. Qed.
Lemma distinct_nodup r : forall seen, NoDup seen -> NoDup (distinct seen r).
Proof.
  induction r as [|w r IH]; intros seen H; cbn; [exact H|]. destruct (position w seen) eqn:Hp; [now apply IH|].
  apply IH. apply position_none in Hp. apply (Permutation_NoDup (Permutation_cons_append seen w)). now constructor.
Qed.
Lemma names_nodup l : NoDup (names l).
Proof. apply distinct_nodup. constructor. Qed.
Lemma position_in w ws : In w ws -> exists i, position w ws = Some i.
Proof. intros H. destruct (position w ws) as [i|] eqn:Hp; [now exists i|]. now apply position_none in Hp. Qed.
Lemma wid_nth ws w : In w ws -> nth_error ws (N.to_nat (wid ws w)) = Some w.
Proof. intros H. destruct (position_in H) as [i Hi]. unfold wid. rewrite Hi, Nat2N.id. now apply position_some. Qed.
Lemma wid_inj ws a b : In a ws -> In b ws -> wid ws a = wid ws b -> a = b.
Proof. intros Ha Hb H. apply wid_nth in Ha, Hb. rewrite H in Ha. congruence. Qed.
Lemma wid_lt ws w : In w ws -> wid ws w < N.of_nat (length ws).
Proof. intros H. apply wid_nth in H. assert (N.to_nat (wid ws w) < length ws)%nat by (apply nth_error_Some; congruence). lia. Qed.
Lemma wid_app ws x w : In w ws -> wid (ws ++ x) w = wid ws w.
Proof. intros H. destruct (position_in H) as [i Hi]. unfold wid. now rewrite (position_app x Hi), Hi. Qed.
Lemma wid_ext ws r w : In w ws -> wid (distinct ws r) w = wid ws w.
Proof. intros H. destruct (distinct_app r ws) as [x ->]. now apply wid_app. Qed.
Lemma in_ext ws r w : In w ws -> In w (distinct ws r).
Proof. intros H. apply distinct_in. now left. Qed.

(** ** What the log says *)
Lemma occs_app a b : occs (a ++ b) = occs a ++ occs b.
Proof. unfold occs. now rewrite flat_map_app. Qed.
Lemma occs_in l d f w : In (d, f, w) (occs l) <-> In (SWord d f w) l.
Proof.
  unfold occs. rewrite in_flat_map. split.
  - intros (s & Hs & H). destruct s; cbn in H; try tauto. destruct H as [H|[]]. now injection H as -> -> ->.
  - intros H. exists (SWord d f w). split; [exact H|now left].
Qed.
Lemma fw_app a b f : field_words (a ++ b) f = field_words a f ++ field_words b f.
Proof. unfold field_words. now rewrite filter_app, map_app. Qed.
Lemma fw_in o f w : In w (field_words o f) <-> exists d, In (d, f, w) o.
Proof.
  unfold field_words. rewrite in_map_iff. split.
  - intros ([[d f'] w'] & Hw & H). apply filter_In in H as [H Hf]. cbn in *. destruct (weqb_spec f' f); [|discriminate]. subst. now exists d.
  - intros [d H]. exists (d, f, w). split; [reflexivity|]. apply filter_In. split; [exact H|]. apply weqb_refl.
Qed.
Lemma last_size_app a : forall b d f acc, last_size (a ++ b) d f acc = last_size b d f (last_size a d f acc).
Proof. induction a as [|s a IH]; intros b d f acc; [reflexivity|]. destruct s; cbn; apply IH. Qed.

(** ** Invariant *)
Definition ops (ws : list word) (o : list (N * word * word)) (f : word) : list (word * N) :=
  map (fun w => (w, wid ws w)) (field_words o f).
Record MI (m : matcher) (l : list step) : Prop := {
  mi_store : exists es ids, WS (mt_store m) es ids (names l);
  mi_ins : Forall insertable (map said l);
  mi_fields : forall d f w, In (SWord d f w) l -> In f (names l);
  mi_sized : forall d f w, In (SWord d f w) l -> last_size l d f None <> None;
  mi_isorted : msorted N.ltb (mt_idx m);
  mi_idx : forall k li, mp_find N.ltb k (mt_idx m) = Some li ->
     exists f es ids d, In f (names l) /\ k = wid (names l) f /\ field_words (occs l) f <> [] /\ LV li es ids d (ops (names l) (occs l) f);
  mi_has : forall f, field_words (occs l) f <> [] -> exists li, mp_find N.ltb (wid (names l) f) (mt_idx m) = Some li;
  mi_rsorted : msorted pair_lt (mt_rev m) /\ forall k s, mp_find pair_lt k (mt_rev m) = Some s -> msorted N.ltb s;
  mi_rev : forall wi fi d, documentHasTerm (mt_rev m) wi fi d = true <->
     exists f w, In (d, f, w) (occs l) /\ fi = wid (names l) f /\ wi = wid (names l) w;
  mi_ssorted : msorted pair_lt (mt_sizes m);
  mi_sizes : forall d f, In f (names l) -> mp_find pair_lt (d, wid (names l) f) (mt_sizes m) = last_size l d f None;
  mi_skeys : forall d k n, mp_find pair_lt (d, k) (mt_sizes m) = Some n -> k < N.of_nat (length (names l))
}.
Definition same_conf (m m' : matcher) : Prop := mt_ev m' = mt_ev m /\ mt_w m' = mt_w m.
Lemma same_trans a b c : same_conf a b -> same_conf b c -> same_conf a c.
Proof. intros [H1 H2] [H3 H4]. split; congruence. Qed.

Lemma occ_names m l d f w : MI m l -> In (d, f, w) (occs l) -> In f (names l) /\ In w (names l).
Proof.
  intros H Hin. apply occs_in in Hin. split; [now apply (mi_fields H Hin)|]. apply names_in. apply in_map_iff. now exists (SWord d f w).
Qed.
Lemma fw_names m l f w : MI m l -> In w (field_words (occs l) f) -> In w (names l).
Proof. intros H Hin. apply fw_in in Hin as [d Hin]. apply (occ_names H Hin). Qed.

(** ops do not depend on later names. *)
Lemma ops_ext ws r o f : (forall w, In w (field_words o f) -> In w ws) -> ops (distinct ws r) o f = ops ws o f.
Proof. intros H. unfold ops. apply map_ext_in. intros w Hw. now rewrite wid_ext by now apply H. Qed.

(** ** Storage *)
(** The system refused a size that [n] letters may ask for. *)
Definition refused (E : env) (n : N) : Prop := exists sz, 1024 < sz /\ sz <= 72 + 64 * n /\ grow_ok E (u32 sz) = false.
Definition asked (l : list step) : N := N.max (word_letters (names l)) (word_letters (map snd (occs l))).
Lemma refused_mono E a b : a <= b -> refused E a -> refused E b.
Proof. intros H (sz & H1 & H2 & H3). exists sz. split; [exact H1|]. split; [lia|exact H3]. Qed.
Lemma letters_cons w ws : word_letters (w :: ws) = N.of_nat (length w) + word_letters ws.
Proof. reflexivity. Qed.
Lemma asked_mono a b : asked a <= asked (a ++ b).
Proof.
  unfold asked. rewrite names_app, occs_app, map_app, word_letters_app. destruct (distinct_app (map said b) (names a)) as [x ->]. rewrite word_letters_app. lia.
Qed.
Lemma fw_letters o f : word_letters (field_words o f) <= word_letters (map snd o).
Proof.
  unfold field_words. induction o as [|x o IH]; [reflexivity|]. cbn [filter map]. destruct (weqb _ f); cbn [map]; rewrite ?letters_cons; lia.
Qed.
(** ** The word store *)
Lemma store_step E s es ids ws w : WS s es ids ws -> insertable w ->
  (exists s' es' ids', ws_getID E w s = (s', Ok (wid (distinct ws [w]) w)) /\ WS s' es' ids' (distinct ws [w]))
  \/ (exists s', ws_getID E w s = (s', Throw ERuntime) /\ refused E (word_letters (distinct ws [w]))).
Proof.
  intros H Hw. cbn [distinct]. destruct (position w ws) as [i|] eqn:Hp.
  - left. exists s, es, ids. split; [|exact H]. unfold wid. rewrite Hp. apply (WS_getID_old E H); [apply Hw|exact Hp].
  - destruct (WS_getID_new E H Hw Hp) as [(s' & es' & ids' & x & He & _ & H')|(s' & He & _ & Hz)]; [left|right; exists s'; split; [exact He|exact Hz]].
    exists s', es', ids'. split; [|exact H']. rewrite He. unfold wid.
    rewrite (@position_nth w (ws ++ [w]) (length ws) (WS_nodup H')); [reflexivity|]. rewrite nth_error_app2, Nat.sub_diag by lia. reflexivity.
Qed.
Lemma store_empty E s es ids ws : WS s es ids ws -> ~ In [] ws -> ws_getID E [] s = (s, Throw EOutOfRange).
Proof.
  intros H Hn. assert (Hp : position [] ws = None) by now apply position_none.
  unfold ws_getID. erewrite mbind_ok by (apply reads_ok; pose proof (WS_hasWord H (Forall_nil _)) as Hx; rewrite Hp in Hx; exact Hx).
  cbn iota. erewrite mbind_ok by (apply reads_ok; reflexivity). erewrite mbind_throw by reflexivity.
  now destruct s.
Qed.
Lemma names_nonempty m l : MI m l -> ~ In [] (names l).
Proof. intros H Hin. apply names_in in Hin. pose proof (mi_ins H) as Hi. rewrite Forall_forall in Hi. apply Hi in Hin as [Hx _]. now apply Hx. Qed.

(** ** A total insertion step *)
Lemma lev_total E s es ids d ops w id : LV s es ids d ops -> insertable w -> id <> INVALID_WORDID -> (forall i, In (w, i) ops -> i = id) ->
  exists s' o, li_insertWord E w id s = (s', o) /\ ((o = Throw ERuntime /\ refused E (word_letters (map fst ops ++ [w]))) \/ (o = Ok tt /\ exists es' ids' d', LV s' es' ids' d' (ops ++ [(w, id)]))).
Proof.
  intros L Hw Hid Hc. destruct (li_insertWord E w id s) as [s' o] eqn:Hr. exists s', o. split; [reflexivity|].
  assert (Ho : (o = Throw ERuntime /\ refused E (word_letters (map fst ops ++ [w]))) \/ o = Ok tt).
  { destruct (lv_hist L) as [offs H]. unfold li_insertWord in Hr.
    destruct (Nat.eqb_spec (length w) 0) as [Hl|Hl]; [right; unfold ret in Hr; congruence|].
    unfold mbind, reads, on_li_trie in Hr.
    destruct (hist_step E H (w := w) (id := id) Hw Hid)
      as [(t1 & off & es1 & ids1 & d1 & x & He & Hx & H1)|[(t1 & He & _ & Hz)|(t1 & He & _ & i & Hin & Hne)]]; rewrite He in Hr.
    - right. congruence.
    - left. split; [congruence|]. apply (refused_mono (a := Spec_Hist.letters_of (real ops ++ [(w, id)]))); [|exact Hz]. rewrite word_letters_app.
      clear. induction ops as [|[v i] r IH]; [reflexivity|]. unfold real in *. cbn [filter map fst]. rewrite letters_cons.
      destruct (nonempty v); [|lia]. change (Spec_Hist.letters_of _) with (N.of_nat (length v) + Spec_Hist.letters_of (filter (fun op => nonempty (fst op)) r ++ [(w, id)])). lia.
    - exfalso. apply Hne, Hc. apply filter_In in Hin as [Hin _]. exact Hin. }
  destruct Ho as [[-> Hz]| ->]; [left; now split|]. right. split; [reflexivity|]. apply (@lev_step E s es ids d ops w id s' L); auto.
Qed.

(** ** Telling a matcher things *)
Definition stops (l : list step) : Prop := In [] (map said l).
Lemma told_stop a b : stops a -> told (a ++ b) = told a.
Proof. induction a as [|s a IH]; intros H; [destruct H|]. cbn. destruct (said s) eqn:Hs; [reflexivity|]. f_equal. apply IH. destruct H as [H|H]; [cbn in H; congruence|exact H]. Qed.
Lemma told_all a b : ~ stops a -> told (a ++ b) = a ++ told b.
Proof.
  induction a as [|s a IH]; intros H; [reflexivity|]. cbn. destruct (said s) eqn:Hs; [exfalso; apply H; left; exact Hs|].
  f_equal. apply IH. intros Hx. apply H. now right.
Qed.
Lemma told_id a : ~ stops a -> told a = a.
Proof. intros H. rewrite <- (app_nil_r a) at 1. rewrite told_all by exact H. apply app_nil_r. Qed.
Lemma stops_app a b : stops (a ++ b) <-> stops a \/ stops b.
Proof. unfold stops. rewrite map_app, in_app_iff. tauto. Qed.

Definition does (E : env) (x : M matcher unit) (steps : list step) (m : matcher) (l : list step) : Prop :=
  exists m' o, x m = (m', o) /\ ((o = Throw ERuntime /\ refused E (asked (l ++ steps))) \/ (same_conf m m' /\ MI m' (l ++ told steps) /\
    ((o = Ok tt /\ ~ stops steps) \/ (o = Throw EOutOfRange /\ stops steps)))).
Lemma does_seq E x y a b m l : does E x a m l -> (forall m', ~ stops a -> MI m' (l ++ a) -> does E y b m' (l ++ a)) -> does E (x ;;; y) (a ++ b) m l.
Proof.
  intros (m1 & o1 & H1 & C1) Hy. destruct C1 as [[-> Z1]|(S1 & I1 & [[-> N1]|[-> N1]])].
  - exists m1, (Throw ERuntime). split; [unfold mbind; now rewrite H1|]. left. split; [reflexivity|]. rewrite app_assoc. exact (refused_mono (@asked_mono _ _) Z1).
  - rewrite (told_id N1) in I1. destruct (Hy m1 N1 I1) as (m2 & o2 & H2 & C2). exists m2, o2. split; [unfold mbind; now rewrite H1|].
    destruct C2 as [[-> Z2]|(S2 & I2 & C2)]; [left; rewrite app_assoc; now split|]. right. split; [exact (same_trans S1 S2)|]. rewrite (told_all b N1), app_assoc.
    split; [exact I2|]. rewrite stops_app. tauto.
  - exists m1, (Throw EOutOfRange). split; [unfold mbind; now rewrite H1|]. right. rewrite (told_stop b N1), stops_app. tauto.
Qed.
Lemma does_nil E m l : MI m l -> does E (ret tt) [] m l.
Proof. intros H. exists m, (Ok tt). split; [reflexivity|]. right. split; [now split|]. cbn. rewrite app_nil_r. split; [exact H|]. left. split; [reflexivity|]. intros []. Qed.

(** Remembering a name. *)
Lemma MI_name m l w s' : MI m l -> insertable w -> (exists es ids, WS s' es ids (distinct (names l) [w])) ->
  MI (mkMt (mt_idx m) (mt_rev m) (mt_ev m) (mt_w m) (mt_stats m) s' (mt_sizes m)) (l ++ [SName w]).
Proof.
  intros H Hw Hs. assert (Ho : occs (l ++ [SName w]) = occs l) by (rewrite occs_app; apply app_nil_r).
  assert (Hn : names (l ++ [SName w]) = distinct (names l) [w]) by apply names_app.
  pose proof H as [S I F Z A1 A2 A3 B1 B2 D1 D2 D3].
  constructor; cbn [mt_idx mt_rev mt_sizes mt_store]; rewrite ?Ho, ?Hn.
  - exact Hs.
  - rewrite map_app. apply Forall_app. split; [exact I|]. now constructor.
  - intros d f v Hin. apply in_app_iff in Hin as [Hin|[Hin|[]]]; [|discriminate]. apply in_ext. now apply (F d f v).
  - intros d f v Hin. rewrite last_size_app. apply in_app_iff in Hin as [Hin|[Hin|[]]]; [|discriminate]. now apply (Z d f v).
  - exact A1.
  - intros k li Hf. destruct (A2 k li Hf) as (f & es & ids & d & Hin & Hk & Hne & L). exists f, es, ids, d.
    split; [now apply in_ext|]. split; [now rewrite wid_ext|]. split; [exact Hne|]. rewrite ops_ext; [exact L|]. intros v Hv. exact (fw_names H Hv).
  - intros f Hne. destruct (A3 f Hne) as [li Hli]. exists li. rewrite wid_ext; [exact Hli|].
    destruct (field_words (occs l) f) as [|v r] eqn:Hf; [congruence|]. assert (Hv : In v (field_words (occs l) f)) by (rewrite Hf; now left).
    apply fw_in in Hv as [d Hv]. apply (occ_names H Hv).
  - exact B1.
  - intros wi fi d. rewrite B2. split; intros (f & v & Hin & -> & ->); exists f, v; destruct (occ_names H Hin); rewrite ?wid_ext by assumption; auto.
  - exact D1.
  - intros d f Hin. rewrite last_size_app. cbn [last_size]. apply distinct_in in Hin as [Hin|[<-|[]]].
    + rewrite wid_ext by exact Hin. now apply D2.
    + destruct (in_dec (list_eq_dec N.eq_dec) w (names l)) as [Hin|Hnin]; [rewrite wid_ext by exact Hin; now apply D2|].
      (* a new name: no size recorded *)
      assert (Hl : forall l acc, ~ In w (map said l) -> (forall d f v, In (SWord d f v) l -> True) -> last_size l d w acc = acc).
      { clear. induction l as [|s l IH]; intros acc Hn Hx; [reflexivity|]. cbn in Hn. destruct s as [d' f' n|d' f' v|v]; cbn.
        - destruct (weqb_spec f' w) as [->|Hne]; [exfalso; apply Hn; now left|]. rewrite Bool.andb_false_r. apply IH; [tauto|trivial].
        - apply IH; [tauto|trivial].
        - apply IH; [tauto|trivial]. }
      rewrite Hl; [|now rewrite <- names_in|trivial].
      assert (Hw' : wid (distinct (names l) [w]) w = N.of_nat (length (names l))).
      { cbn. rewrite (proj2 (position_none w (names l)) Hnin). unfold wid.
        rewrite (@position_nth w (names l ++ [w]) (length (names l))); [reflexivity| |rewrite nth_error_app2, Nat.sub_diag by lia; reflexivity].
        apply (Permutation_NoDup (Permutation_cons_append _ _)). constructor; [exact Hnin|apply names_nodup]. }
      rewrite Hw'. destruct (mp_find pair_lt _ _) as [n|] eqn:Hf; [|reflexivity]. apply D3 in Hf. lia.
  - intros d k n Hf. apply D3 in Hf. destruct (distinct_app [w] (names l)) as [x ->]. rewrite app_length. lia.
Qed.

(** Getting the number of a word. *)
Lemma name_step E m l w : MI m l -> insertable w ->
  (exists m', on_store (ws_getID E w) m = (m', Ok (wid (names (l ++ [SName w])) w)) /\ same_conf m m' /\ MI m' (l ++ [SName w])
     /\ mt_idx m' = mt_idx m /\ mt_rev m' = mt_rev m /\ mt_sizes m' = mt_sizes m)
  \/ (exists m', on_store (ws_getID E w) m = (m', Throw ERuntime) /\ refused E (asked (l ++ [SName w]))).
Proof.
  intros H Hw. destruct (mi_store H) as (es & ids & S). unfold on_store.
  destruct (store_step E S Hw) as [(s' & es' & ids' & -> & S')|(s' & -> & Hz)]; [left|right; eexists; split; [reflexivity|]; refine (refused_mono _ Hz); unfold asked; rewrite names_app; cbn [map said]; lia].
  eexists. rewrite names_app. split; [reflexivity|]. split; [now split|]. split; [|now split]. apply MI_name; [exact H|exact Hw|]. now exists es', ids'.
Qed.
Lemma name_empty E m l : MI m l -> on_store (ws_getID E []) m = (m, Throw EOutOfRange).
Proof.
  intros H. destruct (mi_store H) as (es & ids & S). unfold on_store. rewrite (store_empty E S (names_nonempty H)). now destruct m.
Qed.
Lemma MI_stats m l st : MI m l -> MI (mkMt (mt_idx m) (mt_rev m) (mt_ev m) (mt_w m) st (mt_store m) (mt_sizes m)) l.
Proof. intros [S I F Z A1 A2 A3 B1 B2 D1 D2 D3]. constructor; assumption. Qed.
Lemma MI_conf m l e w : MI m l -> MI (mkMt (mt_idx m) (mt_rev m) e w (mt_stats m) (mt_store m) (mt_sizes m)) l.
Proof. intros [S I F Z A1 A2 A3 B1 B2 D1 D2 D3]. constructor; assumption. Qed.

(** Noting the length of a text. *)
Lemma MI_field m l d f n : MI m (l ++ [SName f]) ->
  MI (fst (set_size d (wid (names (l ++ [SName f])) f) n m)) (l ++ [SField d f n]).
Proof.
  intros H. assert (Hn : names (l ++ [SField d f n]) = names (l ++ [SName f])) by now rewrite !names_app.
  assert (Ho : occs (l ++ [SField d f n]) = occs (l ++ [SName f])) by now rewrite !occs_app.
  assert (Hf : In f (names (l ++ [SName f]))) by (apply names_in; rewrite map_app; apply in_app_iff; right; now left).
  pose proof H as [S I F Z A1 A2 A3 B1 B2 D1 D2 D3].
  constructor; cbn [set_size fst mt_idx mt_rev mt_sizes mt_store]; rewrite ?Ho, ?Hn; auto.
  - rewrite map_app in *. exact I.
  - intros d' f' v Hin. apply (F d' f' v). apply in_app_iff in Hin as [Hin|[Hin|[]]]; [|discriminate]. apply in_app_iff. now left.
  - intros d' f' v Hin. apply in_app_iff in Hin as [Hin|[Hin|[]]]; [|discriminate].
    specialize (Z d' f' v). rewrite last_size_app in *. cbn [last_size] in *. destruct ((d =? d') && weqb f f'); [discriminate|].
    apply Z. apply in_app_iff. now left.
  - apply (set_sorted pair_order), D1.
  - intros d' f' Hin. specialize (D2 d' f' Hin). rewrite last_size_app in *. cbn [last_size] in *.
    destruct (N.eqb_spec d d') as [<-|Hd]; [destruct (weqb_spec f f') as [<-|Hff]|]; cbn [andb].
    + apply (find_set_same pair_order), D1.
    + rewrite (find_set_other pair_order); [exact D2|exact D1|]. intros [= Hw]. apply wid_inj in Hw; auto.
    + rewrite (find_set_other pair_order); [exact D2|exact D1|]. intros [= Hw]. congruence.
  - intros d' k n' Hfind. assert (Hc : (d', k) = (d, wid (names (l ++ [SName f])) f) \/ (d', k) <> (d, wid (names (l ++ [SName f])) f)).
    { destruct (N.eq_dec d' d), (N.eq_dec k (wid (names (l ++ [SName f])) f)); [left|right|right|right]; congruence. }
    destruct Hc as [[= -> ->]|Hc]; [now apply wid_lt|]. rewrite (find_set_other pair_order) in Hfind; [now apply D3 in Hfind|exact D1|exact Hc].
Qed.

(** Documents of the reverse index. *)
Lemma rev_add_spec (r : list ((N * N) * docset)) wi fi d wi' fi' d' : msorted pair_lt r -> (forall k s, mp_find pair_lt k r = Some s -> msorted N.ltb s) ->
  documentHasTerm (rev_add wi fi d r) wi' fi' d' = true <-> (wi' = wi /\ fi' = fi /\ d' = d) \/ documentHasTerm r wi' fi' d' = true.
Proof.
  intros Hs Hk. unfold documentHasTerm, rev_add.
  assert (Hc : (fi', wi') = (fi, wi) \/ (fi', wi') <> (fi, wi)).
  { destruct (N.eq_dec fi' fi), (N.eq_dec wi' wi); [left|right|right|right]; congruence. }
  destruct Hc as [[= -> ->]|Hc].
  - destruct (mp_find pair_lt (fi, wi) r) as [s|] eqn:Hf; rewrite (find_set_same pair_order) by exact Hs.
    + apply Hk in Hf. destruct (N.eq_dec d' d) as [->|Hd].
      * rewrite (find_set_same nltb_order) by exact Hf. tauto.
      * rewrite (find_set_other nltb_order) by assumption. destruct (mp_find N.ltb d' s); intuition (try discriminate; try congruence).
    + cbn. destruct (N.ltb_spec d' d); [|destruct (N.ltb_spec d d')]; intuition (try discriminate; try lia).
  - destruct (mp_find pair_lt (fi, wi) r) as [s|] eqn:Hf; rewrite (find_set_other pair_order) by assumption; intuition congruence.
Qed.
Lemma rev_add_sorted (r : list ((N * N) * docset)) wi fi d : msorted pair_lt r /\ (forall k s, mp_find pair_lt k r = Some s -> msorted N.ltb s) ->
  msorted pair_lt (rev_add wi fi d r) /\ (forall k s, mp_find pair_lt k (rev_add wi fi d r) = Some s -> msorted N.ltb s).
Proof.
  intros [Hs Hk]. unfold rev_add.
  assert (G : forall s, msorted N.ltb s -> msorted pair_lt (mp_set pair_lt (fi, wi) s r) /\
     (forall k s', mp_find pair_lt k (mp_set pair_lt (fi, wi) s r) = Some s' -> msorted N.ltb s')).
  { intros s Hss. split; [now apply (set_sorted pair_order)|]. intros [k1 k2] s' Hf.
    assert (Hc : (k1, k2) = (fi, wi) \/ (k1, k2) <> (fi, wi)).
    { destruct (N.eq_dec k1 fi), (N.eq_dec k2 wi); [left|right|right|right]; congruence. }
    destruct Hc as [Hc|Hc]; [rewrite Hc, (find_set_same pair_order) in Hf by exact Hs; congruence|].
    rewrite (find_set_other pair_order) in Hf by assumption. now apply Hk in Hf. }
  destruct (mp_find pair_lt (fi, wi) r) as [s|] eqn:Hf; apply G; apply (set_sorted nltb_order); [now apply Hk in Hf|constructor].
Qed.

(** A word of a field: from its name to its entries. *)
Lemma in_ops ws o f w i : In (w, i) (ops ws o f) <-> In w (field_words o f) /\ i = wid ws w.
Proof.
  unfold ops. rewrite in_map_iff. split; [intros (v & [= -> <-] & H); now split|intros [H ->]; now exists w].
Qed.
Lemma word_entry E li0 m l d f w : li_new E = Ok li0 -> MI m (l ++ [SName w]) -> insertable w -> In f (names l) -> last_size l d f None <> None ->
  (exists m', addToIndex E w (wid (names (l ++ [SName w])) w) (wid (names (l ++ [SName w])) f) m = (m', Ok tt) /\
     same_conf m m' /\ MI (fst (set_rev (rev_add (wid (names (l ++ [SName w])) w) (wid (names (l ++ [SName w])) f) d) m')) (l ++ [SWord d f w]))
  \/ (exists m', addToIndex E w (wid (names (l ++ [SName w])) w) (wid (names (l ++ [SName w])) f) m = (m', Throw ERuntime) /\ refused E (asked (l ++ [SWord d f w]))).
Proof.
  intros Hli H Hw Hf Hsz. set (ws := names (l ++ [SName w])) in *.
  assert (Hn : names (l ++ [SWord d f w]) = ws) by (unfold ws; now rewrite !names_app).
  assert (Ho : occs (l ++ [SName w]) = occs l) by (rewrite occs_app; apply app_nil_r).
  assert (Hf' : In f ws) by (unfold ws; rewrite names_app; now apply in_ext).
  assert (Hw' : In w ws) by (unfold ws; apply names_in; rewrite map_app; apply in_app_iff; right; now left).
  pose proof H as [S I F Z A1 A2 A3 B1 B2 D1 D2 D3]. fold ws in S, F, A2, A3, B2, D2, D3. rewrite Ho in *.
  assert (Hid : wid ws w <> INVALID_WORDID).
  { destruct S as (es & ids & S). pose proof (wid_lt Hw'). pose proof (WS_small S). unfold INVALID_WORDID. lia. }
  (* the index of the field *)
  assert (Hix : exists li es ids dd, LV li es ids dd (ops ws (occs l) f) /\
     addToIndex E w (wid ws w) (wid ws f) m = (let (li', o) := li_insertWord E w (wid ws w) li in (set_idx (wid ws f) li' m, o))).
  { unfold addToIndex. destruct (mp_find N.ltb (wid ws f) (mt_idx m)) as [li|] eqn:Hfi.
    - destruct (A2 _ _ Hfi) as (f' & es & ids & dd & Hin & Hk & Hne & L). apply wid_inj in Hk; auto. subst f'.
      exists li, es, ids, dd. split; [exact L|reflexivity].
    - assert (He : field_words (occs l) f = []).
      { destruct (field_words (occs l) f) eqn:Hfw; [reflexivity|]. destruct (A3 f) as [li Hl]; [congruence|]. congruence. }
      exists li0, [], [INVALID_WORDID], []. rewrite Hli. unfold ops. rewrite He. split; [now apply (lev_new Hli)|reflexivity]. }
  destruct Hix as (li & es & ids & dd & L & ->).
  destruct (lev_total E (w := w) (id := wid ws w) L Hw Hid) as (li' & o & -> & [[-> Hz]|[-> (es' & ids' & dd' & L')]]).
  { intros i Hin. now apply in_ops in Hin. }
  { right. eexists. split; [reflexivity|]. refine (refused_mono _ Hz). unfold ops. rewrite map_map, word_letters_app. cbn [fst]. rewrite map_id.
    unfold asked. rewrite occs_app, map_app, word_letters_app. change (map snd (occs [SWord d f w])) with [w]. pose proof (@fw_letters (occs l) f). lia. }
  left. eexists. split; [reflexivity|]. split; [now split|].
  assert (Ho' : occs (l ++ [SWord d f w]) = occs l ++ [(d, f, w)]) by now rewrite occs_app.
  assert (Hfw : forall f', field_words (occs l ++ [(d, f, w)]) f' = if weqb f f' then field_words (occs l) f' ++ [w] else field_words (occs l) f').
  { intros f'. rewrite fw_app. unfold field_words at 2. cbn. destruct (weqb f f'); [reflexivity|apply app_nil_r]. }
  constructor; cbn [set_rev set_idx fst mt_idx mt_rev mt_sizes mt_store]; rewrite ?Ho', ?Hn; auto.
  - rewrite map_app in *. exact I.
  - intros d' f' v Hin. apply in_app_iff in Hin as [Hin|[[= -> -> ->]|[]]]; [|exact Hf']. apply (F d' f' v). apply in_app_iff. now left.
  - intros d' f' v Hin. rewrite last_size_app. cbn [last_size]. apply in_app_iff in Hin as [Hin|[[= -> -> ->]|[]]]; [|exact Hsz].
    specialize (Z d' f' v). rewrite last_size_app in Z. apply Z. apply in_app_iff. now left.
  - now apply (set_sorted nltb_order).
  - intros k lk Hk. destruct (N.eq_dec k (wid ws f)) as [->|Hkne].
    + rewrite (find_set_same nltb_order) in Hk by exact A1. injection Hk as <-.
      exists f, es', ids', dd'. split; [exact Hf'|]. split; [reflexivity|]. rewrite Hfw, weqb_refl. split; [now destruct (field_words (occs l) f)|].
      unfold ops. rewrite Hfw, weqb_refl, map_app. exact L'.
    + rewrite (find_set_other nltb_order) in Hk by assumption. destruct (A2 _ _ Hk) as (f' & es1 & ids1 & dd1 & Hin & -> & Hne & L1).
      exists f', es1, ids1, dd1. split; [exact Hin|]. split; [reflexivity|]. unfold ops. rewrite Hfw.
      destruct (weqb_spec f f') as [->|_]; [congruence|]. split; [exact Hne|exact L1].
  - intros f' Hne. rewrite Hfw in Hne. destruct (N.eq_dec (wid ws f') (wid ws f)) as [->|Hkne].
    + exists li'. now apply (find_set_same nltb_order).
    + destruct (weqb_spec f f') as [->|_]; [congruence|]. destruct (A3 f' Hne) as [lk Hk]. exists lk. now rewrite (find_set_other nltb_order).
  - now apply rev_add_sorted.
  - intros wi fi d'. rewrite rev_add_spec by apply B1. rewrite B2. split.
    + intros [(-> & -> & ->)|(f' & v & Hin & -> & ->)]; [exists f, w|exists f', v]; rewrite in_app_iff; cbn; auto.
    + intros (f' & v & Hin & -> & ->). apply in_app_iff in Hin as [Hin|[[= <- <- <-]|[]]]; [right; now exists f', v|now left].
  - intros d' f' Hin. specialize (D2 d' f' Hin). rewrite last_size_app in *. exact D2.
Qed.

(** ** Indexing *)
Lemma last_size_some l d f n : last_size (l ++ [SField d f n]) d f None <> None.
Proof. rewrite last_size_app. cbn. rewrite N.eqb_refl, weqb_refl. discriminate. Qed.
Lemma last_size_keep l l' d f : last_size l d f None <> None -> last_size (l ++ l') d f None <> None.
Proof.
  intros H. rewrite last_size_app. revert H. generalize (last_size l d f None). induction l' as [|s l' IH]; intros o H; [exact H|].
  destruct s; cbn; try (now apply IH). apply IH. destruct (_ && _); [discriminate|exact H].
Qed.
Lemma wid_keep l l' f : In f (names l) -> wid (names (l ++ l')) f = wid (names l) f.
Proof. intros H. rewrite names_app. now apply wid_ext. Qed.
Lemma names_keep l l' f : In f (names l) -> In f (names (l ++ l')).
Proof. intros H. rewrite names_app. now apply in_ext. Qed.

Section Index.
Variables (E : env) (li0 : levindex).
Hypothesis Hli : li_new E = Ok li0.

Lemma word_does d f w m l : MI m l -> In f (names l) -> last_size l d f None <> None -> usable w ->
  does E (wordID <- on_store (ws_getID E w) ;; set_stats (st_wordProcessed wordID) ;;;
        addToIndex E w wordID (wid (names l) f) ;;; set_rev (rev_add wordID (wid (names l) f) d)) [SWord d f w] m l.
Proof.
  intros H Hf Hsz [->|Hw].
  - exists m, (Throw EOutOfRange). split; [erewrite mbind_throw by (exact (name_empty E H)); reflexivity|]. right.
    split; [now split|]. cbn. rewrite app_nil_r. split; [exact H|]. right. split; [reflexivity|]. now left.
  - destruct (name_step E H Hw) as [(m1 & Hr & S1 & H1 & _)|(m1 & Hr & Hz)].
    2:{ exists m1, (Throw ERuntime). split; [erewrite mbind_throw by exact Hr; reflexivity|]. left. split; [reflexivity|]. refine (refused_mono _ Hz).
        unfold asked. rewrite !names_app, !occs_app. cbn [map said]. rewrite !(map_app snd), !word_letters_app. cbn [occs flat_map app map snd]. change (word_letters []) with 0. lia. }
    set (wi := wid (names (l ++ [SName w])) w) in *.
    pose (m2 := mkMt (mt_idx m1) (mt_rev m1) (mt_ev m1) (mt_w m1) (st_wordProcessed wi (mt_stats m1)) (mt_store m1) (mt_sizes m1)).
    assert (H2 : MI m2 (l ++ [SName w])) by now apply MI_stats.
    destruct (word_entry (d := d) Hli H2 Hw Hf Hsz) as [(m3 & Hr3 & S3 & H3)|(m3 & Hr3 & Hz)]; fold wi in Hr3; rewrite (wid_keep _ Hf) in Hr3.
    + fold wi in H3. rewrite (wid_keep _ Hf) in H3.
      eexists _, (Ok tt). split.
      * erewrite mbind_ok by exact Hr. erewrite mbind_ok by reflexivity. fold m2. erewrite mbind_ok by exact Hr3. reflexivity.
      * right. split; [destruct S1, S3; split; cbn in *; congruence|].
        assert (Hns : ~ stops [SWord d f w]) by (intros [Hx|[]]; cbn in Hx; subst; now destruct Hw).
        rewrite (told_id Hns). split; [exact H3|]. left. now split.
    + exists m3, (Throw ERuntime). split; [|left; now split].
      erewrite mbind_ok by exact Hr. erewrite mbind_ok by reflexivity. fold m2. erewrite mbind_throw by exact Hr3. reflexivity.
Qed.
Lemma mbind_assoc {S A B C} (x : M S A) (f : A -> M S B) (g : B -> M S C) s :
  mbind (mbind x f) g s = mbind x (fun a => mbind (f a) g) s.
Proof. unfold mbind. destruct (x s) as [s' [a|e| | |]]; reflexivity. Qed.
Lemma mbind_ext {S A B} (x : M S A) (f g : A -> M S B) s : (forall a s', f a s' = g a s') -> mbind x f s = mbind x g s.
Proof. intros H. unfold mbind. destruct (x s) as [s' [a|e| | |]]; [apply H|reflexivity..]. Qed.
Lemma does_ext x y a m l : (forall s, x s = y s) -> does E x a m l -> does E y a m l.
Proof. intros H (m' & o & Hr & C). exists m', o. rewrite <- H. now split. Qed.

Lemma words_do d f ws : forall m l, MI m l -> In f (names l) -> last_size l d f None <> None -> Forall usable ws ->
  does E (index_words E d (wid (names l) f) ws) (map (SWord d f) ws) m l.
Proof.
  induction ws as [|w ws IH]; intros m l H Hf Hsz Hu; [now apply does_nil|]. apply Forall_cons_iff in Hu as [Hw Hu].
  pose proof (word_does H Hf Hsz Hw) as D.
  refine (@does_ext _ _ _ _ _ _ (@does_seq E _ (index_words E d (wid (names l) f) ws) [SWord d f w] (map (SWord d f) ws) m l D _)).
  - intros s. cbn [index_words]. rewrite mbind_assoc. apply mbind_ext. intros a s1. rewrite mbind_assoc. apply mbind_ext. intros [] s2.
    rewrite mbind_assoc. reflexivity.
  - intros m' Hn H'. rewrite <- (wid_keep [SWord d f w] Hf). apply IH; [exact H'|now apply names_keep|now apply last_size_keep|exact Hu].
Qed.
Definition plan_field (d : document) (f : word) : list step :=
  match doc_getText d f with
  | Ok t => SField (doc_getID d) f (N.of_nat (length t)) :: map (SWord (doc_getID d) f) t
  | _ => []
  end.
Lemma field_does d f t m l : MI m l -> usable f -> Forall usable t -> doc_getText d f = Ok t ->
  does E (fieldID <- on_store (ws_getID E f) ;; text <- reads (fun _ => doc_getText d f) ;;
        set_size (doc_getID d) fieldID (wl_size text) ;;; index_words E (doc_getID d) fieldID text) (plan_field d f) m l.
Proof.
  intros H Hf Ht Hd. unfold plan_field. rewrite Hd. destruct Hf as [->|Hf].
  - exists m, (Throw EOutOfRange). split; [erewrite mbind_throw by (exact (name_empty E H)); reflexivity|]. right.
    split; [now split|]. cbn. rewrite app_nil_r. split; [exact H|]. right. split; [reflexivity|]. now left.
  - destruct (name_step E H Hf) as [(m1 & Hr & S1 & H1 & _)|(m1 & Hr & Hz)].
    2:{ exists m1, (Throw ERuntime). split; [erewrite mbind_throw by exact Hr; reflexivity|]. left. split; [reflexivity|].
        refine (refused_mono _ Hz). match goal with |- _ <= asked (l ++ ?s :: ?r) => pose proof (@asked_mono (l ++ [s]) r) as Hx; rewrite <- app_assoc in Hx end.
        cbn [app] in Hx. refine (N.le_trans _ _ _ _ Hx). unfold asked. rewrite !names_app, !occs_app. cbn [map said]. rewrite !map_app, !word_letters_app. cbn. lia. }
    pose proof (MI_field (doc_getID d) (wl_size t) H1) as H2.
    set (m2 := fst (set_size (doc_getID d) (wid (names (l ++ [SName f])) f) (wl_size t) m1)) in *.
    set (st := SField (doc_getID d) f (wl_size t)) in *.
    assert (Hin : In f (names (l ++ [st]))) by (apply names_in; rewrite map_app; apply in_app_iff; right; now left).
    destruct (words_do (d := doc_getID d) H2 Hin (@last_size_some l (doc_getID d) f (wl_size t)) Ht) as (m3 & o & Hr3 & C3).
    assert (Hns : ~ stops [st]) by (intros [Hx|[]]; cbn in Hx; subst; now destruct Hf).
    exists m3, o. split.
    + erewrite mbind_ok by exact Hr. erewrite mbind_ok by (apply reads_ok; reflexivity). erewrite mbind_ok by reflexivity. fold m2.
      assert (Hnm : names (l ++ [SName f]) = names (l ++ [st])) by (now rewrite !names_app). unfold m2 in Hr3. rewrite Hnm in *. exact Hr3.
    + destruct C3 as [[-> Z3]|(S3 & H3 & C3)]; [left; split; [reflexivity|]; rewrite <- app_assoc in Z3; exact Z3|]. right. split; [destruct S1, S3; split; cbn in *; congruence|].
      match goal with |- context [told ?x] => change x with ([st] ++ map (SWord (doc_getID d) f) t) end.
      rewrite (@told_all [st] _ Hns), app_assoc, stops_app. split; [exact H3|]. tauto.
Qed.
Lemma fields_do d fs : forall m l, MI m l -> Forall (fun f => exists t, doc_getText d f = Ok t /\ usable f /\ Forall usable t) fs ->
  does E (index_fields E d fs) (flat_map (plan_field d) fs) m l.
Proof.
  induction fs as [|f fs IH]; intros m l H Hu; [now apply does_nil|]. apply Forall_cons_iff in Hu as [(t & Ht & Hf & Hu1) Hu].
  pose proof (field_does H Hf Hu1 Ht) as D. cbn [flat_map].
  refine (@does_ext _ _ _ _ _ _ (@does_seq E _ (index_fields E d fs) (plan_field d f) (flat_map (plan_field d) fs) m l D _)).
  - intros s. cbn [index_fields]. rewrite mbind_assoc. apply mbind_ext. intros a s1. rewrite mbind_assoc. apply mbind_ext. intros b s2.
    rewrite mbind_assoc. reflexivity.
  - intros m' Hn H'. now apply IH.
Qed.
Lemma docs_do c : forall m l, MI m l -> Forall doc_ok c -> Forall (fun s => usable (said s)) (flat_map plan_doc c) ->
  does E (buildIndexes E c) (flat_map plan_doc c) m l.
Proof.
  induction c as [|d c IH]; intros m l H Hd Hu; [now apply does_nil|]. apply Forall_cons_iff in Hd as [Hd1 Hd]. cbn [flat_map] in *.
  apply Forall_app in Hu as [Hu1 Hu]. cbn [buildIndexes]. apply does_seq; [|intros m' _ H'; now apply IH].
  apply fields_do; [exact H|]. rewrite Forall_forall. intros f Hf.
  assert (Ht : exists t, doc_getText d f = Ok t).
  { cbn in Hf. destruct Hd1 as (id & calls & ->). unfold doc_getText. destruct (mp_find wltb f (d_texts (add_texts id calls))) as [t|] eqn:Hx; [now exists t|].
    exfalso. apply (find_none wltb_order) in Hx; [now apply Hx|]. destruct (texts_build id calls) as [_ ->]. apply build_sorted. }
  destruct Ht as [t Ht]. exists t. split; [exact Ht|]. rewrite Forall_forall in Hu1.
  assert (G : forall s, In s (plan_field d f) -> usable (said s)).
  { intros s Hs. apply Hu1. unfold plan_doc. apply in_flat_map. exists f. split; [exact Hf|exact Hs]. }
  unfold plan_field in G. rewrite Ht in G. split; [apply (G (SField (doc_getID d) f (N.of_nat (length t)))); now left|].
  rewrite Forall_forall. intros w Hw. apply (G (SWord (doc_getID d) f w)). right. now apply in_map.
Qed.
End Index.
