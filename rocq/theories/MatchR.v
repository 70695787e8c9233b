(** Matcher: what a search computes. *)
From Verif Require Import Base TrieM TrieA TrieP TrieP2 TrieD WordStoreM Spec_Hist TrieH WordStoreP ErrorValuesM LevIndexM
  Spec_Edit Spec_EV Spec_Lev EVP EditP HitsP LevP WordM MapM DoubleM FloatP ContM MatcherM MapP Spec_Cont ContP Spec_Match MatchP MatchQ.
From Coq Require Import ZifyBool ZifyN ZifyNat.
Local Open Scope N_scope.
Local Open Scope m_scope.

(** ** The best error of each word of each index *)
Definition bget (b : bests) (k wi : N) : option Z :=
  match mp_find N.ltb k b with Some em => mp_find N.ltb wi em | None => None end.
Definition lowest (L : Z -> Prop) (o : option Z) : Prop :=
  match o with None => forall e, ~ L e | Some e => L e /\ forall e', L e' -> (e <= e')%Z end.
Record BI (b : bests) (L : N -> N -> Z -> Prop) : Prop := {
  bi_sorted : msorted N.ltb b;
  bi_inner : forall k em, mp_find N.ltb k b = Some em -> msorted N.ltb em;
  bi_least : forall k wi, lowest (L k wi) (bget b k wi)
}.
Lemma lowest_iff L L' o : (forall e, L e <-> L' e) -> lowest L o -> lowest L' o.
Proof.
  intros H. destruct o as [e|]; cbn; [intros [H1 H2]; split; [now apply H|intros e' He; apply H2; now apply H]|]. intros H1 e He. apply (H1 e). now apply H.
Qed.
Lemma BI_iff b L L' : (forall k wi e, L k wi e <-> L' k wi e) -> BI b L -> BI b L'.
Proof. intros H [A B C]. constructor; auto. intros k wi. apply (lowest_iff (H k wi)), C. Qed.
Lemma BI_nil : BI [] (fun _ _ _ => False).
Proof. constructor; [constructor|discriminate|]. intros k wi e []. Qed.
Lemma add_match_spec x em (L : N -> Z -> Prop) : msorted N.ltb em -> (forall wi, lowest (L wi) (mp_find N.ltb wi em)) ->
  msorted N.ltb (add_match x em) /\ forall wi, lowest (fun e => L wi e \/ (wi, e) = x) (mp_find N.ltb wi (add_match x em)).
Proof.
  intros Hs H. destruct x as [wx ex]. unfold add_match. cbn [fst snd].
  assert (G : forall wi em', wi <> wx -> mp_find N.ltb wi em' = mp_find N.ltb wi em -> lowest (fun e => L wi e \/ (wi, e) = (wx, ex)) (mp_find N.ltb wi em')).
  { intros wi em' Hne ->. eapply lowest_iff; [|apply H]. intros e. split; [tauto|]. intros [He|[= He _]]; [exact He|contradiction]. }
  destruct (mp_find N.ltb wx em) as [old|] eqn:Hf; [destruct (Z.ltb_spec ex old) as [Hlt|Hge]|].
  - split; [now apply (set_sorted nltb_order)|]. intros wi. destruct (N.eq_dec wi wx) as [->|Hne].
    + rewrite (find_set_same nltb_order) by exact Hs. specialize (H wx). rewrite Hf in H. destruct H as [_ H2]. cbn. split; [now right|].
      intros e' [He|[= ->]]; [specialize (H2 _ He); lia|lia].
    + apply G; [exact Hne|]. now apply (find_set_other nltb_order).
  - split; [exact Hs|]. intros wi. destruct (N.eq_dec wi wx) as [->|Hne]; [|now apply G].
    specialize (H wx). rewrite Hf in *. destruct H as [H1 H2]. cbn. split; [now left|]. intros e' [He|[= ->]]; [now apply H2|exact Hge].
  - split; [now apply (set_sorted nltb_order)|]. intros wi. destruct (N.eq_dec wi wx) as [->|Hne].
    + rewrite (find_set_same nltb_order) by exact Hs. specialize (H wx). rewrite Hf in H. cbn. split; [now right|].
      intros e' [He|[= ->]]; [exfalso; exact (H e' He)|lia].
    + apply G; [exact Hne|]. now apply (find_set_other nltb_order).
Qed.
Lemma add_list_spec ms : forall em (L : N -> Z -> Prop), msorted N.ltb em -> (forall wi, lowest (L wi) (mp_find N.ltb wi em)) ->
  msorted N.ltb (fold_left (fun em x => add_match x em) ms em) /\
  forall wi, lowest (fun e => L wi e \/ In (wi, e) ms) (mp_find N.ltb wi (fold_left (fun em x => add_match x em) ms em)).
Proof.
  induction ms as [|x ms IH]; intros em L Hs H; cbn [fold_left].
  - split; [exact Hs|]. intros wi. eapply lowest_iff; [|apply H]. intros e. cbn. tauto.
  - destruct (add_match_spec (L := L) x Hs H) as [A B]. destruct (IH _ _ A B) as [C D]. split; [exact C|]. intros wi. eapply lowest_iff; [|apply D].
    intros e. cbn. split; [intros [[Hx|Hx]|Hx]; auto|]. intros [Hx|[Hx|Hx]]; auto.
Qed.
Lemma addMatches_spec b k ms L : BI b L -> BI (addMatches b k ms) (fun k' wi e => L k' wi e \/ (k' = k /\ In (wi, e) ms)).
Proof.
  intros [A B C]. unfold addMatches.
  set (b' := match mp_find N.ltb k b with Some _ => b | None => mp_set N.ltb k [] b end).
  assert (Hb' : BI b' L /\ exists em, mp_find N.ltb k b' = Some em).
  { unfold b'. destruct (mp_find N.ltb k b) as [em|] eqn:Hf; [split; [now constructor|now exists em]|].
    split; [|exists []; now apply (find_set_same nltb_order)]. constructor.
    - now apply (set_sorted nltb_order).
    - intros k' em. destruct (N.eq_dec k' k) as [->|Hk]; [rewrite (find_set_same nltb_order) by exact A; intros [= <-]; constructor|].
      rewrite (find_set_other nltb_order) by assumption. apply B.
    - intros k' wi. unfold bget. destruct (N.eq_dec k' k) as [->|Hk].
      + rewrite (find_set_same nltb_order) by exact A. specialize (C k wi). unfold bget in C. rewrite Hf in C. exact C.
      + rewrite (find_set_other nltb_order) by assumption. apply (C k' wi). }
  destruct Hb' as [[A' B' C'] [em Hem]]. clearbody b'. rewrite Hem.
  destruct (@add_list_spec ms em (L k)) as [S1 S2]; [now apply B' in Hem| |].
  { intros wi. specialize (C' k wi). unfold bget in C'. now rewrite Hem in C'. }
  constructor.
  - now apply (set_sorted nltb_order).
  - intros k' em'. destruct (N.eq_dec k' k) as [->|Hk]; [rewrite (find_set_same nltb_order) by exact A'; intros [= <-]; exact S1|].
    rewrite (find_set_other nltb_order) by assumption. apply B'.
  - intros k' wi. unfold bget. destruct (N.eq_dec k' k) as [->|Hk].
    + rewrite (find_set_same nltb_order) by exact A'. eapply lowest_iff; [|apply S2]. intros e. cbn. tauto.
    + rewrite (find_set_other nltb_order) by assumption. eapply lowest_iff; [|apply (C' k' wi)]. intros e. cbn. tauto.
Qed.

(** ** One search *)
Lemma fits_le e ops1 ops2 q : (longest ops1 <= longest ops2)%nat -> fits e ops2 q -> fits e ops1 q.
Proof.
  intros Hl (B & H0 & H1 & H2 & H3 & H4 & H5 & H6 & H7). exists B. repeat (split; [assumption|]).
  assert (Z.of_nat (longest ops1 + length q + 2) * B <= Z.of_nat (longest ops2 + length q + 2) * B)%Z by (apply Z.mul_le_mono_nonneg_r; lia). lia.
Qed.
Lemma longest_le ops1 ops2 : (forall w i, In (w, i) ops1 -> exists j, In (w, j) ops2) -> (longest ops1 <= longest ops2)%nat.
Proof.
  intros H. assert (Hb : forall w j, In (w, j) ops2 -> (length w <= longest ops2)%nat).
  { clear. unfold longest. induction ops2 as [|x r IH]; intros w j Hj; [destruct Hj|]. destruct Hj as [He|Hin]; cbn; [subst; cbn; lia|]. specialize (IH w j Hin). lia. }
  unfold longest at 1. induction ops1 as [|[w i] r IH]; cbn; [lia|]. destruct (H w i) as [j Hj]; [now left|]. apply Hb in Hj.
  assert (fold_right (fun op n => Nat.max (length (fst op)) n) 0%nat r <= longest ops2)%nat by (apply IH; intros; apply (H w0 i0); now right). lia.
Qed.
Definition hit (e : errvals) (p : sparams) (qw v : word) (err : Z) : Prop :=
  err = D (prices_of e (length qw)) qw (rev v) (length qw) /\ (err <= limit p qw)%Z /\ not_cut e qw (limit p qw) v.
Lemma hit_near e p qw v err : hit e p qw v err -> near e p qw v err.
Proof. intros (-> & H & _). split; [apply D_min|exact H]. Qed.
Lemma near_hit e p qw v err : ev_wf e -> nonneg e -> swaps_not_cheap e (length qw) -> near e p qw v err -> hit e p qw v err.
Proof.
  intros W Hn Hs [H1 H2]. apply min_cost_D in H1. split; [exact H1|]. split; [exact H2|].
  apply monotone_not_cut; [now apply mono_prices|]. now rewrite <- H1.
Qed.
Lemma hit_reached e p qw v err : hit e p qw v err <-> reached e p qw v err.
Proof.
  split.
  - intros Hh. split; [now apply hit_near|]. apply begins_iff. apply Hh.
  - intros [[H1 H2] H3]. apply min_cost_D in H1. split; [exact H1|]. split; [exact H2|]. now apply begins_iff.
Qed.
Lemma hit_fun e p qw v e1 e2 : hit e p qw v e1 -> hit e p qw v e2 -> e1 = e2.
Proof. intros (-> & _) (-> & _). reflexivity. Qed.
Lemma hit_range e p qw v err : ev_wf e -> nonneg e -> hit e p qw v err -> (0 <= err <= 200)%Z.
Proof.
  intros W Hn (-> & H & _). split; [now apply nonneg_D|]. unfold limit in H. destruct (_ && _); lia.
Qed.

(** ** Lists in order *)
Lemma ssorted_filter {A} (R : A -> A -> Prop) f l : StronglySorted R l -> StronglySorted R (filter f l).
Proof.
  induction 1 as [|a l Hs IH Hf]; cbn; [constructor|]. destruct (f a); [|exact IH]. constructor; [exact IH|].
  rewrite Forall_forall in *. intros x Hx. apply filter_In in Hx as [Hx _]. now apply Hf.
Qed.
Lemma ssorted_map {A B} (R : A -> A -> Prop) (R' : B -> B -> Prop) (f : A -> B) l : StronglySorted R l ->
  (forall x y, In x l -> In y l -> R x y -> R' (f x) (f y)) -> StronglySorted R' (map f l).
Proof.
  induction 1 as [|a l Hs IH Hf]; intros Hm; cbn; constructor; [apply IH; intros; apply Hm; auto; now right|].
  rewrite Forall_forall in *. intros y Hy. apply in_map_iff in Hy as (x & <- & Hx). apply Hm; [now left|now right|now apply Hf].
Qed.
Lemma msorted_ss {V} (m : list (N * V)) : msorted N.ltb m -> StronglySorted (fun x y => fst x < fst y) m.
Proof.
  induction 1 as [|k v m Hb Hs IH]; constructor; [exact IH|]. unfold below in Hb. rewrite Forall_forall in *. intros x Hx. apply Hb in Hx. cbn. lia.
Qed.
Definition raw (b : bests) : list (N * N * Z) := flat_map (fun p => map (fun x => (fst p, fst x, snd x)) (snd p)) b.
Definition lex (x y : N * N * Z) : Prop := fst (fst x) < fst (fst y) \/ fst (fst x) = fst (fst y) /\ snd (fst x) < snd (fst y).
Lemma raw_in b k wi err : msorted N.ltb b -> (forall k em, mp_find N.ltb k b = Some em -> msorted N.ltb em) ->
  (In (k, wi, err) (raw b) <-> bget b k wi = Some err).
Proof.
  intros Hs Hi. unfold raw, bget. rewrite in_flat_map. split.
  - intros ([k' em] & Hin & Hx). apply in_map_iff in Hx as ([wi' err'] & [= <- <- <-] & Hx). cbn [fst snd] in *.
    apply (find_in nltb_order) in Hin; [|exact Hs]. rewrite Hin. apply (find_in nltb_order); [now apply Hi in Hin|exact Hx].
  - destruct (mp_find N.ltb k b) as [em|] eqn:Hf; [|discriminate]. intros Hx. pose proof (Hi _ _ Hf) as He.
    apply (find_in nltb_order) in Hf; [|exact Hs]. apply (find_in nltb_order) in Hx; [|exact He]. exists (k, em). split; [exact Hf|].
    apply in_map_iff. now exists (wi, err).
Qed.
Lemma raw_sorted b : msorted N.ltb b -> (forall k em, In (k, em) b -> msorted N.ltb em) -> StronglySorted lex (raw b).
Proof.
  induction 1 as [|k em b Hb Hs IH]; intros Hi; cbn; [constructor|]. apply ssorted_app.
  - eapply ssorted_map; [apply msorted_ss, (Hi k em); now left|]. intros x y _ _ Hxy. right. cbn. now split.
  - apply IH. intros k' em' Hin. apply (Hi k' em'). now right.
  - intros x y Hx Hy. apply in_map_iff in Hx as ([wi err] & <- & _). apply in_flat_map in Hy as ([k' em'] & Hy & Hz).
    apply in_map_iff in Hz as ([wi' err'] & <- & _). left. cbn. unfold below in Hb. rewrite Forall_forall in Hb. apply Hb in Hy. cbn in Hy. lia.
Qed.
(** A sum from left to right. *)
Definition osum (xs : list double) : option double := match xs with [] => None | x :: r => Some (fold_left d_add r x) end.
Lemma osum_snoc xs c : osum (xs ++ [c]) = Some (match osum xs with None => c | Some x => d_add x c end).
Proof. destruct xs as [|x r]; [reflexivity|]. cbn. now rewrite fold_left_app. Qed.
Lemma gather_docs_spec E m wi k err c : calculateRelevancy E m wi k err = Ok c -> forall ds docs, NoDup ds -> msorted N.ltb docs -> exists docs',
  gather_docs E m wi k err ds docs = Ok docs' /\ msorted N.ltb docs' /\
  forall d, mp_find N.ltb d docs' = if in_dec N.eq_dec d ds then Some (match mp_find N.ltb d docs with None => c | Some x => d_add x c end) else mp_find N.ltb d docs.
Proof.
  intros Hc. induction ds as [|x ds IH]; intros docs Hn Hs; [exists docs; split; [reflexivity|]; split; [exact Hs|reflexivity]|].
  inversion Hn as [|? ? Hx Hn']; subst. cbn [gather_docs]. rewrite Hc. cbn [obind].
  destruct (IH (mp_set N.ltb x (match mp_find N.ltb x docs with None => c | Some y => d_add y c end) docs) Hn') as (docs' & Hr & S' & F'); [now apply (set_sorted nltb_order)|].
  exists docs'. split; [exact Hr|]. split; [exact S'|]. intros d. rewrite F'. destruct (N.eq_dec d x) as [->|Hd].
  - rewrite (find_set_same nltb_order) by exact Hs. destruct (in_dec N.eq_dec x ds); [contradiction|].
    destruct (in_dec N.eq_dec x (x :: ds)) as [|Hno]; [reflexivity|]. exfalso. apply Hno. now left.
  - rewrite (find_set_other nltb_order) by assumption. destruct (in_dec N.eq_dec d ds) as [Hi|Hi]; destruct (in_dec N.eq_dec d (x :: ds)) as [Hj|Hj]; try reflexivity.
    + exfalso. apply Hj. now right.
    + exfalso. destruct Hj as [Hj|Hj]; [congruence|contradiction].
Qed.

Section Search.
Variables (E : env) (calls : list m_call) (m : matcher) (l : list step).
Hypothesis HE : env_ok E.
Hypothesis H : HI calls m l.
Hypothesis SS : sound_setup E calls.
Let e := prices_after calls.
Let o := occ calls.
Let NM := names l.

Lemma e_wf : ev_wf e.
Proof. apply after_wf. Qed.
Lemma MIH : MI m l.
Proof. exact (hi_mi H). Qed.
Lemma occ_l : occs l = o.
Proof. exact (hi_occ H). Qed.
Lemma occ_nm d f w : In (d, f, w) o -> In f NM /\ In w NM.
Proof. rewrite <- occ_l. apply (occ_names MIH). Qed.
Lemma fw_nm f w : In w (field_words o f) -> In f NM /\ In w NM.
Proof. intros Hw. apply fw_in in Hw as [d Hd]. exact (occ_nm Hd). Qed.
Lemma field_nm f : field_words o f <> [] -> In f NM.
Proof. destruct (field_words o f) as [|w r] eqn:Hf; [congruence|]. intros _. apply (@fw_nm f w). rewrite Hf. now left. Qed.
Lemma key_name f : field_words o f <> [] -> ws_getWord E (mt_store m) (wid NM f) = Ok f.
Proof.
  intros Hf. pose proof (field_nm Hf) as Hin. destruct (mi_store MIH) as (es & ids & S). apply wid_nth in Hin. fold NM in S.
  pose proof (WS_getWord E S Hin) as Hw. rewrite N2Nat.id in Hw. rewrite Hw. apply constructible_back.
  destruct (field_words o f) as [|w r] eqn:Hx; [congruence|]. assert (Hw' : In w (field_words o f)) by (rewrite Hx; now left).
  apply fw_in in Hw' as [d Hd]. exact (ss_fields SS Hd).
Qed.
Lemma idx_keys k : In k (map fst (mt_idx m)) <-> exists f, field_words o f <> [] /\ k = wid NM f.
Proof.
  split.
  - intros Hin. apply in_map_iff in Hin as ([k' li] & <- & Hin). apply (find_in nltb_order) in Hin; [|apply (mi_isorted MIH)].
    destruct (mi_idx MIH Hin) as (f & es & ids & d & Hf & Hk & Hne & _). rewrite occ_l in Hne. now exists f.
  - intros (f & Hne & ->). rewrite <- occ_l in Hne. destruct (mi_has MIH Hne) as [li Hli]. apply (find_in nltb_order) in Hli; [|apply (mi_isorted MIH)].
    now apply (in_map fst) in Hli.
Qed.
Lemma field_index f : field_words o f <> [] -> exists li es ids d, mp_find N.ltb (wid NM f) (mt_idx m) = Some li /\ LV li es ids d (ops NM o f).
Proof.
  intros Hne. pose proof Hne as Hne'. rewrite <- occ_l in Hne'. destruct (mi_has MIH Hne') as [li Hli].
  destruct (mi_idx MIH Hli) as (f' & es & ids & d & Hf & Hk & _ & L). apply wid_inj in Hk; [|now apply field_nm|exact Hf]. subst f'.
  exists li, es, ids, d. rewrite occ_l in L. now split.
Qed.
Lemma real_ops f : real (ops NM o f) = ops NM o f.
Proof.
  unfold real. assert (G : forall x, In x (ops NM o f) -> match fst x with [] => false | _ => true end = true).
  { intros [w i] Hin. apply in_ops in Hin as [Hin _]. cbn.
    apply fw_nm in Hin as [_ Hin]. destruct w; [|reflexivity]. exfalso. exact (names_nonempty MIH Hin). }
  induction (ops NM o f) as [|x r IH]; [reflexivity|]. cbn [filter]. pose proof (G x (or_introl eq_refl)) as Hx. cbn [fst] in *.
  rewrite IH; [|intros y Hy; apply G; now right]. destruct x as [[|a w] i]; [discriminate|reflexivity].
Qed.
Lemma assoc_ops f w id : assoc (real (ops NM o f)) w = Some id <-> In w (field_words o f) /\ id = wid NM w.
Proof.
  rewrite real_ops. split; [intros Ha; apply assoc_some_in in Ha; now apply in_ops in Ha|]. intros [Hw ->].
  unfold ops. induction (field_words o f) as [|x r IH]; [destruct Hw|]. cbn [map]. change ((x, wid NM x) :: map (fun w => (w, wid NM w)) r) with ([(x, wid NM x)] ++ map (fun w => (w, wid NM w)) r).
  rewrite assoc_app. unfold assoc at 1. cbn. destruct (weqb_spec w x) as [->|Hne]; [reflexivity|]. apply IH. destruct Hw as [Hw|Hw]; [congruence|exact Hw].
Qed.
Definition okq (qw : word) : Prop := Forall nonnul qw /\ fits e (map (fun x => (snd x, 0)) o) qw.
Lemma find_at p f qw : okq qw -> field_words o f <> [] -> exists li ms,
  mp_find N.ltb (wid NM f) (mt_idx m) = Some li /\ findWords E li qw (mt_ev m) (limit p qw) [] = (ms, Ok tt) /\
  forall wi err, In (wi, err) ms <-> exists v, In v (field_words o f) /\ wi = wid NM v /\ hit e p qw v err.
Proof.
  intros [Hq Hfit] Hf. destruct (field_index Hf) as (li & es & ids & d & Hli & L). rewrite (hi_ev H). fold e.
  assert (Hfit' : fits e (ops NM o f) qw).
  { eapply fits_le; [|exact Hfit]. apply longest_le. intros w i Hin. apply in_ops in Hin as [Hin _]. apply fw_in in Hin as [d' Hin].
    exists 0. apply in_map_iff. now exists (d', f, w). }
  assert (Has : e_ndebug E = true \/ qw = [] \/ getInsertionError e = getDeletionError e) by (destruct (ss_equal SS) as [Hx|Hx]; [now left|right; now right]).
  pose proof (@find_ok E li es ids d (ops NM o f) L e e_wf qw Hq Hfit' (limit p qw) [] Has) as Hr.
  exists li. eexists. split; [exact Hli|]. split; [exact Hr|]. intros wi err.
  rewrite (@find_members E li es ids d (ops NM o f) L e e_wf qw Hq Hfit' (limit p qw) _ HE Hr wi err). unfold hit. split.
  - intros (w & Ha & Hx). apply assoc_ops in Ha as [Ha ->]. exists w. now repeat split.
  - intros (w & Hw & -> & Hx). exists w. split; [now apply assoc_ops|exact Hx].
Qed.

(** ** All searches of a query *)
Definition found (p : sparams) (Q : word -> Prop) (k wi : N) (err : Z) : Prop :=
  exists qw f v, Q qw /\ k = wid NM f /\ wi = wid NM v /\ searching p f /\ In v (field_words o f) /\ hit e p qw v err.
Lemma keys_spec p qw : okq qw -> forall ks b L, (forall k, In k ks -> exists f, field_words o f <> [] /\ k = wid NM f) -> BI b L -> exists b',
  match_keys E m p qw (limit p qw) ks b = Ok b' /\ BI b' (fun k wi err => L k wi err \/ (In k ks /\ found p (eq qw) k wi err)).
Proof.
  intros Hq. induction ks as [|k ks IH]; intros b L Hk HB.
  { exists b. split; [reflexivity|]. eapply BI_iff; [|exact HB]. cbn. tauto. }
  destruct (Hk k) as (f & Hf & Hkf); [now left|]. cbn [match_keys]. pose proof (key_name Hf) as Hname. rewrite <- Hkf in Hname. rewrite Hname. cbn [obind].
  assert (Hone : forall f' v, In v (field_words o f') -> k = wid NM f' -> f' = f).
  { intros f' v Hv Hx. rewrite Hkf in Hx. symmetry. apply (wid_inj (ws := NM)); [now apply field_nm|apply (fw_nm Hv)|exact Hx]. }
  assert (Hrest : forall k', In k' ks -> exists f, field_words o f <> [] /\ k' = wid NM f) by (intros; apply Hk; now right).
  destruct (sp_isNonsearchingField p f) eqn:Hs.
  - destruct (IH b L Hrest HB) as (b' & Hr & HB'). exists b'. split; [exact Hr|]. eapply BI_iff; [|exact HB'].
    intros k' wi err. split; [intros [Hx|[Hx Hy]]; [now left|right; split; [now right|exact Hy]]|].
    intros [Hx|[[Hx|Hx] Hy]]; [now left| |right; now split]. exfalso. subst k'.
    destruct Hy as (qw' & f' & v & _ & Hy & _ & Hsf & Hv & _). unfold searching in Hsf. rewrite (Hone f' v Hv Hy) in Hsf. congruence.
  - destruct (find_at p Hq Hf) as (li & ms & Hli & Hms & Hin). rewrite <- Hkf in Hli. rewrite Hli, Hms. cbn [obind].
    destruct (IH (addMatches b k ms) _ Hrest (addMatches_spec k ms HB)) as (b' & Hr & HB'). exists b'. split; [exact Hr|]. eapply BI_iff; [|exact HB'].
    intros k' wi err. cbn [In]. split.
    + intros [[Hx|[-> Hx]]|[Hx Hy]]; [now left|right; split; [now left|]|right; split; [now right|exact Hy]].
      apply Hin in Hx as (v & Hv & -> & Hh). exists qw, f, v. auto 10.
    + intros [Hx|[[<-|Hx] Hy]]; [left; now left|left; right; split; [reflexivity|]|right; now split].
      destruct Hy as (qw' & f' & v & <- & Hy & -> & Hsf & Hv & Hh). apply Hin. pose proof (Hone f' v Hv Hy) as ->. now exists v.
Qed.
Lemma limit_eq p w : ((if sp_dynamic p then sp_getDynamicError p w else 2 * DEFAULT_ERROR) + 0)%Z = limit p w.
Proof. unfold limit, sp_getDynamicError. destruct (sp_dynamic p); [|reflexivity]. cbn [andb]. destruct (Nat.ltb_spec (length w) 2), (N.ltb_spec (N.of_nat (length w)) 2); (reflexivity || lia). Qed.
Lemma indexes_spec p q : Forall okq q -> forall b L, BI b L -> exists b',
  matchIndexes E m q p 0 b = Ok b' /\ BI b' (fun k wi err => L k wi err \/ found p (fun w => In w q) k wi err).
Proof.
  induction 1 as [|qw q Hq Hqs IH]; intros b L HB.
  { exists b. split; [reflexivity|]. eapply BI_iff; [|exact HB]. intros. split; [now left|]. intros [Hx|(w & f & v & [] & _)]. exact Hx. }
  cbn [matchIndexes]. rewrite limit_eq. destruct (@keys_spec p qw Hq (e_order E [] (map fst (mt_idx m))) b L) as (b1 & H1 & HB1); [|exact HB|].
  { intros k Hk. apply (Permutation_in _ (eo_order_perm HE _ _)) in Hk. now apply idx_keys. }
  rewrite H1. cbn [obind]. destruct (IH _ _ HB1) as (b' & Hr & HB'). exists b'. split; [exact Hr|]. eapply BI_iff; [|exact HB'].
  intros k wi err. cbn. split.
  - intros [[Hx|[_ Hx]]|Hx]; [now left|right|right].
    + destruct Hx as (w & f & v & <- & Hx). exists qw, f, v. split; [now left|exact Hx].
    + destruct Hx as (w & f & v & Hw & Hx). exists w, f, v. split; [now right|exact Hx].
  - intros [Hx|(w & f & v & [<-|Hw] & Hx)]; [left; now left|left; right|right; now exists w, f, v].
    split; [|now exists qw, f, v]. destruct Hx as (-> & _ & _ & Hv & _).
    apply (Permutation_in _ (Permutation_sym (eo_order_perm HE _ _))). apply idx_keys. exists f. split; [|reflexivity]. intros Hn. now rewrite Hn in Hv.
Qed.

(** ** The relevancy of one word *)
Let wt := weight_after calls.
Lemma times_ops f v : In v (field_words o f) -> times (wid NM v) (ops NM o f) = count_in o f v.
Proof.
  intros Hv. unfold times. rewrite real_ops. unfold count_in, occurrences, ops. f_equal.
  assert (G : forall x, In x (field_words o f) -> In x NM) by (intros x Hx; apply (fw_nm Hx)). apply G in Hv. clear - Hv G.
  induction (field_words o f) as [|x r IH]; [reflexivity|]. cbn [map filter snd].
  assert (IH' := IH (fun y Hy => G y (or_intror Hy))). pose proof (G x (or_introl eq_refl)) as Hx. cbn [filter].
  cbn [count_occ]. destruct (N.eqb_spec (wid NM x) (wid NM v)) as [He|He]; destruct (list_eq_dec N.eq_dec x v) as [Hn|Hn]; cbn [length].
  - now rewrite IH'.
  - exfalso. apply Hn. exact (wid_inj Hx Hv He).
  - exfalso. congruence.
  - exact IH'.
Qed.
Lemma times_other f id : (forall v, In v (field_words o f) -> id <> wid NM v) -> times id (ops NM o f) = 0.
Proof.
  intros Hv. unfold times. rewrite real_ops. unfold ops. induction (field_words o f) as [|x r IH]; [reflexivity|]. cbn [map filter snd].
  destruct (N.eqb_spec (wid NM x) id) as [He|He]; [exfalso; apply (Hv x); [now left|congruence]|]. apply IH. intros v Hx. apply Hv. now right.
Qed.
Lemma max_in_ge f v : In v (field_words o f) -> count_in o f v <= max_in o f.
Proof.
  intros Hv. unfold max_in. assert (G : forall r, In v r -> count_in o f v <= fold_right (fun w n => N.max (count_in o f w) n) 0 r); [|now apply G].
  induction r as [|x r IH]; intros []; cbn; [subst; lia|specialize (IH H0); lia].
Qed.
Lemma max_in_some f : field_words o f <> [] -> exists v, In v (field_words o f) /\ max_in o f = count_in o f v.
Proof.
  intros Hf. unfold max_in. assert (G : forall r, r <> [] -> exists v, In v r /\ fold_right (fun w n => N.max (count_in o f w) n) 0 r = count_in o f v); [|now apply G].
  induction r as [|x r IH]; intros Hr; [congruence|]. destruct r as [|y r].
  - exists x. split; [now left|]. cbn. lia.
  - destruct IH as (v & Hv & He); [discriminate|]. cbn [fold_right] in *.
    destruct (N.le_ge_cases (count_in o f x) (count_in o f v)); [exists v; split; [now right|]; lia|exists x; split; [now left|]; lia].
Qed.
Lemma max_li li es ids d f : LV li es ids d (ops NM o f) -> field_words o f <> [] -> li_max li = max_in o f.
Proof.
  intros L Hf. destruct (max_in_some Hf) as (v & Hv & Hm). pose proof (@lv_le _ _ _ _ _ L (wid NM v)) as H1. rewrite (times_ops Hv), <- Hm in H1.
  destruct (lv_max L) as [id Hid]. rewrite <- Hid in *. destruct (in_dec N.eq_dec id (map (wid NM) (field_words o f))) as [Hin|Hn].
  - apply in_map_iff in Hin as (x & <- & Hx). rewrite (times_ops Hx) in *. pose proof (max_in_ge Hx). lia.
  - assert (times id (ops NM o f) = 0) by (apply times_other; intros x Hx ->; apply Hn; now apply in_map). lia.
Qed.
Lemma count_pos f v : In v (field_words o f) -> 0 < count_in o f v.
Proof.
  intros Hv. apply (count_occ_In (list_eq_dec N.eq_dec)) in Hv. unfold count_in, occurrences. lia.
Qed.
Lemma relevancy_spec f v err : In v (field_words o f) -> calculateRelevancy E m (wid NM v) (wid NM f) err = Ok (contribution o wt (f, v, err)).
Proof.
  intros Hv. assert (Hf : field_words o f <> []) by (intros Hn; now rewrite Hn in Hv). unfold calculateRelevancy.
  destruct (field_index Hf) as (li & es & ids & d & Hli & L). rewrite Hli. rewrite (lv_counts L). unfold li_maxCount. rewrite (max_li L Hf), (times_ops Hv).
  pose proof (count_pos Hv) as H1. pose proof (max_in_ge Hv) as H2.
  unfold oassert. replace (0 <? count_in o f v) with true by lia. replace (0 <? max_in o f) with true by lia. cbn [obind].
  rewrite (key_name Hf). cbn [obind]. f_equal. rewrite (hi_w H), weights_spec. reflexivity.
Qed.

(** ** Summing up *)
Definition named (x : N * N * Z) : word * word * Z :=
  let '(k, wi, err) := x in (nth (N.to_nat k) NM [], nth (N.to_nat wi) NM [], err).
Definition known (x : N * N * Z) : Prop := exists f v err, x = (wid NM f, wid NM v, err) /\ In v (field_words o f).
Lemma name_wid w : In w NM -> nth (N.to_nat (wid NM w)) NM [] = w.
Proof. intros Hw. apply nth_error_nth. now apply wid_nth. Qed.
Lemma named_wid f v err : In v (field_words o f) -> named (wid NM f, wid NM v, err) = (f, v, err).
Proof. intros Hv. destruct (fw_nm Hv). cbn. now rewrite !name_wid. Qed.
Definition has (d : N) (x : word * word * Z) : bool := occb o d (fst (fst x)) (snd (fst x)).
Record GI (docs : list (N * double)) (done : list (word * word * Z)) : Prop := {
  gi_sorted : msorted N.ltb docs;
  gi_sum : forall d, mp_find N.ltb d docs = osum (map (contribution o wt) (filter (has d) done))
}.
Lemma word_spec f v err docs done : In v (field_words o f) -> GI docs done -> exists docs',
  gather_docs E m (wid NM v) (wid NM f) err (findDocuments E (mt_rev m) (wid NM v) (wid NM f)) docs = Ok docs' /\ GI docs' (done ++ [(f, v, err)]).
Proof.
  intros Hv [G1 G2]. destruct (find_docs (wid NM v) (wid NM f) HE MIH) as [D1 D2].
  destruct (gather_docs_spec (relevancy_spec err Hv) D1 G1) as (docs' & Hr & S' & F'). exists docs'. split; [exact Hr|]. constructor; [exact S'|].
  intros d. rewrite F'. rewrite filter_app, map_app. cbn [filter].
  assert (Hd : In d (findDocuments E (mt_rev m) (wid NM v) (wid NM f)) <-> has d (f, v, err) = true).
  { rewrite D2. destruct (fw_nm Hv) as [N1 N2]. unfold NM. rewrite (has_term d MIH N1 N2), occ_l. unfold has. cbn. now rewrite occb_in. }
  destruct (in_dec N.eq_dec d _) as [Hi|Hi].
  - apply Hd in Hi. rewrite Hi. cbn [map]. now rewrite osum_snoc, G2.
  - destruct (has d (f, v, err)) eqn:Hh; [exfalso; now apply Hi, Hd|]. cbn [map]. now rewrite app_nil_r, G2.
Qed.
Lemma words_spec k : forall em docs done, Forall known (map (fun x => (k, fst x, snd x)) em) -> GI docs done -> exists docs',
  gather_words E m k em docs = Ok docs' /\ GI docs' (done ++ map named (map (fun x => (k, fst x, snd x)) em)).
Proof.
  induction em as [|[wi err] em IH]; intros docs done Hk G.
  { exists docs. split; [reflexivity|]. cbn. now rewrite app_nil_r. }
  cbn [map fst snd] in Hk. apply Forall_cons_iff in Hk as [(f & v & err' & He & Hv) Hk]. injection He as -> -> <-.
  cbn [gather_words]. destruct (word_spec err Hv G) as (d1 & H1 & G1). rewrite H1. cbn [obind].
  destruct (IH d1 _ Hk G1) as (d2 & H2 & G2). exists d2. split; [exact H2|]. cbn [map fst snd]. rewrite (named_wid _ Hv), <- app_assoc in *. exact G2.
Qed.
Lemma gather_spec : forall b docs done, Forall known (raw b) -> GI docs done -> exists docs',
  gather E m b docs = Ok docs' /\ GI docs' (done ++ map named (raw b)).
Proof.
  induction b as [|[k em] b IH]; intros docs done Hk G.
  { exists docs. split; [reflexivity|]. cbn. now rewrite app_nil_r. }
  unfold raw in *. cbn [flat_map fst snd] in *. apply Forall_app in Hk as [H1 H2]. cbn [gather].
  destruct (words_spec H1 G) as (d1 & R1 & G1). rewrite R1. cbn [obind]. destruct (IH d1 _ H2 G1) as (d2 & R2 & G2).
  exists d2. split; [exact R2|]. rewrite map_app, app_assoc. exact G2.
Qed.

Lemma found_known p Q k wi err : found p Q k wi err -> known (k, wi, err).
Proof. intros (qw & f & v & _ & -> & -> & _ & Hv & _). now exists f, v, err. Qed.
Lemma earlier_irr a : ~ earlier NM a a.
Proof. intros (i & i' & j & j' & H1 & H2 & H3 & H4 & Hx). rewrite H1 in H2. rewrite H3 in H4. injection H2 as <-. injection H4 as <-. lia. Qed.
Lemma earlier_tr a b c : earlier NM a b -> earlier NM b c -> earlier NM a c.
Proof.
  intros (i & i' & j & j' & H1 & H2 & H3 & H4 & Hx) (k & k' & n & n' & K1 & K2 & K3 & K4 & Ky).
  rewrite H2 in K1. rewrite H4 in K3. injection K1 as <-. injection K3 as <-. exists i, k', j, n'. repeat (split; [assumption|]). lia.
Qed.
Lemma wid_pos w : In w NM -> position w NM = Some (N.to_nat (wid NM w)).
Proof. intros Hw. unfold wid. destruct (position_in Hw) as [i ->]. now rewrite Nat2N.id. Qed.
Section Gathered.
Variables (p : sparams) (q : list word) (b : bests).
Hypothesis HB : BI b (found p (fun w => In w q)).
Lemma raw_known : Forall known (raw b).
Proof.
  rewrite Forall_forall. intros [[k wi] err] Hin. apply (raw_in _ _ _ (bi_sorted HB) (bi_inner HB)) in Hin.
  pose proof (@bi_least _ _ HB k wi) as Hl. rewrite Hin in Hl. destruct Hl as [Hl _]. exact (found_known Hl).
Qed.
Lemma named_sorted : StronglySorted (earlier NM) (map named (raw b)).
Proof.
  eapply ssorted_map; [apply raw_sorted; [exact (bi_sorted HB)|]|].
  - intros k em Hin. apply (find_in nltb_order) in Hin; [|exact (bi_sorted HB)]. exact (bi_inner HB Hin).
  - pose proof raw_known as Hk. rewrite Forall_forall in Hk. intros x y Hx Hy. apply Hk in Hx as (f & v & err & -> & Hv), Hy as (f' & v' & err' & -> & Hv').
    rewrite !named_wid by assumption. destruct (fw_nm Hv) as [A1 A2], (fw_nm Hv') as [B1 B2]. intros Hl.
    eexists _, _, _, _. cbn [fst snd]. repeat (split; [now apply wid_pos|]). unfold lex in Hl. cbn [fst snd] in Hl. lia.
Qed.
Lemma named_in f v err : In (f, v, err) (map named (raw b)) <-> In v (field_words o f) /\ searching p f /\ least (hit e p) q v err.
Proof.
  split.
  - intros Hin. apply in_map_iff in Hin as ([[k wi] err'] & Hn & Hin). apply (raw_in _ _ _ (bi_sorted HB) (bi_inner HB)) in Hin.
    pose proof (@bi_least _ _ HB k wi) as Hl. rewrite Hin in Hl. destruct Hl as [(qw & f' & v' & Hq & -> & -> & Hs & Hv & Hh) Hl].
    rewrite (named_wid _ Hv) in Hn. injection Hn as -> -> ->. split; [exact Hv|]. split; [exact Hs|]. split; [now exists qw|].
    intros qw' err' Hq' Hh'. apply Hl. exists qw', f, v. auto 10.
  - intros (Hv & Hs & (qw & Hq & Hh) & Hm). apply in_map_iff. exists (wid NM f, wid NM v, err). split; [now apply named_wid|].
    apply (raw_in _ _ _ (bi_sorted HB) (bi_inner HB)). pose proof (@bi_least _ _ HB (wid NM f) (wid NM v)) as Hl.
    assert (Hf : found p (fun w => In w q) (wid NM f) (wid NM v) err) by (exists qw, f, v; auto 10).
    destruct (bget b (wid NM f) (wid NM v)) as [e0|]; [|exfalso; exact (Hl _ Hf)]. f_equal. destruct Hl as [(qw' & f' & v' & Hq' & E1 & E2 & _ & Hv' & Hh') Hl].
    apply wid_inj in E1, E2; try (now apply (fw_nm Hv)); try (now apply (fw_nm Hv')). subst f' v'. pose proof (Hl _ Hf). pose proof (Hm _ _ Hq' Hh'). lia.
Qed.
Lemma parts_here d : parts o NM (hit e p) q p d (filter (has d) (map named (raw b))).
Proof.
  split; [apply ssorted_filter, named_sorted|]. intros f w err. rewrite filter_In, named_in. unfold has. cbn [fst snd]. rewrite occb_in, fw_in. split.
  - intros ((_ & Hs & Hl) & Ho). split; [exact Ho|]. now split.
  - intros (Ho & Hs & Hl). split; [|exact Ho]. split; [now exists d|]. now split.
Qed.
Lemma parts_unique d xs : parts o NM (hit e p) q p d xs -> xs = filter (has d) (map named (raw b)).
Proof.
  intros [P1 P2]. destruct (parts_here d) as [Q1 Q2]. apply (ssorted_unique earlier_irr earlier_tr P1 Q1). intros [[f w] err]. now rewrite P2, Q2.
Qed.
Lemma fold_map {A} (g : A -> double) xs : forall x, fold_left d_add (map g xs) x = fold_left (fun s y => d_add s (g y)) xs x.
Proof. induction xs as [|a xs IH]; intros x; [reflexivity|]. cbn. apply IH. Qed.
Lemma docs_scored docs d r : GI docs (map named (raw b)) -> (mp_find N.ltb d docs = Some r <-> scored o NM (hit e p) q p wt d r).
Proof.
  intros [_ G]. rewrite G. split.
  - intros Hs. destruct (filter (has d) (map named (raw b))) as [|x xs] eqn:Hf; [discriminate|]. cbn in Hs. injection Hs as <-.
    exists x, xs. split; [rewrite <- Hf; apply parts_here|]. now rewrite fold_map.
  - intros (x & xs & Hp & ->). rewrite <- (parts_unique Hp). cbn. now rewrite fold_map.
Qed.
Lemma scored_some d f v qw err : In (d, f, v) o -> searching p f -> In qw q -> hit e p qw v err -> exists r, scored o NM (hit e p) q p wt d r.
Proof.
  intros Ho Hs Hq Hh. assert (Hv : In v (field_words o f)) by (apply fw_in; now exists d).
  pose proof (@bi_least _ _ HB (wid NM f) (wid NM v)) as Hl.
  assert (Hf : found p (fun w => In w q) (wid NM f) (wid NM v) err) by (exists qw, f, v; auto 10).
  destruct (bget b (wid NM f) (wid NM v)) as [e0|] eqn:Hb; [|exfalso; exact (Hl _ Hf)].
  apply (raw_in _ _ _ (bi_sorted HB) (bi_inner HB)) in Hb. apply (in_map named) in Hb. rewrite (named_wid _ Hv) in Hb.
  assert (Hin : In (f, v, e0) (filter (has d) (map named (raw b)))) by (apply filter_In; split; [exact Hb|]; unfold has; cbn [fst snd]; now apply occb_in).
  destruct (filter (has d) (map named (raw b))) as [|x xs] eqn:Hx; [destruct Hin|]. eexists. exists x, xs. split; [rewrite <- Hx; apply parts_here|reflexivity].
Qed.
End Gathered.
End Search.
