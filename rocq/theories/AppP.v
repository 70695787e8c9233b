(** The graphical programs: searching. *)
From Verif Require Import Base TrieM WordStoreM ErrorValuesM LevIndexM WordM MapM DoubleM ContM DataFileM QIndexM MatcherM CApiM AppM
  Spec_Hist Spec_EV Spec_Cont Spec_Edit Spec_Lev Spec_Match Spec_File Spec_CApi Spec_Tool Spec_Room Spec_Word Spec_App
  WordP SplitP MapP ContP DataP EVR ScalarP TypoP MatchY MatchZ CApiP CApiQ CApiS MatchG.
From Coq Require Import ZifyBool ZifyN ZifyNat.
Local Open Scope N_scope.
Local Open Scope m_scope.

(** ** The list in the window *)
Lemma fill_ok src view : (forall x, In x view -> (N.to_nat (snd x) < length src)%nat) -> forall n i ms rows, shows ms view -> (n + N.to_nat i = length view)%nat ->
  exists more, fill_rows src n i ms rows = Ok (rows ++ more) /\
    Forall2 (fun row x => exists ts, nth_error src (N.to_nat (snd x)) = Some ts /\ row = (map until_nul ts, fst x)) more (skipn (N.to_nat i) view).
Proof.
  intros Hin n. induction n as [|n IH]; intros i ms rows Hs Hn.
  - exists []. split; [cbn; now rewrite app_nil_r|]. rewrite skipn_all2 by lia. constructor.
  - cbn [fill_rows]. assert (Hx : exists x, nth_error view (N.to_nat i) = Some x) by (destruct (nth_error view (N.to_nat i)) eqn:H; [eauto|apply nth_error_None in H; lia]).
    destruct Hx as [x Hx]. pose proof (proj2 Hs i) as (r1 & G1 & _). rewrite Hx in G1. rewrite G1. cbn [obind].
    pose proof (shows_kept Hs G1) as Hs1. pose proof (nth_error_In _ _ Hx) as Hvx. pose proof (Hin _ Hvx) as Hlt.
    destruct (nth_error src (N.to_nat (snd x))) as [ts|] eqn:Ht; [|apply nth_error_None in Ht; lia]. cbn [obind].
    pose proof (proj2 Hs1 i) as (r2 & G2 & G3). rewrite Hx in G2, G3. rewrite G3. cbn [obind]. pose proof (shows_kept Hs1 G2) as Hs2.
    destruct (IH (i + 1) r2 (rows ++ [(map until_nul ts, fst x)]) Hs2) as (more & Hf & Hm); [lia|].
    exists ((map until_nul ts, fst x) :: more). split; [rewrite Hf, <- app_assoc; reflexivity|].
    replace (skipn (N.to_nat i) view) with (x :: skipn (N.to_nat (i + 1)) view); [constructor; [now exists ts|exact Hm]|].
    replace (N.to_nat (i + 1)) with (S (N.to_nat i)) by lia. clear - Hx. revert Hx. generalize (N.to_nat i). intros k. revert view. induction k as [|k IH]; intros [|y view] H; try discriminate.
    + now injection H as <-.
    + cbn [nth_error] in H. cbn [skipn]. now apply IH.
Qed.
Lemma like_search E calls m s q : env_ok E -> lower_ok E -> history E calls m -> Forall (c_like E) calls -> (forall f x, In (f, x) (weight_calls calls) -> good_weight x) ->
  N.of_nat (length (occ calls)) + 1 < 9007199254740992 -> c_text s -> splitToWords E s = Ok q -> moderate calls q ->
  exists r view, mt_match_utf8 E s sp_new m = (m, Ok r) /\ shows r view /\ ranked view /\ NoDup (map snd view) /\
    (forall d, (exists x, In (x, d) view) <-> exists f w qw err, In (d, f, w) (occ calls) /\ In qw q /\ near (prices_after calls) sp_new qw w err) /\
    forall x d, In (x, d) view <-> scored (occ calls) (distinct [] (map said (indexed calls))) (near (prices_after calls) sp_new) q sp_new (weight_after calls) d x.
Proof.
  intros HEo HE HH HL Hw Ho Ht Hq HM. pose proof (like_setup HE HEo HL Hw Ho HH) as SS. pose proof (like_query HE HL (split_words Ht Hq) HM) as SQ.
  destruct (MatchT.the_log SS HH) as [l HI]. destruct (@MatchW.match_plain E calls m l q sp_new HI SS SQ) as (r & Hmr & _); [repeat constructor|discriminate|].
  destruct (match_finds_default SS SQ HH (like_prices HL) Hmr) as (view & Hv & Hiff). exists r, view.
  destruct (@match_ranked_le E calls m q sp_new m r SS SQ HH) as (v2 & Hv2 & Hk & Hnd & _); [repeat constructor|exact Hmr|].
  rewrite (MatchT.shows_unique Hv2 Hv) in *.
  assert (SW : forall qw, In qw q -> swaps_not_cheap (prices_after calls) (length qw)) by (intros qw _; rewrite prices_calls; apply (default_prices (like_prices HL))).
  destruct (@MatchT.match_scores E calls m q sp_new SS SQ HH SW m r) as (order & v3 & _ & Hv3 & _ & Hsc & Hord); [repeat constructor|exact Hmr|]. rewrite (MatchT.shows_unique Hv3 Hv) in *.
  rewrite Hord in Hsc by (intros q' p' Hin; rewrite Forall_forall in HL; destruct (HL _ Hin) as [-> _]; reflexivity).
  split; [unfold mt_match_utf8, reads, mbind; cbn [fst snd]; now rewrite Hq|]. split; [exact Hv|]. split; [exact Hk|]. split; [exact Hnd|]. split; [exact Hiff|].
  intros x d. rewrite Hsc. split; [intros [H _]; exact H|intros H; split; [exact H|]]. exists []. split; [now left|constructor].
Qed.
(** The rows, for any program whose documents have a row each. *)
Lemma search_rows E calls a s q : env_ok E -> lower_ok E -> history E calls (a_m a) -> Forall (c_like E) calls -> (forall f x, In (f, x) (weight_calls calls) -> good_weight x) ->
  N.of_nat (length (occ calls)) + 1 < 9007199254740992 -> (forall d f w, In (d, f, w) (occ calls) -> (N.to_nat d < length (a_src a))%nat) ->
  c_text s -> splitToWords E s = Ok q -> moderate calls q ->
  exists rows view, doSearch E s a = (a, Ok (mkWin rows s)) /\ ranked view /\ NoDup (map snd view) /\
    Forall2 (fun row x => exists ts, nth_error (a_src a) (N.to_nat (snd x)) = Some ts /\ row = (map until_nul ts, fst x)) rows view /\
    (forall d, (exists x, In (x, d) view) <-> exists f w qw err, In (d, f, w) (occ calls) /\ In qw q /\ near (prices_after calls) sp_new qw w err) /\
    forall x d, In (x, d) view <-> scored (occ calls) (distinct [] (map said (indexed calls))) (near (prices_after calls) sp_new) q sp_new (weight_after calls) d x.
Proof.
  intros HEo HE HH HL Hw Ho Hd Ht Hq HM. destruct (like_search HEo HE HH HL Hw Ho Ht Hq HM) as (r & view & Hr & Hs & Hk & Hn & Hiff & Hsc).
  destruct (@fill_ok (a_src a) view) with (n := N.to_nat (mr_size r)) (i := 0) (ms := r) (rows := @nil (list (list N) * double)) as (rows & Hf & H2).
  - intros [x d] Hin. cbn [snd]. destruct (proj1 (Hiff d)) as (f & w & qw & err & Hocc & _); [now exists x|]. exact (Hd _ _ _ Hocc).
  - exact Hs.
  - rewrite (proj1 Hs). lia.
  - exists rows, view. split; [|split; [exact Hk|split; [exact Hn|split; [exact H2|split; [exact Hiff|exact Hsc]]]]].
    unfold doSearch. rewrite Hr, Hf. cbn [List.app obind]. destruct a; reflexivity.
Qed.
