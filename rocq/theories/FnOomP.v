(** getFieldNames that runs out of memory. *)
From Verif Require Import Base TrieM WordM WordP WordQ MapM DoubleM ContM OwnM OwnP OwnQ Spec_Own OomM Spec_Oom OomP OomQ OomR OomS OomT DaOomM DaOomP FnOomM Demo.
Local Open Scope Z_scope.

Lemma add_goes l o m : whole_l l -> whole_w o -> sp (l_add l o) m
  (fun m' a => whole_l a /\ the_list a = the_list l ++ [the_word o] /\ live m' - fp_list a = live m - fp_list l /\ quiet m m')
  (fun m' p => live m' = live m /\ plan m <> [])
  (fun _ => False).
Proof.
  intros Hl Ho. pose proof (l_add_ref demo Hl Ho m) as H1. pose proof (l_add_ref demo_release Hl Ho m) as H2. unfold sp in *. destruct (l_add l o m) as [m' [a|p| | |]].
  - destruct H1 as (W & V & L & Q). split; [exact W|]. split; [|split; [unfold fp_list; lia|exact Q]]. assert (Hd : Ok (the_list l ++ [the_word o]) = Ok (the_list a)) by (apply V; left; reflexivity). congruence.
  - destruct H1 as (L & Q). unfold lost in L. split; [lia|]. intros Hp. destruct (Q Hp) as (_ & e & _ & X). discriminate X.
  - destruct H2 as (X & _). discriminate X.
  - discriminate H1.
  - destruct H1.
Qed.
Lemma names_ok : forall ts l m, Forall whole_n ts -> whole_l l -> exists m' l' e k, names_to ts l m = (m', Val (l', e)) /\ whole_l l' /\
  the_list l' = the_list l ++ firstn k (map (fun t => the_word (fst t)) ts) /\ live m' - fp_list l' = live m - fp_list l /\
  match e with None => k = length ts | Some _ => (k < length ts)%nat /\ plan m <> [] end.
Proof.
  induction ts as [|t r IH]; intros l m Ht Hl; cbn [names_to].
  - exists m, l, None, O. split; [reflexivity|]. split; [exact Hl|]. split; [symmetry; apply app_nil_r|]. split; reflexivity.
  - pose proof (@add_goes l (fst t) m Hl (proj1 (Forall_inv Ht))) as H. unfold tbind, try. unfold sp in H. destruct (l_add l (fst t) m) as [m1 [l1|p| | |]]; [| |destruct H|destruct H|destruct H].
    + destruct H as (W & V & L & Q). destruct (IH l1 m1 (Forall_inv_tail Ht) W) as (m' & l' & e & k & He & W' & V' & L' & K). exists m', l', e, (S k). split; [exact He|]. split; [exact W'|].
      split; [|split; [lia|]]. { cbn [map firstn]. eapply eq_trans; [exact V'|]. rewrite V, <- app_assoc. reflexivity. }
      destruct e; [|cbn; now rewrite K]. destruct K as [K1 K2]. split; [cbn; lia|]. intros X. apply K2. exact (Q X).
    + destruct H as (L & Q). exists m1, l, (Some p), O. split; [reflexivity|]. split; [exact Hl|]. split; [symmetry; apply app_nil_r|]. split; [lia|]. split; [cbn; lia|exact Q].
Qed.

Section Program.
Variables (E : env) (p : list bool) (ops : list stmt) (m : memory) (vs : ovars) (fs : list fate).
Hypothesis (Hr : runs E ops (mkMem p 0) [] = (m, vs, fs)) (Hn : undamaged E ops (mkMem p 0) []).
Lemma fn_ok x y d l : nth_error vs x = Some (Some (ODoc d)) -> nth_error vs y = Some (Some (OList l)) ->
  exists m' l' e k, d_getFieldNames d l m = (m', Val (l', e)) /\ the_list l' = the_list l ++ firstn k (map fst (d_texts (the_doc d))) /\
  (e = None -> k = length (d_texts (the_doc d))) /\ (e <> None -> (k < length (d_texts (the_doc d)))%nat /\ plan m <> []) /\
  exists m1 m2, l_destroy l m = (m1, Val tt) /\ l_destroy l' m' = (m2, Val tt) /\ live m2 = live m1.
Proof.
  intros Hx Hy. pose proof (vars_whole Hr Hn) as W. assert (Wd : whole_d d) by exact (whole_in W Hx). assert (Wl : whole_l l) by exact (whole_in W Hy).
  destruct (@names_ok (od_texts d) l m Wd Wl) as (m' & l' & e & k & He & W' & V & L & K). exists m', l', e, k. split; [exact He|].
  assert (Hm : map fst (d_texts (the_doc d)) = map (fun t => the_word (fst t)) (od_texts d)) by (unfold the_doc; cbn [d_texts]; now rewrite map_map).
  assert (Hk : length (d_texts (the_doc d)) = length (od_texts d)) by (unfold the_doc; cbn [d_texts]; apply map_length).
  split; [rewrite Hm; exact V|]. rewrite Hk. split; [intros ->; exact K|]. split; [intros X; destruct e; [exact K|now destruct X]|].
  exists (mkMem (plan m) (live m - fp_list l)), (mkMem (plan m') (live m' - fp_list l')). split; [apply (list_frees Wl)|]. split; [apply (list_frees W')|]. cbn [live]. lia.
Qed.
Lemma fn_usable x y d l m' l' e ops2 m2 vs2 fs2 : no_crash fs -> nth_error vs x = Some (Some (ODoc d)) -> nth_error vs y = Some (Some (OList l)) -> d_getFieldNames d l m = (m', Val (l', e)) ->
  runs E ops2 m' (upd y (Some (OList l')) vs) = (m2, vs2, fs2) -> undamaged E ops2 m' (upd y (Some (OList l')) vs) ->
  ~ In Died_fuel fs2 /\
  (forall k, nth_error fs2 k = Some Died_undefined -> nth_error ops2 k = Some (SWordLetters []) \/ exists z w, nth_error ops2 k = Some (SWordUtf8 z) /\ nth_error (the_values vs2) z = Some (Some (VWord (WGood w))) /\ asUtf8 w = UB) /\
  (e_ndebug E = false -> never_threw assigns ops2 fs2 -> v_prog E (map same (done ops2 fs2)) (the_values (upd y (Some (OList l')) vs)) = (the_values vs2, Ok (map (fun _ => Ok tt) (done ops2 fs2)))) /\
  (no_crash fs2 -> (forall v, In v vs2 -> v = None) -> 0 <= live m2 <= may_be_lost ops fs + may_be_lost ops2 fs2).
Proof.
  intros Hc Hx Hy He Hr2 Hn2. pose proof (vars_whole Hr Hn) as W. assert (Wd : whole_d d) by exact (whole_in W Hx). assert (Wl : whole_l l) by exact (whole_in W Hy).
  destruct (@names_ok (od_texts d) l m Wd Wl) as (m'' & l'' & e' & k & He' & W' & V & L & _). unfold d_getFieldNames in He. rewrite He in He'. injection He' as <- <- <-.
  assert (Wv : Forall whole_v (upd y (Some (OList l')) vs)) by (apply upd_Forall; [exact W'|exact W]).
  destruct (@runs_ok E _ _ _ _ _ _ Hr2 Wv Hn2) as (W2 & L2 & V2 & F2 & _ & U2 & _).
  split; [exact F2|]. split; [|split; [intros Hd Ht; apply V2; [exact Ht|now left]|]].
  - intros j Hj. destruct (U2 j Hj) as (c & Hcj & Hu & f & Hf). destruct (ub_only W2 Hf Hu) as [->|(z & w & -> & Hz & Hw)]; [left; exact Hcj|right; exists z, w; auto].
  - intros Hc2 Hg. apply not_crashed in Hc. apply not_crashed in Hc2. destruct L2 as [L2|L2]; [tauto|]. destruct (@runs_ok E _ _ _ _ _ _ Hr ltac:(constructor) Hn) as (_ & [L1|L1] & _); [tauto|].
    assert (Hh : held vs2 = 0) by exact (gone_held Hg). rewrite Hh in L2. unfold held in L2. rewrite (upd_sum fp_v _ Hy) in L2. cbn [fp_v fp_o] in L2. cbn in L1. unfold held in L1. lia.
Qed.
End Program.
