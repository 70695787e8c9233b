(** Programs with assignments of Documents and getFieldNames that run out of memory. *)
From Verif Require Import Base TrieM WordM WordP WordQ MapM DoubleM ContM OwnM OwnP OwnQ Spec_Own OomM Spec_Oom OomP OomQ OomR OomS OomT DaOomM DaOomP FnOomM FnOomP DfOomM Spec_DfOom.
Local Open Scope Z_scope.

Section Progs.
Variable E : env.
Definition xlose (c : xstmt) : Z := match c with XStmt c => may_lose c | XAssign _ _ => 1 | XNames _ _ => 0 end.
Definition how (e : option stop) : fate := match e with None => Done | Some p => Threw p end.
Definition fair (c : xstmt) (e : option stop) : Prop := match c, e with XStmt c, Some _ => assigns c = false | _, _ => True end.
Lemma val_at vs x c : nth_error vs x = Some (Some c) -> nth_error (the_values vs) x = Some (Some (the_obj c)).
Proof. intros H. unfold the_values. now rewrite nth_error_map, H. Qed.
Lemma xstep_some c vs f m : Forall whole_v vs -> xstep E c vs = Some f ->
  match f m with
  | (m1, Val (vs1, e)) => fair c e -> Forall whole_v vs1 /\ live m - held vs <= live m1 - held vs1 <= live m - held vs + (match e with None => 0 | Some _ => xlose c end) /\
      (e_ndebug E = false -> effect E c (how e) (the_values vs) (the_values vs1))
  | (_, Fail _) => False
  | (_, Aborted) => True
  | (_, Undefined) => exists c', c = XStmt c' /\ snd (v_exec E (same c') (the_values vs)) = UB /\ step E c' vs = Some f
  | (_, NoFuel) => False
  end.
Proof.
  intros Hv Hs. destruct c as [c|x y|x y]; cbn [xstep] in Hs.
  - destruct (@step_some E c vs f m Hv Hs) as [H _]. destruct (f m) as [m1 [[vs1 [p|]]|p| | |]]; [| |exact H|exact I| |exact H].
    + intros Hf. cbn in Hf. destruct H as (H1 & H2 & _). destruct (H2 (@over_assigns (the_values vs) c Hf)) as [W L]. split; [exact W|]. split; [exact L|]. intros _. cbn. now rewrite (H1 Hf).
    + intros _. destruct H as (W & V & L). split; [exact W|]. split; [lia|]. intros Hd. cbn. apply V. now left.
    + exists c. auto.
  - destruct (a_doc vs x) as [a|] eqn:Ha; [|discriminate]. destruct (a_doc vs y) as [b|] eqn:Hb; [|discriminate]. apply a_doc_in in Ha. apply a_doc_in in Hb. injection Hs as <-.
    pose proof (val_at Hb) as Vb. destruct (Nat.eqb_spec x y) as [->|Hxy].
    + unfold val. intros _. split; [exact Hv|]. split; [lia|]. intros _. exists (the_doc b). split; [exact Vb|]. symmetry. apply upd_id. exact Vb.
    + assert (Wa : whole_d a) by exact (whole_in Hv Ha). assert (Wb : whole_d b) by exact (whole_in Hv Hb).
      destruct (loses_of b) as (k & Hk & Hl & _). destruct (@assign_ok k a b m ltac:(lia) Hl Wa Wb) as (m' & a' & e & He & W' & H). unfold change, tbind. rewrite He. unfold val. cbn [fst snd]. intros _.
      split; [apply upd_Forall; [exact W'|exact Hv]|]. split.
      * unfold held. rewrite (upd_sum fp_v _ Ha). cbn [fp_v fp_o]. destruct e; cbn [xlose]; lia.
      * intros _. unfold the_values at 2. destruct e as [p|]; cbn; exists (the_doc b); (split; [exact Vb|]); rewrite upd_map; cbn [option_map the_obj]; destruct H as (H & _); now rewrite H.
  - destruct (a_doc vs x) as [d|] eqn:Hd; [|discriminate]. destruct (a_list vs y) as [l|] eqn:Hl; [|discriminate]. apply a_doc_in in Hd. apply a_list_in in Hl. injection Hs as <-.
    pose proof (val_at Hd) as Vd. pose proof (val_at Hl) as Vl. assert (Wd : whole_d d) by exact (whole_in Hv Hd). assert (Wl : whole_l l) by exact (whole_in Hv Hl).
    destruct (@names_ok (od_texts d) l m Wd Wl) as (m' & l' & e & k & He & W' & V & L & K). unfold change, tbind, d_getFieldNames. rewrite He. unfold val. cbn [fst snd]. intros _.
    assert (Hm : map fst (d_texts (the_doc d)) = map (fun t => the_word (fst t)) (od_texts d)) by (unfold the_doc; cbn [d_texts]; now rewrite map_map).
    assert (Hk : length (d_texts (the_doc d)) = length (od_texts d)) by (unfold the_doc; cbn [d_texts]; apply map_length).
    split; [apply upd_Forall; [exact W'|exact Hv]|]. split.
    + unfold held. rewrite (upd_sum fp_v _ Hl). cbn [fp_v fp_o]. destruct e; cbn [xlose]; lia.
    + intros _. unfold the_values at 2. rewrite upd_map. cbn [option_map the_obj]. rewrite V. destruct e as [p|]; cbn [how effect]; exists (the_doc d), (the_list l).
      * exists k. split; [exact Vd|]. split; [exact Vl|]. split; [rewrite Hk; apply K|]. now rewrite Hm.
      * split; [exact Vd|]. split; [exact Vl|]. rewrite Hm, K, firstn_all2 by (rewrite map_length; lia). reflexivity.
Qed.
Lemma x_never_cons c ops f fs : x_never (c :: ops) (f :: fs) -> x_never ops fs.
Proof. intros H k d p Hk Hd. exact (H (S k) d p Hk Hd). Qed.
Lemma xruns_ok ops : forall m vs m' vs' fs, xruns E ops m vs = (m', vs', fs) -> Forall whole_v vs -> x_never ops fs ->
  Forall whole_v vs' /\
  (crashed fs \/ live m - held vs <= live m' - held vs' <= live m - held vs + x_lost ops fs) /\
  (e_ndebug E = false -> effects E ops fs (the_values vs) (the_values vs')) /\
  ~ In Died_fuel fs /\
  (forall k, nth_error fs k = Some Died_undefined -> exists c f, nth_error ops k = Some (XStmt c) /\ snd (v_exec E (same c) (the_values vs')) = UB /\ step E c vs' = Some f).
Proof.
  induction ops as [|c ops IH]; intros m vs m' vs' fs; cbn [xruns].
  - intros [= <- <- <-] Hv _. split; [exact Hv|]. split; [right; cbn; lia|]. split; [reflexivity|]. split; [intros []|]. intros [|k]; discriminate.
  - destruct (xstep E c vs) as [f|] eqn:Hs.
    2: { destruct (xruns E ops m vs) as [[m2 vs2] fs2] eqn:Hr. intros [= <- <- <-] Hv Hn. destruct (IH _ _ _ _ _ Hr Hv (x_never_cons Hn)) as (I1 & I2 & I3 & I4 & I5).
      split; [exact I1|]. split; [destruct I2; [left; auto using crashed_cons|right; exact H]|]. split; [intros Hd; exists (the_values vs); split; [destruct c; reflexivity|auto]|]. split; [intros [H|H]; [discriminate|auto]|].
      intros [|k] H; [discriminate|exact (I5 k H)]. }
    intros Hr Hv Hn. pose proof (@xstep_some c vs f m Hv Hs) as H. destruct (f m) as [m1 [[vs1 e]|p| | |]]; [|destruct H| | |destruct H].
    + destruct (xruns E ops m1 vs1) as [[m2 vs2] fs2] eqn:Hr2. injection Hr as <- <- <-. change (match e with Some p => Threw p | None => Done end) with (how e) in *.
      assert (Hf : fair c e). { destruct c as [c| |], e as [p|]; try exact I. cbn. destruct (assigns c) eqn:Ha; [|reflexivity]. exfalso. exact (Hn 0%nat c p eq_refl Ha eq_refl). }
      destruct (H Hf) as (W1 & L1 & F1). destruct (IH _ _ _ _ _ Hr2 W1 (x_never_cons Hn)) as (I1 & I2 & I3 & I4 & I5).
      split; [exact I1|]. split; [destruct I2 as [I2|I2]; [left; now apply crashed_cons|right; destruct e; cbn [x_lost how]; unfold xlose in L1; lia]|].
      split; [intros Hd; exists (the_values vs1); split; [exact (F1 Hd)|exact (I3 Hd)]|]. split; [intros [X|X]; [destruct e; discriminate|auto]|].
      intros [|k] X; [destruct e; discriminate|exact (I5 k X)].
    + injection Hr as <- <- <-. split; [exact Hv|]. split; [left; left; now left|]. split; [intros Hd; exists (the_values vs); split; [destruct c; reflexivity|destruct ops; reflexivity]|]. split; [intros [X|[]]; discriminate|]. intros [|[|k]]; discriminate.
    + injection Hr as <- <- <-. split; [exact Hv|]. split; [left; right; now left|]. split; [intros Hd; exists (the_values vs); split; [destruct c; reflexivity|destruct ops; reflexivity]|]. split; [intros [X|[]]; discriminate|].
      intros [|[|k]]; try discriminate. intros _. destruct H as (c' & -> & Hu & Hst). exists c', f. auto.
Qed.
Lemma x_prog p ops m vs fs : xruns E ops (mkMem p 0) [] = (m, vs, fs) -> x_never ops fs ->
  ~ In Died_fuel fs /\
  (forall k, nth_error fs k = Some Died_undefined -> nth_error ops k = Some (XStmt (SWordLetters [])) \/
     exists z w, nth_error ops k = Some (XStmt (SWordUtf8 z)) /\ nth_error (the_values vs) z = Some (Some (VWord (WGood w))) /\ asUtf8 w = UB) /\
  (e_ndebug E = false -> effects E ops fs [] (the_values vs)) /\
  (no_crash fs -> (forall v, In v vs -> v = None) -> 0 <= live m <= x_lost ops fs).
Proof.
  intros Hr Hn. destruct (@xruns_ok ops _ _ _ _ _ Hr ltac:(constructor) Hn) as (W & L & F & D & U). split; [exact D|]. split; [|split; [exact F|]].
  - intros k Hk. destruct (U k Hk) as (c & f & Hc & Hu & Hf). destruct (ub_only W Hf Hu) as [->|(z & w & -> & Hz & Hw)]; [left; exact Hc|right; exists z, w; auto].
  - intros Hc Hg. apply not_crashed in Hc. destruct L as [L|L]; [tauto|]. assert (Hh : held vs = 0) by exact (gone_held Hg). rewrite Hh in L. cbn in L. lia.
Qed.
End Progs.
