(** C122: programs with several Matchers. *)
From Verif Require Import Base TrieM TrieA TrieP TrieP2 TrieD WordStoreM ErrorValuesM LevIndexM WordM MapM MapP DoubleM ContM MatcherM Spec_Hist TrieH WordStoreP ResM ResP ResQ Spec_Res Spec_EV Spec_Cont ContP Spec_Match MatchP MatchQ HoldM Spec_Hold HoldP HoldQ HoldR.
From Coq Require Import ZifyBool ZifyN ZifyNat.
Local Open Scope N_scope.
Local Open Scope m_scope.

(** ** Destroying tries *)
Lemma delete_all l : forall s, inv s -> NoDup l -> (forall i, In i l -> exists rt, trie_at s i rt) ->
  exists s', t_delete_all l s = (s', Ok tt) /\ inv s' /\ (open_files s' + length l = open_files s)%nat /\ live_maps s' = live_maps s /\ (alive s' + length l = alive s)%nat /\
    length (s_tries s') = length (s_tries s) /\ forall j, ~ In j l -> nth_error (s_tries s') j = nth_error (s_tries s) j.
Proof.
  induction l as [|i l IH]; intros s HI Hn Ha. { exists s. cbn [length]. split; [reflexivity|]. split; [exact HI|]. repeat split; try lia; reflexivity. }
  apply NoDup_cons_iff in Hn as [Hi Hn]. destruct (Ha i (or_introl eq_refl)) as (rt & Hrt). cbn [t_delete_all]. unfold mbind at 1.
  destruct (t_delete i s) as [s1 o] eqn:Hd. pose proof Hd as Hd0. unfold t_delete in Hd0. unfold trie_at in Hrt. rewrite Hrt in Hd0. injection Hd0 as Hs1 <-.
  pose proof (delete_step HI Hd I) as [I1 F1 M1 X1 _]. cbn [isnew isdel] in *. destruct (X1 eq_refl) as [X2 X3].
  assert (Ht : s_tries s1 = upd i None (s_tries s)) by now rewrite <- Hs1.
  destruct (IH s1 I1 Hn) as (s' & -> & A & B & C & D & L & F).
  { intros j Hj. destruct (Ha j (or_intror Hj)) as (rj & Hrj). exists rj. unfold trie_at. rewrite Ht, ResP.upd_other; [exact Hrj|]. intros ->. now apply Hi. }
  exists s'. cbn [length]. split; [reflexivity|]. split; [exact A|]. split; [lia|]. split; [lia|]. split; [lia|]. split; [rewrite L, Ht; apply ResP.upd_length|].
  intros j Hj. rewrite F by (intros Hx; apply Hj; now right). rewrite Ht. apply ResP.upd_other. intros ->. apply Hj. now left.
Qed.

(** ** All Matchers of a program *)
Definition hands (o : option hmatcher) : list nat := match o with Some h => handles h | None => [] end.
Record PI (s : msys) (r : nat) : Prop := {
  pi_inv : inv (ms_sys s);
  pi_live : forall k h, nth_error (ms_ms s) k = Some (Some h) -> exists v, LS (ms_sys s) h v;
  pi_nodup : NoDup (flat_map hands (ms_ms s));
  pi_alive : alive (ms_sys s) = length (flat_map hands (ms_ms s));
  pi_files : (alive (ms_sys s) <= open_files (ms_sys s) <= alive (ms_sys s) + r)%nat;
  pi_maps : (live_maps (ms_sys s) <= length (s_tries (ms_sys s)))%nat;
  pi_exact : r = 0%nat -> live_maps (ms_sys s) = length (s_tries (ms_sys s))
}.
Lemma upd_split {A} (l : list A) : forall i y, nth_error l i = Some y -> exists a b, l = a ++ y :: b /\ length a = i /\ forall x, upd i x l = a ++ x :: b.
Proof.
  induction l as [|z l IH]; intros [|i] y H; cbn in H; try discriminate.
  - injection H as ->. exists [], l. repeat split.
  - destruct (IH _ _ H) as (a & b & -> & <- & Hu). exists (z :: a), b. repeat split. intros x. cbn. now rewrite Hu.
Qed.
Lemma NoDup_app_parts {A} (a b : list A) : NoDup (a ++ b) <-> NoDup a /\ NoDup b /\ forall x, In x a -> ~ In x b.
Proof.
  induction a as [|y a IH]; cbn. { split; [intros H; repeat split; [constructor|exact H|intros x []]|tauto]. }
  rewrite !NoDup_cons_iff, IH, in_app_iff. split.
  - intros (H1 & H2 & H3 & H4). repeat split; try tauto. intros x [<-|Hx]; [tauto|now apply H4].
  - intros ((H1 & H2) & H3 & H4). repeat split; try assumption; [intros [H|H]; [tauto|now apply (H4 y (or_introl eq_refl))]|]. intros x Hx. apply H4. now right.
Qed.
Lemma live_lt s r i : PI s r -> In i (flat_map hands (ms_ms s)) -> exists rt, trie_at (ms_sys s) i rt.
Proof.
  intros P H. apply in_flat_map in H as ([h|] & Ho & Hi); [|contradiction]. apply In_nth_error in Ho as (k & Hk). destruct (pi_live P Hk) as (v & L). exact (see_handles (ls_see L) Hi).
Qed.
Lemma LS_other s s' h v : inv s' -> LS s h v -> (forall j, In j (handles h) -> nth_error (s_tries s') j = nth_error (s_tries s) j) -> LS s' h v.
Proof.
  intros HI L H. constructor; [exact HI| |exact (ls_nodup L)]. rewrite <- (ls_see L). apply see_same. intros i Hi. unfold see_trie. now rewrite H.
Qed.
(** A call on Matcher [i]. *)
Lemma PI_call s r i h s' h' v' q : PI s r -> nth_error (ms_ms s) i = Some (Some h) -> LS s' h' v' -> G (ms_sys s) h s' h' q ->
  PI (mkMS s' (upd i (Some h') (ms_ms s))) (r + Nat.b2n q).
Proof.
  intros P Hi L' Gg. pose proof P as [A B C D F M X]. destruct Gg as [G1 G2 G3 G4 G5 G6 G7]. destruct (upd_split Hi) as (a & b & Hms & Hla & Hup).
  assert (Hperm : Permutation (flat_map hands (upd i (Some h') (ms_ms s))) (flat_map hands (ms_ms s) ++ seq (length (s_tries (ms_sys s))) (length (s_tries s') - length (s_tries (ms_sys s))))).
  { rewrite Hup, Hms, !flat_map_app. cbn [flat_map hands]. rewrite G2, <- !app_assoc. apply Permutation_app_head, Permutation_app_head, Permutation_app_comm. }
  constructor; cbn [ms_sys ms_ms].
  - exact (ls_inv L').
  - intros k hk Hk. destruct (Nat.eq_dec i k) as [<-|Hne].
    + rewrite ResP.upd_nth in Hk by (apply nth_error_Some; congruence). injection Hk as <-. now exists v'.
    + rewrite ResP.upd_other in Hk by exact Hne. destruct (B _ _ Hk) as (v & L). exists v. apply (LS_other (ls_inv L') L). intros j Hj.
      destruct (see_handles (ls_see L) Hj) as (rt & Hrt). apply G7; [|exact (at_lt Hrt)]. intros Hjh.
      rewrite Hms in Hk. rewrite Hms, flat_map_app in C. cbn [flat_map hands] in C. apply NoDup_app_parts in C as (_ & C2 & C3). apply NoDup_app_parts in C2 as (_ & _ & C4).
      destruct (Nat.ltb_spec k (length a)) as [Hlt|Hge].
      * rewrite nth_error_app1 in Hk by exact Hlt. apply (C3 j); [apply in_flat_map; exists (Some hk); split; [now apply nth_error_In in Hk|exact Hj]|]. apply in_app_iff. now left.
      * rewrite nth_error_app2 in Hk by exact Hge. destruct (k - length a)%nat as [|n] eqn:Hn; [lia|]. cbn in Hk. apply (C4 j Hjh).
        apply in_flat_map. exists (Some hk). split; [now apply nth_error_In in Hk|exact Hj].
  - apply (Permutation_NoDup (Permutation_sym Hperm)). apply NoDup_app_parts. split; [exact C|]. split; [apply seq_NoDup|]. intros x Hx Hs. apply in_seq in Hs.
    destruct (live_lt P Hx) as (rt & Hrt). apply at_lt in Hrt. lia.
  - rewrite (Permutation_length Hperm), app_length, seq_length, <- D. lia.
  - lia.
  - lia.
  - intros Hr. assert (r = 0%nat /\ q = false) as [-> ->] by (destruct q; cbn in Hr; split; try reflexivity; lia). specialize (X eq_refl). specialize (G6 eq_refl). lia.
Qed.

(** A new Matcher. *)
Lemma PI_new E s r s' o : PI s r -> h_new E s = (s', o) -> came o -> PI s' (r + Nat.b2n (no_room o)) /\
  ((o = Ok tt /\ exists h v, ms_ms s' = ms_ms s ++ [Some h] /\ LS (ms_sys s') h v /\ mt_new E = Ok v /\ length (handles h) = 1%nat /\
      length (s_tries (ms_sys s')) = S (length (s_tries (ms_sys s))) /\ forall k hk w, nth_error (ms_ms s) k = Some (Some hk) -> see (ms_sys s) hk = Some w -> see (ms_sys s') hk = Some w) \/ o = Throw ERuntime).
Proof.
  intros P H Hc. pose proof P as [A B C D F M X]. unfold h_new in H. destruct (t_new E (ms_sys s)) as [k o1] eqn:Hn.
  assert (Hc1 : came o1) by (destruct o1; [exact I|exact I|injection H as <- <-; contradiction..]).
  destruct (new_ok A Hn Hc1) as (Hinv & Hfl & [(-> & rt & Ht & Hnew & Hm)|(-> & Ht & Hnew & Hm)]); injection H as <- <-.
  - set (h := mkHM [] [] ev_new [] [] (mkHS (length (s_tries (ms_sys s))) []) []).
    assert (Hlen : length (s_tries k) = S (length (s_tries (ms_sys s)))) by (rewrite Ht, app_length; cbn; lia).
    assert (L : LS k h (mkMt [] [] ev_new [] [] (mkWS (rt_t rt) []) [])).
    { constructor; [exact Hinv| |repeat constructor; intros []]. unfold see, see_store, see_trie, h. cbn. rewrite Ht, nth_error_app2 by lia. now rewrite Nat.sub_diag. }
    assert (Hal : alive k = S (alive (ms_sys s))) by (unfold alive; rewrite Ht, filter_app, app_length; cbn; lia).
    split.
    + cbn [no_room Nat.b2n]. rewrite Nat.add_0_r. constructor; cbn [ms_sys ms_ms].
      * exact Hinv.
      * intros j hj Hj. destruct (Nat.ltb_spec j (length (ms_ms s))) as [Hlt|Hge].
        -- rewrite nth_error_app1 in Hj by exact Hlt. destruct (B _ _ Hj) as (v & Lv). exists v. constructor; [exact Hinv|exact (see_grown (ls_see Lv) Ht)|exact (ls_nodup Lv)].
        -- rewrite nth_error_app2 in Hj by exact Hge. destruct (j - length (ms_ms s))%nat as [|[|n]]; cbn in Hj; try discriminate. injection Hj as <-. eexists. exact L.
      * rewrite flat_map_app. cbn [flat_map hands handles h h_store h_idx map hs_trie app]. apply NoDup_app_parts. split; [exact C|]. split; [repeat constructor; intros []|].
        intros x Hx [<-|[]]. destruct (live_lt P Hx) as (rx & Hrx). apply at_lt in Hrx. lia.
      * rewrite flat_map_app, app_length. cbn. lia.
      * lia.
      * lia.
      * intros Hr. specialize (X Hr). lia.
    + left. split; [reflexivity|]. exists h. eexists. cbn [ms_sys ms_ms]. split; [reflexivity|]. split; [exact L|]. split.
      * unfold mt_new, ws_new. now rewrite Hnew.
      * split; [reflexivity|]. split; [exact Hlen|]. intros j hj w Hj Hw. exact (see_grown Hw Ht).
  - split; [|now right]. cbn [no_room Nat.b2n]. assert (Hal : alive k = alive (ms_sys s)) by (unfold alive; now rewrite Ht). constructor; cbn [ms_sys ms_ms]; rewrite ?Ht; try assumption; try lia.
    intros j hj Hj. destruct (B _ _ Hj) as (v & Lv). exists v. constructor; [exact Hinv| |exact (ls_nodup Lv)]. apply (@see_grown (ms_sys s) k hj v []); [exact (ls_see Lv)|now rewrite app_nil_r].
Qed.
(** Destroying a living Matcher. *)
Lemma PI_delete s r i h : PI s r -> nth_error (ms_ms s) i = Some (Some h) -> exists s', h_delete i s = (s', Ok tt) /\ PI s' r /\ ms_ms s' = upd i None (ms_ms s) /\
  length (s_tries (ms_sys s')) = length (s_tries (ms_sys s)) /\ (forall k hk w, k <> i -> nth_error (ms_ms s) k = Some (Some hk) -> see (ms_sys s) hk = Some w -> see (ms_sys s') hk = Some w).
Proof.
  intros P Hi. pose proof P as [A B C D F M X]. unfold h_delete. rewrite Hi. destruct (B _ _ Hi) as (v & L).
  set (l := map (fun x => hl_trie (snd x)) (h_idx h) ++ [hs_trie (h_store h)]). assert (Hl : Permutation l (handles h)) by (unfold l, handles; symmetry; apply Permutation_cons_append).
  destruct (@delete_all l (ms_sys s) A) as (k & -> & I1 & F1 & M1 & A1 & L1 & O1).
  { apply (Permutation_NoDup (Permutation_sym Hl)), (ls_nodup L). }
  { intros j Hj. apply (Permutation_in _ Hl) in Hj. exact (see_handles (ls_see L) Hj). }
  destruct (upd_split Hi) as (a & b & Hms & Hla & Hup).
  assert (Hperm : Permutation (handles h ++ flat_map hands (upd i None (ms_ms s))) (flat_map hands (ms_ms s))).
  { rewrite Hup, Hms, !flat_map_app. cbn [flat_map hands app]. rewrite !app_assoc. apply Permutation_app_tail, Permutation_app_comm. }
  pose proof (Permutation_NoDup (Permutation_sym Hperm) C) as C'. apply NoDup_app_parts in C' as (_ & C2 & C3).
  assert (Hin : forall j hj x, j <> i -> nth_error (ms_ms s) j = Some (Some hj) -> In x (handles hj) -> In x (flat_map hands (upd i None (ms_ms s)))).
  { intros j hj x Hne Hj Hx. apply in_flat_map. exists (Some hj). split; [|exact Hx]. apply (nth_error_In _ j). rewrite ResP.upd_other; [exact Hj|congruence]. }
  assert (Hnin : forall x, In x (flat_map hands (upd i None (ms_ms s))) -> ~ In x l).
  { intros x Hx Hxl. apply (Permutation_in _ Hl) in Hxl. exact (C3 x Hxl Hx). }
  pose proof (Permutation_length Hl) as Hll. pose proof (Permutation_length Hperm) as Hpl. rewrite app_length in Hpl.
  eexists. split; [reflexivity|]. cbn [ms_sys ms_ms]. split; [|split; [reflexivity|]].
  - constructor; cbn [ms_sys ms_ms].
    + exact I1.
    + intros j hj Hj. destruct (Nat.eq_dec i j) as [<-|Hne]; [rewrite ResP.upd_nth in Hj by (apply nth_error_Some; congruence); discriminate|]. rewrite ResP.upd_other in Hj by exact Hne.
      destruct (B _ _ Hj) as (w & Lw). exists w. apply (LS_other I1 Lw). intros x Hx. apply O1, Hnin, (Hin j hj); [congruence|exact Hj|exact Hx].
    + exact C2.
    + lia.
    + lia.
    + lia.
    + intros Hr. specialize (X Hr). lia.
  - split; [exact L1|]. intros j hj w Hne Hj Hw. destruct (B _ _ Hj) as (w' & Lw). rewrite (ls_see Lw) in Hw. injection Hw as ->.
    apply (@ls_see k hj w). apply (LS_other I1 Lw). intros x Hx. apply O1, Hnin, (Hin j hj); [exact Hne|exact Hj|exact Hx].
Qed.

(** ** One call of a program *)
Definition threw (o : outcome unit) : option exn := match o with Throw e => Some e | _ => None end.
Lemma do_G E c i s h v s' h' o : clean c -> LS s h v -> h_do E c (s, h) = ((s', h'), o) -> came o ->
  exists v', m_do E c v = (v', o) /\ LS s' h' v' /\ G s h s' h' (refused_call (PCall i c) (threw o)).
Proof.
  intros Hcl L H Hc. destruct (hsim_do (E := E) Hcl L H Hc) as (v' & Hv & L' & Gg). exists v'. split; [exact Hv|]. split; [exact L'|].
  destruct c as [c|c|f x|q p|q f]; cbn [refused_call]; try (destruct o as [[]|[]| | |]; exact Gg || contradiction).
  cbn [h_do] in H. unfold h_on_ev in H. cbn [fst snd] in H. destruct (ev_do c (h_ev h)) as [e o0]. injection H as <- <- <-. now apply G_same.
Qed.
