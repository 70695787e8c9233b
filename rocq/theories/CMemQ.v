(** Proofs about CMemM: programs. *)
From Verif Require Import Base TrieM WordStoreM ErrorValuesM LevIndexM WordM WordP WordQ MapM DoubleM ContM MatcherM DataFileM OwnM OwnP OwnQ Spec_Own OomM Spec_Oom OomP OomQ OomR ParM Spec_Par ParP CMemM Spec_CMem CMemP.
From Verif Require CApiM Spec_CApi.
Import CApiM(ptr, PNull, PAt, c_val, VVoid, VPtr, c_call, c_do, c_run, col_word_new, col_document_add_text, col_matcher_new).
Import Spec_CApi(fallback).
Local Open Scope Z_scope.

Section Prog.
Variables (E : env) (W : world).
(** What is caught gives the value for that, however the memory is. *)
Lemma try_some A fb h (f : T A) k m m' h' v p : k_try fb h f k m = (m', Val (h', v, Some p)) -> v = fb.
Proof. unfold k_try, tbind, try, val. destruct (f m) as [m1 [a|q| | |]]; try discriminate. intros [= _ _ <-]; reflexivity. Qed.
Lemma delete_none h p mine m m' h' v x : k_delete h p mine m = (m', Val (h', v, Some x)) -> False.
Proof.
  unfold k_delete. destruct p as [|n|n|n]; try discriminate. destruct (k_at h (PAt n)) as [[i o]|]; [|discriminate]. destruct (mine o) as [f|]; [|discriminate].
  unfold tbind, val. destruct (f m) as [m1 [a|q| | |]]; discriminate.
Qed.
Lemma caught_value c f h m m' h' v p : k_do E c h = Some f -> f m = (m', Val (h', v, Some p)) -> v = fallback c.
Proof.
  destruct c as [s|w|w|w bufSize|id|d|d|x y s| |q|q q2|q s|q|q| |r|r|r i|r i| |c|c d|q|q|q q2 t|q q2]; cbn [k_do]; intros [= <-]; cbn [fallback]; intros H; try discriminate H;
    try (eapply try_some; exact H); try (exfalso; eapply delete_none; exact H).
  - destruct (k_at h w) as [[n []]|]; discriminate H.
  - destruct (k_at h w) as [[n []]|]; try discriminate H. unfold tbind in H. destruct (o_read o m) as [m1 [a|q| | |]]; try discriminate. eapply try_some; exact H.
  - destruct (k_at h d) as [[n []]|]; discriminate H.
  - destruct (k_at h x) as [[n []]|]; try discriminate H. destruct (k_at h y) as [[n2 []]|]; try discriminate H. unfold tbind, val in H. destruct (d_addUtf8 E d o s m) as [m1 [a|q| | |]]; try discriminate. congruence.
  - destruct (k_at h r) as [[n []]|]; discriminate H.
  - destruct (k_at h r) as [[n []]|]; try discriminate H. destruct (r_getID i r0) as [x' o]. eapply try_some; exact H.
  - destruct (k_at h r) as [[n []]|]; try discriminate H. destruct (r_getID i r0) as [x' o]. eapply try_some; exact H.
  - destruct (k_at h c) as [[n []]|]; try discriminate H. destruct (k_at h d) as [[n2 []]|]; try discriminate H. eapply try_some; exact H.
Qed.
Lemma caught_fallback calls : forall m h m' h' es k c p v, k_runs E calls m h = (m', h', es) -> nth_error calls k = Some c -> nth_error es k = Some (Caught p v) -> v = fallback c.
Proof.
  induction calls as [|c0 r IH]; intros m h m' h' es k c p v H Hc He; [destruct k; discriminate|]. cbn [k_runs] in H. destruct (k_do E c0 h) as [f|] eqn:Hf.
  - destruct (f m) as [m1 [[[h1 v1] e]|q| | |]] eqn:Hr; try (injection H as <- <- <-; destruct k as [|[|k]]; discriminate He).
    destruct (k_runs E r m1 h1) as [[m2 h2] es2] eqn:Hr2. injection H as <- <- <-. destruct k as [|k]; cbn in Hc, He.
    + injection Hc as <-. destruct e as [q|]; [|discriminate]. injection He as -> ->. eapply caught_value; eauto.
    + eapply IH; eauto.
  - injection H as <- <- <-. destruct k as [|[|k]]; discriminate He.
Qed.

Lemma unharmed_step c r m h f m1 h1 v e : unharmed E (c :: r) m h -> k_do E c h = Some f -> f m = (m1, Val (h1, v, e)) ->
  (~ replaces (the_heap h) c \/ e <> Some OutOfMemory) /\ unharmed E r m1 h1.
Proof.
  intros Hu Hf Hr. split.
  - assert (He : e = Some OutOfMemory \/ e <> Some OutOfMemory) by (destruct e as [[|]|]; [left; reflexivity|right; discriminate|right; discriminate]).
    destruct He as [->|He]; [|now right]. left. intros Hp. apply (Hu 0%nat c m h [] v eq_refl eq_refl Hp). cbn [k_runs]. rewrite Hf, Hr. destruct (k_runs E r m1 h1) as [[m2 h2] es2]. reflexivity.
  - intros k c0 m2 h2 es2 v2 Hc H2 Hp. specialize (Hu (S k) c0 m2 h2 (match e with None => Returned v | Some p => Caught p v end :: es2) v2 Hc).
    cbn [firstn k_runs] in Hu. rewrite Hf, Hr, H2 in Hu. specialize (Hu eq_refl Hp). destruct (k_runs E r m1 h1) as [[m3 h3] es3]. exact Hu.
Qed.
Definition runs_good (calls : list c_call) (m : memory) (h : kheap) (m' : memory) (h' : kheap) (es : list c_end) : Prop :=
  whole_h h' /\ (all_values es -> live m - fp_h h <= live m' - fp_h h' <= live m - fp_h h + calls_lose calls es) /\
  (all_values es -> e_ndebug E = false -> exists cs vs, happened calls es cs vs /\ c_run E W cs (the_heap h) = (the_heap h', Ok vs)) /\
  ~ In Call_fuel es /\
  (forall k, nth_error es k = Some Call_undefined -> exists c, nth_error calls k = Some c /\ snd (c_do E W c (the_heap h')) = UB) /\
  (In Call_aborted es -> e_ndebug E = false) /\
  (In Call_unmodelled es -> In col_matcher_new calls).
Lemma runs_ok calls : forall m h m' h' es, whole_h h -> unharmed E calls m h -> k_runs E calls m h = (m', h', es) -> runs_good calls m h m' h' es.
Proof.
  unfold runs_good. induction calls as [|c r IH]; intros m h m' h' es Hh Hu H; cbn [k_runs] in H.
  { injection H as <- <- <-. split; [exact Hh|]. split; [cbn; lia|]. split; [intros _ _; exists [], []; split; [constructor|reflexivity]|]. split; [easy|]. split; [intros []; discriminate|]. split; [intros []|intros []]. }
  destruct (k_do E c h) as [f|] eqn:Hf.
  2: { injection H as <- <- <-. split; [exact Hh|]. split; [intros Ha; inversion Ha; easy|]. split; [intros Ha; inversion Ha; easy|]. split; [intros [X|[]]; discriminate|]. split; [intros [|[]]; discriminate|]. split; [intros [X|[]]; discriminate|].
       intros _. destruct c; try discriminate Hf. left. reflexivity. }
  pose proof (k_ok W m Hh Hf) as Hs. unfold sp in Hs. destruct (f m) as [m1 [[[h1 v] e]|q| | |]] eqn:Hr.
  - destruct (k_runs E r m1 h1) as [[m2 h2] es2] eqn:Hr2. injection H as <- <- <-. destruct (unharmed_step Hu Hf Hr) as [Hne Hu2]. unfold good_end in Hs. destruct Hs as [Hq Hs].
    assert (Hw : whole_h h1). { destruct e as [p|]; [|apply Hs]. destruct Hs as (_ & _ & Hs). apply Hs. destruct Hne; [now left|right; congruence]. }
    destruct (IH m1 h1 m2 h2 es2 Hw Hu2 Hr2) as (W2 & L2 & V2 & F2 & U2 & A2 & X2). split; [exact W2|].
    split. { intros Ha. inversion Ha as [|? ? Ha1 Ha2]; subst. specialize (L2 Ha2). cbn [calls_lose]. destruct e as [p|]; [|destruct Hs as (_ & _ & Hs); lia]. destruct Hs as (_ & _ & Hs). destruct Hs as (_ & Hs & _); [destruct Hne; [now left|right; congruence]|]. lia. }
    split. { intros Ha Hd. inversion Ha as [|? ? Ha1 Ha2]; subst. destruct (V2 Ha2 Hd) as (cs & vs & Hc & Hrun). destruct e as [p|].
      - destruct Hs as (-> & _ & Hs). destruct Hs as (_ & _ & _ & Hs); [destruct Hne; [now left|right; congruence]|]. destruct Hs as [Hs|(-> & x & y & s & -> & Hs)].
        + exists cs, vs. split; [constructor; exact Hc|]. now rewrite <- Hs.
        + exists (col_document_add_text x y [] :: cs), (VVoid :: vs). split; [constructor; exact Hc|]. cbn [c_run]. unfold mbind at 1. rewrite Hs. unfold mbind. rewrite Hrun. reflexivity.
      - destruct Hs as (_ & Hs & _). exists (c :: cs), (v :: vs). split; [constructor; exact Hc|]. cbn [c_run]. unfold mbind at 1. rewrite (Hs (or_introl Hd)). unfold mbind. rewrite Hrun. reflexivity. }
    split. { intros [X|X]; [destruct e; discriminate|auto]. }
    split. { intros [|k] Hk; [destruct e; discriminate|]. exact (U2 k Hk). }
    split; [intros [X|X]; [destruct e; discriminate|auto]|intros [X|X]; [destruct e; discriminate|right; auto]].
  - destruct Hs.
  - injection H as <- <- <-. split; [exact Hh|]. split; [intros Ha; inversion Ha; easy|]. split; [intros Ha; inversion Ha; easy|]. split; [intros [X|[]]; discriminate|]. split; [intros [|[]]; discriminate|]. split; [intros _; apply Hs|intros [X|[]]; discriminate].
  - injection H as <- <- <-. split; [exact Hh|]. split; [intros Ha; inversion Ha; easy|]. split; [intros Ha; inversion Ha; easy|]. split; [intros [X|[]]; discriminate|]. split; [intros [|[]]; try discriminate; intros _; exists c; split; [reflexivity|exact Hs]|]. split; intros [X|[]]; discriminate.
  - destruct Hs.
Qed.

(** With memory enough. *)
Lemma enough_ok calls : forall m h g vs, plan m = [] -> whole_h h -> ~ In col_matcher_new calls -> c_run E W calls (the_heap h) = (g, Ok vs) ->
  exists m' h' es, k_runs E calls m h = (m', h', es) /\ the_heap h' = g /\ map value es = vs /\ all_values es /\ no_shortage es.
Proof.
  induction calls as [|c r IH]; intros m h g vs Hm Hh Hn H.
  { cbn in H. injection H as <- <-. exists m, h, []. split; [reflexivity|]. split; [reflexivity|]. split; [reflexivity|]. split; [constructor|intros v []]. }
  destruct (k_do E c h) as [f|] eqn:Hf; [|destruct Hn; left; destruct c; try discriminate Hf; reflexivity].
  cbn [c_run] in H. unfold mbind at 1 in H. destruct (c_do E W c (the_heap h)) as [g1 o] eqn:Hc. destruct o as [v1| | | |]; try discriminate. unfold mbind in H.
  pose proof (k_ok W m Hh Hf) as Hs. unfold sp in Hs. cbn [k_runs]. rewrite Hf. unfold good_crash in Hs. rewrite Hc in Hs. cbn [snd] in Hs. destruct (f m) as [m1 [[[h1 v] e]|q| | |]] eqn:Hr.
  - unfold good_end in Hs. destruct Hs as [Hq Hs]. specialize (Hq Hm). rewrite Hc in Hs.
    assert (Hw : whole_h h1 /\ (g1 = the_heap h1 /\ v1 = v) /\ e <> Some OutOfMemory).
    { destruct e as [p|].
      - destruct Hs as (-> & H1 & Hs). destruct (H1 Hm) as (x & ->). destruct Hs as (H2 & _ & H3 & _); [right; discriminate|]. specialize (H3 Hm). split; [exact H2|]. split; [split; congruence|discriminate].
      - destruct Hs as (H2 & H3 & _). specialize (H3 (or_intror Hm)). split; [exact H2|]. split; [split; congruence|discriminate]. }
    destruct Hw as (Hw & [-> ->] & He). destruct (c_run E W r (the_heap h1)) as [g2 [vs2| | | |]] eqn:Hr2; try discriminate. injection H as <- <-.
    destruct (IH m1 h1 g2 vs2 Hq Hw (fun X => Hn (or_intror X)) Hr2) as (m2 & h2 & es & K1 & K2 & K3 & K4 & K5). rewrite K1. eexists _, _, _. split; [reflexivity|]. split; [exact K2|]. split; [cbn; rewrite K3; now destruct e|].
    split; [constructor; [now destruct e|exact K4]|]. intros w [X|X]; [|exact (K5 _ X)]. destruct e as [p|]; [|discriminate]. injection X as -> ->. now apply He.
  - destruct Hs.
  - destruct Hs as [_ Hs]. specialize (Hs Hm). discriminate.
  - discriminate.
  - destruct Hs.
Qed.

Lemma runs_app a : forall b m h m1 h1 es1, k_runs E a m h = (m1, h1, es1) -> all_values es1 ->
  k_runs E (a ++ b) m h = let '(m2, h2, es2) := k_runs E b m1 h1 in (m2, h2, es1 ++ es2).
Proof.
  induction a as [|c a IH]; intros b m h m1 h1 es1 H Ha; cbn [k_runs app] in *.
  { injection H as <- <- <-. destruct (k_runs E b m h) as [[m2 h2] es2]. reflexivity. }
  destruct (k_do E c h) as [f|]; [|injection H as <- <- <-; inversion Ha; easy].
  destruct (f m) as [m2 [[[h2 v] e]|q| | |]]; try (injection H as <- <- <-; inversion Ha; easy).
  destruct (k_runs E a m2 h2) as [[m3 h3] es3] eqn:Hr. injection H as <- <- <-. inversion Ha; subst. rewrite (IH b m2 h2 m3 h3 es3 Hr) by assumption. destruct (k_runs E b m3 h3) as [[m4 h4] es4]. reflexivity.
Qed.
(** When strdup has no memory. *)
Lemma no_copy_debug s m h r : e_ndebug E = false -> plan m = true :: true :: false :: r -> exists m', k_runs E [col_word_new s] m h = (m', h, [Call_aborted]).
Proof. intros He Hm. eexists. cbn [k_runs k_do]. unfold k_try, k_new, cleanup, o_of_text, construct, o_convert, try, tbind, alloc. rewrite Hm. cbn [plan]. rewrite He. reflexivity. Qed.
Lemma no_copy_release s m h r : e_ndebug E = true -> plan m = true :: true :: false :: true :: r ->
  exists m' w, k_runs E [col_word_new s] m h = (m', h ++ [Some (KWord w)], [Returned (VPtr (PAt (length h)))]) /\ the_word w = [].
Proof.
  intros He Hm. cbn [k_runs k_do]. unfold k_try, k_new, cleanup, o_of_text, construct, o_convert, try, tbind, alloc, o_finish. rewrite Hm. cbn [plan]. rewrite He.
  destruct (_ <? _)%N; cbn; eexists _, _; split; reflexivity.
Qed.
End Prog.
