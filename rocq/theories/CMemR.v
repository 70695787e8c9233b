(** Proofs about CMemM: programs that start with nothing. *)
From Verif Require Import Base TrieM WordStoreM ErrorValuesM LevIndexM WordM MapM DoubleM ContM MatcherM DataFileM OwnM OomM Spec_Oom OomP ParM CMemM Spec_CMem CMemP CMemQ.
From Verif Require CApiM Spec_CApi.
Import CApiM(PAt, VPtr, c_call, c_do, c_run, col_word_new, col_matcher_new).

Section Start.
Variables (E : env) (p : list bool) (calls : list c_call) (m : memory) (h : kheap) (es : list c_end).
Hypothesis Hr : k_runs E calls (mkMem p 0) [] = (m, h, es).
Lemma good_start W : unharmed E calls (mkMem p 0) [] -> runs_good E W calls (mkMem p 0) [] m h es.
Proof. intros Hu. apply (runs_ok W); [constructor|exact Hu|exact Hr]. Qed.
Lemma safe_calls W : unharmed E calls (mkMem p 0) [] -> ~ In Call_fuel es /\
  (forall k, nth_error es k = Some Call_undefined -> exists c, nth_error calls k = Some c /\ snd (c_do E W c (the_heap h)) = UB) /\
  (In Call_aborted es -> e_ndebug E = false) /\ (In Call_unmodelled es -> In col_matcher_new calls).
Proof. intros Hu. destruct (good_start W Hu) as (_ & _ & _ & H). exact H. Qed.
Lemma effect_of_calls W : unharmed E calls (mkMem p 0) [] -> all_values es -> e_ndebug E = false -> exists calls' vs, happened calls es calls' vs /\ c_run E W calls' [] = (the_heap h, Ok vs).
Proof. intros Hu Ha Hd. destruct (good_start W Hu) as (_ & _ & H & _). exact (H Ha Hd). Qed.
Lemma freed_calls : unharmed E calls (mkMem p 0) [] -> all_values es -> (forall o, In o h -> o = None) -> (0 <= live m <= calls_lose calls es)%Z.
Proof.
  intros Hu Ha Hn. pose proof (mkWorld None [] (fun _ => false) (fun _ => None)) as W0. destruct (good_start W0 Hu) as (_ & H & _). specialize (H Ha). cbn [live] in H. change (fp_h []) with 0%Z in H. assert (Hf : fp_h h = 0%Z); [|lia].
  clear H Ha Hu Hr. induction h as [|o l IH]; [reflexivity|]. rewrite (Hn o (or_introl eq_refl)). change (fp_h (None :: l)) with (0 + fp_h l)%Z. rewrite IH; [reflexivity|]. intros x Hx. apply Hn. now right.
Qed.
Lemma no_copy s r : all_values es -> plan m = true :: true :: false :: true :: r ->
  if e_ndebug E then exists m' w, k_runs E (calls ++ [col_word_new s]) (mkMem p 0) [] = (m', h ++ [Some (KWord w)], es ++ [Returned (VPtr (PAt (length h)))]) /\ the_word w = []
  else exists m', k_runs E (calls ++ [col_word_new s]) (mkMem p 0) [] = (m', h, es ++ [Call_aborted]).
Proof.
  intros Ha Hm. rewrite (runs_app [col_word_new s] Hr Ha). destruct (e_ndebug E) eqn:He.
  - destruct (@no_copy_release E s m h r He Hm) as (m' & w & -> & Hw). eauto.
  - destruct (@no_copy_debug E s m h _ He Hm) as (m' & ->). eauto.
Qed.
End Start.
Lemma enough_calls E W n calls g vs : c_run E W calls [] = (g, Ok vs) -> ~ In col_matcher_new calls ->
  exists m h es, k_runs E calls (mkMem [] n) [] = (m, h, es) /\ the_heap h = g /\ map value es = vs /\ all_values es /\ no_shortage es.
Proof. intros H Hn. apply (@enough_ok E W calls (mkMem [] n) [] g vs); [reflexivity|constructor|exact Hn|exact H]. Qed.
