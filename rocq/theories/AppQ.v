(** The graphical programs: reading the data in batches. *)
From Verif Require Import Base TrieM WordStoreM ErrorValuesM LevIndexM WordM MapM DoubleM ContM DataFileM QIndexM MatcherM AppM MatchY.
From Coq Require Import ZifyBool ZifyN ZifyNat.
Local Open Scope N_scope.
Local Open Scope m_scope.

Section Load.
Variables (E : env) (one : list N -> M loading unit) (parse : list N -> outcome (option ((N -> document) * list (list N)))).
Hypothesis Hone : forall l s, one l s =
  match parse l with
  | Ok None => (s, Ok tt)
  | Ok (Some (df, t)) => add_doc E (df (N.of_nat (length (l_src s)))) t s
  | Throw x => (s, Throw x) | Abort => (s, Abort) | UB => (s, UB) | Fuel => (s, Fuel)
  end.
Definition added {A} (ps : list (option A)) : list A := flat_map (fun p => match p with Some x => [x] | None => [] end) ps.
Fixpoint numbered (k : nat) (l : list ((N -> document) * list (list N))) : corpus :=
  match l with [] => [] | (df, _) :: r => df (N.of_nat k) :: numbered (S k) r end.
Definition parsed (l : list N) (p : option ((N -> document) * list (list N))) : Prop := parse l = Ok p.

Lemma add_doc_eq d t s : add_doc E d t s =
  let s1 := mkLd (l_m s) (l_c s ++ [d]) (l_src s ++ [t]) (l_i s + 1) in
  if (l_i s + 1) mod 100000 =? 0
  then match mt_index E (l_c s ++ [d]) (l_m s) with
       | (m', Ok _) => (mkLd m' [] (l_src s ++ [t]) (l_i s + 1), Ok tt)
       | (m', Throw x) => (mkLd m' (l_c s ++ [d]) (l_src s ++ [t]) (l_i s + 1), Throw x)
       | (m', UB) => (mkLd m' (l_c s ++ [d]) (l_src s ++ [t]) (l_i s + 1), UB)
       | (m', Abort) => (mkLd m' (l_c s ++ [d]) (l_src s ++ [t]) (l_i s + 1), Abort)
       | (m', Fuel) => (mkLd m' (l_c s ++ [d]) (l_src s ++ [t]) (l_i s + 1), Fuel)
       end
  else (s1, Ok tt).
Proof.
  clear. unfold add_doc, mbind, reads. cbn [fst snd l_i]. destruct ((l_i s + 1) mod 100000 =? 0); [|reflexivity].
  unfold index_batch. cbn [l_c l_m l_src l_i]. destruct (mt_index E (l_c s ++ [d]) (l_m s)) as [m' [[]| | | |]]; reflexivity.
Qed.
Lemma index_more c1 c2 m : mt_index E (c1 ++ c2) m =
  match mt_index E c1 m with (m', Ok _) => mt_index E c2 m' | (m', Throw x) => (m', Throw x) | (m', UB) => (m', UB) | (m', Abort) => (m', Abort) | (m', Fuel) => (m', Fuel) end.
Proof. clear. rewrite index_app. unfold mbind. destruct (mt_index E c1 m) as [m' [[]| | | |]]; reflexivity. Qed.

Lemma load_all lines ps : Forall2 parsed lines ps -> forall s,
  match mt_index E (l_c s ++ numbered (length (l_src s)) (added ps)) (l_m s) with
  | (m', Ok _) => exists s', (each_line one lines ;;; index_batch E) s = (s', Ok tt) /\ l_m s' = m' /\ l_src s' = l_src s ++ map snd (added ps)
  | (_, o) => snd ((each_line one lines ;;; index_batch E) s) = o
  end.
Proof.
  induction 1 as [|l p lines ps Hp _ IH]; intros s.
  - cbn [added flat_map numbered each_line]. rewrite app_nil_r. unfold mbind, ret, index_batch. destruct (mt_index E (l_c s) (l_m s)) as [m' [[]| | | |]]; try reflexivity.
    eexists. split; [reflexivity|]. cbn [l_m l_src map]. now rewrite app_nil_r.
  - assert (Hstep : (each_line one (l :: lines) ;;; index_batch E) s = (one l ;;; (each_line one lines ;;; index_batch E)) s).
    { cbn [each_line]. unfold mbind. destruct (one l s) as [s1 [[]| | | |]]; reflexivity. }
    rewrite Hstep. clear Hstep. set (K := each_line one lines ;;; index_batch E) in *. unfold mbind. rewrite Hone. unfold parsed in Hp. rewrite Hp. destruct p as [[df t]|]; [|exact (IH s)].
    change (added (Some (df, t) :: ps)) with ((df, t) :: added ps). cbn [numbered map snd].
    set (d := df (N.of_nat (length (l_src s)))). rewrite add_doc_eq. cbv zeta.
    replace (l_c s ++ d :: numbered (S (length (l_src s))) (added ps)) with ((l_c s ++ [d]) ++ numbered (S (length (l_src s))) (added ps)) by (rewrite <- app_assoc; reflexivity).
    assert (Hlen : length (l_src s ++ [t]) = S (length (l_src s))) by (rewrite app_length; cbn; lia).
    destruct ((l_i s + 1) mod 100000 =? 0).
    + rewrite index_more. destruct (mt_index E (l_c s ++ [d]) (l_m s)) as [m1 [[]| | | |]]; try reflexivity.
      specialize (IH (mkLd m1 [] (l_src s ++ [t]) (l_i s + 1))). cbn [l_m l_c l_src] in IH. rewrite Hlen in IH. change ([] ++ ?x) with x in IH.
      destruct (mt_index E (numbered (S (length (l_src s))) (added ps)) m1) as [m2 [[]| | | |]]; try exact IH.
      destruct IH as (s' & H1 & H2 & H3). exists s'. split; [exact H1|]. split; [exact H2|]. rewrite H3, <- app_assoc. reflexivity.
    + specialize (IH (mkLd (l_m s) (l_c s ++ [d]) (l_src s ++ [t]) (l_i s + 1))). cbn [l_m l_c l_src] in IH. rewrite Hlen in IH.
      destruct (mt_index E ((l_c s ++ [d]) ++ numbered (S (length (l_src s))) (added ps)) (l_m s)) as [m2 [[]| | | |]]; try exact IH.
      destruct IH as (s' & H1 & H2 & H3). exists s'. split; [exact H1|]. split; [exact H2|]. rewrite H3, <- app_assoc. reflexivity.
Qed.

(** A line that cannot be read ends it, unless a batch did before. *)
Lemma load_stops lines ps l rest o : Forall2 parsed lines ps -> parse l = o -> (forall p, o <> Ok p) -> forall s,
  let r := snd ((each_line one (lines ++ l :: rest) ;;; index_batch E) s) in
  match o with Throw x => r = Throw x | UB => r = UB | Abort => r = Abort | Fuel => r = Fuel | Ok _ => False end \/
  exists c1 c2, l_c s ++ numbered (length (l_src s)) (added ps) = c1 ++ c2 /\ snd (mt_index E c1 (l_m s)) = r /\ r <> Ok tt.
Proof.
  intros HF Hl Ho. induction HF as [|l' p lines ps Hp HF IH]; intros s; cbv zeta.
  - left. cbn [List.app]. cbn [each_line]. unfold mbind. rewrite Hone, Hl. destruct o; try reflexivity. destruct (Ho a eq_refl).
  - set (L := lines ++ l :: rest) in *. assert (Hstep : (each_line one (l' :: L) ;;; index_batch E) s = (one l' ;;; (each_line one L ;;; index_batch E)) s).
    { cbn [each_line]. unfold mbind. destruct (one l' s) as [s1 [[]| | | |]]; reflexivity. }
    cbn [List.app]. fold L. rewrite Hstep. clear Hstep. set (K := each_line one L ;;; index_batch E) in *. unfold mbind. rewrite Hone. unfold parsed in Hp. rewrite Hp. destruct p as [[df t]|]; [|exact (IH s)].
    change (added (Some (df, t) :: ps)) with ((df, t) :: added ps). cbn [numbered].
    set (d := df (N.of_nat (length (l_src s)))). rewrite add_doc_eq. cbv zeta.
    replace (l_c s ++ d :: numbered (S (length (l_src s))) (added ps)) with ((l_c s ++ [d]) ++ numbered (S (length (l_src s))) (added ps)) by (rewrite <- app_assoc; reflexivity).
    assert (Hlen : length (l_src s ++ [t]) = S (length (l_src s))) by (rewrite app_length; cbn; lia).
    destruct ((l_i s + 1) mod 100000 =? 0).
    + destruct (mt_index E (l_c s ++ [d]) (l_m s)) as [m1 o1] eqn:Hi. destruct o1 as [[]| | | |];
        try (right; exists (l_c s ++ [d]), (numbered (S (length (l_src s))) (added ps)); split; [reflexivity|]; rewrite Hi; split; [reflexivity|discriminate]).
      specialize (IH (mkLd m1 [] (l_src s ++ [t]) (l_i s + 1))). cbn [l_m l_c l_src] in IH. rewrite Hlen in IH.
      destruct IH as [IH|(c1 & c2 & H1 & H2 & H3)]; [now left|]. right. cbn [List.app] in H1. exists ((l_c s ++ [d]) ++ c1), c2. split; [now rewrite H1, app_assoc|].
      split; [|exact H3]. rewrite index_more, Hi. exact H2.
    + specialize (IH (mkLd (l_m s) (l_c s ++ [d]) (l_src s ++ [t]) (l_i s + 1))). cbn [l_m l_c l_src] in IH. rewrite Hlen in IH. exact IH.
Qed.
End Load.
