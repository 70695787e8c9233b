(** Concrete file systems for the data file theorems. *)
From Verif Require Import Base TrieM ErrorValuesM WordM DataFileM Spec_EV Spec_File Demo DataP.
Local Open Scope N_scope.

(** The demonstration environment with the one capital letter of the files folded. *)
Definition fold_file (l : N) : N := if l =? 304 then 105 else ascii_lower l.
Definition demo_file : env :=
  mkEnv false (fun s => s <=? 1073741824) isort (fun _ l => l) fold_file false.
(** "/d/": the files are there; the variable is not set, or is "/d" or "/d/". *)
Definition dir_d : list N := [47; 100; 47].
Definition read_d (p : list N) : option (list N) :=
  if weqb p (dir_d ++ data_file LatinAccents) then Some latin_file
  else if weqb p (dir_d ++ data_file GreekAccents) then Some greek_file else None.
Definition exists_d (p : list N) : bool := match read_d p with Some _ => true | None => false end.
Definition disk (v : option (list N)) : world := mkWorld v (match v with None => dir_d | _ => [47] end) exists_d read_d.

Lemma fold_ok : folds_shipped demo_file.
Proof.
  split; [reflexivity|]. assert (H : forallb (forallb (fun l => fold_file l =? l)) shipped_groups = true) by (vm_compute; reflexivity).
  rewrite forallb_forall in H. intros g l Hg Hl. apply H in Hg. rewrite forallb_forall in Hg. apply Hg in Hl. now apply N.eqb_eq.
Qed.
Lemma disk_ok v : v = None \/ v = Some [47; 100] \/ v = Some dir_d -> shipped (disk v).
Proof.
  intros H g. exists (dir_d ++ data_file g). split; [destruct g; discriminate|].
  destruct H as [->|[->| ->]]; destruct g; split; vm_compute; reflexivity.
Qed.
(** A file with a line that is not UTF-8 after a good one. *)
Definition bad_file : list N := [97; 98; 10; 255; 10; 99; 100; 10].
Definition bad_disk : world := mkWorld None dir_d (fun _ => true) (fun _ => Some bad_file).
Lemma bad_lines : findDataFile bad_disk (data_file LatinAccents) = Ok (dir_d ++ data_file LatinAccents) /\
  w_read bad_disk (dir_d ++ data_file LatinAccents) = Some bad_file /\
  file_lines bad_file ([[97; 98]] ++ [255] :: [[99; 100]]) /\ line_text [97; 98] [97; 98] /\ line_text [255] [255] /\
  line_text [97; 0; 98] [97] /\ file_lines [97; 10; 10; 98] [[97]; []; [98]] /\
  word_of_utf8 demo [97; 98] = Ok [97; 98] /\ word_of_utf8 demo [255] = Throw ERuntime /\
  snd (addAccents_file demo bad_disk LatinAccents ev_new) = Throw ERuntime /\
  isInGroup (fst (addAccents_file demo bad_disk LatinAccents ev_new)) 97 = true /\
  isInGroup (fst (addAccents_file demo bad_disk LatinAccents ev_new)) 99 = false /\
  findDataFile (disk (Some [47])) (data_file LatinAccents) = Ok [].
Proof.
  assert (D : forall (x : N) l, memb x l = false -> ~ In x l).
  { intros x l. induction l as [|y l IH]; intros H G; [exact G|]. destruct G as [G|G]; [subst; unfold memb in H; cbn in H; rewrite N.eqb_refl in H; discriminate|].
    unfold memb in *. cbn in H. apply orb_false_iff in H as [_ H]. now apply IH. }
  split; [vm_compute; reflexivity|]. split; [reflexivity|].
  split; [split; [repeat constructor; now apply D|left; reflexivity]|].
  split; [split; [now apply D|now left]|]. split; [split; [now apply D|now left]|].
  split; [split; [now apply D|right; now exists [98]]|].
  split; [split; [repeat constructor; now apply D|right; exists [[97]; []], [98]; now repeat split]|].
  repeat (split; [vm_compute; reflexivity|]). vm_compute; reflexivity.
Qed.
