(** Independent vocabulary for the Word and text properties. *)
From Verif Require Import Base.
Local Open Scope N_scope.

(** Unicode scalar values and the two encoding forms, from the standard's bit
    tables. *)
Definition scalar (c : N) : Prop := c < 55296 \/ 57344 <= c < 1114112.
Definition utf8 (c : N) : list N :=
  if c <? 128 then [c] else
  if c <? 2048 then [192 + c / 64; 128 + c mod 64] else
  if c <? 65536 then [224 + c / 4096; 128 + (c / 64) mod 64; 128 + c mod 64] else
  [240 + c / 262144; 128 + (c / 4096) mod 64; 128 + (c / 64) mod 64; 128 + c mod 64].
Definition utf16 (c : N) : list N :=
  if c <? 65536 then [c] else [55296 + (c - 65536) / 1024; 56320 + (c - 65536) mod 1024].

(** A text given by its characters, as bytes and as letters. *)
Definition bytes_of (cs : list N) : list N := flat_map utf8 cs.
Definition letters_of (cs : list N) : list N := flat_map utf16 cs.
Definition valid_utf8 (s : list N) : Prop := exists cs, Forall scalar cs /\ s = bytes_of cs.
Definition well_formed (w : word) : Prop := exists cs, Forall scalar cs /\ w = letters_of cs.

(** The two halves of a surrogate pair. *)
Definition high_surrogate (l : N) : Prop := 55296 <= l <= 56319.
Definition low_surrogate (l : N) : Prop := 56320 <= l <= 57343.
(** Well formed, except perhaps for one lone high surrogate at the end. *)
Definition nearly (w : word) : Prop :=
  exists cs, Forall scalar cs /\ (w = letters_of cs \/ exists h, 55296 <= h < 56320 /\ w = letters_of cs ++ [h]).
(** After some characters comes a low surrogate, or a high one before a letter that is none. *)
Definition lone_surrogate (w : word) : Prop :=
  exists cs rest, Forall scalar cs /\ w = letters_of cs ++ rest /\
  ((exists l r, low_surrogate l /\ rest = l :: r) \/
   (exists h l r, high_surrogate h /\ ~ high_surrogate l /\ ~ low_surrogate l /\ rest = h :: l :: r)).
(** After some characters come two high surrogates. *)
Definition two_high (w : word) : Prop :=
  exists cs h h' r, Forall scalar cs /\ high_surrogate h /\ high_surrogate h' /\ w = letters_of cs ++ h :: h' :: r.

(** The letters of a buffer: all of them, without one NUL at the end. *)
Definition content (buf w : list N) : Prop := buf = w ++ [0] \/ (buf = w /\ last w 0 <> 0).

(** The four whitespace characters. *)
Definition blank (c : N) : Prop := c = 32 \/ c = 9 \/ c = 10 \/ c = 13.
(** What a C string of bytes can hold. *)
Definition c_text (s : list N) : Prop := Forall (fun b => 0 < b < 256) s.

(** Case folding as the library does it: characters beyond U+FFFF are not folded. *)
Definition fold (E : env) (c : N) : N := if c <? 65536 then e_lower E c else c.

(** Assumed of ICU's u_tolower on 16-bit code units: idempotent, leaves surrogates
    and whitespace alone, does not create whitespace, NUL or surrogates. *)
Record lower_ok (E : env) : Prop := {
  lo_range : forall l, l < 65536 -> e_lower E l < 65536;
  lo_idem : forall l, l < 65536 -> e_lower E (e_lower E l) = e_lower E l;
  lo_sur : forall l, 55296 <= l < 57344 -> e_lower E l = l;
  lo_scalar : forall l, l < 65536 -> scalar l -> scalar (e_lower E l);
  lo_blank : forall l, l < 65536 -> blank (e_lower E l) -> blank l;
  lo_keep : forall l, blank l -> e_lower E l = l;
  lo_nul : forall l, l < 65536 -> e_lower E l = 0 -> l = 0
}.

(** [cut sep s runs]: [runs] are the maximal stretches of [s] free of separators,
    in order. *)
Inductive cut (sep : N -> Prop) : list N -> list (list N) -> Prop :=
| cut_none g : Forall sep g -> cut sep g []
| cut_last g r : Forall sep g -> r <> [] -> Forall (fun b => ~ sep b) r -> cut sep (g ++ r) [r]
| cut_more g r b rest l : Forall sep g -> r <> [] -> Forall (fun b => ~ sep b) r -> sep b ->
    cut sep (b :: rest) l -> cut sep (g ++ r ++ b :: rest) (r :: l).

(** The bytes that split() takes for one of the letters [chars]: ASCII ones, and a byte
    from 128 on for the letter 65280 higher (a negative char made into a letter). *)
Definition separates (chars : list N) (b : N) : Prop := (b < 128 /\ In b chars) \/ (128 <= b /\ In (65280 + b) chars).

(** Converting several texts one after the other; the first failure decides. *)
Fixpoint all_of {A B} (f : A -> outcome B) (l : list A) : outcome (list B) :=
  match l with
  | [] => Ok []
  | a :: r => let! b := f a in let! bs := all_of f r in Ok (b :: bs)
  end.

(** The values a Word object can have: built by one of the constructors or
    assignments from text or letters, or by join. *)
From Verif Require Import TrieM WordM.
Inductive made (E : env) : word -> Prop :=
| made_empty : made E []
| made_text s w : word_of_utf8 E s = Ok w -> made E w
| made_buffer buf w : word_of_letters E buf = Ok w -> made E w
| made_join a b : made E a -> made E b -> made E (w_join a b).

(** A Word object whose two members fit together. *)
Definition usable (o : wobj) : Prop :=
  match wo_text o with
  | Some buf => N.of_nat (length buf) = wo_len o + 1
  | None => wo_len o = 0
  end.
(** Short enough for asUtf8's buffer size, an unsigned int. *)
Definition short (w : word) : Prop := (N.of_nat (length w) + 1 < 1073741824)%N.
