(** IEEE double arithmetic, as the standard library's executable specification
    (Floats.SpecFloat): round to nearest even, no excess precision, no fused
    operations (x86-64 without -ffast-math). *)
From Verif Require Import Base.
From Coq Require Export Floats.SpecFloat.
Local Open Scope Z_scope.

(** The type double of Matcher.cc:177-187, MatchResults.cc:28-31 and
    IndexWeights.cc. *)
Definition double := spec_float.
(** + on double, as in Matcher.cc:179, 230, 440 and 447. *)
Definition d_add : double -> double -> double := SFadd 53 1024.
(** - on double, as in Matcher.cc:184. *)
Definition d_sub : double -> double -> double := SFsub 53 1024.
(** * on double, as in Matcher.cc:186. *)
Definition d_mul : double -> double -> double := SFmul 53 1024.
(** / on double, as in Matcher.cc:179 and 184. *)
Definition d_div : double -> double -> double := SFdiv 53 1024.
(** < on double, as in the comparator of MatchResults.cc:95-104. *)
Definition d_lt : double -> double -> bool := SFltb.
(** Conversion of an integer. *)
Definition d_of_Z (z : Z) : double := binary_normalize 53 1024 z 0 false.
(** std::isnan, used only to say where the comparator of MatchResults.cc:95-104 is
    no order. *)
Definition is_nan (x : double) : bool := match x with S754_nan => true | _ => false end.
