(** Model of src/Word.cc and of the string functions of src/ColumbusHelpers.cc. *)
From Verif Require Import Base TrieM.
Local Open Scope N_scope.

(** ** iconv between UTF-8 and UTF-16 *)

(** External: glibc iconv, modelled as the strict decoders and encoders of
    RFC 3629 / UTF-16; a failed conversion (EILSEQ, EINVAL) is [None]. *)
Definition cont (b : N) : bool := (128 <=? b) && (b <=? 191).
(** Put one decoded code point before the rest; None stays None. Part of the iconv
    stand-in (called at ColumbusHelpers.cc:46-119). *)
Definition ocons {A} (a : A) (o : option (list A)) : option (list A) :=
  match o with Some l => Some (a :: l) | None => None end.
(** UTF-8 to code points, RFC 3629: iconv's reading side at ColumbusHelpers.cc:69. *)
Fixpoint utf8_decode (bs : list N) : option (list N) :=
  match bs with
  | [] => Some []
  | b0 :: r0 =>
    if b0 <? 128 then ocons b0 (utf8_decode r0)
    else if (194 <=? b0) && (b0 <=? 223) then
      match r0 with
      | b1 :: r1 => if cont b1 then ocons ((b0 - 192) * 64 + (b1 - 128)) (utf8_decode r1) else None
      | _ => None
      end
    else if (224 <=? b0) && (b0 <=? 239) then
      match r0 with
      | b1 :: b2 :: r2 =>
        let v := (b0 - 224) * 4096 + (b1 - 128) * 64 + (b2 - 128) in
        if cont b1 && cont b2 && (2048 <=? v) && negb ((55296 <=? v) && (v <=? 57343))
        then ocons v (utf8_decode r2) else None
      | _ => None
      end
    else if (240 <=? b0) && (b0 <=? 244) then
      match r0 with
      | b1 :: b2 :: b3 :: r3 =>
        let v := (b0 - 240) * 262144 + (b1 - 128) * 4096 + (b2 - 128) * 64 + (b3 - 128) in
        if cont b1 && cont b2 && cont b3 && (65536 <=? v) && (v <=? 1114111)
        then ocons v (utf8_decode r3) else None
      | _ => None
      end
    else None
  end.
(** One code point as UTF-16 code units: iconv's writing side at
    ColumbusHelpers.cc:69. *)
Definition utf16_of (cp : N) : list N :=
  if cp <? 65536 then [cp] else [55296 + (cp - 65536) / 1024; 56320 + (cp - 65536) mod 1024].
(** UTF-16 to code points: iconv's reading side at ColumbusHelpers.cc:112. *)
Fixpoint utf16_decode (ls : list N) : option (list N) :=
  match ls with
  | [] => Some []
  | l :: r =>
    if is_high l then
      match r with
      | l2 :: r2 => if is_low l2 then ocons (65536 + (l - 55296) * 1024 + (l2 - 56320)) (utf16_decode r2) else None
      | [] => None
      end
    else if is_low l then None
    else ocons l (utf16_decode r)
  end.
(** One code point as UTF-8 bytes: iconv's writing side at ColumbusHelpers.cc:112. *)
Definition utf8_of (cp : N) : list N :=
  if cp <? 128 then [cp] else
  if cp <? 2048 then [192 + cp / 64; 128 + cp mod 64] else
  if cp <? 65536 then [224 + cp / 4096; 128 + (cp / 64) mod 64; 128 + cp mod 64] else
  [240 + cp / 262144; 128 + (cp / 4096) mod 64; 128 + (cp / 64) mod 64; 128 + cp mod 64].

(** The two conversions with the size in bytes of the output buffer; too small a
    buffer (E2BIG) is an error too. *)
Definition iconv_8_16 (s : list N) (outBytes : N) : option (list N) :=
  match utf8_decode s with
  | Some cps => let ls := flat_map utf16_of cps in
                if 2 * N.of_nat (length ls) <=? outBytes then Some ls else None
  | None => None
  end.
(** The call of iconv in internalToUtf8, ColumbusHelpers.cc:97-119. *)
Definition iconv_16_8 (ls : list N) (outBytes : N) : option (list N) :=
  match utf16_decode ls with
  | Some cps => let bs := flat_map utf8_of cps in
                if N.of_nat (length bs) <=? outBytes then Some bs else None
  | None => None
  end.

(** ** ColumbusHelpers.cc *)

(** Conversion to Letter, an uint16_t (include/ColumbusCore.hh.in). *)
Definition u16 (n : N) : N := n mod 65536.

(** lowerLetter, ColumbusHelpers.cc:42-44. *)
Definition lowerLetter (E : env) (l : N) : N := u16 (e_lower E l).

(** utf8ToInternal, ColumbusHelpers.cc:46-95, on a C string given as its bytes
    without the terminator (shorter than 2^32).  Buffer sizes are tracked in bytes;
    iconv_open and strdup are assumed to succeed. *)
Definition utf8ToInternal (E : env) (s : list N) : outcome (list N) :=
  let inputLen := N.of_nat (length s) in
  let outBytesOriginal := 2 * (inputLen + 1) in
  match iconv_8_16 s outBytesOriginal with
  | None => Throw ERuntime
  | Some ls =>
    let bytesWritten := 2 * N.of_nat (length ls) in
    let resultStringSize := bytesWritten / 2 in
    let newArraySize := bytesWritten + 2 in
    (* memcpy(newtxt, txt, newArraySize) *)
    let! bufBytes := (if bytesWritten <? inputLen
                      then (if newArraySize <=? outBytesOriginal then Ok newArraySize else UB)
                      else Ok outBytesOriginal) in
    (* text[resultStringSize] = 0 *)
    if 2 * resultStringSize + 2 <=? bufBytes then Ok (map (lowerLetter E) ls) else UB
  end.

(** internalToUtf8, ColumbusHelpers.cc:97-119: what has been stored from buf[0] on,
    terminator included; storing the terminator outside the buffer is UB. *)
Definition internalToUtf8 (source : list N) (bufsize : N) : outcome (list N) :=
  match iconv_16_8 source bufsize with
  | None => Throw ERuntime
  | Some bs => if N.of_nat (length bs) <? bufsize then Ok (bs ++ [0]) else UB
  end.

(** ** Word.cc: values *)

(** The tail of convertString (Word.cc:94-107) and of Word(Letter* ,size_t)
    (Word.cc:71-81). *)
Definition validate (E : env) (w : word) : outcome word :=
  if has_ws w then Throw EInvalidArg else
  let! b := has_broken E w in
  if b then Throw EInvalidArg else Ok w.

(** Word(const char* ), Word(const string&) and convertString, Word.cc:47-49, 84-86,
    92-108; [s] is the text up to its first NUL. *)
Definition word_of_utf8 (E : env) (s : list N) : outcome word :=
  let! ls := utf8ToInternal E s in validate E ls.

(** operator[], Word.cc:124-134. *)
Definition w_at (w : word) (i : N) : outcome N :=
  match nth_error w (N.to_nat i) with Some l => Ok l | None => Throw EOutOfRange end.

(** operator==, Word.cc:202-211, is equality of the letter sequences: [weqb]. *)

(** operator<, Word.cc:234-247. *)
Fixpoint wltb (a b : word) : bool :=
  match a, b with
  | x :: a', y :: b' => if x <? y then true else if y <? x then false else wltb a' b'
  | [], _ :: _ => true
  | _, [] => false
  end.

(** toUtf8, Word.cc:249-251. *)
Definition w_toUtf8 (w : word) (bufSize : N) : outcome (list N) := internalToUtf8 w bufSize.

(** The bytes of a C string held in a buffer: up to the first NUL. *)
Fixpoint c_str (buf : list N) : outcome (list N) :=
  match buf with
  | [] => UB
  | b :: r => if b =? 0 then Ok [] else let! s := c_str r in Ok (b :: s)
  end.

(** asUtf8, Word.cc:253-260.  [4*(len+1)] is unsigned int arithmetic. *)
Definition asUtf8 (w : word) : outcome (list N) :=
  let strSize := u32 (4 * (N.of_nat (length w) + 1)) in
  let! buf := w_toUtf8 w strSize in c_str buf.

(** operator==(const char* ), Word.cc:213-215. *)
Fixpoint bytes_eqb (a b : list N) : bool :=
  match a, b with
  | [], [] => true
  | x :: a', y :: b' => (x =? y) && bytes_eqb a' b'
  | _, _ => false
  end.
(** operator==(const char* ), Word.cc:213-215: compares asUtf8() with the text. *)
Definition w_eq_text (w : word) (s : list N) : outcome bool :=
  let! t := asUtf8 w in Ok (bytes_eqb t s).

(** join, Word.cc:262-271. *)
Definition w_join (a b : word) : word := a ++ b.

(** hash, Word.cc:285-295, with the table of Word.cc:32-42: 64 numbers are given,
    the other 192 are 0. *)
Definition randomNumbers : list N := [
  0x31d04490f9cd0152; 0xcfd220f4878a1427; 0x9b2dd113758d9e8a; 0x35a4419e88a812d5; 0x9f9743e9ee40cd55; 0x7038be807e85f27f; 0x9ca0e3499edabe60; 0x9b3e409e7ffbe39f;
  0xc58155e5a1e164e0; 0x1f3f0823c9670283; 0xddc1ff4e8431766f; 0xf708145c12c3a474; 0x1bd343edebb746e8; 0x59363d26f1d34003; 0xade2044c51ce1ab5; 0x86c0607a613fa4e6;
  0x4751cef8b5647cf1; 0x618cdd1beaba96a6; 0x9a5616eed71a1b05; 0x90fffcf56ab61b54; 0xc7b408b8542bf4f9; 0x64d8fba24eed76cd; 0x483d04576118f39b; 0x5c9534dee689698;
  0x25d7939c3cf11b2d; 0xe020bdf2ba9f78f5; 0xf441f807c4808932; 0x993166a178ddade4; 0x51c7de16e4a0e2bb; 0xa89b70521c0b028; 0x9b3f7f5af8b2f82; 0x6985efce9aa164a7;
  0x692607c787097f9c; 0x6afaf7e9f5ee3211; 0xfa34657c280407b4; 0xa160382b0e3e03ec; 0xe8902b92a6dd18c4; 0x7cd35c609f728a7; 0xdd7ac1ab0ce338f3; 0xa7a9e144792de8b4;
  0x435dc2030e1bd3bb; 0xba03839edae53f8c; 0x74918b9786b2ecf6; 0x183041d61d4e02d; 0xaa1dc5c7c7c5fb5b; 0x939564fc52bece9b; 0x3a3faae9201160d0; 0xc20d3f67a52cb7b6;
  0x77ad9b3c19bda0f9; 0x65696731011860b4; 0xae6b011d726f2fe; 0xba5217bd2b48005f; 0x8f8e100ae6ba4e9d; 0x51967f54690c822d; 0x261a8bf80c1d6890; 0x58cb529d19f0856f;
  0xc45e7d76ca927907; 0xc15c5589af3dbef0; 0xa8175814c7ff20f6; 0xaec21b2f3fddfc14; 0xaf247b61fd25583; 0x2d784f3af2691077; 0x58f3a2b1743759c6; 0x77115ac165a120a9 ].
(** randomNumbers[index], Word.cc:32-42. *)
Definition rnd (index : N) : N := nth (N.to_nat index) randomNumbers 0.
(** Bytes of the letters in memory order (little endian). *)
Definition letter_bytes (w : word) : list N := flat_map (fun l => [l mod 256; (l / 256) mod 256]) w.
(** The loop of Word::hash, Word.cc:285-295; [i] is a size_t, the sum is cut to a
    byte. *)
Fixpoint hash_loop (i : N) (arr : list N) (result : N) : N :=
  match arr with
  | [] => result
  | b :: r => hash_loop (i + 1) r (N.lxor result (rnd ((b + i mod 256) mod 256)))
  end.
(** Word::hash, Word.cc:285-295. *)
Definition w_hash (w : word) : N := hash_loop 0 (letter_bytes w) 0.

(** ** Word.cc: the object, with its two members *)

(** class Word, Word.hh:37-38: [text] is null or a buffer; [len]. *)
Record wobj := mkWO { wo_text : option (list N); wo_len : N }.
(** The Word object that holds the value [w] (a terminated buffer; the empty word
    may have none). *)
Definition wo_of (w : word) : wobj := mkWO (Some (w ++ [0])) (N.of_nat (length w)).

(** operator[] on the object. *)
Definition wo_at (o : wobj) (i : N) : outcome N :=
  if wo_len o <=? i then Throw EOutOfRange else
  match wo_text o with
  | None => UB
  | Some buf => match nth_error buf (N.to_nat i) with Some l => Ok l | None => UB end
  end.
(** operator=(const char* ), Word.cc:273-283 with convertString, Word.cc:92-108:
    [len] is written by utf8ToInternal before the validation. *)
Definition wo_assign (E : env) (s : list N) : M wobj unit := fun _ =>
  match utf8ToInternal E s with
  | Ok ls =>
    match validate E ls with
    | Ok _ => (mkWO (Some (ls ++ [0])) (N.of_nat (length ls)), Ok tt)
    | Throw e => (mkWO None (N.of_nat (length ls)), Throw e)
    | Abort => (mkWO (Some (ls ++ [0])) (N.of_nat (length ls)), Abort)
    | UB => (mkWO None 0, UB)
    | Fuel => (mkWO None 0, Fuel)
    end
  | Throw e => (mkWO None 0, Throw e)
  | Abort => (mkWO None 0, Abort)
  | UB => (mkWO None 0, UB)
  | Fuel => (mkWO None 0, Fuel)
  end.

(** ** split, ColumbusHelpers.cc:128-179 *)

(** Implicit conversion of a (signed) char to Letter, as in the calls
    [isInList(utf8Text[i],...)]. *)
Definition char_letter (b : N) : N := if b <? 128 then b else 65280 + b.
(** isInList, ColumbusHelpers.cc:132-137. *)
Definition isInList (l : N) (chars : list N) : bool := existsb (N.eqb l) chars.
(** utf8Text[i]: the terminating NUL may be read. *)
Definition text_at (s : list N) (i : nat) : outcome N :=
  match nth_error s i with
  | Some b => Ok b
  | None => if Nat.eqb i (length s) then Ok 0 else UB
  end.
(** The two inner while loops, lines 150-152 and 158-160. *)
Fixpoint skip_loop (fuel : nat) (inside : bool) (chars s : list N) (i : nat) : outcome nat :=
  match fuel with
  | O => Fuel
  | S f =>
    let! b := text_at s i in
    if Bool.eqb (isInList (char_letter b) chars) inside && Nat.ltb i (length s)
    then skip_loop f inside chars s (S i) else Ok i
  end.
(** The do-while loop; [bufSize] is the size of the buffer [word]. *)
Fixpoint split_loop (E : env) (fuel : nat) (chars s : list N) (end_ bufSize : nat) (acc : list word)
  : outcome (list word) :=
  match fuel with
  | O => Fuel
  | S f =>
    let! begin_ := skip_loop (S (length s)) true chars s end_ in
    if Nat.leb (length s) begin_ then Ok acc else
    let! end2 := skip_loop (S (length s)) false chars s (S begin_) in
    let wordLen := (end2 - begin_)%nat in
    let bufSize2 := if Nat.ltb bufSize (wordLen + 1) then (wordLen + 1)%nat else bufSize in
    if Nat.ltb bufSize2 (wordLen + 1) then UB else
    let! w := word_of_utf8 E (firstn wordLen (skipn begin_ s)) in
    if Nat.ltb end2 (length s) then split_loop E f chars s end2 bufSize2 (acc ++ [w])
    else Ok (acc ++ [w])
  end.
(** split, ColumbusHelpers.cc:139-179. *)
Definition split (E : env) (s chars : list N) : outcome (list word) :=
  split_loop E (S (length s)) chars s 0 0 [].
(** splitToWords, ColumbusHelpers.cc:128-130. *)
Definition whitespaceLetters : list N := [32; 9; 10; 13].
(** splitToWords, ColumbusHelpers.cc:128-130. *)
Definition splitToWords (E : env) (s : list N) : outcome (list word) := split E s whitespaceLetters.
