(** Text conversion in the build with iconv (HAVE_WORKING_ICONV).  Line numbers without a
    file are those of /repo/xlslib/src/xlslib/globalrec.cpp; other file names are relative
    to the same directory.

    iconv itself is not part of the library.  It is represented by its published behaviour:
    characters are read from the input one by one; the conversion stops with (size_t)-1 at
    a malformed or incomplete character, at one the target (UCS-2) cannot represent, and
    when the output buffer has no room for the next unit; it never writes past the room it
    is given.  Simplified: the state of the conversion descriptor (there is none for these
    encodings) and the number of characters converted irreversibly (none). *)
From Coq Require Import ZArith List Bool.
From Verif Require Import Bytes UnitModel ApiModel.
Import ListNotations.
Local Open Scope Z_scope.

(** The next character of the input and what is left; None: malformed or incomplete. *)
Definition decoder := list Z -> option (Z * list Z).
Definition cont (b : Z) : bool := ((128 <=? b) && (b <? 192))%bool.
Definition surrogate (c : Z) : bool := ((55296 <=? c) && (c <? 57344))%bool.
(** iconv "UTF-8" (RFC 3629: shortest forms only, no surrogates). *)
Definition dec_utf8 : decoder := fun b =>
  match b with
  | [] => None
  | a :: t =>
      if a <? 128 then Some (a, t)
      else if a <? 194 then None
      else if a <? 224 then
        match t with
        | b1 :: t1 => if cont b1 then Some ((a - 192) * 64 + (b1 - 128), t1) else None
        | _ => None
        end
      else if a <? 240 then
        match t with
        | b1 :: b2 :: t2 =>
            let c := (a - 224) * 4096 + (b1 - 128) * 64 + (b2 - 128) in
            if (cont b1 && cont b2 && (2048 <=? c) && negb (surrogate c))%bool then Some (c, t2) else None
        | _ => None
        end
      else if a <? 245 then
        match t with
        | b1 :: b2 :: b3 :: t3 =>
            let c := (a - 240) * 262144 + (b1 - 128) * 4096 + (b2 - 128) * 64 + (b3 - 128) in
            if (cont b1 && cont b2 && cont b3 && (65536 <=? c) && (c <? 1114112))%bool then Some (c, t3) else None
        | _ => None
        end
      else None
  end.
(** iconv "wchar_t" on a little-endian machine with 4-byte wchar_t. *)
Definition dec_wchar : decoder := fun b =>
  match b with
  | b0 :: b1 :: b2 :: b3 :: t =>
      let c := b0 + 256 * b1 + 65536 * b2 + 16777216 * b3 in
      if ((c <? 1114112) && negb (surrogate c))%bool then Some (c, t) else None
  | _ => None
  end.
(** iconv to UCS-2 with room for [room] units. *)
Fixpoint iconv_loop (fuel : nat) (dec : decoder) (inb : list Z) (room : nat) : option (list Z) :=
  match inb, fuel with
  | [], _ => Some []
  | _, O => None
  | _, S n =>
      match dec inb, room with
      | Some (c, rest), S m =>
          if ((c <? 65536) && negb (surrogate c))%bool
          then match iconv_loop n dec rest m with Some l => Some (c :: l) | None => None end
          else None
      | _, _ => None
      end
  end.
Definition iconv_ucs2 (dec : decoder) (inb : list Z) (room : nat) : option (list Z) := iconv_loop (length inb) dec inb room.

(** 42 convFail. *)
Definition conv_fail : list Z := [105; 99; 111; 110; 118; 32; 102; 97; 105; 108; 101; 100; 33].
(** 780, 846-850: str2 = convFail when iconv returned -1, the units written otherwise. *)
Definition converted (r : option (list Z)) : list Z := match r with Some u => u | None => conv_fail end.

(** 810-863 char2str16.  [opens]: iconv_open knows UTF-8 (831 asserts it, which throws);
    [mem]: calloc returned memory (its result is not tested: iconv then writes to NULL).
    Texts of 7-bit characters do not go through iconv. *)
Definition char_conv (opens mem : bool) (b : list Z) : res (list Z) :=
  if existsb (fun c => 128 <=? c) b then
    if negb opens then Throw
    else if negb mem then UB
    else Ok (converted (iconv_ucs2 dec_utf8 b (length b)))
  else Ok b.
(** 751-783 wide2str16.  The elements are read as bytes; there is room for one unit per
    element.  calloc(0) may return NULL for an empty text, which writes nothing. *)
Definition wide_conv (opens mem : bool) (dec : decoder) (w : list Z) : res (list Z) :=
  if negb opens then Throw
  else if (negb mem && negb (Nat.eqb (length w) 0))%bool then UB
  else Ok (converted (iconv_ucs2 dec (flat_map le32 w) (length w))).

(** workbook.cpp 98-112 iconvInType, 83 (the initial name is wchar_t).  [known] is what
    iconv_open accepts, [err] the errno it leaves. *)
Definition in_type {A} (known : A -> bool) (err : Z) (cur t : A) : Z * A := if known t then (0, t) else (err, cur).

(** * Calls in this build *)

(** The texts of a call are converted where the call is made (workbook.cpp 117-141, 178-199,
    label.cpp 57-76, note.cpp 58-94, sheetrec.cpp 1410-1432); font names stay std::string and
    must be 7-bit in both builds (unit.cpp 420-430), the texts of formulas and validations are units
    already in [call].  iconv_open and calloc succeed. *)
Definition conv_text (dec : decoder) (t : text) : res text :=
  match t with
  | TChar b => let* u := char_conv true true b in Ok (T16 u)
  | TWide w => let* u := wide_conv true true dec w in Ok (T16 u)
  | T16 u => Ok (T16 u)
  end.
Definition conv_call (dec : decoder) (q : call) : res call :=
  match q with
  | KSheet n => let* t := conv_text dec n in Ok (KSheet t)
  | KFormat n => let* t := conv_text dec n in Ok (KFormat t)
  | KCell k r c (ULabel s) xf => let* t := conv_text dec s in Ok (KCell k r c (ULabel t) xf)
  | KNote k r c a s => let* x := conv_text dec a in let* y := conv_text dec s in Ok (KNote k r c x y)
  | KHyperlink k r c u m => let* x := conv_text dec u in let* y := conv_text dec m in Ok (KHyperlink k r c x y)
  | _ => Ok q
  end.
Fixpoint conv_calls (dec : decoder) (calls : list call) : res (list call) :=
  match calls with
  | [] => Ok []
  | q :: l => let* x := conv_call dec q in let* r := conv_calls dec l in Ok (x :: r)
  end.
