(** Reader of the 20-byte payload of a BIFF8 extended-format record, written from the file
    format description: each attribute is a bit field of a little-endian word. *)
From Coq Require Import ZArith List Bool.
From Verif Require Import Bytes.
Import ListNotations.
Local Open Scope Z_scope.

(** Little-endian number stored in [n] bytes at offset [i]. *)
Definition word (n i : nat) (l : list Z) : Z := le_value (firstn n (skipn i l)).
(** Bits [lo .. lo+w-1]. *)
Definition bits (lo w : Z) (v : Z) : Z := (v / 2 ^ lo) mod 2 ^ w.

Record xfattrs := mkXA {
  xa_font : Z; xa_numfmt : Z; xa_locked : bool; xa_hidden : bool;
  xa_halign : Z; xa_wrap : bool; xa_valign : Z; xa_rotation : Z;
  xa_indent : Z;                        (* indentation, shrink and reading direction byte *)
  xa_left : Z * Z; xa_right : Z * Z; xa_top : Z * Z; xa_bottom : Z * Z; (* style, colour *)
  xa_pattern : Z; xa_fore : Z; xa_back : Z;
  xa_used : Z }.   (* used-attribute bits: number 1, font 2, text 4, border 8, area 16, protection 32 *)

Definition read_xf (p : list Z) : option xfattrs :=
  if Nat.eqb (length p) 20 then
    let prot := word 2 4 p in
    let algn := word 4 6 p in
    let bor := word 4 10 p in
    let bor2 := word 4 14 p in
    let col := word 2 18 p in
    Some (mkXA (word 2 0 p) (word 2 2 p) (bits 0 1 prot =? 1) (bits 1 1 prot =? 1)
               (bits 0 3 algn) (bits 3 1 algn =? 1) (bits 4 3 algn) (bits 8 8 algn) (bits 16 8 algn)
               (bits 0 4 bor, bits 16 7 bor) (bits 4 4 bor, bits 23 7 bor)
               (bits 8 4 bor, bits 0 7 bor2) (bits 12 4 bor, bits 7 7 bor2)
               (bits 26 6 bor2) (bits 0 7 col) (bits 7 7 col) (bits 26 6 algn))
  else None.
