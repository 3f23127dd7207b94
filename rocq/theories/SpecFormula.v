(** Independent specification: a reader of BIFF8 formula token arrays.  It works on bytes
    only; the trees it returns are its own.  Token numbers follow the published format: the
    low five bits of a classed token identify it, bits 5 and 6 its operand class. *)
From Coq Require Import ZArith List Bool.
From Verif Require Import Bytes SpecBuf SpecBiff SpecObj.
Import ListNotations.
Local Open Scope Z_scope.

Inductive binop := Add | Sub | Mul | Div | Power | Concat | Lt | Le | Eq | Ge | Gt | Ne | Isect | Union | Range.
Inductive unop := Plus | Minus | Percent | Paren.
(** One cell of a reference; the flags say which part is relative (written without a
    dollar sign). *)
Record corner := mkCorner { co_row : Z; co_col : Z; co_row_rel : bool; co_col_rel : bool }.
Inductive ftree :=
| FBool (b : bool) | FInt (n : Z) | FNum (bits : Z) | FErr (e : Z) | FMissing | FText (s : list Z)
| FRef (sheet : option Z) (c : corner)
| FArea (sheet : option Z) (c1 c2 : corner)
| FArray
| FUn (o : unop) (a : ftree)
| FBin (o : binop) (a b : ftree)
| FCall (f : Z) (args : list ftree).

Definition bin_of (code : Z) : option binop :=
  nth_error [Add; Sub; Mul; Div; Power; Concat; Lt; Le; Eq; Ge; Gt; Ne; Isect; Union; Range] (Z.to_nat (code - 3)).
Definition un_of (code : Z) : option unop := nth_error [Plus; Minus; Percent; Paren] (Z.to_nat (code - 18)).
(** The column field of a reference: bit 15 row relative, bit 14 column relative. *)
Definition corner_at (row col : Z) : corner :=
  mkCorner row (col mod 16384) (Z.testbit col 15) (Z.testbit col 14).
(** The last [n] operands, in the order they were pushed, and the stack below them. *)
Definition operands (n : nat) (st : list ftree) : option (list ftree * list ftree) :=
  if Nat.leb n (length st) then Some (rev (firstn n st), skipn n st) else None.
Definition ref_cell (p : list Z) : option (corner * list Z) :=
  olet (row, p1) := take_num 2 p in olet (col, p2) := take_num 2 p1 in Some (corner_at row col, p2).
Definition ref_area (p : list Z) : option (corner * corner * list Z) :=
  olet (r1, p1) := take_num 2 p in olet (r2, p2) := take_num 2 p1 in
  olet (c1, p3) := take_num 2 p2 in olet (c2, p4) := take_num 2 p3 in
  Some (corner_at r1 c1, corner_at r2 c2, p4).
(** An array constant is a token with seven unused bytes; its values follow the token array
    and are not read here.  One token: the stack after it and the bytes that follow.  [arity] gives the number of
    arguments of the functions that are written without a count. *)
Definition token (arity : Z -> option Z) (t : Z) (p : list Z) (st : list ftree) : option (list ftree * list Z) :=
  if ((3 <=? t) && (t <=? 17))%bool then
    olet o := bin_of t in
    match st with b :: a :: st' => Some (FBin o a b :: st', p) | _ => None end
  else if ((18 <=? t) && (t <=? 21))%bool then
    olet o := un_of t in
    match st with a :: st' => Some (FUn o a :: st', p) | _ => None end
  else if t =? 22 then Some (FMissing :: st, p)
  else if t =? 23 then olet (s, p1) := read_string 1 p in Some (FText s :: st, p1)
  else if t =? 28 then olet (e, p1) := take_num 1 p in Some (FErr e :: st, p1)
  else if t =? 29 then olet (b, p1) := take_num 1 p in Some (FBool (b =? 1) :: st, p1)
  else if t =? 30 then olet (n, p1) := take_num 2 p in Some (FInt n :: st, p1)
  else if t =? 31 then olet (x, p1) := take_num 8 p in Some (FNum x :: st, p1)
  else if ((32 <=? t) && (t <? 128))%bool then
    let k := t mod 32 in
    if k =? 0 then olet (_, p1) := take 7 p in Some (FArray :: st, p1)
    else if k =? 1 then
      olet (f, p1) := take_num 2 p in olet n := arity f in
      olet (args, st') := operands (Z.to_nat n) st in Some (FCall f args :: st', p1)
    else if k =? 2 then
      olet (n, p1) := take_num 1 p in olet (f, p2) := take_num 2 p1 in
      olet (args, st') := operands (Z.to_nat (n mod 128)) st in Some (FCall (f mod 32768) args :: st', p2)
    else if k =? 4 then olet (c, p1) := ref_cell p in Some (FRef None c :: st, p1)
    else if k =? 5 then olet (c1, c2, p1) := ref_area p in Some (FArea None c1 c2 :: st, p1)
    else if k =? 26 then
      olet (i, p1) := take_num 2 p in olet (c, p2) := ref_cell p1 in Some (FRef (Some i) c :: st, p2)
    else if k =? 27 then
      olet (i, p1) := take_num 2 p in olet (c1, c2, p2) := ref_area p1 in Some (FArea (Some i) c1 c2 :: st, p2)
    else None
  else None.
Fixpoint run_tokens (fuel : nat) (arity : Z -> option Z) (p : list Z) (st : list ftree) : option (list ftree) :=
  match p, fuel with
  | [], _ => Some st
  | t :: q, S n => olet (st1, r) := token arity t q st in run_tokens n arity r st1
  | _, O => None
  end.
(** A token array holds exactly one expression. *)
Definition read_formula (arity : Z -> option Z) (p : list Z) : option ftree :=
  match run_tokens (length p) arity p [] with Some [t] => Some t | _ => None end.

(* ------------------------------------------------------------------ *)
(** * Argument counts of the functions *)

(** For every function number how many arguments it takes: from .. to, any number
    (documented as unknown), or none of the calls (the number is not in use). *)
Inductive argrange := To (min max : Z) | Any | Nil.
Definition argument_counts : list argrange :=
  [
   To 1 30; To 2 3; To 1 1; To 1 1; To 1 30; To 1 30; To 1 30; To 1 30; To 0 1; To 0 1; To 0 0;
   To 2 30; To 1 30; To 1 2; To 1 3; To 1 1; To 1 1; To 1 1; To 1 1; To 0 0; To 1 1; To 1 1;
   To 1 1; To 1 1; To 1 1; To 1 1; To 1 1; To 2 2; To 2 3; To 2 4; To 2 2; To 3 3; To 1 1; To 1 1;
   To 0 0; To 0 0; To 1 30; To 1 30; To 1 1; To 2 2; To 3 3; To 3 3; To 3 3; To 3 3; To 3 3;
   To 3 3; To 1 30; To 3 3; To 2 2; To 1 4; To 1 4; To 1 4; To 1 4; To 1 1; To 0 1; Nil; To 3 5;
   To 3 5; To 3 5; To 3 5; To 3 6; To 3 3; To 1 2; To 0 0; To 2 3; To 3 3; To 3 3; To 1 1; To 1 1;
   To 1 1; To 1 2; To 1 1; To 1 1; To 1 1; To 0 0; To 1 1; To 1 1; To 1 1; To 3 5; To 2 2; To 2 2;
   To 0 3; To 2 3; To 1 1; To 0 2; To 0 0; To 1 1; To 0 1; To 1 2; To 0 0; To 1 1; To 0 2; To 4 5;
   To 0 2; To 0 0; To 0 0; To 0 1; To 2 2; To 1 1; To 1 1; To 2 30; To 3 4; To 3 4; To 0 2; To 1 7;
   To 1 1; To 1 1; To 1 2; To 2 2; To 1 2; To 1 4; To 1 1; To 1 1; To 1 1; To 1 1; To 1 2; To 1 2;
   To 2 2; To 1 1; To 4 4; To 3 4; To 1 1; To 0 3; To 0 1; To 2 3; To 1 2; To 1 1; To 1 1; To 1 1;
   To 1 1; To 1 1; To 1 1; To 1 2; To 1 1; To 1 1; To 1 1; To 2 2; To 2 2; To 2 2; To 1 2; To 1 1;
   To 1 1; To 3 3; To 4 4; To 4 5; To 1 3; To 1 2; To 1 2; To 1 2; To 1 30; To 1 30; To 0 1;
   To 2 4; To 3 5; To 4 5; To 4 5; To 4 5; To 0 1; To 2 3; To 3 4; To 1 3; To 1 1; To 1 1; To 1 1;
   To 1 1; To 2 2; To 0 2; To 4 6; To 4 6; To 1 30; To 0 2; Nil; Nil; Nil; Nil; To 2 2; To 2 2;
   To 3 3; To 2 2; To 1 1; To 0 1; To 0 1; To 0 4; To 1 30; To 1 1; To 1 2; To 1 1; To 1 2; To 1 2;
   To 3 3; To 1 1; To 0 3; To 0 4; To 1 30; To 1 30; To 3 3; To 3 3; To 1 2; To 1 1; To 3 3;
   To 1 1; To 1 1; Nil; Nil; To 1 2; To 2 3; To 2 3; To 4 4; To 1 2; To 1 2; To 3 3; To 1 1;
   To 2 2; To 2 2; To 1 1; To 1 1; To 2 3; Nil; Nil; To 2 5; To 2 3; To 0 0; To 5 7; Nil; Nil; Nil;
   Nil; To 1 30; To 1 30; To 1 1; To 1 1; To 1 1; To 1 1; To 1 1; To 1 1; To 3 3; To 2 30; To 0 1;
   To 0 0; To 0 2; To 0 3; To 2 5; To 2 4; To 1 4; To 1 1; To 0 0; To 1 5; To 4 5; To 0 1; Nil;
   Nil; To 0 1; To 2 2; To 0 2; To 1 1; Any; To 1 1; To 1 1; To 1 2; To 1 3; To 1 3; To 1 1;
   To 0 1; To 0 1; To 0 2; To 3 3; To 3 3; To 2 3; To 1 2; To 1 30; To 3 5; To 1 1; To 3 5; To 4 4;
   To 2 2; To 2 2; To 2 2; To 3 3; To 3 3; To 1 1; To 3 3; To 3 3; To 3 3; To 1 1; To 1 1; To 2 2;
   To 4 4; To 3 3; To 2 2; To 4 4; To 3 3; To 3 3; To 3 3; To 4 4; To 1 1; To 3 3; To 1 1; To 3 3;
   To 1 1; To 2 2; To 3 3; To 3 3; To 4 4; To 2 2; To 2 2; To 2 2; To 2 2; To 2 2; To 2 2; To 3 3;
   To 2 2; To 2 2; To 2 2; To 2 2; To 2 2; To 2 2; To 4 4; To 3 4; To 1 30; To 1 30; To 1 30;
   To 1 30; To 1 30; To 1 30; To 2 3; To 2 2; To 2 2; To 2 2; To 2 2; To 2 3; To 1 30; To 2 2;
   To 2 2; Nil; To 3 4; To 3 4; To 1 30; To 2 2; To 2 9; To 1 2; To 1 3; To 1 4; To 1 1; To 1 1;
   To 2 30; To 2 3; To 2 2; To 1 1; To 1 2; To 1 1; To 4 4; To 3 3; To 1 1; To 2 2; To 1 2; To 0 4;
   To 0 5; To 1 2; To 2 30; To 1 2; To 1 1; To 1 30; To 1 30; To 1 30; To 1 30; To 1 30; To 1 30;
   To 1 30; To 1 1; To 1 1; To 1 1; To 1 1; To 1 1; To 1 1; To 1 1; To 1 1; To 1 1; To 1 1; To 1 1;
   To 3 30; To 1 30; To 2 3; To 3 3; To 3 4; To 1 2; To 1 1; To 1 2; To 1 2; To 1 2; To 1 2;
   To 1 2; To 1 2; To 1 1; To 1 1; To 1 2; To 1 2; To 2 2; To 2 2; To 2 2; To 1 1; To 1 1; To 1 1;
   To 1 1; To 1 1; To 1 1; To 1 1; To 1 1; To 1 1; To 1 1; To 1 1; To 1 1; To 2 3; To 1 30;
   To 1 30; To 4 4; To 1 1; To 1 1; To 2 2; To 1 2; To 1 2; To 1 1; To 1 1; To 2 2; To 1 2; To 1 1;
   To 2 2; To 2 2; To 2 2; To 2 2; To 2 3; To 3 3; To 5 6; To 5 6; To 4 5; To 4 5; To 4 5; To 4 5;
   To 4 5; To 3 3; To 3 3; To 3 3; To 6 7; To 6 7; To 2 2; To 2 2; To 2 2; To 2 2; To 6 6; To 6 6;
   To 2 2; To 2 2; To 2 3; To 3 4; To 3 4; To 3 4; To 3 4; To 3 4; To 3 4; To 5 6; To 5 6; To 7 8;
   To 7 8; To 8 9; To 8 9; To 2 2; To 1 2; To 6 7; To 6 7; To 3 3; To 6 8; To 4 5; To 2 3; To 2 3;
   To 1 30; To 1 30; To 1 30; To 2 2; To 3 4; To 2 5; To 1 1; To 2 2; To 2 30; To 3 30; To 2 3;
   To 3 30].
Definition counts_of (f : Z) : argrange := nth (Z.to_nat f) argument_counts Any.
Definition takes (f n : Z) : Prop :=
  match counts_of f with To a b => a <= n <= b | Any => True | Nil => False end.
(** A table of the functions written without a count that agrees with the list above. *)
Definition agrees (arity : Z -> option Z) : Prop := forall f n, 0 <= f -> counts_of f = To n n -> arity f = Some n.

(* ------------------------------------------------------------------ *)
(** * The sheets that references of other sheets go through *)

(** SUPBOOK for the workbook itself: number of sheets, then 0x0401. *)
Definition read_own_book (p : list Z) : option Z :=
  olet (n, p1) := take_num 2 p in olet (tag, p2) := take_num 2 p1 in
  match p2 with [] => if tag =? 1025 then Some n else None | _ => None end.
(** EXTERNSHEET: a count and so many triples (book, first sheet, last sheet). *)
Fixpoint read_triples (n : nat) (p : list Z) : option (list (Z * Z * Z)) :=
  match n with
  | O => match p with [] => Some [] | _ => None end
  | S n =>
      olet (b, p1) := take_num 2 p in olet (i, p2) := take_num 2 p1 in olet (j, p3) := take_num 2 p2 in
      olet l := read_triples n p3 in Some ((b, i, j) :: l)
  end.
Definition read_links (p : list Z) : option (list (Z * Z * Z)) :=
  olet (n, p1) := take_num 2 p in read_triples (Z.to_nat n) p1.
(** The sheet of this workbook that the link number [i] of a reference designates. *)
Definition resolve (globals : list brec) (i : Z) : option Z :=
  match payloads T_EXTERNSHEET globals with
  | [x] =>
      olet l := read_links x in
      olet (b, first, last) := nth_error l (Z.to_nat i) in
      olet book := nth_error (payloads T_SUPBOOK globals) (Z.to_nat b) in
      olet n := read_own_book book in
      if ((first =? last) && (first <? n))%bool then Some first else None
  | _ => None
  end.
