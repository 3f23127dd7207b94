(** Rows of the index record set and asked for after it was made. *)
From Coq Require Import ZArith List Bool.
From Verif Require Import Bytes UnitModel RecModel EditModel.
Import ListNotations.
Local Open Scope Z_scope.

Inductive xop := XSetRows (first last : Z) | XFirst | XLast.
Section Concrete.
Variable orc : nat -> option (nat -> Z).
(** XL_VERIFY(NO_ERRORS == SetValueAt32(v, i)). *)
Definition store32 (u : cunit) (v i : Z) : res cunit := verified (run_op orc u (OSet32 v i)).
(** XL_VERIFY(NO_ERRORS == GetValue32From(&v, i)); return v. *)
Definition load32 (u : cunit) (i : Z) : res Z :=
  let* a := unit_get32 u i in
  let* _ := xl_assert (nth 0 a 0 =? NO_ERRORS) in
  Ok (nth 1 a 0).
(** CIndex::SetRows, GetFirstRow, GetLastRow, index.cpp 78-100; the offsets are those of index.h
    51-52 and the sum is one of unsigned 32-bit numbers. *)
Definition run_xop (u : cunit) (o : xop) : res (list Z * cunit) :=
  match o with
  | XSetRows f l =>
      let* u1 := store32 u f 8 in
      let* u2 := store32 u1 ((l + 1) mod 2 ^ 32) 12 in
      Ok ([], u2)
  | XFirst => let* v := load32 u 8 in Ok ([v], u)
  | XLast => let* v := load32 u 12 in Ok ([v], u)
  end.
Fixpoint run_xops (u : cunit) (ops : list xop) : res (list (list Z) * cunit) :=
  match ops with
  | [] => Ok ([], u)
  | o :: t => let* (a, u1) := run_xop u o in let* (b, u2) := run_xops u1 t in Ok (a :: b, u2)
  end.
(** An index record with its block positions (index.cpp 43-74), then the calls. *)
Definition index_made (first last : Z) (offsets : list Z) (ops : list xop) : res (list (list Z) * cunit) :=
  let* (_, u) := run_ops orc unit_new (rec_index first last offsets) in run_xops u ops.
End Concrete.
