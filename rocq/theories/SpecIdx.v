(** What the calls on an index record ask for: the rows are those of the last setting. *)
From Coq Require Import ZArith List Bool.
From Verif Require Import Bytes IdxModel.
Import ListNotations.
Local Open Scope Z_scope.

(** The rows after the calls. *)
Fixpoint rows_after (r : Z * Z) (ops : list xop) : Z * Z :=
  match ops with
  | [] => r
  | XSetRows f l :: t => rows_after (f, l) t
  | _ :: t => rows_after r t
  end.
(** The answers, when the last row is answered as [g] of the last row. *)
Fixpoint answers (g : Z -> Z) (r : Z * Z) (ops : list xop) : list (list Z) :=
  match ops with
  | [] => []
  | XSetRows f l :: t => [] :: answers g (f, l) t
  | XFirst :: t => [fst r] :: answers g r t
  | XLast :: t => [g (snd r)] :: answers g r t
  end.
(** Rows are 32-bit numbers that have a successor. *)
Definition row_ok (x : Z) : Prop := 0 <= x < 4294967295.
Definition xop_ok (o : xop) : Prop := match o with XSetRows f l => row_ok f /\ row_ok l | _ => True end.
