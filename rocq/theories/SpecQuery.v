(** What the answers to questions about a document ought to be. *)
From Coq Require Import ZArith List Bool.
From Verif Require Import Bytes UnitModel RecModel SheetModel XfModel ApiModel SpecApi SpecXfOps.
Import ListNotations.
Local Open Scope Z_scope.

(** A position of sheet [k] in use: some call wrote a cell there. *)
Definition in_use (k : nat) (calls : list call) (r c : Z) : Prop := cells_of k calls r c <> None.

(** [lo] and [hi] are the least and the greatest number with the property. *)
Record spans (u : Z -> Prop) (lo hi : Z) : Prop := {
  sp_lo : u lo; sp_hi : u hi; sp_all : forall x, u x -> lo <= x <= hi }.
(** First and last row, and first and last column if asked for, of the positions in use;
    zeros on a sheet without cells. *)
Record bounds_right (u : Z -> Z -> Prop) (cols : bool) (fr lr : Z) (columns : option (Z * Z)) : Prop := {
  br_rows : (exists r c, u r c) -> spans (fun r => exists c, u r c) fr lr;
  br_columns : cols = true -> exists fc lc, columns = Some (fc, lc)
    /\ ((exists r c, u r c) -> spans (fun c => exists r, u r c) fc lc)
    /\ ((forall r c, ~ u r c) -> fc = 0 /\ lc = 0);
  br_none : (forall r c, ~ u r c) -> fr = 0 /\ lr = 0 }.

(** The built-in number format with the name [v] (0 is General, 35 is Text). *)
Definition named (v n : Z) : Prop := 0 <= v <= 35 /\ format_code v = n.

(** A buffer after a text was copied into it: as much of the text as leaves room for a
    terminating zero, the zero, and the rest of the buffer as it was except for its last
    byte, which is zero. *)
Record holds_text (text before after : list Z) : Prop := {
  ht_length : length after = length before;
  ht_text : forall i, (i < length text)%nat -> (i < length before - 1)%nat -> nth_error after i = nth_error text i;
  ht_end : nth_error after (Nat.min (length text) (length before - 1)) = Some 0;
  ht_last : nth_error after (length before - 1) = Some 0;
  ht_rest : forall i, (length text < i)%nat -> (i < length before - 1)%nat -> nth_error after i = nth_error before i }.
