(** How a reader puts continued records together again. *)
From Coq Require Import ZArith List Bool.
From Verif Require Import Bytes UnitModel WbModel ApiModel SpecBiff SpecApi SpecSaved.
Import ListNotations.
Local Open Scope Z_scope.

(** The payload that follows in continuation records. *)
Fixpoint following (rs : list brec) : list Z :=
  match rs with
  | (t, p) :: rest => if t =? T_CONTINUE then p ++ following rest else []
  | [] => []
  end.
(** Every record with its continuations' payloads appended, and these removed. *)
Fixpoint join (rs : list brec) : list brec :=
  match rs with
  | (t, p) :: rest => if t =? T_CONTINUE then join rest else (t, p ++ following rest) :: join rest
  | [] => []
  end.

(** A document that may need continuation records: [X] bounds the bytes of one record before
    it is cut.  The record store must not move while a record is continued. *)
Record saved_long (X R : Z) (moves : Z -> nat -> bool) (calls : list call) (stream : list Z) : Prop := {
  sn_room : 8228 <= X < 538968000;
  sn_rows : 0 <= R <= 65535;
  sn_typed : Forall typed calls;
  sn_fits : long_fits X R calls;
  sn_calm : forall e n, moves e n = false;
  sn_saved : saved moves calls stream }.

(** A vector that holds exactly the reserved number of units moves when the next one is
    added, and then again each time it has doubled. *)
Fixpoint doubles (fuel : nat) (e n : Z) : bool :=
  match fuel with
  | O => false
  | S f => if n =? e then true else if e <? n then doubles f (2 * e) n else false
  end.
Definition doubling (e : Z) (n : nat) : bool := doubles 64 e (Z.of_nat n).
