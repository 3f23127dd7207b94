(** What is expected of records that are made side by side: each is a byte list of its own.
    Uses the operation names of UnitModel and PoolModel, and SpecBuf for one record. *)
From Coq Require Import ZArith List Bool.
From Verif Require Import Bytes UnitModel SpecBuf PoolModel.
Import ListNotations.
Local Open Scope Z_scope.

(** A record: its bytes ([None]: it has never been given room), whether it was handed over, and
    whether its object still exists. *)
Record srec := mkSr { r_bytes : option (list Z); r_kept : bool; r_alive : bool }.
(** All records, in the order of their making, and the order in which they were given room. *)
Record sst := mkSs { s_recs : list srec; s_order : list nat }.
Definition s_new : sst := mkSs [] [].
Definition no_rec : srec := mkSr None false false.
Definition the_rec (st : sst) (h : nat) : srec := nth h (s_recs st) no_rec.
Definition bytes_of (r : srec) : list Z := match r_bytes r with Some l => l | None => [] end.
Definition set_rec (st : sst) (h : nat) (r : srec) : sst :=
  mkSs (firstn h (s_recs st) ++ r :: skipn (S h) (s_recs st)) (s_order st).

Definition spec_pop (st : sst) (a : pop) : sst :=
  match a with
  | PMake => mkSs (s_recs st ++ [mkSr None false true]) (s_order st)
  | PDo h o =>
      let r := the_rec st h in
      let st1 := set_rec st h (mkSr (Some (spec_op (bytes_of r) o)) (r_kept r) (r_alive r)) in
      match r_bytes r with Some _ => st1 | None => mkSs (s_recs st1) (s_order st1 ++ [h]) end
  | PAppend h j =>
      let r := the_rec st h in
      set_rec st h (mkSr (Some (bytes_of r ++ bytes_of (the_rec st j))) (r_kept r) (r_alive r))
  | PKeep h => let r := the_rec st h in set_rec st h (mkSr (r_bytes r) true (r_alive r))
  | PDrop h => let r := the_rec st h in set_rec st h (mkSr (r_bytes r) (r_kept r) false)
  end.
Definition spec_pops (st : sst) (l : list pop) : sst := fold_left spec_pop l st.

(** Operations that put values into bytes a record already has. *)
Definition patches (o : uop) : bool :=
  match o with OSet8 _ _ | OSet16 _ _ | OSet32 _ _ | OSetSz16 _ _ => true | _ => false end.

(** Proper use.  Only existing objects are used; a record is given room first; one that was
    handed over is only patched; the record handed over is the last that was given room; an
    object is deleted when its record has been handed over or was never given room.  No record
    is 2^29 bytes long. *)
Definition pop_typed (st : sst) (a : pop) : Prop :=
  match a with
  | PMake => True
  | PDo h o =>
      let r := the_rec st h in
      r_alive r = true /\ op_typed (bytes_of r) o
      /\ (r_bytes r = None -> obtains_storage o = true)
      /\ (r_kept r = true -> patches o = true)
      /\ zlen (spec_op (bytes_of r) o) < 536870912
  | PAppend h j =>
      let r := the_rec st h in let q := the_rec st j in
      r_alive r = true /\ r_alive q = true /\ r_kept r = false
      /\ r_bytes r <> None /\ r_bytes q <> None
      /\ Forall (fun b => 0 <= b < 256) (bytes_of q)
      /\ zlen (bytes_of r ++ bytes_of q) < 536870912
  | PKeep h =>
      let r := the_rec st h in
      r_alive r = true /\ r_kept r = false /\ r_bytes r <> None
      /\ last (s_order st) O = h
  | PDrop h =>
      let r := the_rec st h in
      r_alive r = true /\ (r_kept r = true \/ r_bytes r = None)
  end.
Fixpoint pops_typed (st : sst) (l : list pop) : Prop :=
  match l with [] => True | a :: t => pop_typed st a /\ pops_typed (spec_pop st a) t end.

(** Every record that was given room has been handed over. *)
Definition finished (st : sst) : Prop := forall h, In h (s_order st) -> r_kept (the_rec st h) = true.
(** The records one after the other, in the order in which they were given room. *)
Definition spec_stream (st : sst) : list Z := flat_map (fun h => bytes_of (the_rec st h)) (s_order st).

(** One record at a time: a record is given room only when all before it have been handed
    over, and what is appended to a record is not one of those. *)
Fixpoint one_by_one (st : sst) (l : list pop) : Prop :=
  match l with
  | [] => True
  | a :: t =>
      match a with
      | PDo h _ => r_bytes (the_rec st h) = None -> finished st
      | PAppend _ j => r_kept (the_rec st j) = false
      | _ => True
      end /\ one_by_one (spec_pop st a) t
  end.

(** Only objects that exist are used; nothing else is asked. *)
Definition pop_alive (made : list bool) (a : pop) : Prop :=
  match a with
  | PMake => True
  | PDo h _ | PKeep h | PDrop h => nth h made false = true
  | PAppend h j => nth h made false = true /\ nth j made false = true
  end.
Fixpoint pops_alive (made : list bool) (l : list pop) : Prop :=
  match l with
  | [] => True
  | a :: t =>
      pop_alive made a /\
      pops_alive (match a with
                  | PMake => made ++ [true]
                  | PDrop h => firstn h made ++ false :: skipn (S h) made
                  | _ => made
                  end) t
  end.
