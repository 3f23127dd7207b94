(** The storage in which all records of a save live (class CDataStorage): its units, the slots
    their bytes are in, and the growth of the vector of slots.  datast.cpp 71-187 and 556-652,
    datast.h 77-170, unit.cpp 53-60, 110-126, 285-326 and 690-702, oledoc.cpp 197-220 in
    /repo/xlslib/src.

    Simplifications.  Fewer than 2^31 slots are in use (the index of a unit is a signed 32-bit
    number); which units FlushEm deletes is FlushModel's subject, here a unit is deleted by
    [PDrop]; Clip (a record that is continued by others) is WbModel's subject.  The private
    copy operations of CUnit, which nothing can call, are left out. *)
From Coq Require Import ZArith List Bool.
From Verif Require Import Bytes UnitModel.
Import ListNotations.
Local Open Scope Z_scope.

(** datast.h 83-101: a CUnitStore in the vector: m_is_in_use, m_is_sticky and the rest. *)
Record slot := mkSlot { sl_live : bool; sl_sticky : bool; sl_store : ustore }.

(** datast.h 217-221 store and m_DataSize.  [p_units] are the unit objects made so far: [None]
    is a deleted one, [Some None] one with m_Index == INVALID_STORE_INDEX, [Some (Some (i, k))]
    one with slot [i], handed over to the storage (m_Index negative) if [k].  [p_cnt] counts
    the calls of the allocator. *)
Record pool := mkPool { p_slots : list slot; p_total : Z;
                        p_units : list (option (option (nat * bool))); p_cnt : nat }.
(** datast.cpp 71-90. *)
Definition pool_new : pool := mkPool [] 0 [] 0.

(** What the makers of records do with units. *)
Inductive pop :=
| PMake                             (* a new unit; units are numbered from 0 *)
| PDo (h : nat) (o : uop)           (* a buffer operation of a unit *)
| PAppend (h j : nat)               (* h.Append(j) *)
| PKeep (h : nat)                   (* storage += h *)
| PDrop (h : nat).                  (* delete h *)

Section Pool.
(** The allocator (as in UnitModel), and the vector: [moves n] tells whether adding a slot to [n]
    slots moves them all to a new place, or fails (std::bad_alloc). *)
Variable orc : nat -> option (nat -> Z).
Variable moves : nat -> option bool.

(** datast.cpp 580-605: the copy constructor of a slot.  Only the bytes in use are copied; an
    allocation that is refused leaves a copy without bytes. *)
Definition copy_slot (cnt : nat) (x : slot) : res (slot * nat) :=
  let s := sl_store x in
  if negb (us_vary s) then
    let* _ := xl_assert (us_dsize s <=? FIXED_SIZE) in Ok (x, cnt)
  else
    let* _ := xl_assert (sl_live x) in
    let* _ := xl_assert (0 <? zlen (us_buf s)) in
    match malloc orc cnt (zlen (us_buf s)) with
    | None => Ok (mkSlot (sl_live x) (sl_sticky x) (mkStore true true [] 0), S cnt)
    | Some q =>
        let* b := memcpy_prefix q (us_buf s) (Z.to_nat (us_dsize s)) in
        Ok (mkSlot (sl_live x) (sl_sticky x) (mkStore true false b (us_dsize s)), S cnt)
    end.
Fixpoint copy_slots (cnt : nat) (l : list slot) : res (list slot * nat) :=
  match l with
  | [] => Ok ([], cnt)
  | x :: t =>
      let* (y, c) := copy_slot cnt x in
      let* (r, c') := copy_slots c t in
      Ok (y :: r, c')
  end.

(** datast.cpp 170: room for one more slot at the end. *)
Definition grow (p : pool) : res pool :=
  match moves (length (p_slots p)) with
  | None => Throw
  | Some false => Ok p
  | Some true =>
      let* (l, c) := copy_slots (p_cnt p) (p_slots p) in
      Ok (mkPool l (p_total p) (p_units p) c)
  end.

(** A unit object is used: it must not have been deleted. *)
Definition fetch (p : pool) (h : nat) : res (option (nat * bool)) :=
  match nth_error (p_units p) h with Some (Some ix) => Ok ix | _ => UB end.
(** datast.cpp 179-186 and the accessors of datast.h 108-163. *)
Definition slot_at (p : pool) (i : nat) : res slot :=
  match nth_error (p_slots p) i with
  | Some x => let* _ := xl_assert (sl_live x) in Ok x
  | None => Throw
  end.
Definition put (p : pool) (i : nat) (x : slot) (u : cunit) : res pool :=
  match cu_store u with
  | Some s => Ok (mkPool (upd i (mkSlot (sl_live x) (sl_sticky x) s) (p_slots p)) (p_total p) (p_units p) (cu_cnt u))
  | None => UB
  end.

(** unit.cpp 285-326, 328-362 and 626-637: the operations that ask for a slot. *)
Definition requests (o : uop) : bool :=
  match o with OArray _ | OFixed _ _ | OInflate _ => true | _ => false end.
(** A buffer operation (UnitModel.run_op) of unit [h].  A unit that has no slot gets one behind
    all others (datast.cpp 167-177); if its bytes cannot be had the slot stays. *)
Definition do_op (p : pool) (h : nat) (o : uop) : res (Z * pool) :=
  let* ix := fetch p h in
  match ix with
  | None =>
      let* p1 := (if requests o then grow p else Ok p) in
      let* (e, u) := run_op orc (mkUnit None (p_cnt p1)) o in
      match cu_store u with
      | Some s =>
          Ok (e, mkPool (p_slots p1 ++ [mkSlot true false s]) (p_total p1)
                        (upd h (Some (Some (length (p_slots p1), false))) (p_units p1)) (cu_cnt u))
      | None =>
          Ok (e, mkPool (p_slots p1 ++ [mkSlot true false (mkStore true true [] 0)]) (p_total p1)
                        (p_units p1) (cu_cnt u))
      end
  | Some (i, _) =>
      let* x := slot_at p i in
      let* (e, u) := run_op orc (mkUnit (Some (sl_store x)) (p_cnt p)) o in
      let* p1 := put p i x u in
      Ok (e, p1)
  end.

(** unit.cpp 690-702 and 285-326: Append.  The bytes are those of [j] after [h] has grown (the
    two may be the same unit: the loop reads below the place where it writes). *)
Definition do_append (p : pool) (h j : nat) : res (Z * pool) :=
  let* ix := fetch p h in
  let* jx := fetch p j in
  match ix, jx with
  | Some (i, _), Some (k, _) =>
      let* x := slot_at p i in
      let* y := slot_at p k in
      let n := us_dsize (sl_store y) in
      let* (e, u) := ensure orc (mkUnit (Some (sl_store x)) (p_cnt p)) n in
      let* p1 := put p i x u in
      if negb (e =? NO_ERRORS) then Ok (e, p1) else
      let* x1 := slot_at p1 i in
      let* y1 := slot_at p1 k in
      let s := sl_store y1 in
      if us_null s then Ok (if n =? 0 then NO_ERRORS else GENERAL_ERROR, p1)
      else if zlen (us_buf s) <? n then UB
      else
        let* (e2, u2) := add_array orc (mkUnit (Some (sl_store x1)) (p_cnt p1)) (firstn (Z.to_nat n) (us_buf s)) in
        let* p2 := put p1 i x1 u2 in
        Ok (e2, p2)
  | _, _ => Throw
  end.

(** datast.cpp 119-150: the unit must have the last slot. *)
Definition do_keep (p : pool) (h : nat) : res pool :=
  let* ix := fetch p h in
  match ix with
  | Some (i, false) =>
      let* _ := xl_assert (Nat.eqb (S i) (length (p_slots p))) in
      let* x := slot_at p i in
      Ok (mkPool (upd i (mkSlot true true (sl_store x)) (p_slots p)) (p_total p + us_dsize (sl_store x))
                 (upd h (Some (Some (i, true))) (p_units p)) (p_cnt p))
  | _ => Throw
  end.

(** unit.cpp 110-126 and datast.cpp 640-652: the bytes go with the unit unless they were handed
    over. *)
Definition do_drop (p : pool) (h : nat) : res pool :=
  let* ix := fetch p h in
  let units := upd h None (p_units p) in
  match ix with
  | None => Ok (mkPool (p_slots p) (p_total p) units (p_cnt p))
  | Some (i, k) =>
      let* x := slot_at p i in
      let* _ := xl_assert (Bool.eqb (sl_sticky x) k) in
      Ok (mkPool (if k then p_slots p
                  else upd i (mkSlot false false (mkStore false false (repeat 0 (Z.to_nat FIXED_SIZE)) 0)) (p_slots p))
                 (p_total p) units (p_cnt p))
  end.

(** One step, with the code it returns. *)
Definition do_pop (p : pool) (a : pop) : res (Z * pool) :=
  match a with
  | PMake => Ok (NO_ERRORS, mkPool (p_slots p) (p_total p) (p_units p ++ [Some None]) (p_cnt p))
  | PDo h o => do_op p h o
  | PAppend h j => do_append p h j
  | PKeep h => let* q := do_keep p h in Ok (NO_ERRORS, q)
  | PDrop h => let* q := do_drop p h in Ok (NO_ERRORS, q)
  end.
Fixpoint run_pops (p : pool) (l : list pop) : res (list Z * pool) :=
  match l with
  | [] => Ok ([], p)
  | a :: t =>
      let* (e, p1) := do_pop p a in
      let* (es, p2) := run_pops p1 t in
      Ok (e :: es, p2)
  end.
End Pool.

(** oledoc.cpp 205-215: the bytes of the slots one after the other. *)
Fixpoint pool_stream (l : list slot) : res (list Z) :=
  match l with
  | [] => Ok []
  | x :: t =>
      let s := sl_store x in
      let* _ := xl_assert (sl_live x) in
      let* _ := xl_assert (negb (us_null s)) in
      if zlen (us_buf s) <? us_dsize s then UB else
      let* r := pool_stream t in
      Ok (firstn (Z.to_nat (us_dsize s)) (us_buf s) ++ r)
  end.
(** unit.cpp 716-726: the bytes a unit shows (GetBuffer and GetDataSize). *)
Definition unit_shows (p : pool) (h : nat) : option (list Z) :=
  match nth_error (p_units p) h with
  | Some (Some (Some (i, _))) =>
      match nth_error (p_slots p) i with
      | Some x => content (mkUnit (Some (sl_store x)) 0)
      | None => None
      end
  | _ => None
  end.
