(** Reading and replacing the bytes of a record buffer in place: the members of CUnit that the
    record constructors do not use, and the switches of the WINDOW2 record. *)
From Coq Require Import ZArith List Bool.
From Verif Require Import Bytes UnitModel RecModel.
Import ListNotations.
Local Open Scope Z_scope.

(** What a caller can do to a buffer: [EBuild] is any operation of UnitModel.v; the argument of
    [EPlusUnit] and [EAssign] is what the other buffer, which owns storage, shows. *)
Inductive eop :=
| EBuild (o : uop)
| EAt (i : Z)
| EPut (i v : Z)
| EGet8 (i : Z)
| EGet16 (i : Z)
| EGet32 (i : Z)
| EArrayAt (l : list Z) (i : Z)
| EInit (l : list Z) (n : Z)
| EFill (v n : Z)
| EPlus (v : Z)
| EPlusUnit (l : list Z)
| EAssign (l : list Z).

(** Reading [data[i]] through the pointer returned by GetBuffer. *)
Definition raw_read (s : ustore) (i : Z) : res Z :=
  if (us_null s || (i <? 0) || (zlen (us_buf s) <=? i))%bool then UB
  else Ok (nth (Z.to_nat i) (us_buf s) 0).

(** CUnit::operator[], unit.cpp 656-667: the place in the storage, after both assertions. *)
Definition unit_place (u : cunit) (i : Z) : res ustore :=
  let* s := the_store u in
  let* _ := xl_assert (i <? get_size s) in
  let* _ := xl_assert (i <? us_dsize s) in
  Ok s.
Definition unit_at (u : cunit) (i : Z) : res Z :=
  let* s := unit_place u i in raw_read s i.
(** The same member used on the left of an assignment. *)
Definition unit_put (u : cunit) (i v : Z) : res cunit :=
  let* s := unit_place u i in
  let* s' := raw_write s i (byte_k 0 v) in
  Ok (mkUnit (Some s') (cu_cnt u)).

(** CUnit::GetValue8From (dst non-NULL), unit.cpp 263-283: the code, and the byte when it was
    stored through the pointer. *)
Definition unit_get8 (u : cunit) (i : Z) : res (list Z) :=
  let i := i mod 2 ^ 32 in
  let* s := the_store u in
  let* _ := xl_assert (us_dsize s <=? get_size s) in
  if i <? us_dsize s then let* b := raw_read s i in Ok [NO_ERRORS; b]
  else Ok [ERR_INVALID_INDEX].
(** CUnit::GetValue16From, unit.cpp 242-250 (the index is an unsigned32_t). *)
Definition unit_get16 (u : cunit) (i : Z) : res (list Z) :=
  let* a := unit_at u (i mod 2 ^ 32) in
  let* b := unit_at u ((i + 1) mod 2 ^ 32) in
  Ok [NO_ERRORS; (a + b * 256) mod 2 ^ 16].
(** CUnit::GetValue32From, unit.cpp 252-261. *)
Definition unit_get32 (u : cunit) (i : Z) : res (list Z) :=
  let* a := unit_at u (i mod 2 ^ 32) in
  let* b := unit_at u ((i + 1) mod 2 ^ 32) in
  let* c := unit_at u ((i + 2) mod 2 ^ 32) in
  let* d := unit_at u ((i + 3) mod 2 ^ 32) in
  Ok [NO_ERRORS; (a + b * 256 + c * 65536 + d * 16777216) mod 2 ^ 32].

(** The loop of CUnit::SetArrayAt, unit.cpp 383-387. *)
Fixpoint poke_loop (s : ustore) (i : Z) (l : list Z) : res ustore :=
  match l with
  | [] => Ok s
  | b :: t =>
      let* _ := xl_assert (i <? get_size s) in
      let* s' := raw_write s i b in
      poke_loop s' ((i + 1) mod 2 ^ 32) t
  end.

(** memcpy or memset to the start of the storage, then SetDataSize. *)
Definition replace_all (s : ustore) (l : list Z) : res ustore :=
  let* b := memcpy_prefix (us_buf s) l (length l) in
  set_data_size (mkStore (us_vary s) (us_null s) b (us_dsize s)) (zlen l).

Section Concrete.
Variable orc : nat -> option (nat -> Z).

(** CUnit::SetArrayAt (newdata non-NULL), unit.cpp 367-391. *)
Definition unit_array_at (u : cunit) (l : list Z) (i : Z) : res (Z * cunit) :=
  let* s := the_store u in
  let* (e, u1) := (if get_size s <? zlen l + i then inflate orc u (zlen l + i)
                   else Ok (NO_ERRORS, u)) in
  if negb (e =? NO_ERRORS) then Ok (e, u1) else
  let* s1 := the_store u1 in
  let* s2 := poke_loop s1 i (map (byte_k 0) l) in
  Ok (NO_ERRORS, mkUnit (Some s2) (cu_cnt u1)).

(** CUnit::Init, unit.cpp 683-688, with CUnitStore::Init, datast.cpp 695-708 (the third argument
    is the length of the data). *)
Definition unit_init (u : cunit) (l : list Z) (n : Z) : res (Z * cunit) :=
  let* s := the_store u in
  let* _ := xl_assert (0 <? n) in
  let* _ := xl_assert (zlen l <=? n) in
  let* (e, s1, cnt) := resize orc s (cu_cnt u) n in
  if negb (e =? NO_ERRORS) then Ok (e, mkUnit (Some s1) cnt) else
  let* s2 := replace_all s1 (map (byte_k 0) l) in
  Ok (NO_ERRORS, mkUnit (Some s2) cnt).

(** CUnit::InitFill, unit.cpp 704-708, with CUnitStore::InitWithValue, datast.cpp 710-722. *)
Definition unit_fill (u : cunit) (v n : Z) : res (Z * cunit) :=
  let* s := the_store u in
  let* _ := xl_assert (0 <? n) in
  let* (e, s1, cnt) := resize orc s (cu_cnt u) n in
  if negb (e =? NO_ERRORS) then Ok (e, mkUnit (Some s1) cnt) else
  let* s2 := replace_all s1 (repeat (byte_k 0 v) (Z.to_nat n)) in
  Ok (NO_ERRORS, mkUnit (Some s2) cnt).

(** XL_VERIFY(NO_ERRORS == ...) of both operators +=, unit.cpp 669-681. *)
Definition verified (r : res (Z * cunit)) : res cunit :=
  let* (e, u) := r in
  let* _ := xl_assert (e =? NO_ERRORS) in
  Ok u.

(** CUnit::operator=, unit.cpp 80-108 (from a different buffer that owns storage). *)
Definition unit_assign (u : cunit) (l : list Z) : res cunit :=
  let* u1 := (match cu_store u with
              | None => Ok (snd (request_index orc u (zlen l)))
              | Some s =>
                  let* (e, s1, cnt) := resize orc s (cu_cnt u) (zlen l) in
                  let* _ := xl_assert (e =? NO_ERRORS) in
                  Ok (mkUnit (Some s1) cnt)
              end) in
  let* s := the_store u1 in
  let* _ := xl_assert (zlen l <=? get_size s) in
  let* s2 := replace_all s (map (byte_k 0) l) in
  Ok (mkUnit (Some s2) (cu_cnt u1)).

(** One call: what it answers (error code, value read) and the buffer after it.  The code of
    [EBuild] is left out; it is the subject of C01 and C02. *)
Definition run_eop (u : cunit) (o : eop) : res (list Z * cunit) :=
  match o with
  | EBuild o => let* (_, u1) := run_op orc u o in Ok ([], u1)
  | EAt i => let* b := unit_at u i in Ok ([b], u)
  | EPut i v => let* u1 := unit_put u i v in Ok ([], u1)
  | EGet8 i => let* a := unit_get8 u i in Ok (a, u)
  | EGet16 i => let* a := unit_get16 u i in Ok (a, u)
  | EGet32 i => let* a := unit_get32 u i in Ok (a, u)
  | EArrayAt l i => let* (e, u1) := unit_array_at u l i in Ok ([e], u1)
  | EInit l n => let* (e, u1) := unit_init u l n in Ok ([e], u1)
  | EFill v n => let* (e, u1) := unit_fill u v n in Ok ([e], u1)
  | EPlus v => let* u1 := verified (add8 orc u v) in Ok ([], u1)
  | EPlusUnit l => let* u1 := verified (append_unit orc u l) in Ok ([], u1)
  | EAssign l => let* u1 := unit_assign u l in Ok ([], u1)
  end.
Fixpoint run_eops (u : cunit) (ops : list eop) : res (list (list Z) * cunit) :=
  match ops with
  | [] => Ok ([], u)
  | o :: t =>
      let* (a, u1) := run_eop u o in
      let* (l, u2) := run_eops u1 t in
      Ok (a :: l, u2)
  end.

(** The switches of the WINDOW2 record, recdef.cpp 299-341: read the flags at offset 4, change
    them, store them.  ClearPaged (line 338) masks with the flag itself, not with its complement. *)
Inductive wswitch := WSetSelected | WSetPaged | WClearSelected | WClearPaged.
Definition switched (s : wswitch) (g : Z) : Z :=
  match s with
  | WSetSelected => Z.lor g 512
  | WSetPaged => Z.lor g 2048
  | WClearSelected => Z.ldiff g 512
  | WClearPaged => Z.land g 2048
  end.
Definition window_switch (u : cunit) (s : wswitch) : res cunit :=
  let* g := unit_get16 u 4 in
  let* (_, u1) := run_op orc u (OSet16 (switched s (nth 1 g 0)) 4) in
  Ok u1.
Fixpoint window_switches (u : cunit) (l : list wswitch) : res cunit :=
  match l with
  | [] => Ok u
  | s :: t => let* u1 := window_switch u s in window_switches u1 t
  end.
(** A WINDOW2 record (recdef.cpp 242-268) and then the switches. *)
Definition window_made (active : bool) (l : list wswitch) : res cunit :=
  let* (_, u) := run_ops orc unit_new (rec_window2 active) in window_switches u l.
End Concrete.
