(** Model of the growable record buffer: CUnitStore (fixed 18-byte storage or heap
    block) and CUnit (/repo/xlslib/src/xlslib/unit.cpp, datast.cpp, datast.h,
    record.cpp).  Memory is explicit: a write outside the owned storage is the outcome
    [UB]; a failed XL_ASSERT is the outcome [Throw]
    (/repo/xlslib/src/common/systype.h 279-297, assert_assist.cpp 36-75). *)
From Coq Require Import ZArith List Lia Bool.
From Verif Require Import Bytes.
Import ListNotations.
Local Open Scope Z_scope.

Inductive res (A : Type) : Type :=
| Ok (a : A)
| Throw
| UB.
Arguments Ok {A} a.
Arguments Throw {A}.
Arguments UB {A}.

Definition bind {A B} (r : res A) (f : A -> res B) : res B :=
  match r with Ok a => f a | Throw => Throw | UB => UB end.
Notation "'let*' x ':=' r 'in' k" := (bind r (fun x => k))
  (at level 200, x pattern, r at level 100, k at level 200).

(** XL_ASSERT: /repo/xlslib/src/common/systype.h 279-297. *)
Definition xl_assert (b : bool) : res unit := if b then Ok tt else Throw.

(** Error codes: /repo/xlslib/src/common/systype.h (NO_ERRORS, GENERAL_ERROR) and
    /repo/xlslib/src/xlslib/unit.h 44-46. *)
Definition NO_ERRORS := 0.
Definition GENERAL_ERROR := -100.
Definition ERR_DATASTORAGE_EMPTY := -2.
Definition ERR_INVALID_INDEX := -3.
Definition ERR_UNABLE_TOALLOCATE_MEMORY := -4.

(** datast.h 50 *)
Definition FIXED_SIZE := 18.

(** XlsUnicodeStringFormat_t, unit.h (LEN2_FLAGS_UNICODE, LEN1_FLAGS_UNICODE,
    NOLEN_FLAGS_UNICODE). *)
Inductive strfmt := LEN2 | LEN1 | NOLEN.

(** globalrec.cpp 904-918, IsASCII(const u16string&): OR of all units <= 0x7F. *)
Definition is_ascii (s : list Z) : bool := fold_left Z.lor s 0 <=? 127.

(** unit.cpp 587-624, UnicodeStringLength. *)
Definition unicode_string_length (s : list Z) (f : strfmt) : Z :=
  let strLen := zlen s in
  let hdr := match f with LEN2 => 3 | LEN1 => 2 | NOLEN => 1 end in
  strLen + hdr + (if is_ascii s then 0 else strLen).

(** unit.cpp 535-581: the bytes stored by AddUnicodeString, in order.  size_t lengths
    are masked with [& 0xFF] exactly as in the code. *)
Definition ustr_header (s : list Z) (f : strfmt) : list Z :=
  let n := zlen s in
  let flag := if is_ascii s then 0 else 1 in
  match f with
  | LEN2 => [byte_k 0 n; byte_k 1 n; flag]
  | LEN1 => [byte_k 0 n; flag]
  | NOLEN => [flag]
  end.
Definition ustr_body (s : list Z) : list Z :=
  if is_ascii s then map (byte_k 0) s
  else flat_map (fun c => [byte_k 0 c; byte_k 1 c]) s.
Definition ustr_bytes (s : list Z) (f : strfmt) : list Z := ustr_header s f ++ ustr_body s.

(** Buffer operations issued by the record constructors.  [OSetSz16 pos base] is
    SetValueAt16((unsigned16_t)(GetDataSize() - base), pos), the idiom of
    SetRecordLength(GetDataSize()-RECORD_HEADER_SIZE). *)
Inductive uop :=
| OAdd8 (v : Z)
| OAdd16 (v : Z)
| OAdd32 (v : Z)
| OAdd64 (v : Z)
| OSet8 (v : Z) (i : Z)
| OSet16 (v : Z) (i : Z)
| OSet32 (v : Z) (i : Z)
| OArray (l : list Z)
| OFixed (v : Z) (n : Z)
| OAppend (l : list Z)
| OStr (s : list Z) (f : strfmt)
| OInflate (n : Z)
| OSetSz16 (pos base : Z).

(** ------------------------------------------------------------------ *)
(** Concrete semantics                                                  *)

(** datast.h 83-101.  [us_buf] is the owned storage (18 bytes when not
    [us_vary]); [us_null] records s.vary.m_pData == NULL. *)
Record ustore := mkStore {
  us_vary : bool;
  us_null : bool;
  us_buf : list Z;
  us_dsize : Z
}.

(** [cu_store = None] is m_Index == INVALID_STORE_INDEX; [cu_cnt] counts allocator
    calls (the argument of the oracle). *)
Record cunit := mkUnit { cu_store : option ustore; cu_cnt : nat }.

(** CUnit::CUnit, unit.cpp 53-60. *)
Definition unit_new : cunit := mkUnit None 0.

(** datast.h 141-149. *)
Definition get_size (s : ustore) : Z := if us_vary s then zlen (us_buf s) else FIXED_SIZE.

Section Concrete.
(** The allocator: the k-th call is refused ([None]) or returns a block whose content
    is arbitrary. *)
Variable orc : nat -> option (nat -> Z).

Definition malloc (cnt : nat) (n : Z) : option (list Z) :=
  match orc cnt with
  | None => None
  | Some g => Some (map g (seq 0 (Z.to_nat n)))
  end.

(** C realloc: the common prefix is preserved, the rest is arbitrary. *)
Definition realloc (cnt : nat) (old : list Z) (n : Z) : option (list Z) :=
  match malloc cnt n with
  | None => None
  | Some g => Some (firstn (Z.to_nat n) old ++ skipn (length (firstn (Z.to_nat n) old)) g)
  end.

(** memcpy(p, src, k) into a block at least k bytes long. *)
Definition memcpy_prefix (p src : list Z) (k : nat) : res (list Z) :=
  if (Nat.leb k (length p) && Nat.leb k (length src))%bool
  then Ok (firstn k src ++ skipn k p) else UB.

(** CUnitStore::Prepare, datast.cpp 607-638. *)
Definition prepare (cnt : nat) (minimum_size : Z) : Z * ustore * nat :=
  if minimum_size <=? FIXED_SIZE then
    (NO_ERRORS, mkStore false false (repeat 0 (Z.to_nat FIXED_SIZE)) 0, cnt)
  else
    match malloc cnt minimum_size with
    | None => (ERR_UNABLE_TOALLOCATE_MEMORY, mkStore true true [] 0, S cnt)
    | Some p => (NO_ERRORS, mkStore true false p 0, S cnt)
    end.

(** CDataStorage::RequestIndex, datast.cpp 167-177, seen from the requesting unit. *)
Definition request_index (u : cunit) (minimum_size : Z) : Z * cunit :=
  match prepare (cu_cnt u) minimum_size with
  | (e, s, cnt) =>
      if e =? NO_ERRORS then (NO_ERRORS, mkUnit (Some s) cnt)
      else (GENERAL_ERROR, mkUnit None cnt)
  end.

(** CUnitStore::Resize, datast.cpp 654-693. *)
Definition resize (s : ustore) (cnt : nat) (newlen : Z) : res (Z * ustore * nat) :=
  let* _ := xl_assert (0 <? newlen) in
  let* _ := xl_assert (us_dsize s <=? newlen) in
  if negb (us_vary s) then
    if FIXED_SIZE <? newlen then
      match malloc cnt newlen with
      | None => Ok (ERR_UNABLE_TOALLOCATE_MEMORY, mkStore true true [] (us_dsize s), S cnt)
      | Some p =>
          let* p' := memcpy_prefix p (us_buf s) (Z.to_nat (us_dsize s)) in
          Ok (NO_ERRORS, mkStore true false p' (us_dsize s), S cnt)
      end
    else Ok (NO_ERRORS, s, cnt)
  else if newlen =? zlen (us_buf s) then Ok (NO_ERRORS, s, cnt)
  else
    let* r := (if us_null s then
                 let* _ := xl_assert (us_dsize s =? 0) in Ok (malloc cnt newlen)
               else Ok (realloc cnt (us_buf s) newlen)) in
    match r with
    | None => Ok (ERR_UNABLE_TOALLOCATE_MEMORY, mkStore true true [] (us_dsize s), S cnt)
    | Some p => Ok (NO_ERRORS, mkStore true false p (us_dsize s), S cnt)
    end.

(** CUnit::Inflate, unit.cpp 626-654. *)
Definition inflate (u : cunit) (newsize : Z) : res (Z * cunit) :=
  match cu_store u with
  | None =>
      let* _ := xl_assert (0 <? newsize) in
      Ok (request_index u newsize)
  | Some s =>
      let* _ := xl_assert (0 <? newsize) in
      let* (e, s', cnt) := resize s (cu_cnt u) newsize in
      Ok (e, mkUnit (Some s') cnt)
  end.

(** m_Store[m_Index]: asserts a valid index (datast.cpp 179-186, unit.cpp 710-726). *)
Definition the_store (u : cunit) : res ustore :=
  match cu_store u with Some s => Ok s | None => Throw end.

(** [data[i] = v] through the raw pointer returned by GetBuffer. *)
Definition raw_write (s : ustore) (i : Z) (v : Z) : res ustore :=
  if (us_null s || (i <? 0) || (zlen (us_buf s) <=? i))%bool then UB
  else Ok (mkStore (us_vary s) (us_null s) (upd (Z.to_nat i) v (us_buf s)) (us_dsize s)).

(** SetDataSize, datast.h 134-139: assertion and 29-bit bit-field. *)
Definition set_data_size (s : ustore) (len : Z) : res ustore :=
  let* _ := xl_assert (len <=? get_size s) in
  Ok (mkStore (us_vary s) (us_null s) (us_buf s) (len mod 2 ^ 29)).

(** "if (spaceleft < n) { errcode = Inflate(n + GetDataSize()); ... }",
    unit.cpp 296-304, 339-347, 456-463, 520-527, 692-699. *)
Definition ensure (u : cunit) (n : Z) : res (Z * cunit) :=
  let* s := the_store u in
  let* _ := xl_assert (us_dsize s <=? get_size s) in
  if get_size s - us_dsize s <? n then inflate u (n + us_dsize s) else Ok (NO_ERRORS, u).

(** The byte loops "XL_ASSERT(GetSize() > datasize); data[datasize++] = b",
    unit.cpp 312-315, 354-357, 535-581. *)
Fixpoint write_loop (s : ustore) (ds : Z) (l : list Z) : res (ustore * Z) :=
  match l with
  | [] => Ok (s, ds)
  | b :: t =>
      let* _ := xl_assert (ds <? get_size s) in
      let* s' := raw_write s ds b in
      write_loop s' (ds + 1) t
  end.

(** Loop followed by SetDataSize(datasize). *)
Definition append_raw (u : cunit) (l : list Z) : res (Z * cunit) :=
  let* s := the_store u in
  let* (s1, ds) := write_loop s (us_dsize s) l in
  let* s2 := set_data_size s1 ds in
  Ok (NO_ERRORS, mkUnit (Some s2) (cu_cnt u)).

(** CUnit::AddValue8, unit.cpp 393-412. *)
Definition add8 (u : cunit) (v : Z) : res (Z * cunit) :=
  let* s := the_store u in
  let* _ := xl_assert (us_dsize s <=? get_size s) in
  let* (e, u1) := (if get_size s <=? us_dsize s then inflate u (us_dsize s + 1)
                    else Ok (NO_ERRORS, u)) in
  if negb (e =? NO_ERRORS) then Ok (e, u1) else
  let* s1 := the_store u1 in
  let* s2 := raw_write s1 (us_dsize s1) (byte_k 0 v) in
  let* s3 := set_data_size s2 (us_dsize s1 + 1) in
  Ok (NO_ERRORS, mkUnit (Some s3) (cu_cnt u1)).

(** "if(AddValue8(BYTE_k(newval))) { errcode = GENERAL_ERROR; }" repeated,
    unit.cpp 152-189. *)
Fixpoint add_bytes (u : cunit) (e : Z) (l : list Z) : res (Z * cunit) :=
  match l with
  | [] => Ok (e, u)
  | b :: t =>
      let* (e1, u1) := add8 u b in
      add_bytes u1 (if e1 =? NO_ERRORS then e else GENERAL_ERROR) t
  end.

(** CUnit::SetValueAt8, unit.cpp 130-150 (the index is an unsigned32_t). *)
Definition set8 (u : cunit) (v : Z) (index : Z) : res (Z * cunit) :=
  let index := index mod 2 ^ 32 in
  let* s := the_store u in
  if us_null s then Ok (ERR_DATASTORAGE_EMPTY, u) else
  let* _ := xl_assert (us_dsize s <=? get_size s) in
  if index <? us_dsize s then
    let* s' := raw_write s index (byte_k 0 v) in
    Ok (NO_ERRORS, mkUnit (Some s') (cu_cnt u))
  else Ok (ERR_INVALID_INDEX, u).

(** SetValueAt16/SetValueAt32, unit.cpp 220-240. *)
Fixpoint set_bytes (u : cunit) (e : Z) (l : list Z) (index : Z) : res (Z * cunit) :=
  match l with
  | [] => Ok (e, u)
  | b :: t =>
      let* (e1, u1) := set8 u b index in
      set_bytes u1 (if e1 =? NO_ERRORS then e else GENERAL_ERROR) t (index + 1)
  end.

(** CUnit::AddDataArray (newdata non-NULL), unit.cpp 285-326; AddFixedDataArray,
    unit.cpp 328-362, is the same loop on a constant array. *)
Definition add_array (u : cunit) (l : list Z) : res (Z * cunit) :=
  let '(e0, u0) := match cu_store u with
                   | None => request_index u (zlen l)
                   | Some _ => (NO_ERRORS, u)
                   end in
  if negb (e0 =? NO_ERRORS) then Ok (GENERAL_ERROR, u0) else
  let* (e, u1) := ensure u0 (zlen l) in
  if negb (e =? NO_ERRORS) then Ok (e, u1) else append_raw u1 (map (byte_k 0) l).

(** CUnit::Append, unit.cpp 690-702 (the appended unit is a different unit). *)
Definition append_unit (u : cunit) (l : list Z) : res (Z * cunit) :=
  let* (e, u1) := ensure u (zlen l) in
  if negb (e =? NO_ERRORS) then Ok (e, u1) else add_array u1 l.

(** CUnit::AddUnicodeString(const u16string&, fmt), unit.cpp 511-585. *)
Definition add_str (u : cunit) (str : list Z) (f : strfmt) : res (Z * cunit) :=
  let* (e, u1) := ensure u (unicode_string_length str f) in
  if negb (e =? NO_ERRORS) then Ok (e, u1) else
  let* s := the_store u1 in
  let* _ := xl_assert (negb (us_null s)) in
  append_raw u1 (ustr_bytes str f).

Definition run_op (u : cunit) (o : uop) : res (Z * cunit) :=
  match o with
  | OAdd8 v => add8 u v
  | OAdd16 v => add_bytes u NO_ERRORS (le16 v)
  | OAdd32 v => add_bytes u NO_ERRORS (le32 v)
  | OAdd64 v => add_bytes u NO_ERRORS (le64 v)
  | OSet8 v i => set8 u v i
  | OSet16 v i => set_bytes u NO_ERRORS (le16 v) i
  | OSet32 v i => set_bytes u NO_ERRORS (le32 v) i
  | OArray l => add_array u l
  | OFixed v n => add_array u (repeat v (Z.to_nat n))
  | OAppend l => append_unit u l
  | OStr s f => add_str u s f
  | OInflate n => inflate u n
  | OSetSz16 pos base =>
      let* s := the_store u in
      set_bytes u NO_ERRORS (le16 (us_dsize s - base)) pos
  end.

(** A record constructor: operations in order, error codes collected (the constructors
    ignore them). *)
Fixpoint run_ops (u : cunit) (ops : list uop) : res (list Z * cunit) :=
  match ops with
  | [] => Ok ([], u)
  | o :: t =>
      let* (e, u1) := run_op u o in
      let* (es, u2) := run_ops u1 t in
      Ok (e :: es, u2)
  end.
End Concrete.

(** Visible content: the first GetDataSize() bytes of GetBuffer(). *)
Definition content (u : cunit) : option (list Z) :=
  match cu_store u with
  | None => None
  | Some s => if us_null s then None else Some (firstn (Z.to_nat (us_dsize s)) (us_buf s))
  end.

(** ------------------------------------------------------------------ *)
(** Abstract semantics: a buffer is a byte list ([None]: no storage requested yet).  *)

Definition amap (a : option (list Z)) (f : list Z -> res (Z * option (list Z))) :
  res (Z * option (list Z)) :=
  match a with None => Throw | Some l => f l end.

Definition aset8 (v i : Z) (l : list Z) : Z * list Z :=
  let i := i mod 2 ^ 32 in
  if i <? zlen l then (NO_ERRORS, upd (Z.to_nat i) (byte_k 0 v) l) else (ERR_INVALID_INDEX, l).

Fixpoint aset_bytes (e : Z) (bs : list Z) (i : Z) (l : list Z) : Z * list Z :=
  match bs with
  | [] => (e, l)
  | b :: t =>
      let '(e1, l1) := aset8 b i l in
      aset_bytes (if e1 =? NO_ERRORS then e else GENERAL_ERROR) t (i + 1) l1
  end.

Definition arun_op (a : option (list Z)) (o : uop) : res (Z * option (list Z)) :=
  match o with
  | OAdd8 v => amap a (fun l => Ok (NO_ERRORS, Some (l ++ [byte_k 0 v])))
  | OAdd16 v => amap a (fun l => Ok (NO_ERRORS, Some (l ++ le16 v)))
  | OAdd32 v => amap a (fun l => Ok (NO_ERRORS, Some (l ++ le32 v)))
  | OAdd64 v => amap a (fun l => Ok (NO_ERRORS, Some (l ++ le64 v)))
  | OSet8 v i => amap a (fun l => let '(e, l') := aset8 v i l in Ok (e, Some l'))
  | OSet16 v i => amap a (fun l => let '(e, l') := aset_bytes NO_ERRORS (le16 v) i l in Ok (e, Some l'))
  | OSet32 v i => amap a (fun l => let '(e, l') := aset_bytes NO_ERRORS (le32 v) i l in Ok (e, Some l'))
  | OArray x => Ok (NO_ERRORS, Some (match a with None => [] | Some l => l end ++ map (byte_k 0) x))
  | OFixed v n =>
      Ok (NO_ERRORS, Some (match a with None => [] | Some l => l end ++ repeat (byte_k 0 v) (Z.to_nat n)))
  | OAppend x => amap a (fun l => Ok (NO_ERRORS, Some (l ++ map (byte_k 0) x)))
  | OStr s f => amap a (fun l => Ok (NO_ERRORS, Some (l ++ ustr_bytes s f)))
  | OInflate n =>
      match a with
      | None => if 0 <? n then Ok (NO_ERRORS, Some []) else Throw
      | Some l => if ((0 <? n) && (zlen l <=? n))%bool then Ok (NO_ERRORS, a) else Throw
      end
  | OSetSz16 pos base =>
      amap a (fun l => let '(e, l') := aset_bytes NO_ERRORS (le16 (zlen l - base)) pos l in Ok (e, Some l'))
  end.

Fixpoint arun_ops (a : option (list Z)) (ops : list uop) : res (list Z * option (list Z)) :=
  match ops with
  | [] => Ok ([], a)
  | o :: t =>
      let* (e, a1) := arun_op a o in
      let* (es, a2) := arun_ops a1 t in
      Ok (e :: es, a2)
  end.

(** Byte string produced by a constructor program. *)
Definition rec_bytes (ops : list uop) : list Z :=
  match arun_ops None ops with
  | Ok (_, Some l) => l
  | _ => []
  end.

(** Length of the abstract content. *)
Definition alen (a : option (list Z)) : Z := match a with None => 0 | Some l => zlen l end.
