(** Document properties: workbook::property, the two property sets and the constructor of
    their streams. *)
From Coq Require Import ZArith List Bool.
From Verif Require Import Bytes UnitModel.
Import ListNotations.
Local Open Scope Z_scope.

(** hValue/hpsf_t, HPSF.h 64-79; an item, HPSF.h 82-90 (the stored offset is written but
    never read and is left out). *)
Inductive hvalue := HStr (s : list Z) | HBool (b : bool) | HInt16 (v : Z) | HInt32 (v : Z) | HInt64 (v : Z).
Record hitem := mkItem { hi_id : Z; hi_val : hvalue }.

(** std::set<HPSFitem*, insertsort2>, HPSF.h 112-118: items in increasing propID order.
    [set_insert] also tells whether the item went in. *)
Fixpoint set_insert (x : hitem) (l : list hitem) : list hitem * bool :=
  match l with
  | [] => ([x], true)
  | y :: t =>
      if hi_id x <? hi_id y then (x :: y :: t, true)
      else if hi_id y <? hi_id x then let '(t', b) := set_insert x t in (y :: t', b)
      else (y :: t, false)
  end.
Definition set_erase (id : Z) (l : list hitem) : list hitem :=
  filter (fun y => negb (hi_id y =? id)) l.
(** hpsf_doc_t::insert, HPSF.cpp 159-174: after a refused insertion the equal item is
    erased and the loop runs again; it never runs a third time. *)
Definition hp_insert (x : hitem) (l : list hitem) : list hitem :=
  let '(l1, ok) := set_insert x l in
  if ok then l1 else fst (set_insert x (set_erase (hi_id x) l)).
(** addItem, HPSF.h 136-141 (the key is an unsigned16_t). *)
Definition add_item (l : list hitem) (key : Z) (v : hvalue) : list hitem := hp_insert (mkItem (key mod 65536) v) l.

(** hpsf_doc_t::unix2mstime, HPSF.cpp 176-184, in unsigned64_t arithmetic. *)
Definition unix2mstime (t : Z) : Z :=
  (((t * 1000000 + 11644473600000000) mod 18446744073709551616) * 10) mod 18446744073709551616.

(** PACKAGE_NAME, xlconfig.h 63. *)
Definition package_name : list Z := [120; 108; 115; 108; 105; 98].

(** property2summary, summinfo.cpp 42-55, and property2docSummary, docsumminfo.cpp 40-52. *)
Definition property2summary : list Z := [0; 4; -1; 6; -1; 18; 5; -1; 9; 3; 2].
Definition property2docsummary : list Z := [-1; -1; 2; -1; 15; -1; -1; 14; -1; -1; -1].

(** The two property sets of a workbook. *)
Record props := mkProps { pr_sum : list hitem; pr_doc : list hitem }.
(** CSummaryInfo::CSummaryInfo, summinfo.cpp 62-79 ([now] is what time(NULL) returned), and
    CDocSummaryInfo::CDocSummaryInfo, docsumminfo.cpp 60-68. *)
Definition props_new (now : Z) : props :=
  let ms := unix2mstime now in
  let l := add_item [] 1 (HInt16 1200) in
  let l := add_item l 12 (HInt64 ms) in
  let l := add_item l 13 (HInt64 ms) in
  let l := add_item l 19 (HInt32 0) in
  let l := add_item l 18 (HStr package_name) in
  mkProps l (add_item [] 1 (HInt16 1200)).

(** workbook::property, workbook.cpp 240-253; CSummaryInfo::property, summinfo.cpp 88-96;
    CDocSummaryInfo::property, docsumminfo.cpp 77-85 (its assertion holds here).  [prop] is
    the number of the enumerator as an unsigned integer. *)
Definition PROP_LAST := 11.
Definition wb_property (st : props) (prop : Z) (content : list Z) : bool * props :=
  if PROP_LAST <=? prop then (false, st)
  else
    let s := nth (Z.to_nat prop) property2summary 0 in
    let d := nth (Z.to_nat prop) property2docsummary 0 in
    if 0 <? s then (true, mkProps (add_item (pr_sum st) s (HStr content)) (pr_doc st))
    else if 0 <? d then (true, mkProps (pr_sum st) (add_item (pr_doc st) d (HStr content)))
    else (false, st).

(** HPSFitem::GetSize, HPSF.cpp 110-140 (the assertions in it hold). *)
Definition item_size (v : hvalue) : Z :=
  4 + match v with
      | HStr s => Z.land (zlen s + 1 + 4 + 4 - 1) (Z.lnot 3)
      | HBool _ | HInt16 _ => 4
      | HInt32 _ => 4
      | HInt64 _ => 8
      end.

(** hpsfValues, HPSF.cpp 50-56. *)
Definition variant_of (v : hvalue) : Z :=
  match v with HStr _ => 30 | HBool _ => 11 | HInt16 _ => 2 | HInt32 _ => 3 | HInt64 _ => 64 end.
(** The class identifiers, HPSF.cpp 38-49. *)
Definition summary_format : list Z := [4070540768; 275271673; 561579; 3652396843].
Definition docsummary_format : list Z := [3587036418; 270216860; 563091; 2935565355].

(** CHPSFdoc::CHPSFdoc, HPSF.cpp 200-313 (the build is not for OSX).  Header, 214-230. *)
Definition hpsf_header (fmt : list Z) : list uop :=
  [OAdd16 65534; OAdd16 0; OAdd32 2; OAdd32 0; OAdd32 0; OAdd32 0; OAdd32 0; OAdd32 1]
  ++ map OAdd32 fmt.
(** The property list, 239-253: identifiers and offsets; the last offset is the size of the
    section. *)
Fixpoint hpsf_list (l : list hitem) (off : Z) : list uop * Z :=
  match l with
  | [] => ([], off)
  | x :: t =>
      let '(ops, e) := hpsf_list t (off + item_size (hi_val x)) in
      (OAdd32 (hi_id x) :: OAdd32 off :: ops, e)
  end.
(** One value, 258-305. *)
Definition hpsf_value (v : hvalue) : list uop :=
  OAdd32 (variant_of v) ::
  match v with
  | HStr s =>
      let len := zlen s + 1 in
      [OAdd32 len; OArray s; OFixed 0 (1 + Z.land (4 - len) 3)]
  | HBool b => [OAdd16 (if b then 65535 else 0); OFixed 0 2]
  | HInt16 n => [OAdd16 n; OFixed 0 2]
  | HInt32 n => [OAdd32 n; OFixed 0 0]
  | HInt64 n => [OAdd64 n; OFixed 0 0]
  end.
(** Everything up to the final padding; 44 bytes precede the section offset, so
    GetDataSize() + 4 = 48 where it is evaluated (line 232). *)
Definition hpsf_ops (fmt : list Z) (l : list hitem) : list uop :=
  let '(ops, total) := hpsf_list l (8 + zlen l * 8) in
  hpsf_header fmt ++ [OAdd32 48; OAdd32 0; OAdd32 (zlen l)] ++ ops ++ [OSet32 total 48]
  ++ flat_map (fun x => hpsf_value (hi_val x)) l.

Definition SUMMARY_SIZE := 4096.
(** The constructor on the concrete buffer with allocator [orc]. *)
Definition hpsf_unit (orc : nat -> option (nat -> Z)) (fmt : list Z) (l : list hitem) : res cunit :=
  let* (e, u) := run_op orc unit_new (OInflate SUMMARY_SIZE) in
  if negb (e =? NO_ERRORS) then Ok u
  else
    let* (_, u1) := run_ops orc u (hpsf_ops fmt l) in
    let* s := the_store u1 in
    let* _ := xl_assert (us_dsize s <=? get_size s) in
    let* _ := xl_assert (us_dsize s <=? SUMMARY_SIZE) in
    let* (_, u2) := run_op orc u1 (OFixed 0 (SUMMARY_SIZE - us_dsize s)) in
    let* s2 := the_store u2 in
    let* _ := xl_assert (us_dsize s2 <=? get_size s2) in
    Ok u2.
(** CSummaryInfo::DumpData, summinfo.cpp 98-108, and CDocSummaryInfo::DumpData,
    docsumminfo.cpp 87-97: one unit per stream. *)
Definition summary_unit orc (st : props) : res cunit := hpsf_unit orc summary_format (pr_sum st).
Definition docsummary_unit orc (st : props) : res cunit := hpsf_unit orc docsummary_format (pr_doc st).
