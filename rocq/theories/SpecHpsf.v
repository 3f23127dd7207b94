(** Independent specification of document properties: what a history of property calls
    should leave in the two property sets, and a reader of the property set format
    ([MS-OLEPS] 2.21, 2.20, 2.15: header, section, typed values). *)
From Coq Require Import ZArith List Bool.
From Verif Require Import Bytes.
Import ListNotations.
Local Open Scope Z_scope.

(* ------------------------------------------------------------------ *)
(** * What the sets should hold *)

Inductive pvalue := PText (bytes : list Z) | PInt16 (v : Z) | PInt32 (v : Z) | PBool (b : bool) | PTime (v : Z).
(** SummaryInformation and DocumentSummaryInformation. *)
Inductive pset := Summary | DocSummary.

(** The properties of the API, in the order of property_t (summinfo.h), and where the
    format keeps them ([MS-OLEPS] 3.1.2 and 3.1.3). *)
Definition place_of (prop : Z) : option (pset * Z) :=
  nth (Z.to_nat prop)
    [None;
     Some (Summary, 4);       (* author *)
     Some (DocSummary, 2);    (* category *)
     Some (Summary, 6);       (* comments *)
     Some (DocSummary, 15);   (* company *)
     Some (Summary, 18);      (* creating application *)
     Some (Summary, 5);       (* keywords *)
     Some (DocSummary, 14);   (* manager *)
     Some (Summary, 9);       (* revision *)
     Some (Summary, 3);       (* subject *)
     Some (Summary, 2)]       (* title *)
    None.
Definition set_eqb (a b : pset) : bool := match a, b with Summary, Summary | DocSummary, DocSummary => true | _, _ => false end.
Definition at_place (d : pset) (id : Z) (prop : Z) : bool :=
  match place_of prop with Some (d', i) => (set_eqb d d' && (i =? id))%bool | None => false end.

(** A history of calls property(prop, content). *)
Definition pcall := (Z * list Z)%type.
(** What the workbook sets by itself when it is created at time [now] (seconds since 1970):
    the code page, the times of creation and saving (100 ns units since 1601), the
    application and the security level. *)
Definition own_value (now : Z) (d : pset) (id : Z) : option pvalue :=
  match d with
  | Summary =>
      if id =? 1 then Some (PInt16 1200)
      else if (id =? 12) || (id =? 13) then Some (PTime ((now + 11644473600) * 10000000))
      else if id =? 18 then Some (PText [120; 108; 115; 108; 105; 98])
      else if id =? 19 then Some (PInt32 0) else None
  | DocSummary => if id =? 1 then Some (PInt16 1200) else None
  end%bool.
(** The last value set counts. *)
Definition value_of (now : Z) (calls : list pcall) (d : pset) (id : Z) : option pvalue :=
  fold_left (fun v q => if at_place d id (fst q) then Some (PText (snd q)) else v) calls (own_value now d id).
(** The whole set in the order of identifiers. *)
Definition expected (now : Z) (calls : list pcall) (d : pset) : list (Z * pvalue) :=
  flat_map (fun id => match value_of now calls d id with Some v => [(id, v)] | None => [] end)
    (map Z.of_nat (seq 1 19)).

(** Bytes needed: the header of the stream and of the section, an entry and a value per
    property; values are padded to multiples of four bytes. *)
Definition up4 (n : Z) : Z := (n + 3) / 4 * 4.
Definition value_need (v : pvalue) : Z :=
  4 + match v with PText s => 4 + up4 (zlen s + 1) | PInt16 _ | PBool _ | PInt32 _ => 4 | PTime _ => 8 end.
Definition need (l : list (Z * pvalue)) : Z := fold_right (fun x n => 8 + value_need (snd x) + n) 56 l.

(* ------------------------------------------------------------------ *)
(** * The reader *)

Notation "'let?' x := a 'in' b" := (match a with Some x => b | None => None end) (at level 200, x pattern, b at level 200).
Definition check (b : bool) : option unit := if b then Some tt else None.
Definition num (n : nat) (b : list Z) (off : Z) : option Z :=
  if (0 <=? off) && (off + Z.of_nat n <=? zlen b) then Some (le_value (firstn n (skipn (Z.to_nat off) b))) else None.
Definition cut (b : list Z) (off n : Z) : option (list Z) :=
  if (0 <=? off) && (0 <=? n) && (off + n <=? zlen b) then Some (firstn (Z.to_nat n) (skipn (Z.to_nat off) b)) else None.

(** A typed value at the start of [b]. *)
Definition read_value (b : list Z) : option pvalue :=
  let? t := num 4 b 0 in
  if t =? 2 then let? v := num 2 b 4 in Some (PInt16 v)
  else if t =? 3 then let? v := num 4 b 4 in Some (PInt32 v)
  else if t =? 11 then let? v := num 2 b 4 in
    if v =? 65535 then Some (PBool true) else if v =? 0 then Some (PBool false) else None
  else if t =? 64 then let? v := num 8 b 4 in Some (PTime v)
  else if t =? 30 then
    let? n := num 4 b 4 in
    let? s := cut b 8 (n - 1) in
    let? z := cut b (8 + n - 1) 1 in
    let? _ := check (match z with [0] => true | _ => false end) in Some (PText s)
  else None.

(** The entries of a section: identifiers must increase; offsets count from the start of
    the section, must be multiples of four and lie behind the entries. *)
Fixpoint read_entries (sec : list Z) (count : nat) (pos first last : Z) : option (list (Z * pvalue)) :=
  match count with
  | O => Some []
  | S k =>
      let? id := num 4 sec pos in
      let? off := num 4 sec (pos + 4) in
      let? _ := check ((last <? id) && (off mod 4 =? 0) && (first <=? off)) in
      let? b := cut sec off (zlen sec - off) in
      let? v := read_value b in
      let? t := read_entries sec k (pos + 8) first id in
      Some ((id, v) :: t)
  end%bool.

(** A stream with one property set: byte order mark, version, one section; the section
    starts at a multiple of four and must lie inside the stream.  Returns the identifier of
    the format and the properties. *)
Definition read_property_set (b : list Z) : option (list Z * list (Z * pvalue)) :=
  let? bom := num 2 b 0 in
  let? ver := num 2 b 2 in
  let? sets := num 4 b 24 in
  let? _ := check ((bom =? 65534) && (ver =? 0) && (sets =? 1)) in
  let? fmt := cut b 28 16 in
  let? off := num 4 b 44 in
  let? size := num 4 b off in
  let? _ := check ((off mod 4 =? 0) && (size mod 4 =? 0)) in
  let? sec := cut b off size in
  let? count := num 4 sec 4 in
  let? l := read_entries sec (Z.to_nat count) 8 (8 + 8 * count) 0 in
  Some (fmt, l).

(** FMTID_SummaryInformation and FMTID_DocSummaryInformation as stored. *)
Definition format_id (d : pset) : list Z :=
  match d with
  | Summary => [224; 133; 159; 242; 249; 79; 104; 16; 171; 145; 8; 0; 43; 39; 179; 217]
  | DocSummary => [2; 213; 205; 213; 156; 46; 27; 16; 147; 151; 8; 0; 43; 44; 249; 174]
  end.
Definition lookup (id : Z) (l : list (Z * pvalue)) : option pvalue := option_map snd (find (fun x => fst x =? id) l).

(** Strings depend on the code page, property 1 ([MS-OLEPS] 2.5): in code page 1200 the
    bytes, terminator included, are 16-bit units. *)
Fixpoint pairs (b : list Z) : option (list Z) :=
  match b with
  | [] => Some []
  | [_] => None
  | x :: y :: t => let? r := pairs t in Some ((x + 256 * y) :: r)
  end.
(** The text of a string property: 16-bit units before the terminator. *)
Definition text_in_code_page (l : list (Z * pvalue)) (id : Z) : option (list Z) :=
  match lookup 1 l, lookup id l with
  | Some (PInt16 cp), Some (PText s) =>
      if cp =? 1200 then
        let? u := pairs (s ++ [0]) in
        match rev u with 0 :: r => Some (rev r) | _ => None end
      else Some s
  | _, _ => None
  end.
