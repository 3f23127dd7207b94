(** Independent specification: readers for hyperlinks, data validations, notes and their
    drawings, following the published layouts.  They work on bytes only. *)
From Coq Require Import ZArith List Bool.
From Verif Require Import Bytes SpecBuf SpecBiff.
Import ListNotations.
Local Open Scope Z_scope.

Definition T_NOTE := 28.        Definition T_OBJ := 93.       Definition T_MSODRAWINGGROUP := 235.
Definition T_MSODRAWING := 236. Definition T_DVAL := 434.     Definition T_TXO := 438.
Definition T_HLINK := 440.      Definition T_DV := 446.

(** Take an [n]-byte little-endian number, or [n] bytes, off the front. *)
Definition take (n : nat) (p : list Z) : option (list Z * list Z) :=
  if Nat.leb n (length p) then Some (firstn n p, skipn n p) else None.
Definition take_num (n : nat) (p : list Z) : option (Z * list Z) :=
  olet (b, r) := take n p in Some (le_value b, r).
Fixpoint same (a b : list Z) : bool :=
  match a, b with
  | [], [] => true
  | x :: a, y :: b => ((x =? y) && same a b)%bool
  | _, _ => false
  end.

(* ------------------------------------------------------------------ *)
(** * Hyperlinks: [MS-XLS] HLink, [MS-OSHARED] Hyperlink object with a URL moniker *)

Record rlink := mkRLink { rk_area : Z * Z * Z * Z; rk_url : list Z; rk_mark : option (list Z) }.
Definition GUID_HLINK : list Z := [208; 201; 234; 121; 249; 186; 206; 17; 140; 130; 0; 170; 0; 75; 169; 11].
Definition GUID_URL : list Z := [224; 201; 234; 121; 249; 186; 206; 17; 140; 130; 0; 170; 0; 75; 169; 11].
(** [n] UTF-16 units of which the last is the terminator. *)
Definition take_zstring (n : nat) (p : list Z) : option (list Z * list Z) :=
  olet (u, r) := take_units n true p in
  match rev u with
  | 0 :: t => Some (rev t, r)
  | _ => None
  end.
Definition read_hlink (p : list Z) : option rlink :=
  olet (r1, p) := take_num 2 p in
  olet (r2, p) := take_num 2 p in
  olet (c1, p) := take_num 2 p in
  olet (c2, p) := take_num 2 p in
  olet (g, p) := take 16 p in
  olet (version, p) := take_num 4 p in
  olet (flags, p) := take_num 4 p in
  olet (m, p) := take 16 p in
  olet (len, p) := take_num 4 p in
  if negb (same g GUID_HLINK && same m GUID_URL && (version =? 2) && Z.testbit flags 0 && Z.testbit flags 1
           && Z.even len)%bool then None
  else
    olet (url, p) := take_zstring (Z.to_nat (len / 2)) p in
    if Z.testbit flags 3 then
      olet (n, p) := take_num 4 p in
      match take_zstring (Z.to_nat n) p with
      | Some (mark, []) => Some (mkRLink (r1, r2, c1, c2) url (Some mark))
      | _ => None
      end
    else match p with
         | [] => Some (mkRLink (r1, r2, c1, c2) url None)
         | _ => None
         end.

(* ------------------------------------------------------------------ *)
(** * Data validations: DVAL and DV *)

Record rdv := mkRDV {
  rd_options : Z; rd_ptitle : list Z; rd_etitle : list Z; rd_ptext : list Z; rd_etext : list Z;
  rd_first : list Z; rd_second : list Z; rd_areas : list (Z * Z * Z * Z) }.
(** A formula: byte count, two unused bytes, that many bytes of tokens. *)
Definition take_formula (p : list Z) : option (list Z * list Z) :=
  olet (n, p) := take_num 2 p in
  olet (_, p) := take 2 p in
  take (Z.to_nat n) p.
Fixpoint take_areas (n : nat) (p : list Z) : option (list (Z * Z * Z * Z)) :=
  match n with
  | O => match p with [] => Some [] | _ => None end
  | S n =>
      olet (r1, p) := take_num 2 p in
      olet (r2, p) := take_num 2 p in
      olet (c1, p) := take_num 2 p in
      olet (c2, p) := take_num 2 p in
      olet l := take_areas n p in
      Some ((r1, r2, c1, c2) :: l)
  end.
Definition read_dv (p : list Z) : option rdv :=
  olet (options, p) := take_num 4 p in
  olet (pt, p) := read_string 2 p in
  olet (et, p) := read_string 2 p in
  olet (px, p) := read_string 2 p in
  olet (ex, p) := read_string 2 p in
  olet (f1, p) := take_formula p in
  olet (f2, p) := take_formula p in
  olet (n, p) := take_num 2 p in
  olet areas := take_areas (Z.to_nat n) p in
  Some (mkRDV options pt et px ex f1 f2 areas).
(** DVAL: the number of DV records that follow, at byte 14 of 18. *)
Definition read_dval (p : list Z) : option Z := if zlen p =? 18 then fld 4 p 14 else None.

(* ------------------------------------------------------------------ *)
(** * Drawings: [MS-ODRAW] records, containers nested by announced length *)

(** A record header is version (4 bits) and instance (12 bits), type (16 bits), length (32
    bits).  Version 15 marks a container, whose content is again a list of records. *)
Inductive node := Atom (ver inst type : Z) (data : list Z) | Box (inst type : Z) (kids : list node).
Fixpoint read_nodes (fuel : nat) (p : list Z) : option (list node) :=
  match fuel, p with
  | _, [] => Some []
  | O, _ => None
  | S f, _ =>
      olet (vi, p) := take_num 2 p in
      olet (t, p) := take_num 2 p in
      olet (n, p) := take_num 4 p in
      olet (data, p) := take (Z.to_nat n) p in
      olet x := (if vi mod 16 =? 15
                 then olet kids := read_nodes f data in Some (Box (vi / 16) t kids)
                 else Some (Atom (vi mod 16) (vi / 16) t data)) in
      olet rest := read_nodes f p in
      Some (x :: rest)
  end.
Definition drawing (p : list Z) : option (list node) := read_nodes (length p) p.
(** Record types: drawing container, drawing, group of shapes, shape, shape identifier,
    options, anchor, client data, text; drawing group container, cluster table. *)
Definition DG_CONTAINER := 61442. Definition DG := 61448.     Definition SPGR_CONTAINER := 61443.
Definition SP_CONTAINER := 61444. Definition SP := 61450.     Definition ANCHOR := 61456.
Definition CLIENT_TEXT := 61453.  Definition DGG_CONTAINER := 61440. Definition DGG := 61446.

(* ------------------------------------------------------------------ *)
(** * Notes: NOTE records, and the OBJ and TXO records of their text boxes *)

Record rnote := mkRNote { rn_row : Z; rn_col : Z; rn_obj : Z; rn_author : list Z }.
Definition read_note (p : list Z) : option rnote :=
  olet (r, p) := take_num 2 p in
  olet (c, p) := take_num 2 p in
  olet (_, p) := take_num 2 p in
  olet (i, p) := take_num 2 p in
  match read_string 2 p with
  | Some (a, [0]) => Some (mkRNote r c i a)
  | _ => None
  end.
(** The object identifier in an OBJ record of a note (ft 0x15, cb 0x12, ot 0x19). *)
Definition read_obj (p : list Z) : option Z :=
  olet ft := fld 2 p 0 in olet cb := fld 2 p 2 in olet ot := fld 2 p 4 in
  if ((ft =? 21) && (cb =? 18) && (ot =? 25) && (zlen p =? 26))%bool then fld 2 p 6 else None.
(** A text object: TXO gives the number of characters and the size of the formatting runs;
    the characters and the runs are in the two CONTINUE records after it. *)
Definition read_txo (p text runs : list Z) : option (list Z) :=
  olet n := fld 2 p 10 in olet cb := fld 2 p 12 in
  if negb ((zlen p =? 18) && (zlen runs =? cb))%bool then None else
  match text with
  | flag :: t =>
      match (if flag =? 0 then take_units (Z.to_nat n) false t
             else if flag =? 1 then take_units (Z.to_nat n) true t else None) with
      | Some (u, []) => Some u
      | _ => None
      end
  | [] => None
  end.
(** The text boxes of a substream: every OBJ record must be followed by the second half of
    its drawing, its TXO record and that record's two CONTINUE records. *)
Fixpoint text_boxes (rs : list brec) : option (list (Z * list Z)) :=
  match rs with
  | [] => Some []
  | (t, p) :: rest =>
      if t =? T_OBJ then
        match rest with
        | (t2, _) :: (t3, p3) :: (t4, p4) :: (t5, p5) :: _ =>
            if ((t2 =? T_MSODRAWING) && (t3 =? T_TXO) && (t4 =? T_CONTINUE) && (t5 =? T_CONTINUE))%bool
            then olet i := read_obj p in
                 olet u := read_txo p3 p4 p5 in
                 olet l := text_boxes rest in
                 Some ((i, u) :: l)
            else None
        | _ => None
        end
      else text_boxes rest
  end.

(** The identifier of a shape, and the cell at the top left corner of its anchor. *)
Definition shape_id (x : node) : option Z :=
  match x with
  | Box _ t kids =>
      if t =? SP_CONTAINER then
        match filter (fun y => match y with Atom _ _ t _ => t =? SP | _ => false end) kids with
        | [Atom _ _ _ d] => fld 4 d 0
        | _ => None
        end
      else None
  | _ => None
  end.
Definition shape_cell (x : node) : option (Z * Z) :=
  match x with
  | Box _ t kids =>
      if t =? SP_CONTAINER then
        match filter (fun y => match y with Atom _ _ t _ => t =? ANCHOR | _ => false end) kids with
        | [Atom _ _ _ d] => olet c := fld 2 d 2 in olet r := fld 2 d 6 in Some (r, c)
        | _ => None
        end
      else None
  | _ => None
  end.
(** The drawing of a sheet with the notes [ns]: nothing if there are none; otherwise one
    container with a header that announces the number of shapes and the last identifier,
    and the group's own shape followed by one shape per note, anchored beside its cell, with
    consecutive identifiers from [base]. *)
Definition note_drawing (ns : list rnote) (tree : list node) : Prop :=
  match ns with
  | [] => tree = []
  | _ => exists info first shapes base,
      tree = [Box 0 DG_CONTAINER [Atom 0 1 DG info; Box 0 SPGR_CONTAINER (first :: shapes)]]
      /\ zlen info = 8 /\ fld 4 info 0 = Some (zlen ns + 1) /\ fld 4 info 4 = Some (base + zlen ns)
      /\ traverse shape_id (first :: shapes) = Some (map (fun i => base + Z.of_nat i) (seq 0 (S (length ns))))
      /\ traverse shape_cell shapes = Some (map (fun n => (rn_row n, rn_col n + 1)) ns)
  end.
(** What author and text the library says it stores: texts of 1..54 and 1..2048 characters
    are kept, others are replaced by a warning. *)
Definition AUTHOR_WARNING : list Z :=
  [65;117;116;104;111;114;32;77;117;115;116;32;66;101;32;49;32;116;111;32;53;52;99;104;97;114;115;32;108;111;110;103].
Definition TEXT_WARNING : list Z :=
  [84;101;120;116;32;77;117;115;116;32;66;101;32;49;32;116;111;32;50;48;52;56;99;104;97;114;115;32;108;111;110;103].
Definition kept (limit : Z) (warning u : list Z) : list Z := if ((1 <=? zlen u) && (zlen u <=? limit))%bool then u else warning.
