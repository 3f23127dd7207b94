(** Sheets of other kinds in the sheet directory: what CGlobalRecords::AddBoundingSheet makes of
    the attributes it is given, and the record written for it. *)
From Coq Require Import ZArith List Bool.
From Verif Require Import Bytes UnitModel RecModel.
Import ListNotations.
Local Open Scope Z_scope.

(** boundsheet_t, recdef.h 307-330 (the flags and what the record needs). *)
Record bsheet := mkBS { bs_pos : Z; bs_label : list Z; bs_macro : bool; bs_chart : bool; bs_module : bool; bs_visible : bool;
  bs_hidden : bool; bs_veryhidden : bool }.
(** [(attributes & MASK) == MASK]. *)
Definition has_mask (attributes mask : Z) : bool := Z.land attributes mask =? mask.
(** boundsheet_t::boundsheet_t and SetAttributes, recdef.cpp 51-74; recdef.h 295-302. *)
Definition bsheet_new (pos : Z) (label : list Z) (attributes : Z) : bsheet :=
  let a := attributes mod 65536 in
  mkBS pos label (has_mask a 1) (has_mask a 2) (has_mask a 6) (has_mask a 0) (has_mask a 256) (has_mask a 512).
(** The flags of CBSheet::CBSheet, recdef.cpp 391-399. *)
Definition bsheet_flags (b : bsheet) : Z :=
  Z.lor (if bs_macro b then 1 else 0) (Z.lor (if bs_chart b then 2 else 0) (Z.lor (if bs_module b then 6 else 0)
    (Z.lor (if bs_visible b then 0 else 256) (Z.lor (if bs_hidden b then 256 else 0) (if bs_veryhidden b then 512 else 0))))).
(** CBSheet::CBSheet, recdef.cpp 383-405. *)
Definition rec_bsheet_kind (b : bsheet) : list uop :=
  record RT_BOUNDSHEET [OAdd32 (bs_pos b); OAdd16 (bsheet_flags b); OStr (bs_label b) LEN1].
