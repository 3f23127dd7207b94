(** The order of records in the substreams of a BIFF8 workbook, from the file format
    (the ABNF of the globals and worksheet substreams).  A record type may appear only
    after those listed before it; types listed together may mix. *)
From Coq Require Import ZArith List Bool Sorted.
From Verif Require Import Bytes SpecBuf SpecBiff SpecBook SpecView SpecObj.
Import ListNotations.
Local Open Scope Z_scope.

Definition GLOBALS_ORDER : list (list Z) :=
  [[T_CODEPAGE]; [T_WINDOW1]; [T_DATEMODE]; [T_FONT]; [T_FORMAT]; [T_XF]; [T_STYLE]; [T_PALETTE]; [T_BOUNDSHEET];
   [T_SUPBOOK]; [T_EXTERNSHEET]; [T_MSODRAWINGGROUP]; [T_SST]].
Definition CELL_RECORDS : list Z :=
  [T_BLANK; T_BOOLERR; T_RK; T_NUMBER; T_LABEL; T_LABELSST; T_FORMULA; T_ARRAY; T_STRING].
Definition SHEET_ORDER : list (list Z) :=
  [[T_INDEX]; [T_DEFAULTROWHEIGHT]; [T_DEFCOLWIDTH]; [T_COLINFO]; [T_DIMENSIONS]; T_ROW :: T_DBCELL :: CELL_RECORDS;
   [T_MSODRAWING; T_OBJ; T_TXO]; [T_NOTE]; [T_WINDOW2]; [T_PANE]; [T_MERGEDCELLS]; [T_HLINK]; [T_DVAL]; [T_DV]].
(** A row block, up to its DBCELL record: row records, then cells.  What precedes the first
    block and what follows the last one is not constrained here. *)
Definition BLOCK_ORDER : list (list Z) :=
  [[T_INDEX; T_DEFAULTROWHEIGHT; T_DEFCOLWIDTH; T_COLINFO; T_DIMENSIONS]; [T_ROW]; CELL_RECORDS;
   [T_MSODRAWING; T_OBJ; T_TXO; T_NOTE; T_WINDOW2; T_PANE; T_MERGEDCELLS; T_HLINK; T_DVAL; T_DV]].

Fixpoint slot (order : list (list Z)) (t : Z) : option nat :=
  match order with
  | [] => None
  | l :: rest => if existsb (Z.eqb t) l then Some O else option_map S (slot rest t)
  end.
(** The records, leaving out the types in [skip], are of known types and in order. *)
Definition follows (skip : list Z) (order : list (list Z)) (rs : list brec) : Prop :=
  exists l, traverse (slot order) (filter (fun t => negb (existsb (Z.eqb t) skip)) (map fst rs)) = Some l /\ StronglySorted le l.
