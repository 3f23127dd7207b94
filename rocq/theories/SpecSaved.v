(** What a reader should find in a saved document, in terms of the values the user passed
    (ApiModel.uval, ApiModel.text) and of what the BIFF8 reader returns (SpecBiff). *)
From Coq Require Import ZArith List Bool.
From Verif Require Import Bytes UnitModel RecModel SpecBuf SheetModel XfModel WbModel ApiModel SpecBiff SpecApi.
Import ListNotations.
Local Open Scope Z_scope.

(** The UTF-16 units of a text the build without iconv can represent: 7-bit strings, wide
    strings within the basic multilingual plane, and UTF-16 strings. *)
Definition units (t : text) : option (list Z) :=
  match t with
  | TChar b => if forallb (fun c => c <? 128) b then Some b else None
  | TWide w => if forallb (fun c => c <? 65536) w then Some w else None
  | T16 u => Some u
  end.
(** A text fits one record of 8224 bytes (3 bytes of header; one byte per character when
    all are 7-bit, two otherwise). *)
Definition storable (u : list Z) : bool :=
  3 + zlen u * (if compressible u then 1 else 2) <=? 8224.

(** The value read back for the value written.  Integers are compared as numbers; unsigned
    integers only below 0xE0000000 and texts only when representable. *)
Definition reads_as (u : uval) (v : rval) : Prop :=
  match u with
  | UBlank => v = RBlank
  | UBool b => v = RBool b
  | UErr e => v = RErr e
  | UInt n => exists x, v = RNum x /\ denotes x n
  | UUnsigned n => exists x, v = RNum x /\ (n < 3758096384 -> denotes x n)
  | UDouble bits => v = RNum (NDouble bits)
  | ULabel t => exists s, v = RText s /\ (forall us, units t = Some us -> storable us = true -> s = us)
  | UFormula arr toks _ e => v = RFormula (mkRF (fe_enc e) (fe_flags e) arr toks (fe_str e))
  end.

(** Row-major order of the cells read. *)
Definition before (a b : rcell) : Prop :=
  rc_row a < rc_row b \/ (rc_row a = rc_row b /\ rc_col a < rc_col b).
(** The cells read are those of the map [m], one for each position that holds a value. *)
Definition same_cells (m : Z -> Z -> option uval) (l : list rcell) : Prop :=
  (forall x, In x l -> exists u, m (rc_row x) (rc_col x) = Some u /\ reads_as u (rc_val x)) /\
  (forall r c u, m r c = Some u -> exists x, In x l /\ rc_row x = r /\ rc_col x = c).

(* ------------------------------------------------------------------ *)
(** * Documents within the format's limits *)

(** The limits a history of calls has to keep for the statements about saved documents.
    [R] is the last row used. *)
Definition text_len (t : text) : Z := match t with TChar b => zlen b | TWide w => zlen w | T16 u => zlen u end.
Definition len_opt (o : option (list Z)) : Z := match o with Some t => zlen t | None => 0 end.
Definition val_fits (v : uval) : Prop :=
  match v with
  | UFormula arr toks _ e =>
      zlen toks <= 8000 /\ (arr = true \/ fe_str e <> None -> zlen toks <= 3000)
      /\ len_opt (fe_str e) < 256
  | _ => True
  end.
Definition font_fits (o : fontop) : Prop := match o with NName s => zlen s <= 4000 | _ => True end.
Definition op_fits (o : cellop) : Prop := match o with CFont o => font_fits o | _ => True end.
Definition dv_fits (d : dvalid) : Prop :=
  2 * (zlen (dv_ptitle d) + zlen (dv_ptext d) + zlen (dv_etitle d) + zlen (dv_etext d))
  + len_opt (dv_cond1 d) + len_opt (dv_cond2 d) <= 8000.
Definition call_fits (R : Z) (q : call) : Prop :=
  match q with
  | KSheet n => text_len n <= 4000
  | KCell _ r c v _ => r <= R /\ c <= 255 /\ val_fits v
  | KRange _ _ _ r2 c2 o => r2 <= R /\ c2 <= 255 /\ op_fits o
  | KCellOp _ _ _ o => op_fits o
  | KNote _ r c _ _ => r <= 65535 /\ c <= 255
  | KMerge _ r1 c1 r2 c2 => r1 <= 65535 /\ c1 <= 255 /\ r2 <= 65535 /\ c2 <= 255
  | KColwidth _ c _ _ => c <= 255
  | KRowheight _ r _ _ => r <= 65535
  | KHyperlink _ _ _ u m => text_len u + text_len m <= 4000
  | KValidate _ d => dv_fits d
  | KFont n => zlen n <= 4000
  | KFormat t => text_len t <= 4000
  | KFontSet _ o => font_fits o
  | _ => True
  end.
(** Labels too long for a LABEL record go to the shared string table. *)
Definition long_label (q : call) : bool :=
  match q with KCell _ _ _ (ULabel t) _ => 255 <? text_len t | _ => false end.
Record fits (R : Z) (calls : list call) : Prop := {
  ft_calls : Forall (call_fits R) calls;
  ft_sheets : 1 <= zlen (sheet_names calls) <= 1000;
  ft_labels : zlen (filter long_label calls) <= 65000;
  (* on each sheet, fewer than 16 rows have a height but no cell *)
  ft_heights : forall k, exists rows, (length rows < 16)%nat /\
    forall r, height_of k calls r <> None -> In r rows \/ exists c u, cells_of k calls r c = Some u }.

(** The same limits with room for records that have to be continued: [X] bounds the bytes of
    a formula's, a hyperlink's or a validation's record. *)
Definition val_long (X : Z) (v : uval) : Prop :=
  match v with
  | UFormula arr toks _ e =>
      26 + zlen toks <= X /\ (arr = true \/ fe_str e <> None -> zlen toks <= 3000)
      /\ len_opt (fe_str e) < 256
  | _ => True
  end.
Definition dv_room (d : dvalid) : Z :=
  228 + 2 * (zlen (dv_ptitle d) + zlen (dv_ptext d) + zlen (dv_etitle d) + zlen (dv_etext d))
  + len_opt (dv_cond1 d) + len_opt (dv_cond2 d).
Definition call_long (X R : Z) (q : call) : Prop :=
  match q with
  | KCell _ r c v _ => r <= R /\ c <= 255 /\ val_long X v
  | KHyperlink _ _ _ u m => 80 + 2 * (text_len u + text_len m) <= X
  | KValidate _ d => dv_room d <= X
  | _ => call_fits R q
  end.
Record long_fits (X R : Z) (calls : list call) : Prop := {
  lf_calls : Forall (call_long X R) calls;
  lf_sheets : 1 <= zlen (sheet_names calls) <= 1000;
  lf_labels : zlen (filter long_label calls) <= 65000;
  lf_heights : forall k, exists rows, (length rows < 16)%nat /\
    forall r, height_of k calls r <> None -> In r rows \/ exists c u, cells_of k calls r c = Some u }.

(** [stream] is the Workbook stream saved after [calls].  [moves] tells when the vector
    that holds the records reallocates (WbModel). *)
Definition saved (moves : Z -> nat -> bool) (calls : list call) (stream : list Z) : Prop :=
  exists w after, document calls = Ok w /\ exists fuel units,
    book_units fuel moves (wb_book w) = Some (Ok (units, after)) /\ stream = concat units.

(** The hypotheses of the statements about saved documents: the calls are well typed, keep
    the limits, and were saved as [stream].  Above row 32819 the INDEX record of a sheet
    needs continuing; the statement then asks that the record store does not move. *)
Record saved_ok (R : Z) (moves : Z -> nat -> bool) (calls : list call) (stream : list Z) : Prop := {
  so_rows : 0 <= R <= 65535;
  so_typed : Forall typed calls;
  so_fits : fits R calls;
  so_calm : R <= 32819 \/ forall e n, moves e n = false;
  so_saved : saved moves calls stream }.
(** The records of the globals substream and of the k-th sheet's substream. *)
Definition globals_in (stream : list Z) (g : list brec) : Prop := substream stream 0 = Some (K_GLOBALS, g).
Definition sheet_in (stream : list Z) (k : nat) (body : list brec) : Prop := substream stream (S k) = Some (K_SHEET, body).

(** The text a BIFF8 reader should find for a label: the text itself when one record can
    hold it, otherwise the placeholder the library documents ("Length too long!"). *)
Definition too_long : list Z := [76; 101; 110; 103; 116; 104; 32; 116; 111; 111; 32; 108; 111; 110; 103; 33].
Definition stored_text (us : list Z) : list Z := if storable us then us else too_long.
(** Standard UTF-16 encoding of a list of Unicode scalar values. *)
Definition scalar (c : Z) : Prop := (0 <= c < 55296) \/ (57344 <= c < 1114112).
Definition utf16 (w : list Z) : list Z :=
  flat_map (fun c => if c <? 65536 then [c]
                     else [55296 + (c - 65536) / 1024; 56320 + (c - 65536) mod 1024]) w.
