(** What reading and replacing bytes in place should do, on plain byte lists.  Independent of the
    buffer model except for the names of the operations. *)
From Coq Require Import ZArith List Bool.
From Verif Require Import Bytes UnitModel SpecBuf EditModel SpecView.
Import ListNotations.
Local Open Scope Z_scope.

(** [edit l o]: what the call answers on content [l], and the content after it; [None] when the
    call is refused with an exception. *)
Definition edit (l : list Z) (o : eop) : option (list Z * list Z) :=
  match o with
  | EBuild o => Some ([], spec_op l o)
  | EAt i => match nth_error l (Z.to_nat i) with Some b => Some ([b], l) | None => None end
  | EPut i v => if i <? zlen l then Some ([], overwrite l (Z.to_nat i) [v]) else None
  | EGet8 i => match nth_error l (Z.to_nat i) with Some b => Some ([0; b], l) | None => Some ([-3], l) end
  | EGet16 i => match rd 2 l (Z.to_nat i) with Some v => Some ([0; v], l) | None => None end
  | EGet32 i => match rd 4 l (Z.to_nat i) with Some v => Some ([0; v], l) | None => None end
  | EArrayAt x i => Some ([0], overwrite l (Z.to_nat i) x)
  | EInit x n => if ((0 <? n) && (zlen x <=? n) && (zlen l <=? n))%bool then Some ([0], x) else None
  | EFill v n => if ((0 <? n) && (zlen l <=? n))%bool then Some ([0], repeat v (Z.to_nat n)) else None
  | EPlus v => Some ([], l ++ [v])
  | EPlusUnit x => Some ([], l ++ x)
  | EAssign x => if ((0 <? zlen x) && (zlen l <=? zlen x))%bool then Some ([], x) else None
  end.
Fixpoint edits (l : list Z) (ops : list eop) : option (list (list Z) * list Z) :=
  match ops with
  | [] => Some ([], l)
  | o :: t =>
      match edit l o with
      | None => None
      | Some (a, l1) => match edits l1 t with None => None | Some (b, l2) => Some (a :: b, l2) end
      end
  end.

(** Arguments of their C++ types, and a content that stays below 2^29 bytes. *)
Definition eop_typed (l : list Z) (o : eop) : Prop :=
  match o with
  | EBuild o => op_typed l o
  | EAt i | EGet8 i | EGet16 i | EGet32 i => 0 <= i < 4294967292
  | EPut i v => 0 <= i < 4294967292 /\ is_byte v
  | EArrayAt x i => 0 <= i /\ i + zlen x <= 4294967296 /\ Forall is_byte x
  | EInit x _ | EPlusUnit x | EAssign x => Forall is_byte x
  | EFill v _ | EPlus v => is_byte v
  end.
Fixpoint edits_typed (l : list Z) (ops : list eop) : Prop :=
  match ops with
  | [] => True
  | o :: t =>
      eop_typed l o
      /\ match edit l o with None => True | Some (_, l1) => zlen l1 < 536870912 /\ edits_typed l1 t end
  end.
(** Indexes are unsigned. *)
Definition indexed (o : eop) : Prop :=
  match o with EAt i | EPut i _ | EGet8 i | EGet16 i | EGet32 i | EArrayAt _ i => 0 <= i | _ => True end.

(* ------------------------------------------------------------------ *)
(** * The view record *)

(** What a switch asks for: one of the two properties of the view, and nothing else. *)
Definition asked (v : rview) (s : wswitch) : rview :=
  let '(sel, pg) := match s with
                    | WSetSelected => (true, rv_preview v) | WClearSelected => (false, rv_preview v)
                    | WSetPaged => (rv_selected v, true) | WClearPaged => (rv_selected v, false)
                    end in
  mkRV (rv_frozen v) sel (rv_displayed v) (rv_formulas v) (rv_grid v) (rv_headings v) (rv_zeros v) (rv_mirrored v) pg (rv_top v) (rv_left v).
(** The view of a new record: frozen, with grid lines, headings and zeros; selected and displayed
    when it is the active sheet. *)
Definition fresh_view (active : bool) : rview := mkRV true active active false true true true false false 0 0.
