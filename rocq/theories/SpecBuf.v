(** Independent specification of record buffers and of BIFF8 strings: what a sequence
    of buffer operations should leave in the buffer, as plain byte lists, and how a
    reader recovers a string.  Uses only the operation names of UnitModel. *)
From Coq Require Import ZArith List Bool.
From Verif Require Import Bytes UnitModel.
Import ListNotations.
Local Open Scope Z_scope.

(** [n] little-endian digits of [v] (two's complement for negative [v]). *)
Fixpoint digits (n : nat) (v : Z) : list Z :=
  match n with O => [] | S n => v mod 256 :: digits n (v / 256) end.

(** Overwrite from position [i]; bytes that fall beyond the end are ignored. *)
Fixpoint overwrite (l : list Z) (i : nat) (bs : list Z) : list Z :=
  match bs with
  | [] => l
  | b :: t => overwrite (if Nat.ltb i (length l) then firstn i l ++ b :: skipn (S i) l else l) (S i) t
  end.

(** A string of UTF-16 units as BIFF8 stores it: length, flag, characters. *)
Definition compressible (s : list Z) : bool := forallb (fun c => (0 <=? c) && (c <? 128)) s.
Definition spec_string (s : list Z) (f : strfmt) : list Z :=
  (match f with LEN2 => digits 2 (zlen s) | LEN1 => digits 1 (zlen s) | NOLEN => [] end)
  ++ (if compressible s then 0 :: s else 1 :: flat_map (digits 2) s).

Definition spec_op (l : list Z) (o : uop) : list Z :=
  match o with
  | OAdd8 v => l ++ digits 1 v
  | OAdd16 v => l ++ digits 2 v
  | OAdd32 v => l ++ digits 4 v
  | OAdd64 v => l ++ digits 8 v
  | OSet8 v i => overwrite l (Z.to_nat i) (digits 1 v)
  | OSet16 v i => overwrite l (Z.to_nat i) (digits 2 v)
  | OSet32 v i => overwrite l (Z.to_nat i) (digits 4 v)
  | OArray x => l ++ x
  | OFixed v n => l ++ repeat v (Z.to_nat n)
  | OAppend x => l ++ x
  | OStr s f => l ++ spec_string s f
  | OInflate _ => l
  | OSetSz16 pos base => overwrite l (Z.to_nat pos) (digits 2 (zlen l - base))
  end.
Definition spec_ops (ops : list uop) : list Z := fold_left spec_op ops [].

(** Operations whose arguments have their C++ types: bytes are bytes, UTF-16 units are
    16-bit, offsets are 32-bit (with room for the last byte), capacities are positive
    and not below the current content. *)
Definition op_typed (l : list Z) (o : uop) : Prop :=
  match o with
  | OSet8 _ i | OSet16 _ i | OSet32 _ i => 0 <= i < 4294967292
  | OSetSz16 i _ => 0 <= i < 4294967292
  | OArray x | OAppend x => Forall (fun b => 0 <= b < 256) x
  | OFixed v _ => 0 <= v < 256
  | OStr s _ => Forall (fun c => 0 <= c < 65536) s
  | OInflate n => 0 < n /\ zlen l <= n
  | _ => True
  end.
Fixpoint ops_typed (l : list Z) (ops : list uop) : Prop :=
  match ops with [] => True | o :: t => op_typed l o /\ ops_typed (spec_op l o) t end.

(** The first operation must obtain storage (AddDataArray, AddFixedDataArray or
    Inflate); every record constructor starts with one. *)
Definition obtains_storage (o : uop) : bool :=
  match o with OArray _ | OFixed _ _ | OInflate _ => true | _ => false end.

(** BIFF8 string reader: returns the units and the unread bytes. *)
Fixpoint take_units (n : nat) (wide : bool) (b : list Z) : option (list Z * list Z) :=
  match n with
  | O => Some ([], b)
  | S n =>
      if wide then
        match b with
        | x :: y :: t => match take_units n wide t with
                         | Some (u, r) => Some (le_value [x; y] :: u, r) | None => None end
        | _ => None
        end
      else
        match b with
        | x :: t => match take_units n wide t with
                    | Some (u, r) => Some (x :: u, r) | None => None end
        | _ => None
        end
  end.
Definition read_string (lenbytes : nat) (b : list Z) : option (list Z * list Z) :=
  let n := Z.to_nat (le_value (firstn lenbytes b)) in
  match skipn lenbytes b with
  | flag :: t => if flag =? 0 then take_units n false t
                 else if flag =? 1 then take_units n true t else None
  | [] => None
  end.
