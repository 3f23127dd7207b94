(** The parts of the compound file format (MS-CFB 2.2, 2.6.1, 2.6.2) that a reader of streams
    does not look at, but that a conforming file has to keep.  Written from the format. *)
From Coq Require Import ZArith List Bool.
From Verif Require Import Bytes SpecCFB.
Import ListNotations.
Local Open Scope Z_scope.

Definition zeros (l : list Z) : bool := forallb (Z.eqb 0) l.
(** 2.2: class identifier 0, minor version 0x3E, six reserved bytes 0, no count of directory
    sectors in version 3, no transaction number; no mini FAT, so its chain is empty. *)
Definition header_strict (f : list Z) : bool :=
  header_ok f && zeros (slice 8 16 f) && (get16 f 24 =? 62) && zeros (slice 34 6 f) && (get32 f 40 =? 0)
  && (get32 f 52 =? 0) && (get32 f 60 =? ENDOFCHAIN) && (get32 f 64 =? 0).

(** 2.6.1: the length of a name counts its terminating zero, is even and at most 64; what
    follows the name is 0; the kind and colour are known ones; class, state bits and times are
    0 where they are not used; the upper half of the size is 0 in version 3. *)
Definition entry_strict (e : list Z) : bool :=
  let n := get16 e 64 in
  (zlen e =? 128) && (2 <=? n) && (n <=? 64) && (n mod 2 =? 0)
  && zeros (slice (Z.to_nat n - 2) (64 - (Z.to_nat n - 2)) e)
  && forallb (fun c => negb (existsb (Z.eqb c) [0; 47; 92; 58; 33])) (de_name (parse_dentry e))
  && existsb (Z.eqb (get8 e 66)) [1; 2; 5] && existsb (Z.eqb (get8 e 67)) [0; 1]
  && zeros (slice 80 36 e) && (get32 e 124 =? 0).
(** 2.6.2: the root comes first, is called "Root Entry" and has no siblings; without a mini
    stream it has no data.  2.6.3: a stream has no child. *)
Definition root_strict (d : dentry) : Prop :=
  de_name d = [82; 111; 111; 116; 32; 69; 110; 116; 114; 121] /\ de_type d = 5 /\ de_left d = NOSTREAM /\ de_right d = NOSTREAM
  /\ de_start d = ENDOFCHAIN /\ de_size d = 0.
Definition stream_strict (d : dentry) : Prop := de_type d = 2 /\ de_child d = NOSTREAM.

Fixpoint entries_of (fuel : nat) (l : list Z) : list (list Z) :=
  match fuel with O => [] | S k => match l with [] => [] | _ => firstn 128 l :: entries_of k (skipn 128 l) end end.
Definition strict (f : list Z) : Prop :=
  header_strict f = true
  /\ exists ft raw root streams, fat f = Some ft /\ read_chain f ft (get32 f 48) = Some raw
    /\ Forall (fun e => entry_strict e = true) (entries_of (length raw) raw)
    /\ map parse_dentry (entries_of (length raw) raw) = root :: streams /\ root_strict root /\ Forall stream_strict streams.
