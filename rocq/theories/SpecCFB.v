(** Independent specification: a reader for OLE2 compound files (MS-CFB, version 3,
    512-byte sectors), written from the published format and not from the writer.
    A file is a list of bytes.  Streams below the mini-stream cutoff are not supported
    by this reader (it answers [None] for them). *)
From Coq Require Import ZArith List Bool.
From Verif Require Import Bytes.
Import ListNotations.
Local Open Scope Z_scope.

Definition obind {A B} (o : option A) (f : A -> option B) : option B :=
  match o with Some a => f a | None => None end.
Notation "'do' x <- o ;; k" := (obind o (fun x => k)) (at level 200, x pattern, o at level 100, k at level 200).
Definition oguard (b : bool) : option unit := if b then Some tt else None.

Fixpoint omap {A B} (f : A -> option B) (l : list A) : option (list B) :=
  match l with
  | [] => Some []
  | a :: t => do b <- f a ;; do r <- omap f t ;; Some (b :: r)
  end.

Definition FREESECT := 4294967295.
Definition ENDOFCHAIN := 4294967294.
Definition FATSECT := 4294967293.
Definition DIFSECT := 4294967292.
Definition NOSTREAM := 4294967295.

(** Sector [n] occupies bytes [512*(n+1), 512*(n+2)). *)
Definition sector (f : list Z) (n : Z) : option (list Z) :=
  if n <? 0 then None else
  let s := slice (512 * (Z.to_nat n + 1)) 512 f in
  if Nat.eqb (length s) 512 then Some s else None.

(** Little-endian fields (short reads are excluded by the length checks below). *)
Definition get8 (l : list Z) (i : nat) : Z := le_value (slice i 1 l).
Definition get16 (l : list Z) (i : nat) : Z := le_value (slice i 2 l).
Definition get32 (l : list Z) (i : nat) : Z := le_value (slice i 4 l).

(** Little-endian 32-bit words of a byte string. *)
Fixpoint words (l : list Z) : list Z :=
  match l with
  | a :: b :: c :: d :: t => le_value [a; b; c; d] :: words t
  | _ => []
  end.

(** Entries of a chain of [k] DIFAT sectors: 127 entries each, then the next sector. *)
Fixpoint difat_chain (f : list Z) (k : nat) (next : Z) : option (list Z) :=
  match k with
  | O => if next =? ENDOFCHAIN then Some [] else None
  | S k =>
      do s <- sector f next ;;
      let w := words s in
      do r <- difat_chain f k (nth 127 w 0) ;;
      Some (firstn 127 w ++ r)
  end.

(** Sector numbers of the FAT. *)
Definition fat_sectors (f : list Z) : option (list Z) :=
  let nfat := Z.to_nat (get32 f 44) in
  do ext <- difat_chain f (Z.to_nat (get32 f 72)) (get32 f 68) ;;
  let entries := words (slice 76 436 f) ++ ext in
  do _ <- oguard (Nat.leb nfat (length entries)
                  && forallb (Z.eqb FREESECT) (skipn nfat entries)) ;;
  Some (firstn nfat entries).

Definition fat (f : list Z) : option (list Z) :=
  do ss <- fat_sectors f ;;
  do bs <- omap (sector f) ss ;;
  Some (flat_map words bs).

(** Follow a chain in the FAT. *)
Fixpoint chain (ft : list Z) (fuel : nat) (n : Z) : option (list Z) :=
  if n =? ENDOFCHAIN then Some [] else
  match fuel with
  | O => None
  | S fuel =>
      if (n <? 0) || (zlen ft <=? n) then None else
      do r <- chain ft fuel (nth (Z.to_nat n) ft 0) ;;
      Some (n :: r)
  end.

Definition read_chain (f ft : list Z) (n : Z) : option (list Z) :=
  do ss <- chain ft (length ft) n ;;
  do bs <- omap (sector f) ss ;;
  Some (concat bs).

(** Directory entries (128 bytes). *)
Record dentry := mkDentry {
  de_name : list Z;      (* UTF-16 code units, without the terminator *)
  de_type : Z;
  de_left : Z;
  de_right : Z;
  de_child : Z;
  de_start : Z;
  de_size : Z
}.

Fixpoint units16 (l : list Z) : list Z :=
  match l with
  | a :: b :: t => le_value [a; b] :: units16 t
  | _ => []
  end.

Definition parse_dentry (e : list Z) : dentry :=
  let nbytes := get16 e 64 in
  mkDentry (units16 (firstn (Z.to_nat (nbytes - 2)) e))
    (get8 e 66) (get32 e 68) (get32 e 72) (get32 e 76) (get32 e 116) (get32 e 120).

Fixpoint dentries (fuel : nat) (l : list Z) : list dentry :=
  match fuel with
  | O => []
  | S k => match l with
           | [] => []
           | _ => parse_dentry (firstn 128 l) :: dentries k (skipn 128 l)
           end
  end.

Definition directory (f ft : list Z) : option (list dentry) :=
  do d <- read_chain f ft (get32 f 48) ;;
  Some (dentries (length d) d).

(** Name order of MS-CFB 2.6.4: shorter names first, then upper-cased code units. *)
Definition upcase (c : Z) : Z := if (97 <=? c) && (c <=? 122) then c - 32 else c.
Fixpoint lex (a b : list Z) : comparison :=
  match a, b with
  | x :: a', y :: b' =>
      match Z.compare (upcase x) (upcase y) with Eq => lex a' b' | c => c end
  | _, _ => Eq
  end.
Definition name_compare (a b : list Z) : comparison :=
  match Nat.compare (length a) (length b) with Eq => lex a b | c => c end.

(** Binary search in the sibling tree rooted at entry [n]. *)
Fixpoint tree_find (ds : list dentry) (fuel : nat) (n : Z) (name : list Z) : option dentry :=
  match fuel with
  | O => None
  | S fuel =>
      if (n <? 0) || (zlen ds <=? n) then None else
      do e <- nth_error ds (Z.to_nat n) ;;
      match name_compare name (de_name e) with
      | Eq => Some e
      | Lt => tree_find ds fuel (de_left e) name
      | Gt => tree_find ds fuel (de_right e) name
      end
  end.

Definition OLE_MAGIC : list Z := [208; 207; 17; 224; 161; 177; 26; 225].

(** Header checks: signature, byte order, sector sizes, cutoff. *)
Definition header_ok (f : list Z) : bool :=
  Nat.leb 512 (length f)
  && (if list_eq_dec Z.eq_dec (slice 0 8 f) OLE_MAGIC then true else false)
  && (get16 f 26 =? 3) && (get16 f 28 =? 65534) && (get16 f 30 =? 9) && (get16 f 32 =? 6)
  && (get32 f 56 =? 4096).

(** The whole reader: contents of the stream [name] directly below the root. *)
Definition cfb_read (f : list Z) (name : list Z) : option (list Z) :=
  do _ <- oguard (header_ok f) ;;
  do ft <- fat f ;;
  do ds <- directory f ft ;;
  do root <- nth_error ds 0 ;;
  do _ <- oguard (de_type root =? 5) ;;
  do e <- tree_find ds (length ds) (de_child root) name ;;
  do _ <- oguard ((de_type e =? 2) && (4096 <=? de_size e)) ;;
  do body <- read_chain f ft (de_start e) ;;
  do _ <- oguard (de_size e <=? zlen body) ;;
  Some (firstn (Z.to_nat (de_size e)) body).

(** Names of all streams in the root (in directory order). *)
Definition cfb_names (f : list Z) : option (list (list Z)) :=
  do ft <- fat f ;;
  do ds <- directory f ft ;;
  Some (map de_name (filter (fun e => de_type e =? 2) ds)).

(** Which structure owns which sectors: DIFAT sectors are recovered by following the
    DIFAT chain, everything else through the FAT. *)
Fixpoint difat_owned (f : list Z) (k : nat) (next : Z) : option (list Z) :=
  match k with
  | O => Some []
  | S k =>
      do s <- sector f next ;;
      do r <- difat_owned f k (nth 127 (words s) 0) ;;
      Some (next :: r)
  end.

(** All sectors in use, structure by structure: DIFAT, FAT, directory, every stream. *)
Definition cfb_owned (f : list Z) : option (list (list Z)) :=
  do df <- difat_owned f (Z.to_nat (get32 f 72)) (get32 f 68) ;;
  do fs <- fat_sectors f ;;
  do ft <- fat f ;;
  do dir <- chain ft (length ft) (get32 f 48) ;;
  do ds <- directory f ft ;;
  do streams <- omap (fun e => chain ft (length ft) (de_start e))
                     (filter (fun e => de_type e =? 2) ds) ;;
  Some (df :: fs :: dir :: streams).

(** ** Specification of splitting: cut at every separator, drop the empty pieces. *)
Fixpoint cut (issep : Z -> bool) (s : list Z) : list (list Z) :=
  match s with
  | [] => [[]]
  | c :: t => if issep c then [] :: cut issep t
              else match cut issep t with
                   | w :: r => (c :: w) :: r
                   | [] => [[c]]
                   end
  end.
Definition nonempty (w : list Z) : bool := match w with [] => false | _ => true end.
Definition pieces (issep : Z -> bool) (s : list Z) : list (list Z) := filter nonempty (cut issep s).

(** What padding a stream may do: append zero bytes, reaching the smallest length that is
    a multiple of 512 and at least 4096. *)
Definition zero_padded (body stored : list Z) : Prop :=
  exists k, stored = body ++ repeat 0 k
    /\ (zlen stored mod 512 = 0) /\ 4096 <= zlen stored
    /\ (zlen stored = 4096 \/ zlen stored < zlen body + 512).
