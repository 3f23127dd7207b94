(** UTF-8 (RFC 3629) and the text a user means in the build with iconv. *)
From Coq Require Import ZArith List Bool.
From Verif Require Import Bytes ApiModel SpecBiff SpecApi SpecSaved.
Import ListNotations.
Local Open Scope Z_scope.

Definition utf8_char (c : Z) : list Z :=
  if c <? 128 then [c]
  else if c <? 2048 then [192 + c / 64; 128 + c mod 64]
  else if c <? 65536 then [224 + c / 4096; 128 + c / 64 mod 64; 128 + c mod 64]
  else [240 + c / 262144; 128 + c / 4096 mod 64; 128 + c / 64 mod 64; 128 + c mod 64].
Definition utf8 (s : list Z) : list Z := flat_map utf8_char s.
(** A character of the basic multilingual plane. *)
Definition bmp (c : Z) : Prop := scalar c /\ c < 65536.

(** The text meant by an argument: UTF-8 bytes, wide characters, or UTF-16 units. *)
Definition meant (t : text) (s : list Z) : Prop :=
  match t with
  | TChar b => b = utf8 s /\ Forall bmp s
  | TWide w => w = s /\ Forall bmp s
  | T16 u => u = s
  end.
(** What a reader should find for a value. *)
Definition reads_meant (u : uval) (x : rval) : Prop :=
  match u with
  | ULabel t => exists s, x = RText s /\ forall m, meant t m -> storable m = true -> s = m
  | _ => reads_as u x
  end.
(** "iconv failed!" *)
Definition FAILED : list Z := [105; 99; 111; 110; 118; 32; 102; 97; 105; 108; 101; 100; 33].

(** A call as the library without iconv would be given it: every text as UTF-16 units. *)
Definition units_of (t t' : text) : Prop := exists u, t' = T16 u /\ forall s, meant t s -> u = s.
Inductive in_units : call -> call -> Prop :=
| iu_sheet n n' : units_of n n' -> in_units (KSheet n) (KSheet n')
| iu_format n n' : units_of n n' -> in_units (KFormat n) (KFormat n')
| iu_label k r c t t' xf : units_of t t' -> in_units (KCell k r c (ULabel t) xf) (KCell k r c (ULabel t') xf)
| iu_note k r c a a' t t' : units_of a a' -> units_of t t' -> in_units (KNote k r c a t) (KNote k r c a' t')
| iu_link k r c u u' m m' : units_of u u' -> units_of m m' -> in_units (KHyperlink k r c u m) (KHyperlink k r c u' m')
| iu_other q : (forall n, q <> KSheet n) -> (forall n, q <> KFormat n) -> (forall k r c t xf, q <> KCell k r c (ULabel t) xf) ->
    (forall k r c a t, q <> KNote k r c a t) -> (forall k r c u m, q <> KHyperlink k r c u m) -> in_units q q.
