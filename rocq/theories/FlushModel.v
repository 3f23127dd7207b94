(** The record objects of a save: when they are made, used and deleted.  datast.cpp 92-117,
    119-158, 183-287 (CDataStorage), unit.cpp 53-60, continue.cpp 44-55, workbook.cpp 300-334
    and 336-484, recdef.cpp 98-101 in /repo/xlslib/src/xlslib.

    Simplifications.  The contents of records are left out (RecModel, SheetModel, WbModel), and
    with them the store of bytes, which keeps the bytes of deleted records.  Objects are
    numbered as in MemModel. *)
From Coq Require Import ZArith List Bool Arith.
From Verif Require Import UnitModel MemModel.
Import ListNotations.

(** The kinds of records that differ in how long they are kept. *)
Inductive rkind := RPlain | RDbcell | RIndex | RBound.
(** unit.cpp 56, row.cpp 116, index.cpp 46, recdef.cpp 386: m_Backpatching_Level. *)
Definition level (k : rkind) : Z := match k with RPlain => 0 | RDbcell => 1 | RIndex => 2 | RBound => 3 end.
(** datast.h 280 BACKPATCH_LEVEL_EVERYONE. *)
Definition everyone : Z := 65535.

(** datast.h: m_FlushStack (with the levels of the units in it), m_FlushLastEndLevel and
    m_FlushLastEndPos. *)
Record rstore := mkRs { rs_heap : heap; rs_stack : list (nat * Z); rs_level : Z; rs_pos : nat }.
(** datast.cpp 71-90. *)
Definition rs_new (h : heap) : rstore := mkRs h [] 0 0.

(** unit.cpp 53-60 and datast.cpp 183-187: a new unit puts itself on the stack. *)
Definition make (l : Z) (s : rstore) : nat * rstore :=
  let (p, h) := h_new (rs_heap s) in (p, mkRs h (rs_stack s ++ [(p, l)]) (rs_level s) (rs_pos s)).
(** datast.cpp 236-258: units up to the level are deleted, the others move down. *)
Fixpoint sweep (l : Z) (h : heap) (us : list (nat * Z)) : res (heap * list (nat * Z)) :=
  match us with
  | [] => Ok (h, [])
  | (p, k) :: t =>
      let* _ := h_use h p in
      if (k <=? l)%Z then let* h1 := h_del h p in sweep l h1 t
      else
        let* _ := xl_assert (k <=? 4)%Z in
        let* (h1, r) := sweep l h t in Ok (h1, (p, k) :: r)
  end.
(** datast.cpp 215-277 FlushEm: a second pass at the same level begins behind the unit that was
    last after the first one. *)
Definition flush (l : Z) (s : rstore) : res rstore :=
  let size := length (rs_stack s) in
  let again := ((rs_level s =? l)%Z && negb (l =? everyone)%Z && negb (Nat.eqb (rs_pos s) size))%bool in
  let* _ := xl_assert (negb again || (Nat.ltb (rs_pos s) size))%bool in
  let start := if again then S (rs_pos s) else O in
  let* (h, r) := sweep l (rs_heap s) (skipn start (rs_stack s)) in
  let st := firstn start (rs_stack s) ++ r in
  Ok (mkRs h st l (pred (length st))).
(** datast.cpp 119-158 operator+= and 280-287 FlushLowerLevelUnits, called one after the other
    in workbook.cpp 309-311. *)
Definition settle (p : nat) (l : Z) (s : rstore) : res rstore :=
  let* _ := h_use (rs_heap s) p in
  if (0 <? l)%Z then flush (l - 1) s else Ok s.
(** workbook.cpp 425-452, continue.cpp 44-55: a record that continues another one is made from
    the object of that one and has its level. *)
Fixpoint continues (n : nat) (p : nat) (l : Z) (s : rstore) : res rstore :=
  match n with
  | O => Ok s
  | S m =>
      let* _ := h_use (rs_heap s) p in
      let (q, s1) := make l s in
      let* s2 := settle q l s1 in
      continues m p l s2
  end.

(** What a save does, record by record: make a record with so many continuing ones; or write
    the position of a sheet into its BOUNDSHEET record (workbook.cpp 383). *)
Inductive step := SMake (k : rkind) (more : nat) | SPatch (i : nat).
(** What the workbook keeps from one save to the next: the pointers to BOUNDSHEET records in
    its boundsheet_t objects (recdef.h 351-355), and where the globals are among these. *)
Record saving := mkSv { sv_store : rstore; sv_bound : nat -> option nat; sv_next : nat }.
(** globalrec.cpp 506-517; datast.cpp 195-213 (Clip: the unit must be the last one). *)
Definition do_step (v : saving) (e : step) : res saving :=
  match e with
  | SMake k n =>
      let (p, s1) := make (level k) (sv_store v) in
      let* _ := match n with
                | O => Ok tt
                | _ => match rev (rs_stack s1) with (q, _) :: _ => xl_assert (Nat.eqb q p) | [] => UB end
                end in
      let* s2 := settle p (level k) s1 in
      let* s3 := continues n p (level k) s2 in
      Ok (match k with
          | RBound => mkSv s3 (fun i => if Nat.eqb i (sv_next v) then Some p else sv_bound v i) (S (sv_next v))
          | _ => mkSv s3 (sv_bound v) (sv_next v)
          end)
  | SPatch i =>
      match sv_bound v i with
      | Some p => let* _ := h_use (rs_heap (sv_store v)) p in Ok v
      | None => UB
      end
  end.
Fixpoint do_steps (v : saving) (es : list step) : res saving :=
  match es with [] => Ok v | e :: t => let* v1 := do_step v e in do_steps v1 t end.
(** datast.cpp 92-117: the destructor of the storage, at the end of the save or when an
    exception leaves it. *)
Definition close (s : rstore) : res heap := let* t := flush everyone s in Ok (rs_heap t).

(** workbook.cpp 336-484: first the globals, then sheet by sheet, each followed by the writing
    of its position. *)
Fixpoint plan_sheets (i : nat) (sheets : list (list (rkind * nat))) : list step :=
  match sheets with
  | [] => []
  | s :: t => map (fun r => SMake (fst r) (snd r)) s ++ SPatch i :: plan_sheets (S i) t
  end.
Definition plan (globals : list (rkind * nat)) (sheets : list (list (rkind * nat))) : list step :=
  map (fun r => SMake (fst r) (snd r)) globals ++ plan_sheets 0 sheets.
(** A save begins: a new storage; [old] are the pointers left from the save before. *)
Definition begin_save (h : heap) (old : nat -> option nat) : saving := mkSv (rs_new h) old 0.
(** workbook.cpp 300-334. *)
Definition save_records (h : heap) (old : nat -> option nat) (globals : list (rkind * nat)) (sheets : list (list (rkind * nat))) : res heap :=
  let* v := do_steps (begin_save h old) (plan globals sheets) in close (sv_store v).

(** An exception inside the constructor of a record: the unit has put itself on the stack; the
    language deletes the object that was being made; nothing takes it off the stack. *)
Definition broken (l : Z) (s : rstore) : res rstore :=
  let (p, s1) := make l s in
  let* h := h_del (rs_heap s1) p in
  Ok (mkRs h (rs_stack s1) (rs_level s1) (rs_pos s1)).
