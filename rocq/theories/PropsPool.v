(** Property theorems C54: the storage shared by the records of a save. *)
From Coq Require Import ZArith List Lia Bool.
From Verif Require Import Bytes UnitModel UnitProofs SpecBuf PoolModel SpecPool PoolProofs.
Import ListNotations.
Local Open Scope Z_scope.

(** [run_pops orc moves pool_new l] runs the modelled storage; [orc] is the allocator, [moves n]
    tells whether the vector of slots moves when it grows from [n] slots.  As long as no memory
    is refused, every record is the byte list that its own operations describe, wherever the
    slots are moved and whatever is done to other records in between; and what is written is
    the records one after the other, as long as the storage says. *)
Theorem C54_records_apart :
  forall orc moves l,
    (forall k, orc k <> None) -> (forall n, moves n <> None) -> pops_typed s_new l ->
    exists codes p,
      run_pops orc moves pool_new l = Ok (codes, p)
      /\ (forall h, r_alive (the_rec (spec_pops s_new l) h) = true ->
            unit_shows p h = r_bytes (the_rec (spec_pops s_new l) h))
      /\ pool_stream (p_slots p) = Ok (spec_stream (spec_pops s_new l))
      /\ (finished (spec_pops s_new l) -> p_total p = zlen (spec_stream (spec_pops s_new l))).
Proof.
  intros orc moves l T M H.
  destruct (run_rel orc moves l pool_new s_new (rel_new orc) H (or_introl T)) as (A & B).
  destruct (run_pops orc moves pool_new l) as [[es p]| |] eqn:E.
  - destruct A as (A1 & A2). destruct A1 as [A1|A1]; [|destruct (A1 T)]. specialize (A2 A1).
    exists es, p. split; [reflexivity|]. split; [intros h Hh; apply (shows_rel orc _ _ _ T A2 Hh)|].
    split; [|intro F; apply (total_rel orc _ _ A2 F)].
    pose proof (stream_rel orc _ _ A2) as S. destruct (pool_stream (p_slots p)); [congruence|destruct (S T)|contradiction].
  - destruct A. split; [exact T|exact M].
  - destruct (B T eq_refl).
Qed.
Print Assumptions C54_records_apart.

(** Whatever the allocator refuses and however the storage grows: as long as only existing
    objects are used no step reads or writes outside the room of a record, nor does writing the
    stream. *)
Theorem C54_no_out_of_bounds :
  forall orc moves l, pops_alive [] l ->
    run_pops orc moves pool_new l <> UB
    /\ (forall codes p, run_pops orc moves pool_new l = Ok (codes, p) -> pool_stream (p_slots p) <> UB).
Proof.
  intros orc moves l H.
  assert (V : pinv pool_new []). { split; [reflexivity|]. split; [intros [|h] X; discriminate X|constructor]. }
  pose proof (run_safe orc moves l pool_new [] V H) as S.
  destruct (run_pops orc moves pool_new l) as [[es q]| |]; [|split; discriminate|contradiction].
  split; [discriminate|]. intros codes p E. injection E as <- <-. destruct S as (m & _ & _ & F).
  apply stream_safe. exact F.
Qed.
Print Assumptions C54_no_out_of_bounds.

(** Refused memory, when records are made one at a time (as a save makes them): if every step
    returned the code it returns when nothing is refused, and the stream could be written, then
    what was written is right.  Missing: records made side by side, for which this is false
    (below). *)
Theorem C54_refusal_seen_partial :
  forall orc moves good moves' l codes p codes' p' b,
    (forall k, good k <> None) -> (forall n, moves' n <> None) ->
    pops_typed s_new l -> one_by_one s_new l ->
    run_pops orc moves pool_new l = Ok (codes, p) ->
    run_pops good moves' pool_new l = Ok (codes', p') ->
    codes = codes' ->
    pool_stream (p_slots p) = Ok b ->
    b = spec_stream (spec_pops s_new l)
    /\ (finished (spec_pops s_new l) -> p_total p = zlen b).
Proof.
  intros orc moves good moves' l codes p codes' p' b T M H O E E' <- S.
  destruct (run_rel good moves' l pool_new s_new (rel_new good) H (or_introl T)) as (A' & _). rewrite E' in A'.
  destruct A' as ([A'|A'] & _); [|destruct (A' T)].
  destruct (run_rel orc moves l pool_new s_new (rel_new orc) H (or_intror O)) as (A & _). rewrite E in A.
  destruct A as (_ & A). specialize (A A').
  pose proof (stream_rel orc _ _ A) as Q. rewrite S in Q. split; [exact Q|]. intro F. rewrite Q.
  apply (total_rel orc _ _ A F).
Qed.
Print Assumptions C54_refusal_seen_partial.

(** With two unfinished records the promise fails: the first loses its bytes when the storage
    grows for the second and the copy cannot be allocated; the next byte that is added makes it
    look whole again.  No step reports anything, and the stream can be written. *)
Definition two_open : list pop :=
  [PMake; PDo 0 (OArray (repeat 7 20)); PMake; PDo 1 (OArray [1; 2]); PDo 0 (OAdd8 9)].
Theorem C54_refusal_refuted :
  exists orc l codes p b,
    pops_typed s_new l
    /\ run_pops orc (fun _ => Some true) pool_new l = Ok (codes, p)
    /\ (exists p', run_pops (fun _ => Some (fun _ => 0)) (fun _ => Some true) pool_new l = Ok (codes, p'))
    /\ Forall (fun e => e = 0) codes
    /\ pool_stream (p_slots p) = Ok b
    /\ b = [9; 1; 2] /\ zlen (spec_stream (spec_pops s_new l)) = 23.
Proof.
  exists (fun k => if Nat.eqb k 1 then None else Some (fun _ => 0)), two_open.
  eexists _, _, _. split.
  { cbn. repeat match goal with
    | |- _ /\ _ => split
    | |- Forall _ (_ :: _) => apply Forall_cons
    | |- Forall _ [] => apply Forall_nil
    end; try exact I; try reflexivity; try discriminate; try lia. }
  split; [vm_compute; reflexivity|]. split; [eexists; vm_compute; reflexivity|].
  split; [repeat constructor|]. split; [vm_compute; reflexivity|]. split; reflexivity.
Qed.
Print Assumptions C54_refusal_refuted.

(** Three records: the first is patched after it was handed over and after the storage moved
    twice, the second is appended to itself; the objects are deleted. *)
Definition pool_demo : list pop :=
  [PMake; PDo 0 (OArray [0; 0; 0; 0]); PDo 0 (OAdd16 300); PKeep 0;
   PMake; PDo 1 (OArray (repeat 5 12)); PAppend 1 1; PDo 1 (OSetSz16 2 4); PKeep 1; PDrop 1;
   PMake; PDo 2 (OInflate 30); PDo 2 (OStr [72; 8364] LEN1); PKeep 2;
   PDo 0 (OSet16 574 0); PDrop 0; PDrop 2].
Example C54_case :
  pops_typed s_new pool_demo /\ one_by_one s_new pool_demo /\ pops_alive [] pool_demo
  /\ finished (spec_pops s_new pool_demo)
  /\ spec_stream (spec_pops s_new pool_demo)
     = [62; 2; 0; 0; 44; 1] ++ ([5; 5; 20; 0] ++ repeat 5 20) ++ [2; 1; 72; 0; 172; 32]
  /\ exists codes p, run_pops (fun _ => Some (fun _ => 99)) (fun _ => Some true) pool_new pool_demo = Ok (codes, p)
                     /\ p_total p = 36.
Proof.
  split.
  { cbn. repeat match goal with
    | |- _ /\ _ => split
    | |- Forall _ (_ :: _) => apply Forall_cons
    | |- Forall _ [] => apply Forall_nil
    end; try exact I; try reflexivity; try discriminate; try lia; try (left; reflexivity). }
  split.
  { cbn. repeat split; intros; try discriminate; intros h Hh; cbn in Hh; repeat (destruct Hh as [<-|Hh]; [reflexivity|]); contradiction. }
  split; [vm_compute; tauto|].
  split; [intros h Hh; cbn in Hh; repeat (destruct Hh as [<-|Hh]; [reflexivity|]); contradiction|].
  split; [reflexivity|]. eexists _, _. split; [vm_compute; reflexivity|reflexivity].
Qed.
