(** Property theorems C01-C04: record buffers. *)
From Coq Require Import ZArith List Lia Bool.
From Verif Require Import Bytes UnitModel UnitProofs SpecBuf BufProofs.
Import ListNotations.
Local Open Scope Z_scope.

(** C01.  [run_ops orc unit_new ops] runs the modelled C++ buffer on the operations;
    [orc] is the allocator (what it returns is arbitrary garbage); [spec_ops] is the
    byte-list specification.  The 2^29 bound is the width of the size bit-field. *)
Theorem C01_buffer_is_byte_sequence :
  forall orc o ops,
    (forall k, orc k <> None) ->
    obtains_storage o = true -> ops_typed [] (o :: ops) ->
    zlen (spec_ops (o :: ops)) < 536870912 ->
    exists codes u, run_ops orc unit_new (o :: ops) = Ok (codes, u)
                    /\ content u = Some (spec_ops (o :: ops)).
Proof. intros. apply buffer_content; auto. Qed.
Print Assumptions C01_buffer_is_byte_sequence.

Ltac typed_tac :=
  repeat match goal with
  | |- _ /\ _ => split
  | |- Forall _ (_ :: _) => apply Forall_cons
  | |- Forall _ [] => apply Forall_nil
  | |- True => exact I
  end; try lia; try (vm_compute; congruence).

Definition demo_ops : list uop :=
  [OArray [0; 0; 0; 0]; OSet16 574 0; OAdd32 70000; OStr [72; 105; 8364] LEN1; OFixed 7 20;
   OInflate 60; OAppend [1; 2]; OSetSz16 2 4; OAdd64 (-2)].
Example C01_not_vacuous :
  obtains_storage (OArray [0; 0; 0; 0]) = true /\ ops_typed [] demo_ops
  /\ zlen (spec_ops demo_ops) < 536870912
  /\ spec_ops demo_ops = [62; 2; 34; 0; 112; 17; 1; 0; 3; 1; 72; 0; 105; 0; 172; 32;
       7;7;7;7;7;7;7;7;7;7;7;7;7;7;7;7;7;7;7;7; 1; 2; 254;255;255;255;255;255;255;255].
Proof.
  split; [reflexivity|]. split.
  - unfold demo_ops. cbn. typed_tac.
  - split; reflexivity.
Qed.

(** C02: no write ever leaves the owned storage, whatever the allocator does ... *)
Theorem C02_no_out_of_bounds :
  forall orc ops, run_ops orc unit_new ops <> UB.
Proof. exact buffer_safe. Qed.
Print Assumptions C02_no_out_of_bounds.

(** ... and if no operation reports a code different from the failure-free run (and no
    exception is raised) the content is right: a refusal cannot go unreported. *)
Theorem C02_failure_never_silent :
  forall orc good o ops codes u codes' u',
    obtains_storage o = true -> ops_typed [] (o :: ops) ->
    zlen (spec_ops (o :: ops)) < 536870912 ->
    (forall k, good k <> None) ->
    run_ops orc unit_new (o :: ops) = Ok (codes, u) ->
    run_ops good unit_new (o :: ops) = Ok (codes', u') ->
    codes = codes' -> content u = Some (spec_ops (o :: ops)).
Proof. exact buffer_no_silent. Qed.
Print Assumptions C02_failure_never_silent.

(** A refused allocation in the middle: reported (code -100), no corruption. *)
Example C02_not_vacuous :
  exists codes u,
    run_ops (fun _ => None) unit_new [OArray [1; 2; 3; 4]; OFixed 9 100] = Ok (codes, u)
    /\ codes = [0; -4] /\ content u = None.
Proof. vm_compute. eexists _, _. repeat split. Qed.

(** C03: appended values read back from their offset, lowest byte first. *)
Theorem C03_append_reads_back :
  forall orc o ops v n op,
    (forall k, orc k <> None) ->
    obtains_storage o = true -> ops_typed [] ((o :: ops) ++ [op]) ->
    zlen (spec_ops ((o :: ops) ++ [op])) < 536870912 ->
    (op, n) = (OAdd8 v, 1%nat) \/ (op, n) = (OAdd16 v, 2%nat) \/ (op, n) = (OAdd32 v, 4%nat)
      \/ (op, n) = (OAdd64 v, 8%nat) ->
    exists codes u l,
      run_ops orc unit_new ((o :: ops) ++ [op]) = Ok (codes, u) /\ content u = Some l
      /\ rd n l (length (spec_ops (o :: ops))) = Some (v mod 256 ^ Z.of_nat n)
      /\ firstn (length (spec_ops (o :: ops))) l = spec_ops (o :: ops).
Proof.
  intros orc o ops v n op Ht Ho Hty Hl Hop.
  destruct (buffer_content orc o (ops ++ [op]) Ho Hty Hl Ht) as (c & u & H1 & H2).
  exists c, u, (spec_ops ((o :: ops) ++ [op])). split; [exact H1|]. split; [exact H2|].
  rewrite spec_ops_snoc.
  assert (E : spec_op (spec_ops (o :: ops)) op = spec_ops (o :: ops) ++ digits n v).
  { destruct Hop as [H|[H|[H|H]]]; injection H as -> ->; reflexivity. }
  rewrite E. split; [apply rd_append|].
  rewrite firstn_app, Nat.sub_diag, firstn_all. cbn [firstn]. apply app_nil_r.
Qed.
Print Assumptions C03_append_reads_back.

Theorem C03_store_reads_back :
  forall orc o ops v i n op,
    (forall k, orc k <> None) ->
    obtains_storage o = true -> ops_typed [] ((o :: ops) ++ [op]) ->
    zlen (spec_ops ((o :: ops) ++ [op])) < 536870912 ->
    (op, n) = (OSet8 v (Z.of_nat i), 1%nat) \/ (op, n) = (OSet16 v (Z.of_nat i), 2%nat)
      \/ (op, n) = (OSet32 v (Z.of_nat i), 4%nat) ->
    (i + n <= length (spec_ops (o :: ops)))%nat ->
    exists codes u l,
      run_ops orc unit_new ((o :: ops) ++ [op]) = Ok (codes, u) /\ content u = Some l
      /\ rd n l i = Some (v mod 256 ^ Z.of_nat n)
      /\ firstn i l = firstn i (spec_ops (o :: ops))
      /\ skipn (i + n) l = skipn (i + n) (spec_ops (o :: ops)).
Proof.
  intros orc o ops v i n op Ht Ho Hty Hl Hop Hi.
  destruct (buffer_content orc o (ops ++ [op]) Ho Hty Hl Ht) as (c & u & H1 & H2).
  exists c, u, (spec_ops ((o :: ops) ++ [op])). split; [exact H1|]. split; [exact H2|].
  rewrite spec_ops_snoc. set (l := spec_ops (o :: ops)) in *.
  assert (E : spec_op l op = overwrite l i (digits n v)).
  { destruct Hop as [H|[H|H]]; injection H as -> ->; cbn [spec_op]; rewrite Nat2Z.id; reflexivity. }
  rewrite E. split; [apply rd_overwrite; exact Hi|].
  rewrite overwrite_spec by (rewrite digits_length; exact Hi). rewrite digits_length.
  assert (L : length (firstn i l) = i) by (rewrite firstn_length; lia).
  split.
  - rewrite firstn_app, L, Nat.sub_diag. cbn [firstn]. rewrite app_nil_r.
    rewrite firstn_firstn. f_equal. lia.
  - rewrite app_assoc, skipn_app, app_length, L, digits_length, Nat.sub_diag.
    rewrite skipn_all2 by (rewrite app_length, L, digits_length; lia). reflexivity.
Qed.
Print Assumptions C03_store_reads_back.

(** The recorded value is the value itself in its C++ range. *)
Corollary C03_in_range : forall n v, 0 <= v < 256 ^ Z.of_nat n -> v mod 256 ^ Z.of_nat n = v.
Proof. intros. apply Z.mod_small. assumption. Qed.
Print Assumptions C03_in_range.
Example C03_not_vacuous : ops_typed [] ([OArray [0;0;0;0]; OAdd16 5] ++ [OSet16 515 (Z.of_nat 2)]).
Proof. cbn. typed_tac. Qed.

(** C04: string storage.  [OStr s LEN1] is AddUnicodeString with a 1-byte length. *)
Theorem C04_string_round_trip :
  forall orc o ops s f n,
    (forall k, orc k <> None) ->
    obtains_storage o = true -> ops_typed [] ((o :: ops) ++ [OStr s f]) ->
    zlen (spec_ops ((o :: ops) ++ [OStr s f])) < 536870912 ->
    (f = LEN1 /\ n = 1%nat /\ zlen s <= 255) \/ (f = LEN2 /\ n = 2%nat /\ zlen s <= 65535) ->
    exists codes u b,
      run_ops orc unit_new ((o :: ops) ++ [OStr s f]) = Ok (codes, u)
      /\ content u = Some (spec_ops (o :: ops) ++ b)
      /\ (forall rest, read_string n (b ++ rest) = Some (s, rest))
      /\ zlen b = unicode_string_length s f
      /\ (zlen b = Z.of_nat n + 1 + zlen s <-> (Forall (fun c => c < 128) s \/ s = [])).
Proof.
  intros orc o ops s f n Ht Ho Hty Hl Hf.
  destruct (buffer_content orc o (ops ++ [OStr s f]) Ho Hty Hl Ht) as (c & u & H1 & H2).
  assert (Hs : Forall (fun c => 0 <= c < 65536) s).
  { clear - Hty. revert Hty. generalize (@nil Z). 
    induction (o :: ops) as [|x t IH]; intros l H; cbn [app ops_typed] in H.
    - destruct H as [H _]. exact H.
    - destruct H as [_ H]. eapply IH. exact H. }
  exists c, u, (spec_string s f). split; [exact H1|]. split.
  { rewrite H2. f_equal. apply (spec_ops_snoc (o :: ops)). }
  split; [intro; apply read_spec_string; auto|].
  split; [rewrite <- unicode_length_ok, ustr_spec by auto; reflexivity|].
  rewrite <- ustr_spec, unicode_length_ok by auto. unfold unicode_string_length.
  rewrite is_ascii_compressible by auto.
  pose proof (zlen_nonneg _ s).
  assert (E : compressible s = true <-> Forall (fun c => c < 128) s).
  { unfold compressible. rewrite forallb_forall, Forall_forall. rewrite Forall_forall in Hs.
    split; intros G x Hx; specialize (G x Hx); specialize (Hs x Hx); lia. }
  destruct (compressible s) eqn:Ec.
  - split; [|destruct Hf as [(-> & -> & _)|(-> & -> & _)]; cbv iota; lia].
    intro. left. apply E. reflexivity.
  - split.
    + intro G. right. apply zlen_0_nil. destruct Hf as [(-> & -> & _)|(-> & -> & _)]; cbv iota in G; lia.
    + intros [G| ->]; [|discriminate Ec]. apply E in G. discriminate.
Qed.
Print Assumptions C04_string_round_trip.

Example C04_not_vacuous :
  ops_typed [] ([OArray [0;0;0;0]] ++ [OStr [72; 8364] LEN1])
  /\ read_string 1 (ustr_bytes [72; 8364] LEN1) = Some ([72; 8364], []).
Proof. split; [cbn; typed_tac|reflexivity]. Qed.

(** Beyond the limit the length prefix wraps: a 256-unit string with a 1-byte prefix is
    read back as the empty string. *)
Theorem C04_overlong_refuted :
  exists s, zlen s = 256 /\ Forall (fun c => 0 <= c < 65536) s
    /\ exists rest, read_string 1 (ustr_bytes s LEN1) = Some ([], rest) /\ rest <> [].
Proof.
  exists (repeat 65 256). split; [reflexivity|]. split.
  - apply Forall_forall. intros x Hx. apply repeat_spec in Hx. lia.
  - eexists. split; [vm_compute; reflexivity|discriminate].
Qed.
Print Assumptions C04_overlong_refuted.
