(** C58: sheets of other kinds and hidden sheets in the sheet directory. *)
From Coq Require Import ZArith List Bool Lia.
From Verif Require Import Bytes UnitModel SpecBuf BufProofs RecModel RecProofs RecFrames SheetModel SpecApi SpecBiff SaveRead KindModel SpecKind.
Import ListNotations.
Local Open Scope Z_scope.

Lemma flags_kept k v pos name : bsheet_flags (bsheet_new pos name (attributes_of k v)) = attributes_of k v.
Proof. destruct k, v; reflexivity. Qed.
Definition entry_bytes (pos flags : Z) (name : list Z) : list Z := le32 pos ++ le16 flags ++ ustr_bytes name LEN1.
Lemma entry_built pos name attr :
  build (rec_bsheet_kind (bsheet_new pos name attr)) = Ok (mkBU (frame 133 (entry_bytes pos (bsheet_flags (bsheet_new pos name attr)) name)) false).
Proof.
  unfold rec_bsheet_kind, RT_BOUNDSHEET. rewrite build_rec by (unfold app_only; cbn; discriminate). unfold pl, entry_bytes. cbn [appended op_bytes bs_pos bs_label bsheet_new]. rewrite app_nil_r. reflexivity.
Qed.
Lemma entry_reads pos f name : u32 pos -> u16 f -> Forall u16 name -> zlen name <= 255 ->
  read_entry (entry_bytes pos f name) = Some (mkRE pos (f mod 256) (f / 256) name).
Proof.
  intros P F U L. unfold read_entry, entry_bytes.
  assert (E0 : fld 4 (le32 pos ++ le16 f ++ ustr_bytes name LEN1) 0 = Some pos).
  { etransitivity; [apply (fld32 [] pos); reflexivity|]. rewrite Z.mod_small by exact P. reflexivity. }
  rewrite E0. change (skipn 6 (le32 pos ++ le16 f ++ ustr_bytes name LEN1)) with (ustr_bytes name LEN1). rewrite whole_ustr by (auto; left; auto).
  assert (E1 : fld 1 (le32 pos ++ le16 f ++ ustr_bytes name LEN1) 4 = Some (f mod 256)).
  { rewrite <- digits2. change (Some (f mod 256 + 256 * 0) = Some (f mod 256)). f_equal. lia. }
  assert (E2 : fld 1 (le32 pos ++ le16 f ++ ustr_bytes name LEN1) 5 = Some (f / 256)).
  { rewrite <- digits2. change (Some ((f / 256) mod 256 + 256 * 0) = Some (f / 256)). f_equal. unfold u16 in F. rewrite Z.mul_0_r, Z.add_0_r.
    apply Z.mod_small. split; [apply Z.div_pos; lia|apply Z.div_lt_upper_bound; lia]. }
  rewrite E1, E2. reflexivity.
Qed.
Lemma attributes_u16 k v : u16 (attributes_of k v). Proof. destruct k, v; vm_compute; split; congruence. Qed.

(** C58, what holds of the code: position and name read back, and the two bytes read back
    exchanged: what the sheet is stands where its visibility belongs and the other way round.  The
    claim itself, which has each in its own place, is proved for visible worksheets (all the
    library makes) and refuted below. *)
Theorem C58_entry_exchanged :
  forall k v pos name, u32 pos -> Forall u16 name -> zlen name <= 255 ->
    exists p, build (rec_bsheet_kind (bsheet_new pos name (attributes_of k v))) = Ok (mkBU (le16 133 ++ le16 (zlen p) ++ p) false)
      /\ read_entry p = Some (mkRE pos (kind_code k) (shown_code v) name).
Proof.
  intros k v pos name P U L. exists (entry_bytes pos (attributes_of k v) name). split.
  - rewrite entry_built, flags_kept. reflexivity.
  - rewrite entry_reads by (auto using attributes_u16). destruct k, v; reflexivity.
Qed.
Print Assumptions C58_entry_exchanged.

(** C58 for the sheets the library makes. *)
Theorem C58_entry_partial :
  forall pos name, u32 pos -> Forall u16 name -> zlen name <= 255 ->
    exists p, build (rec_bsheet_kind (bsheet_new pos name (attributes_of Worksheet Visible))) = Ok (mkBU (le16 133 ++ le16 (zlen p) ++ p) false)
      /\ read_entry p = Some (mkRE pos (shown_code Visible) (kind_code Worksheet) name).
Proof. exact (C58_entry_exchanged Worksheet Visible). Qed.
Print Assumptions C58_entry_partial.
(** The record of RecModel.v, which the saved documents contain, is this one. *)
Theorem C58_same_record : forall pos name, rec_bsheet_kind (bsheet_new pos name (attributes_of Worksheet Visible)) = rec_bsheet pos name.
Proof. reflexivity. Qed.
Print Assumptions C58_same_record.
Example C58_case : u32 70000 /\ Forall u16 [83; 8364] /\ zlen [83; 8364] <= 255
  /\ exists p, build (rec_bsheet_kind (bsheet_new 70000 [83; 8364] (attributes_of Chart Hidden))) = Ok (mkBU (le16 133 ++ le16 (zlen p) ++ p) false)
     /\ read_entry p = Some (mkRE 70000 2 1 [83; 8364]).
Proof.
  split; [split; reflexivity || (vm_compute; congruence)|]. split; [repeat (constructor; [split; reflexivity || (vm_compute; congruence)|]); constructor|].
  split; [vm_compute; congruence|]. apply (C58_entry_exchanged Chart Hidden); [split; reflexivity || (vm_compute; congruence)| |vm_compute; congruence].
  repeat (constructor; [split; reflexivity || (vm_compute; congruence)|]); constructor.
Qed.
(** A hidden worksheet is saved as a visible macro sheet. *)
Theorem C58_entry_refuted :
  exists k v pos name p e, build (rec_bsheet_kind (bsheet_new pos name (attributes_of k v))) = Ok (mkBU (le16 133 ++ le16 (zlen p) ++ p) false)
    /\ read_entry p = Some e /\ k = Worksheet /\ v = Hidden /\ re_shown e = shown_code Visible /\ re_kind e = kind_code MacroSheet.
Proof.
  exists Worksheet, Hidden, 1000, [83]. destruct (C58_entry_exchanged Worksheet Hidden 1000 [83]) as (p & A & B).
  - split; reflexivity || (vm_compute; congruence).
  - repeat (constructor; [split; reflexivity || (vm_compute; congruence)|]); constructor.
  - vm_compute; congruence.
  - exists p, (mkRE 1000 0 1 [83]). split; [exact A|]. split; [exact B|]. split; [reflexivity|]. split; [reflexivity|]. split; reflexivity.
Qed.
Print Assumptions C58_entry_refuted.
