(** Notes and their drawings in a saved document (C32). *)
From Coq Require Import ZArith List Bool Lia ZifyBool ZifyNat Sorted.
From Verif Require Import Bytes UnitModel UnitProofs SpecBuf BufProofs RecModel SheetModel XfModel WbModel XfInv ApiModel SpecBiff BookRecs ApiInv SpecApi ApiEff
  RecFrames RecProofs SheetProofs SheetTrace GlobTrace WbProofs SaveOk SaveRecs SaveRead SpecSaved SaveMeans DocLimits SavedView Lookups DemoDoc ViewPay
  PropsSheet RowBlocks PropsRows SpecObj PropsObj.
Import ListNotations.
Local Open Scope Z_scope.

(* ------------------------------------------------------------------ *)
(** * Nested drawing records *)

Definition parses (p : list Z) (l : list node) : Prop := forall f, (length p <= f)%nat -> read_nodes f p = Some l.
Lemma parses_nil : parses [] [].
Proof. intros [|f] _; reflexivity. Qed.
Lemma parses_drawing p l : parses p l -> drawing p = Some l.
Proof. intro H. apply H. lia. Qed.
Definition hdr (vi t n : Z) : list Z := le16 vi ++ le16 t ++ le32 n.
Lemma nodes_hdr f vi t d p : u16 vi -> u16 t -> zlen d < 4294967296 ->
  read_nodes (S f) (hdr vi t (zlen d) ++ d ++ p) =
    (olet x := (if vi mod 16 =? 15 then olet kids := read_nodes f d in Some (Box (vi / 16) t kids) else Some (Atom (vi mod 16) (vi / 16) t d)) in
     olet rest := read_nodes f p in Some (x :: rest)).
Proof.
  intros A B C. pose proof (zlen_nonneg _ d). 
  assert (E : forall b l, read_nodes (S f) (b :: l) = 
      olet (vi, p) := take_num 2 (b :: l) in
      olet (t, p) := take_num 2 p in
      olet (n, p) := take_num 4 p in
      olet (data, p) := take (Z.to_nat n) p in
      olet x := (if vi mod 16 =? 15
                 then olet kids := read_nodes f data in Some (Box (vi / 16) t kids)
                 else Some (Atom (vi mod 16) (vi / 16) t data)) in
      olet rest := read_nodes f p in
      Some (x :: rest)) by reflexivity.
  unfold hdr. rewrite <- !app_assoc. change (le16 vi ++ ?l) with (byte_k 0 vi :: [byte_k 1 vi] ++ l). rewrite E.
  change (byte_k 0 vi :: [byte_k 1 vi] ++ ?l) with (le16 vi ++ l). rewrite take16 by exact A. rewrite take16 by exact B. rewrite take32 by (unfold u32; lia).
  rewrite take_app by (unfold zlen; lia). reflexivity.
Qed.
Lemma parses_atom vi t n d p l : u16 vi -> vi mod 16 <> 15 -> u16 t -> zlen d = n -> n < 4294967296 -> parses p l ->
  parses (hdr vi t n ++ d ++ p) (Atom (vi mod 16) (vi / 16) t d :: l).
Proof.
  intros A N B E C P f L. subst n. rewrite !app_length in L. change (length (hdr vi t (zlen d))) with 8%nat in L. destruct f; [lia|].
  rewrite nodes_hdr by assumption. replace (vi mod 16 =? 15) with false by lia. rewrite P by lia. reflexivity.
Qed.
Lemma parses_box vi t n d p k l : u16 vi -> vi mod 16 = 15 -> u16 t -> zlen d = n -> n < 4294967296 -> parses d k -> parses p l ->
  parses (hdr vi t n ++ d ++ p) (Box (vi / 16) t k :: l).
Proof.
  intros A N B E C K P f L. subst n. rewrite !app_length in L. change (length (hdr vi t (zlen d))) with 8%nat in L. destruct f; [lia|].
  rewrite nodes_hdr by assumption. rewrite N. change (15 =? 15) with true. cbv iota. rewrite K by lia. rewrite P by lia. reflexivity.
Qed.

(* ------------------------------------------------------------------ *)
(** * The drawing of a note *)

Definition anchor_bytes (n : note) : list Z :=
  let r := no_rect n in
  le16 (nr_flag r) ++ le16 (nr_col1 r) ++ le16 (nr_dx1 r) ++ le16 (nr_row1 r) ++ le16 (nr_dy1 r) ++ le16 (nr_col2 r) ++ le16 (nr_dx2 r)
  ++ le16 (nr_row2 r) ++ le16 (nr_dy2 r).
Definition options_bytes (n : note) : list Z :=
  pl (draw_opid 133 1 ++ draw_opid 191 655368 ++ draw_opid 344 0 ++ draw_opid 385 (no_fill n) ++ draw_opid 387 134217808 ++ draw_opid 447 1048592
  ++ draw_opid 575 196611 ++ draw_opid 959 131074).
Definition note_shape (n : note) (id : Z) : node :=
  Box 0 61444 [Atom 2 202 61450 (le32 id ++ le32 2560); Atom 3 8 61451 (options_bytes n); Atom 3 1 61730 draw102;
               Atom 0 0 61456 (anchor_bytes n); Atom 0 0 61457 []; Atom 0 0 61453 []].
Definition shape_kids (n : note) (id : Z) : list Z :=
  hdr 3234 61450 8 ++ (le32 id ++ le32 2560) ++ hdr 131 61451 48 ++ options_bytes n ++ hdr 19 61730 6 ++ draw102
  ++ hdr 0 61456 18 ++ anchor_bytes n ++ hdr 0 61457 0 ++ [] ++ hdr 0 61453 0 ++ [] ++ [].
Definition shape_bytes (n : note) (sheet spid : Z) : list Z := pl (draw_text n sheet spid) ++ pl (draw_hdr 0 0 61453 0).
Lemma shape_bytes_eq n sheet spid : shape_bytes n sheet spid = hdr 15 61444 128 ++ shape_kids n (make_spid sheet spid).
Proof. reflexivity. Qed.
Lemma shape_len n sheet spid : zlen (shape_bytes n sheet spid) = 136.
Proof. reflexivity. Qed.
Lemma shape_parses n sheet spid p l : parses p l -> parses (shape_bytes n sheet spid ++ p) (note_shape n (make_spid sheet spid) :: l).
Proof.
  intro P. rewrite shape_bytes_eq, <- app_assoc. apply (parses_box 15); try (unfold u16; lia); try reflexivity; [|exact P].
  assert (A : forall vi t n d p l, (0 <=? vi) && (vi <? 65536) && negb (vi mod 16 =? 15) && (0 <=? t) && (t <? 65536) = true -> zlen d = n -> n < 4294967296 -> parses p l ->
      parses (hdr vi t n ++ d ++ p) (Atom (vi mod 16) (vi / 16) t d :: l)).
  { intros. apply parses_atom; unfold u16; auto; lia. }
  unfold shape_kids.
  apply (A 3234); [reflexivity|reflexivity|lia|]. apply (A 131); [reflexivity|reflexivity|lia|]. apply (A 19); [reflexivity|reflexivity|lia|].
  apply (A 0); [reflexivity|reflexivity|lia|]. apply (A 0); [reflexivity|reflexivity|lia|]. apply (A 0); [reflexivity|reflexivity|lia|]. exact parses_nil.
Qed.

Fixpoint shapes (ns : list note) (sheet spid : Z) : list node :=
  match ns with [] => [] | n :: t => note_shape n (make_spid sheet spid) :: shapes t sheet (w32 (spid + 1)) end.
Fixpoint shapes_bytes (ns : list note) (sheet spid : Z) : list Z :=
  match ns with [] => [] | n :: t => shape_bytes n sheet spid ++ shapes_bytes t sheet (w32 (spid + 1)) end.
Lemma shapes_len ns : forall sheet spid, zlen (shapes_bytes ns sheet spid) = 136 * zlen ns.
Proof.
  induction ns as [|n ns IH]; intros; [reflexivity|]. cbn [shapes_bytes]. rewrite zlen_app, shape_len, IH. unfold zlen. cbn [length]. lia.
Qed.
Lemma shapes_parse ns : forall sheet spid, parses (shapes_bytes ns sheet spid) (shapes ns sheet spid).
Proof. induction ns as [|n ns IH]; intros; [exact parses_nil|]. cbn [shapes_bytes shapes]. apply shape_parses. apply IH. Qed.
Lemma drawing_pay n sheet spid count : concat (payloads T_MSODRAWING (drawing_recs n sheet spid count)) = pl (draw_ops n sheet spid count) ++ pl (draw_hdr 0 0 61453 0).
Proof.
  unfold drawing_recs. assert (E : forall (a b c d e f : list Z), payloads T_MSODRAWING [(RT_MSODRAWING, a); (RT_OBJ, b); (RT_MSODRAWING, c); (RT_TXO, d); (RT_CONTINUE, e); (RT_CONTINUE, f)] = [a; c]) by reflexivity.
  rewrite E. cbn [concat]. rewrite app_nil_r. reflexivity.
Qed.
Lemma later_drawings ns : forall sheet count i spid, 1 <= i -> i + zlen ns <= 65536 ->
  concat (payloads T_MSODRAWING (concat (drawings_recs ns sheet count i spid))) = shapes_bytes ns sheet spid.
Proof.
  induction ns as [|n ns IH]; intros sheet count i spid I L; [reflexivity|]. cbn [drawings_recs concat shapes_bytes]. rewrite pay_app, concat_app, drawing_pay.
  assert (Ln : zlen (n :: ns) = 1 + zlen ns) by (unfold zlen; cbn [length]; lia). pose proof (zlen_nonneg _ ns). f_equal.
  - unfold draw_ops, draw_first, draw_spid. cbn [renote no_idx]. replace (i =? 0) with false by lia. reflexivity.
  - destruct ns as [|m ns]; [reflexivity|]. assert (Lm : zlen (m :: ns) = 1 + zlen ns) by (unfold zlen; cbn [length]; lia). pose proof (zlen_nonneg _ ns).
    rewrite (Z.mod_small (i + 1)) by lia. unfold spid_step. replace (i =? 0) with false by lia. apply IH; lia.
Qed.

(** The drawing of all the notes of a sheet. *)
Definition head_shape (id : Z) : node := Box 0 61444 [Atom 1 0 61449 draw101; Atom 2 0 61450 (le32 id ++ le32 5)].
Definition head_kids (id : Z) : list Z := hdr 1 61449 16 ++ draw101 ++ hdr 2 61450 8 ++ (le32 id ++ le32 5) ++ [].
Lemma notes_drawing n ns sheet : zlen (n :: ns) <= 65535 ->
  let N := zlen (n :: ns) in
  parses (concat (payloads T_MSODRAWING (concat (drawings_recs (n :: ns) sheet (N mod 65536) 0 0))))
   [Box 0 61442 [Atom 0 1 61448 (le32 (N + 1) ++ le32 (make_spid sheet 0 + N)); Box 0 61443 (head_shape (make_spid sheet 0) :: shapes (n :: ns) sheet 1)]].
Proof.
  intros L N. assert (Ln : zlen (n :: ns) = 1 + zlen ns) by (unfold zlen; cbn [length]; lia). pose proof (zlen_nonneg _ ns).
  rewrite (Z.mod_small N) by (unfold N; lia).
  assert (E : concat (payloads T_MSODRAWING (concat (drawings_recs (n :: ns) sheet N 0 0)))
    = hdr 15 61442 (8 + 16 + 48 + 136 * N) ++ (hdr 16 61448 8 ++ (le32 (N + 1) ++ le32 (make_spid sheet 0 + N)) ++ hdr 15 61443 (48 + 136 * N)
      ++ (hdr 15 61444 40 ++ head_kids (make_spid sheet 0) ++ shapes_bytes (n :: ns) sheet 1) ++ []) ++ []).
  { cbn [drawings_recs concat shapes_bytes]. rewrite pay_app, concat_app, drawing_pay. rewrite !app_nil_r. rewrite <- !app_assoc.
    change (spid_step 0) with 2. change (w32 (0 + 2)) with 2. change (w32 (1 + 1)) with 2. change ((0 + 1) mod 65536) with 1.
    rewrite later_drawings by lia. reflexivity. }
  rewrite E. clear E.
  assert (Ls : zlen (hdr 15 61444 40 ++ head_kids (make_spid sheet 0) ++ shapes_bytes (n :: ns) sheet 1) = 48 + 136 * N).
  { rewrite !zlen_app, shapes_len. change (zlen (hdr 15 61444 40)) with 8. change (zlen (head_kids (make_spid sheet 0))) with 40. unfold N. lia. }
  assert (LN : 0 < N <= 65535) by (unfold N; lia). clearbody N.
  set (S := hdr 15 61444 40 ++ head_kids (make_spid sheet 0) ++ shapes_bytes (n :: ns) sheet 1) in *.
  apply (parses_box 15); try (unfold u16; lia); try reflexivity; [| |exact parses_nil].
  - rewrite (zlen_app _ _ (_ ++ _)), (zlen_app _ (le32 (N + 1) ++ _)), (zlen_app _ (le32 (N + 1))), (zlen_app _ (hdr 15 61443 _)), (zlen_app _ S). change (zlen (hdr 16 61448 8)) with 8. change (zlen (hdr 15 61443 (48 + 136 * N))) with 8. rewrite !zlen_le32. rewrite zlen_nil. lia.
  - apply (parses_atom 16); try (unfold u16; lia); try reflexivity. apply (parses_box 15); try (unfold u16; lia); try reflexivity; [|exact parses_nil].
    unfold S. apply (parses_box 15); try (unfold u16; lia); try reflexivity; [|apply shapes_parse].
    unfold head_kids. apply (parses_atom 1); try (unfold u16; lia); try reflexivity. apply (parses_atom 2); try (unfold u16; lia); try reflexivity. exact parses_nil.
Qed.

(* ------------------------------------------------------------------ *)
(** * Text boxes *)

Lemma boxes_skip a b : Forall (fun r => fst r <> T_OBJ) a -> text_boxes (a ++ b) = text_boxes b.
Proof. induction 1 as [|[t p] a N F IH]; [reflexivity|]. cbn [app text_boxes fst] in *. replace (t =? T_OBJ) with false by lia. exact IH. Qed.
Lemma obj_read i : 0 <= i < 65535 -> read_obj (obj_bytes i) = Some (i + 1).
Proof.
  intro H. unfold read_obj. change (zlen (obj_bytes i)) with 26. change (fld 2 (obj_bytes i) 0) with (Some 21). change (fld 2 (obj_bytes i) 2) with (Some 18).
  change (fld 2 (obj_bytes i) 4) with (Some 25). cbv beta iota. change ((21 =? 21) && (18 =? 18) && (25 =? 25) && (26 =? 26))%bool with true. cbv iota.
  unfold obj_bytes. rewrite 2 app_assoc, fld16 by reflexivity. rewrite Z.mod_small by lia. reflexivity.
Qed.
Lemma txo_read u author : Forall u16 u -> zlen u < 65536 -> read_txo (txo_bytes (zlen u)) (ustr_bytes u NOLEN) (runs_bytes author (zlen u)) = Some u.
Proof.
  intros F L. unfold read_txo. pose proof (zlen_nonneg _ u). change (zlen (txo_bytes (zlen u))) with 18. change (zlen (runs_bytes author (zlen u))) with 24.
  change (fld 2 (txo_bytes (zlen u)) 12) with (Some 24). replace (fld 2 (txo_bytes (zlen u)) 10) with (Some (zlen u)).
  2:{ symmetry. unfold txo_bytes. rewrite 2 app_assoc, fld16 by reflexivity. rewrite Z.mod_small by lia. reflexivity. }
  cbv beta iota. change (negb ((18 =? 18) && (24 =? 24))) with false. cbv iota. rewrite ustr_spec by exact F. unfold spec_string.
  replace (Z.to_nat (zlen u)) with (length u) by (unfold zlen; lia).
  destruct (compressible u); cbn [app].
  - change (0 =? 0) with true. cbv iota. rewrite <- (app_nil_r u) at 2. rewrite take_narrow. reflexivity.
  - change (1 =? 0) with false. change (1 =? 1) with true. cbv iota. rewrite <- (app_nil_r (flat_map _ _)), take_wide by exact F. reflexivity.
Qed.
Fixpoint boxes_of (ns : list note) (i : Z) : list (Z * list Z) :=
  match ns with [] => [] | n :: t => (i + 1, note_full n) :: boxes_of t (i + 1) end.
Lemma boxes_read ns rest : Forall (fun r => fst r <> T_OBJ) rest -> forall sheet count i spid, 0 <= i -> i + zlen ns <= 65535 ->
  Forall (fun n => Forall u16 (note_full n) /\ zlen (note_full n) < 65536) ns ->
  text_boxes (concat (drawings_recs ns sheet count i spid) ++ rest) = Some (boxes_of ns i).
Proof.
  intro N. induction ns as [|n ns IH]; intros sheet count i spid I L F.
  - cbn [drawings_recs concat app boxes_of]. rewrite <- (app_nil_r rest). apply (boxes_skip rest []). exact N.
  - assert (Ln : zlen (n :: ns) = 1 + zlen ns) by (unfold zlen; cbn [length]; lia). pose proof (zlen_nonneg _ ns). inversion F as [|? ? [Fu Fl] Fs]; subst.
    cbn [drawings_recs concat boxes_of]. rewrite <- app_assoc. rewrite (Z.mod_small (i + 1)) by lia.
    set (X := concat _ ++ rest). assert (EX : text_boxes X = Some (boxes_of ns (i + 1))) by (apply IH; auto; lia). unfold drawing_recs. cbn [app].
    cbn [text_boxes]. change (RT_MSODRAWING =? T_OBJ) with false. change (RT_OBJ =? T_OBJ) with true. change (RT_TXO =? T_OBJ) with false. change (RT_CONTINUE =? T_OBJ) with false. cbv iota.
    change ((RT_MSODRAWING =? T_MSODRAWING) && (RT_TXO =? T_TXO) && (RT_CONTINUE =? T_CONTINUE) && (RT_CONTINUE =? T_CONTINUE))%bool with true. cbv iota.
    rewrite note_full_renote. cbn [renote no_idx no_author]. rewrite obj_read by lia. rewrite txo_read by assumption. rewrite EX. reflexivity.
Qed.

(* ------------------------------------------------------------------ *)
(** * C32 *)

Definition calm_types : list Z :=
  [RT_INDEX; RT_DEFAULTROWHEIGHT; RT_COLINFO; RT_DEFCOLWIDTH; RT_DIMENSIONS; RT_ROW; RT_BLANK; RT_BOOLERR; RT_RK; RT_NUMBER;
   RT_LABEL; RT_LABELSST; RT_FORMULA; RT_ARRAY; RT_STRING; RT_DBCELL; RT_CONTINUE; RT_NOTE;
   RT_MERGEDCELLS; RT_WINDOW2; RT_PANE; RT_HLINK; RT_DVAL; RT_DV].
Lemma body_split ls ac pos s : exists a b, has_types calm_types a /\ has_types calm_types b
  /\ flat_map rx (inner ls ac pos s) = a ++ concat (drawings_recs (sh_notes s) (sh_index s) (zlen (sh_notes s) mod 65536) 0 (sh_spid s)) ++ b.
Proof.
  unfold inner, tail_in. set (D := drawings_recs _ _ _ _ _).
  match goal with |- context [D ++ ?x] => set (T := x) end.
  assert (ED : flat_map rx D = concat D).
  { unfold D. generalize (sh_index s) (zlen (sh_notes s) mod 65536) 0 (sh_spid s).
    induction (sh_notes s) as [|n ns IH]; intros; [reflexivity|]. cbn [drawings_recs flat_map concat]. rewrite IH. reflexivity. }
  exists (flat_map rx (head_in (pos + 20) s ++ body_recs ls s)), (flat_map rx T).
  rewrite !flat_map_app, ED, <- app_assoc. split; [|split; [|reflexivity]].
  - rewrite <- flat_map_app. apply ht_rx; [hin|]. apply Forall_app. split.
    + unfold head_in. repeat (apply Forall_app; split); try hm; hgl.
    + unfold body_recs. destruct (sheet_blocks s) as [bl|]; [|constructor]. apply Forall_flat_map. apply Forall_forall. intros b _.
      unfold block_recs. repeat (apply Forall_app; split); try hm.
      * apply Forall_map. apply Forall_forall. intros c _. eapply ht_weaken; [|apply cell_types]. intros t H. cbn in *. tauto.
      * hgl.
  - apply ht_rx; [hin|]. unfold T. repeat (apply Forall_app; split); try hm.
    + hgl.
    + destruct (_ && _)%bool; hgl.
    + destruct (sh_dvs s); [constructor|]. constructor; [hone|]. hm.
Qed.

Fixpoint notes_as (ns : list note) (i : Z) : list rnote :=
  match ns with [] => [] | n :: t => mkRNote (no_row n) (no_col n) (i + 1) (no_author n) :: notes_as t (i + 1) end.
Lemma note_read n i : u16 (no_row n) -> u16 (no_col n) -> 0 <= i < 65535 -> Forall u16 (no_author n) -> zlen (no_author n) <= 65535 ->
  read_note (note_bytes (renote n i)) = Some (mkRNote (no_row n) (no_col n) (i + 1) (no_author n)).
Proof.
  intros A B C F L. unfold read_note, note_bytes. cbn [renote no_row no_col no_idx no_author]. rewrite !take16 by (unfold u16 in *; lia || assumption).
  rewrite str2_read by assumption. reflexivity.
Qed.
Lemma notes_read ns : forall i, 0 <= i -> i + zlen ns <= 65535 ->
  Forall (fun n => u16 (no_row n) /\ u16 (no_col n) /\ Forall u16 (no_author n) /\ zlen (no_author n) <= 65535) ns ->
  traverse read_note (map note_bytes (number_notes ns i)) = Some (notes_as ns i).
Proof.
  induction ns as [|n ns IH]; intros i I L F; [reflexivity|]. inversion F as [|? ? (A & B & C & D) Fs]; subst. assert (Ln : zlen (n :: ns) = 1 + zlen ns) by (unfold zlen; cbn [length]; lia).
  pose proof (zlen_nonneg _ ns). cbn [number_notes map traverse notes_as]. rewrite note_read by (assumption || lia). rewrite (Z.mod_small (i + 1)) by lia. rewrite IH by (assumption || lia). reflexivity.
Qed.

Definition is_note (k : nat) (q : call) : bool := match q with KNote k' _ _ _ _ => Nat.eqb k k' | _ => false end.
Lemma note_put_len x l : zlen (note_put x l) <= 1 + zlen l.
Proof. unfold zlen. induction l as [|y l IH]; cbn [note_put length]; [lia|]. destruct (key_lt _ _ _ _); cbn [length]; [lia|]. destruct (key_lt _ _ _ _); cbn [length]; lia. Qed.
Lemma notes_count k calls : zlen (fold_left (notes_step k) calls []) <= zlen (filter (is_note k) calls).
Proof.
  induction calls as [|q calls IH] using rev_ind; [reflexivity|]. rewrite notes_snoc, filter_app, zlen_app. cbn [filter]. pose proof (zlen_nonneg _ (filter (is_note k) [q])).
  destruct q; cbn [notes_step is_note] in *; try (cbn [filter is_note] in *; rewrite ?zlen_nil; lia). destruct (Nat.eqb k k0) eqn:E; cbn [filter is_note]; rewrite ?E; [|rewrite zlen_nil; lia].
  eapply Z.le_trans; [apply note_put_len|]. change (zlen [KNote k0 row col author remark]) with 1. lia.
Qed.

Definition note_says (a t : text) (author body : list Z) : Prop := forall ua ut, units a = Some ua -> units t = Some ut ->
  author = kept 54 AUTHOR_WARNING ua /\ body = author ++ [58; 10] ++ kept 2048 TEXT_WARNING ut.

Lemma note_new_rect r c a t : nr_col1 (no_rect (note_new r c a t)) = (c mod 65536 + 1) mod 65536 /\ nr_row1 (no_rect (note_new r c a t)) = r mod 65536.
Proof. unfold note_new. destruct (note_grow _ _ _). auto. Qed.
Lemma warning_u16 : Forall u16 author_warning /\ Forall u16 text_warning.
Proof. split; repeat constructor; lia. Qed.
Lemma note_text_u16 a : Forall u16 a -> Forall u16 (note_author a) /\ Forall u16 (note_text a) /\ zlen (note_author a) <= 54 /\ zlen (note_text a) <= 2048.
Proof.
  intro F. unfold note_author, note_text. destruct warning_u16 as [A B]. repeat split; destruct (_ || _)%bool eqn:E; auto; try lia; vm_compute; discriminate.
Qed.
Lemma shapes_ids ns : forall sheet spid, 0 <= spid -> spid + zlen ns < 4294967296 -> 
  0 <= make_spid sheet 0 -> make_spid sheet 0 + spid + zlen ns < 4294967296 ->
  traverse shape_id (shapes ns sheet spid) = Some (map (fun i => make_spid sheet 0 + Z.of_nat i) (seq (Z.to_nat spid) (length ns))).
Proof.
  induction ns as [|n ns IH]; intros sheet spid A B C D; [reflexivity|]. assert (Ln : zlen (n :: ns) = 1 + zlen ns) by (unfold zlen; cbn [length]; lia). pose proof (zlen_nonneg _ ns).
  cbn [shapes traverse seq length map]. assert (E : shape_id (note_shape n (make_spid sheet spid)) = fld 4 (le32 (make_spid sheet spid) ++ le32 2560) 0) by reflexivity.
  rewrite E. replace (fld 4 _ 0) with (Some (make_spid sheet 0 + Z.of_nat (Z.to_nat spid))).
  2:{ symmetry. etransitivity; [apply (fld32 [] (make_spid sheet spid)); reflexivity|]. unfold make_spid in *. rewrite Z.mod_small by lia. f_equal. lia. }
  unfold w32. rewrite (Z.mod_small (spid + 1)) by lia. rewrite IH by lia. replace (Z.to_nat (spid + 1)) with (S (Z.to_nat spid)) by lia. reflexivity.
Qed.
Lemma shapes_cells ns : Forall (fun n => 0 <= no_row n < 65535 + 1 /\ 0 <= no_col n <= 255 /\ exists r c a t, n = note_new r c a t) ns -> forall sheet spid i,
  traverse shape_cell (shapes ns sheet spid) = Some (map (fun n => (rn_row n, rn_col n + 1)) (notes_as ns i)).
Proof.
  induction 1 as [|n ns (A & B & r & c & a & t & ->) F IH]; intros sheet spid i; [reflexivity|]. destruct (note_new_pos r c a t) as [P1 P2]. rewrite P1 in A. rewrite P2 in B.
  destruct (note_new_rect r c a t) as [Q1 Q2]. cbn [shapes traverse notes_as map rn_row rn_col]. rewrite (IH sheet _ (i + 1)).
  set (n := note_new r c a t) in *. assert (E : shape_cell (note_shape n (make_spid sheet spid)) = olet c := fld 2 (anchor_bytes n) 2 in olet r := fld 2 (anchor_bytes n) 6 in Some (r, c)) by reflexivity.
  rewrite E. unfold anchor_bytes. rewrite (fld16 (le16 _)) by reflexivity. rewrite 2 app_assoc, fld16 by reflexivity.
  rewrite P1, P2, Q1, Q2. rewrite !Z.mod_mod by lia. rewrite !(Z.mod_small r), !(Z.mod_small c), Z.mod_small by lia. reflexivity.
Qed.

Lemma note_typed k calls r c a t : Forall typed calls -> note_of k calls r c = Some (a, t) -> text_typed a /\ text_typed t.
Proof.
  intro Ty. unfold note_of. assert (G : forall o, (forall a t, o = Some (a, t) -> text_typed a /\ text_typed t) -> fold_left (note_step k r c) calls o = Some (a, t) -> text_typed a /\ text_typed t).
  { induction Ty as [|q calls Tq Ty IH]; intros o Ho; [apply Ho|]. cbn [fold_left]. apply IH. intros x y. destruct q; cbn [note_step]; try apply Ho.
    destruct (_ && _)%bool; [|apply Ho]. intro E. apply some_inj, pair_equal_spec in E. destruct E as [-> ->]. cbn [typed] in Tq. tauto. }
  apply G. discriminate.
Qed.
Lemma notes_as_in ns n txt : forall i, In (n, txt) (combine (notes_as ns i) (map snd (boxes_of ns i))) ->
  exists m, In m ns /\ rn_row n = no_row m /\ rn_col n = no_col m /\ rn_author n = no_author m /\ txt = note_full m.
Proof.
  induction ns as [|m ns IH]; intros i J; [destruct J|]. cbn [notes_as boxes_of map combine snd] in J. destruct J as [J|J].
  - apply pair_equal_spec in J. destruct J as [<- <-]. exists m. cbn. auto.
  - destruct (IH _ J) as (x & Jx & Q). exists x. split; [right; exact Jx|exact Q].
Qed.
Lemma notes_as_has ns m : forall i, In m ns -> exists n, In n (notes_as ns i) /\ rn_row n = no_row m /\ rn_col n = no_col m.
Proof.
  induction ns as [|x ns IH]; intros i J; [destruct J|]. cbn [notes_as]. destruct J as [->|J]; [eexists; split; [left; reflexivity|auto]|].
  destruct (IH (i + 1) J) as (n & Jn & Q). exists n. split; [right; exact Jn|exact Q].
Qed.
Lemma notes_as_objs ns : forall i, map fst (boxes_of ns i) = map rn_obj (notes_as ns i) /\ NoDup (map rn_obj (notes_as ns i)) /\ Forall (fun o => i < o) (map rn_obj (notes_as ns i)).
Proof.
  induction ns as [|n ns IH]; intro i; [repeat constructor|]. destruct (IH (i + 1)) as (A & B & C). cbn [boxes_of notes_as map fst rn_obj]. rewrite A. split; [reflexivity|]. split.
  - constructor; [|exact B]. intro J. rewrite Forall_forall in C. specialize (C _ J). lia.
  - constructor; [lia|]. eapply Forall_impl; [|exact C]. cbv beta. intros. lia.
Qed.
Lemma notes_as_len ns : forall i, length (notes_as ns i) = length ns.
Proof. induction ns as [|n ns IH]; intro i; [reflexivity|]. cbn [notes_as length]. rewrite IH. reflexivity. Qed.
Lemma kept_author u : note_author u = kept 54 AUTHOR_WARNING u.
Proof. unfold note_author, kept. pose proof (zlen_nonneg _ u). change AUTHOR_WARNING with author_warning. destruct (_ || _)%bool eqn:E, (_ && _)%bool eqn:F; try reflexivity; lia. Qed.
Lemma kept_text u : note_text u = kept 2048 TEXT_WARNING u.
Proof. unfold note_text, kept. pose proof (zlen_nonneg _ u). change TEXT_WARNING with text_warning. destruct (_ || _)%bool eqn:E, (_ && _)%bool eqn:F; try reflexivity; lia. Qed.

(** The notes of a sheet (at most 65535 of them).  There is one NOTE record for every position
    that has a note, with the author; one text box with the same object identifier, whose text
    is the author, a colon, a line feed and the text; and the drawing records parse, by the
    announced lengths alone, as one drawing with one shape per note. *)
Theorem C32_notes R moves calls stream k body : saved_ok R moves calls stream -> sheet_in stream k body -> zlen (filter (is_note k) calls) <= 65535 ->
  exists ns boxes tree,
    traverse read_note (payloads T_NOTE body) = Some ns /\ text_boxes body = Some boxes /\ drawing (concat (payloads T_MSODRAWING body)) = Some tree
    /\ map fst boxes = map rn_obj ns /\ NoDup (map rn_obj ns) /\ note_drawing ns tree
    /\ (forall n text, In (n, text) (combine ns (map snd boxes)) ->
          exists a t, note_of k calls (rn_row n) (rn_col n) = Some (a, t) /\ note_says a t (rn_author n) text)
    /\ (forall r c, note_of k calls r c <> None -> exists n, In n ns /\ rn_row n = r /\ rn_col n = c).
Proof.
  intros H Hk Hn. destruct (saved_view _ _ _ _ H) as [w V]. destruct (view_sheet _ _ _ _ V k body Hk) as (s & p & Es & Ep & Is & Me & _ & Eb & _).
  pose proof (so_typed _ _ _ _ H) as Ty. pose proof (ft_calls _ _ (so_fits _ _ _ _ H)) as Fi.
  pose proof (notes_count k calls) as Nc. rewrite <- (me_notes _ _ _ Me) in Nc.
  assert (Ni : forall m, In m (sh_notes s) -> exists a t, note_of k calls (no_row m) (no_col m) = Some (a, t) /\ m = note_new (no_row m) (no_col m) (to16 a) (to16 t)
     /\ text_typed a /\ text_typed t /\ 0 <= no_row m <= 65535 /\ 0 <= no_col m <= 255).
  { intros m J. rewrite (me_notes _ _ _ Me) in J. apply notes_iff in J. destruct J as (a & t & E & Em). exists a, t. split; [exact E|]. split; [exact Em|].
    destruct (note_typed _ _ _ _ _ _ Ty E) as [Ta Tt]. pose proof (notes_fit _ _ _ _ _ _ _ Ty Fi E). tauto. }
  assert (Hs : forall r c, note_of k calls r c <> None -> exists m, In m (sh_notes s) /\ no_row m = r /\ no_col m = c).
  { intros r c N. destruct (note_of k calls r c) as [[a t]|] eqn:E; [|congruence]. destruct (note_new_pos r c (to16 a) (to16 t)) as [P1 P2].
    exists (note_new r c (to16 a) (to16 t)). split; [|auto]. rewrite (me_notes _ _ _ Me). apply notes_iff. exists a, t. rewrite P1, P2. auto. }
  pose proof (si_spid _ Is) as Sp. destruct (body_split (wb_labels w) (dac w) p s) as (a & b & Ta & Tb & Sb). rewrite <- Eb, Sp in Sb.
  assert (Hi : 0 <= sh_index s < 65536). { rewrite (wi_idx _ (w2_inv _ (mn_inv _ _ (vw_means _ _ _ _ V))) _ _ Es). apply Z.mod_pos_bound. reflexivity. }
  destruct (view_pay _ _ _ _ V k body T_NOTE Hk) as (s' & p' & Es' & _ & _ & _ & Pay); [discriminate|]. rewrite Es in Es'. apply some_inj in Es'. subst s'.
  rewrite pay_inner_flat in Pay by not_in. picks Pay. cbn [app] in Pay. rewrite ?app_nil_r in Pay.
  assert (Au : forall m, In m (sh_notes s) -> Forall u16 (no_author m) /\ zlen (no_author m) <= 54 /\ Forall u16 (note_full m) /\ zlen (note_full m) < 65536).
  { intros m J. destruct (Ni m J) as (x & t & _ & Em & Tx & Tt & _). destruct (note_new_texts (no_row m) (no_col m) (to16 x) (to16 t)) as (N1 & N2 & _). rewrite <- Em in N1, N2.
    destruct (note_text_u16 (to16 x) (to16_typed _ Tx)) as (A1 & _ & A2 & _). destruct (note_text_u16 (to16 t) (to16_typed _ Tt)) as (_ & A3 & _ & A4).
    unfold note_full. rewrite N1, N2. split; [exact A1|]. split; [exact A2|]. split; [|rewrite !zlen_app; change (zlen [58; 10]) with 2; lia].
    apply Forall_app. split; [exact A1|]. apply Forall_app. split; [repeat constructor; lia|exact A3]. }
  set (ns := sh_notes s) in *.
  exists (notes_as ns 0), (boxes_of ns 0).
  assert (Ob : forall l, has_types calm_types l -> Forall (fun r => fst r <> T_OBJ) l).
  { intros l Tl. eapply Forall_impl; [|exact Tl]. intros [t0 q] J E. cbn [fst] in *. subst t0. revert J. not_in. }
  assert (Dr : exists tree, drawing (concat (payloads T_MSODRAWING body)) = Some tree /\ note_drawing (notes_as ns 0) tree).
  { rewrite Sb, !pay_app, (pay_none calm_types T_MSODRAWING a Ta), (pay_none calm_types T_MSODRAWING b Tb) by not_in. cbn [app]. rewrite app_nil_r.
    destruct ns as [|n ns'] eqn:En. { exists []. split; reflexivity. }
    assert (Nl : zlen (n :: ns') <= 65535) by lia. assert (Np : 0 < zlen (n :: ns')) by (unfold zlen; cbn [length]; lia).
    eexists. split; [apply parses_drawing, notes_drawing; exact Nl|]. cbn [notes_as note_drawing]. change (mkRNote (no_row n) (no_col n) (0 + 1) (no_author n) :: notes_as ns' (0 + 1)) with (notes_as (n :: ns') 0).
    assert (Lz : zlen (notes_as (n :: ns') 0) = zlen (n :: ns')) by (unfold zlen; rewrite notes_as_len; reflexivity). rewrite Lz, notes_as_len.
    set (N := zlen (n :: ns')) in *.
    assert (Ms : 0 <= make_spid (sh_index s) 0 < 70000000) by (unfold make_spid; lia).
    eexists _, _, _, (make_spid (sh_index s) 0). split; [reflexivity|]. split; [reflexivity|]. split; [|split; [|split]].
    - etransitivity; [apply (fld32 [] (N + 1)); reflexivity|]. rewrite Z.mod_small by lia. reflexivity.
    - rewrite <- (app_nil_r (le32 (_ + N))), (fld32 (le32 (N + 1))) by reflexivity. rewrite Z.mod_small by lia. reflexivity.
    - assert (E : forall l, traverse shape_id (head_shape (make_spid (sh_index s) 0) :: l) = olet ids := traverse shape_id l in Some (make_spid (sh_index s) 0 :: ids)).
      { intro l. cbn [traverse]. assert (E : shape_id (head_shape (make_spid (sh_index s) 0)) = fld 4 (le32 (make_spid (sh_index s) 0) ++ le32 5) 0) by reflexivity.
        rewrite E. replace (fld 4 _ 0) with (Some (make_spid (sh_index s) 0)); [reflexivity|]. symmetry.
        etransitivity; [apply (fld32 [] (make_spid (sh_index s) 0)); reflexivity|]. rewrite Z.mod_small by lia. reflexivity. }
      rewrite E, shapes_ids by (fold N; lia). cbn [seq map]. change (Z.to_nat 1) with 1%nat. rewrite Z.add_0_r. reflexivity.
    - apply shapes_cells. apply Forall_forall. intros m J. destruct (Ni m J) as (x & t & _ & Em & _ & _ & P1 & P2). split; [lia|]. split; [lia|]. eauto. }
  destruct Dr as (tree & D1 & D2). exists tree. destruct (notes_as_objs ns 0) as (O1 & O2 & _). split; [|split; [|repeat split; auto]].
  - rewrite Pay.
    + apply notes_read; [lia|lia|]. apply Forall_forall. intros m J. destruct (Ni m J) as (x & t & _ & _ & _ & _ & P1 & P2). destruct (Au m J) as (A1 & A2 & _). unfold u16. repeat split; auto; lia.
    + apply Forall_map, Forall_forall. intros m J. destruct (number_in _ _ _ J) as (m' & j & J' & ->). destruct (Au m' J') as (_ & A2 & _).
      unfold note_bytes. rewrite !zlen_app, !zlen_le16. cbn [renote no_author]. pose proof (ustr_le (no_author m') LEN2). change (zlen [0]) with 1. lia.
  - rewrite Sb. rewrite boxes_skip by (apply Ob; exact Ta). apply boxes_read; [apply Ob; exact Tb|lia|lia|]. apply Forall_forall. intros m J. destruct (Au m J) as (_ & _ & A). exact A.
  - intros n txt J. destruct (notes_as_in _ _ _ _ J) as (m & Jm & E1 & E2 & E3 & E4). destruct (Ni m Jm) as (x & t & E & Em & Tx & Tt & _). exists x, t. rewrite E1, E2. split; [exact E|].
    intros ua ut Ux Ut. destruct (note_new_texts (no_row m) (no_col m) (to16 x) (to16 t)) as (N1 & N2 & _). rewrite <- Em in N1, N2.
    rewrite (to16_units _ _ Tx Ux) in N1. rewrite (to16_units _ _ Tt Ut) in N2. rewrite E3, E4, N1, kept_author. split; [reflexivity|].
    unfold note_full. rewrite N1, N2, kept_author, kept_text. reflexivity.
  - intros r c N. destruct (Hs r c N) as (m & J & <- & <-). apply notes_as_has. exact J.
Qed.
Print Assumptions C32_notes.

(** The drawing group in the workbook globals: present only if some sheet has notes, and its
    containers too parse by their announced lengths, with as many clusters as announced. *)
Lemma group_parses l : zlen l <= 1000 -> exists data,
  parses (group_bytes l) [Box 0 DGG_CONTAINER [Atom 0 0 DGG data; Atom 3 3 61451 draw001; Atom 0 4 61726 draw002]]
  /\ zlen data = 16 + 8 * zlen l /\ fld 4 data 4 = Some (zlen l + 1) /\ fld 4 data 12 = Some (zlen l).
Proof.
  intro L. pose proof (zlen_nonneg _ l). unfold group_bytes. cbv zeta.
  set (F := flat_map _ _). set (T := fold_left Z.add (map snd l) 0).
  assert (LF : zlen F = 8 * zlen l). { unfold F. rewrite (flat_len _ 8) by (intros [? [? ?]]; reflexivity). unfold zlen. rewrite combine_length, seq_length. lia. }
  clearbody F T. set (sp := le32 (make_spid _ _)). assert (Lsp : zlen sp = 4) by apply zlen_le32. clearbody sp. set (N := zlen l) in *. clearbody N.
  set (data := sp ++ le32 (N + 1) ++ le32 (N + T) ++ le32 N ++ F). exists data.
  assert (Ld : zlen data = 16 + 8 * N) by (unfold data; rewrite !zlen_app, !zlen_le32; lia). split; [|split; [exact Ld|split]].
  - replace (pl (draw_hdr 15 0 61440 _) ++ _) with (hdr 15 61440 (74 + 8 * N) ++ (hdr 0 61446 (16 + 8 * N) ++ data ++ hdr 51 61451 18 ++ draw001 ++ hdr 64 61726 16 ++ draw002 ++ []) ++ []).
    2:{ rewrite !app_nil_r. unfold data. rewrite <- !app_assoc. replace (74 + 8 * N) with (36 + 8 * N + 26 + 24 - 8 - 4) by lia. replace (16 + 8 * N) with (36 + 8 * N - 12 - 8) by lia. reflexivity. }
    change DGG_CONTAINER with 61440. change DGG with 61446. apply (parses_box 15); try (unfold u16; lia); try reflexivity; [| |exact parses_nil].
    + rewrite (zlen_app _ (hdr 0 61446 _)), (zlen_app _ data), Ld. change (zlen (hdr 0 61446 (16 + 8 * N))) with 8.
      change (zlen (hdr 51 61451 18 ++ draw001 ++ hdr 64 61726 16 ++ draw002 ++ [])) with 50. lia.
    + apply (parses_atom 0); try (unfold u16; lia); try reflexivity. apply (parses_atom 51); try (unfold u16; lia); try reflexivity.
      apply (parses_atom 64); try (unfold u16; lia); try reflexivity. exact parses_nil.
  - unfold data. rewrite fld32 by (rewrite <- (Z2Nat.id 4) in Lsp by lia; unfold zlen in Lsp; lia). rewrite Z.mod_small by lia. reflexivity.
  - unfold data. rewrite 2 app_assoc, fld32. { rewrite Z.mod_small by lia. reflexivity. } unfold zlen in Lsp. rewrite !app_length. change (length (le32 (N + 1))) with 4%nat. change (length (le32 (N + T))) with 4%nat. lia.
Qed.
Theorem C32_drawing_group R moves calls stream globals p : saved_ok R moves calls stream -> globals_in stream globals -> In p (payloads T_MSODRAWINGGROUP globals) ->
  exists data rest clusters, drawing p = Some [Box 0 DGG_CONTAINER (Atom 0 0 DGG data :: rest)]
   /\ fld 4 data 12 = Some clusters /\ fld 4 data 4 = Some (clusters + 1) /\ zlen data = 16 + 8 * clusters.
Proof.
  intros H Hg J. destruct (saved_view _ _ _ _ H) as [w V].
  assert (N : ~ In T_MSODRAWINGGROUP sst_types_all) by not_in. pose proof (view_global_pay _ _ _ _ V globals T_MSODRAWINGGROUP Hg N) as Pay.
  rewrite pay_globals_cat in Pay by exact N. picks Pay. cbn [app] in Pay.
  change (g_bs (dg w)) with (wb_bs w) in Pay. pose proof (noted_len (wb_bs w) 0) as K. pose proof (li_few _ _ (vw_limits _ _ _ _ V)) as Lf. pose proof (wi_len _ (w2_inv _ (mn_inv _ _ (vw_means _ _ _ _ V)))) as Ln.
  assert (Hl : zlen (noted_sheets (wb_bs w) 0) <= 1000) by (unfold zlen in *; lia).
  assert (Pl : payloads T_MSODRAWINGGROUP globals = match noted_sheets (wb_bs w) 0 with [] => [] | l => [group_bytes l] end).
  { apply Pay. destruct (noted_sheets (wb_bs w) 0) as [|x l] eqn:E; constructor; [|constructor]. unfold group_bytes. cbv zeta. rewrite !zlen_app, !zlen_le32, !zlen_le16.
    rewrite (flat_len _ 8) by (intros [? [? ?]]; reflexivity). change (zlen draw001) with 18. change (zlen draw002) with 16.
    change (zlen (pl (draw_hdr 3 3 61451 18))) with 8. change (zlen (pl (draw_hdr 0 4 61726 16))) with 8.
    match goal with |- context [pl (draw_hdr 15 0 61440 ?v)] => change (zlen (pl (draw_hdr 15 0 61440 v))) with 8 end.
    assert (zlen (combine (seq 0 (length (x :: l))) (x :: l)) <= 1000) by (unfold zlen in *; rewrite combine_length, seq_length; lia). lia. }
  rewrite Pl in J. destruct (noted_sheets (wb_bs w) 0) as [|x l] eqn:E; [destruct J|]. rewrite <- E in *. destruct J as [<-|[]].
  destruct (group_parses _ Hl) as (data & P & L1 & L2 & L3). eexists data, _, (zlen (noted_sheets (wb_bs w) 0)). split; [apply parses_drawing; exact P|]. auto.
Qed.
Print Assumptions C32_drawing_group.

(** Three notes, one of them written twice, the text of one beyond the Latin-1 range. *)
Definition annotated : list call :=
  [KSheet (TChar [65]); KSheet (TChar [66]); KNote 0 3 2 (TChar [97]) (TChar [98]); KNote 0 0 0 (T16 [1041]) (T16 [1042; 98]);
   KNote 0 3 2 (TChar [99]) (TChar [100; 101]); KNote 1 5 5 (TChar []) (TChar [])].
Lemma annotated_typed : Forall typed annotated.
Proof. unfold annotated. small_typed. Qed.
Lemma annotated_fits : fits 40 annotated.
Proof.
  unfold annotated. small_fits. intro k. exists []. split; [cbn; lia|]. intros r H.
  match type of H with height_of k ?l r <> None => destruct (height_of k l r) as [[h p]|] eqn:E end; [|congruence]. apply heights_from in E. cbn [In] in E. each E.
Qed.
Example C32_notes_case : exists stream body, saved_ok 40 (fun _ _ => false) annotated stream /\ sheet_in stream 0 body /\ zlen (filter (is_note 0) annotated) = 3.
Proof.
  destruct (stream_of 400 annotated) as [s|] eqn:E.
  2:{ assert (K : match stream_of 400 annotated with Some _ => true | None => false end = true) by (vm_compute; reflexivity). rewrite E in K. discriminate K. }
  pose proof (small_saved _ _ _ annotated_typed annotated_fits E) as H. destruct (saved_view _ _ _ _ H) as [w V].
  destruct (proj1 (view_has_sheet _ _ _ _ V 0%nat)) as [body Hb]; [cbn; lia|]. exists s, body. split; [exact H|]. split; [exact Hb|reflexivity].
Qed.
