(** Payloads of one record type in a saved document, read off the document. *)
From Coq Require Import ZArith List Bool Lia ZifyBool ZifyNat Sorted.
From Verif Require Import Bytes UnitModel SpecBuf RecModel SheetModel XfModel WbModel XfInv ApiModel SpecBiff BookRecs ApiInv SpecApi ApiEff
  RecFrames RecProofs SheetProofs SheetTrace GlobTrace WbProofs SaveOk SaveRecs SaveRead SpecSaved SaveMeans DocLimits SavedView.
Import ListNotations.
Local Open Scope Z_scope.

Lemma pay_conts t p : t <> RT_CONTINUE -> payloads t (conts p) = [].
Proof.
  intro N. unfold conts. generalize (pieces (S (length p)) p). intro l. unfold payloads. induction l as [|q l IH]; [reflexivity|]. cbn [map filter fst].
  replace (RT_CONTINUE =? t) with false by lia. exact IH.
Qed.
(** Cutting oversized records does not disturb the records of type [t], if these fit. *)
Lemma pay_rx t rss : t <> RT_CONTINUE -> Forall (fun p => zlen p <= 8224) (payloads t (concat rss)) ->
  payloads t (flat_map rx rss) = payloads t (concat rss).
Proof.
  intros N. induction rss as [|rs rss IH]; intro F; [reflexivity|]. cbn [flat_map concat] in *. rewrite !pay_app in *. apply Forall_app in F. destruct F as [F1 F2].
  rewrite (IH F2). f_equal. destruct rs as [|[k p] [|]]; try reflexivity. cbn [rx]. destruct (8224 <? zlen p) eqn:E; [|reflexivity].
  rewrite pay_one in *. change ((k, firstn M p) :: conts (skipn M p)) with ([(k, firstn M p)] ++ conts (skipn M p)).
  rewrite pay_app, pay_one, (pay_conts _ _ N). destruct (k =? t); [|reflexivity]. inversion F1; subst. lia.
Qed.

Section View.
Variables (R : Z) (calls : list call) (stream : list Z) (w : wb).
Hypothesis V : view R calls stream w.

Lemma view_pay k body t : sheet_in stream k body -> t <> RT_CONTINUE ->
  exists s p, nth_error (wb_sheets w) k = Some s /\ nth_error (dstarts w) k = Some p /\ sheet_inv s /\ meaning k calls s
   /\ (Forall (fun p => zlen p <= 8224) (payloads t (concat (inner (wb_labels w) (dac w) p s))) ->
       payloads t body = payloads t (concat (inner (wb_labels w) (dac w) p s))).
Proof.
  intros H N. destruct (view_sheet _ _ _ _ V k body H) as (s & p & Es & Ep & Is & Me & _ & -> & _). exists s, p.
  repeat (split; [assumption|]). apply pay_rx. exact N.
Qed.
Lemma view_global_pay gl t : globals_in stream gl -> ~ In t sst_types_all ->
  Forall (fun p => zlen p <= 8224) (payloads t (concat (ghead_in (dg w)) ++ bs_recs (dstarts w) (names_of (dg w)) ++ concat (gtail_in (dg w)))) ->
  payloads t gl = payloads t (concat (ghead_in (dg w)) ++ bs_recs (dstarts w) (names_of (dg w)) ++ concat (gtail_in (dg w))).
Proof.
  intros H N F. apply (view_globals _ _ _ _ V) in H. subst gl. unfold globals_body. rewrite !pay_app in *. apply Forall_app in F. destruct F as [F1 F2].
  apply Forall_app in F2. destruct F2 as [_ F2].
  assert (C : t <> RT_CONTINUE) by (intros ->; apply N; right; left; reflexivity).
  rewrite !pay_rx by auto. reflexivity.
Qed.
End View.

Lemma traverse_map {A B C} (f : B -> option C) (g : A -> B) (h : A -> C) l : (forall x, In x l -> f (g x) = Some (h x)) -> traverse f (map g l) = Some (map h l).
Proof.
  induction l as [|x l IH]; intro H; [reflexivity|]. cbn [map traverse]. rewrite (H x (or_introl eq_refl)), IH; [reflexivity|]. intros y J. apply H. right. exact J.
Qed.
Ltac not_in := let K := fresh in cbn; intro K; repeat (destruct K as [K|K]; [discriminate K|]); exact K.

(** The payloads other than those of cells, drawings and row blocks. *)
Lemma pay_inner_flat ls ac pos s t : ~ In t (RT_ROW :: RT_DBCELL :: cell_drawing_types) ->
  payloads t (concat (inner ls ac pos s)) =
    pick RT_INDEX t [index_bytes (pos + 20) s]
    ++ pick RT_DEFAULTROWHEIGHT t [le16 (if sh_defrh s =? 15 then 0 else 1) ++ le16 (sh_defrh s * 20)]
    ++ pick RT_COLINFO t (map colinfo_bytes (sh_cols s))
    ++ pick RT_DEFCOLWIDTH t [le16 (sh_defcw s)]
    ++ pick RT_DIMENSIONS t [dim_bytes s]
    ++ pick RT_NOTE t (map note_bytes (number_notes (sh_notes s) 0))
    ++ pick RT_MERGEDCELLS t (map merged_bytes (chunks (sh_merged s)))
    ++ pick RT_WINDOW2 t [window2_bytes (sh_index s =? ac)]
    ++ pick RT_PANE t (if ((sh_rsplit s =? 0) && (sh_csplit s =? 0))%bool then [] else [pane_bytes (sh_rsplit s) (sh_csplit s)])
    ++ pick RT_HLINK t (map hlink_bytes (sh_links s))
    ++ pick RT_DVAL t (match sh_dvs s with [] => [] | dvs => [dval_bytes (zlen dvs)] end)
    ++ pick RT_DV t (map dv_bytes (sh_dvs s)).
Proof.
  intro N. rewrite pay_inner by (intro K; apply N; right; right; exact K).
  replace (flat_map _ (blocks_list s)) with (@nil (list Z)); [reflexivity|].
  induction (blocks_list s) as [|b l IH]; [reflexivity|]. cbn [flat_map]. rewrite <- IH.
  assert (RT_ROW <> t) by (intros <-; apply N; left; reflexivity). assert (RT_DBCELL <> t) by (intros <-; apply N; right; left; reflexivity).
  unfold pick. replace (RT_ROW =? t) with false by lia. replace (RT_DBCELL =? t) with false by lia. reflexivity.
Qed.
Ltac picks H := repeat match type of H with context [pick ?k ?t ?l] =>
  first [change (pick k t l) with l in H | change (pick k t l) with (@nil (list Z)) in H] end.
