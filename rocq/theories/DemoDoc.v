(** A document used to show that the hypotheses of the statements about saved documents can
    be met: two sheets, every kind of cell, formatting, merged ranges, widths, heights, a
    note, a hyperlink, a data validation and a palette change. *)
From Coq Require Import ZArith List Bool Lia.
From Verif Require Import Bytes UnitModel RecModel SheetModel XfModel WbModel ApiModel SpecApi SpecBiff SpecSaved SaveOk SaveMeans SavedView.
Import ListNotations.
Local Open Scope Z_scope.

Definition demo : list call :=
  [KSheet (TChar [65]); KSheet (T16 [1041; 66]);
   KSetColor 1 2 3 20; KXformat None None;
   KCell 0 0 0 (ULabel (TChar [104; 105])) None;
   KCell 0 0 1 (UInt (-5)) (Some 21); KCell 0 0 2 (UInt 2000000000) None;
   KCell 0 2 1 (UDouble 4607182418800017408) None; KCell 0 2 3 (UBool true) None;
   KCell 0 2 4 (UErr 7) None; KCell 0 3 0 UBlank None;
   KCell 0 5 0 (ULabel (T16 (repeat 1041 300))) None;
   KCell 0 5 1 (ULabel (TChar (repeat 97 256))) None;
   KCell 0 0 0 (ULabel (TChar [119; 105; 110])) None;
   KCell 0 6 0 (UFormula false [30; 1; 0; 30; 2; 0; 3] 7 (mkEst 0 2 None)) None;
   KCellOp 0 0 0 (CFont (NBold 1)); KRange 0 2 0 3 1 (CFormat (FXf (XLocked true)));
   KMerge 0 10 0 11 3; KMerge 0 12 0 13 3; KColwidth 0 2 4000 None; KColwidth 0 2 5000 (Some 21);
   KRowheight 0 2 300 None; KRowheight 0 4 400 None;
   KHyperlink 0 0 0 (TChar [104; 58]) (TChar [109]);
   KCell 1 7 7 (UUnsigned 12) None; KActive 1].

Definition is_ok {A} (r : res A) : bool := match r with Ok _ => true | _ => false end.
Lemma is_ok_ex {A} (r : res A) : is_ok r = true -> exists a, r = Ok a.
Proof. destruct r; cbn; try discriminate. eauto. Qed.
Lemma demo_runs : exists w, document demo = Ok w.
Proof. apply is_ok_ex. vm_compute. reflexivity. Qed.

Lemma demo_typed : Forall typed demo.
Proof.
  unfold demo. repeat (apply Forall_cons; [cbn [typed text_typed val_typed]; unfold u8, u16, u32; repeat split; try lia; cbn; try (repeat constructor; lia)|]);
  try apply Forall_nil.
Qed.
Lemma demo_heights : forall k, exists rows, (length rows < 16)%nat /\
  forall r, height_of k demo r <> None -> In r rows \/ exists c u, cells_of k demo r c = Some u.
Proof.
  intro k. exists [2; 4]. split; [cbn; lia|]. intros r H. left. cbn [In]. unfold height_of, demo in H. cbn [fold_left height_step] in H.
  destruct (Nat.eqb k 0); cbn [andb] in H; [|congruence]. destruct (2 =? r) eqn:E2; [left; lia|]. destruct (4 =? r) eqn:E4; [right; left; lia|congruence].
Qed.
Lemma demo_fits : fits 40 demo.
Proof.
  constructor.
  - unfold demo. repeat (apply Forall_cons; [cbn [call_fits text_len val_fits op_fits font_fits len_opt fe_str zlen length]; try exact I; repeat split; try lia;
      try (cbn; lia); try (intros [?|?]; cbn in *; congruence)|]); try apply Forall_nil. all: vm_compute; discriminate.
  - vm_compute. split; discriminate.
  - vm_compute. discriminate.
  - exact demo_heights.
Qed.
(** The demonstration document is saved, whatever the record store does. *)
Theorem demo_saved moves : exists stream, saved_ok 40 moves demo stream.
Proof.
  destruct demo_runs as [w D]. exists (concat (store_of w)). apply view_saved; auto; [lia|apply demo_typed|apply demo_fits|left; lia].
Qed.
