(** C42: legal calls succeed. *)
From Coq Require Import ZArith List Bool Lia ZifyBool ZifyNat.
From Verif Require Import Bytes UnitModel SpecBuf RecModel SheetModel XfModel WbModel XfInv ApiModel ApiInv SpecBiff SpecApi SpecXf SpecXfOps SpecLook SpecSaved SpecLegal
  ApiEff SaveOk SaveMeans SavedView Legal PropsRows DemoDoc.
Import ListNotations.
Local Open Scope Z_scope.

Lemma legal_cut calls q : legal_history (calls ++ [q]) -> legal_history calls /\ legal calls q.
Proof.
  intro L. split; [|apply (L calls q []); reflexivity]. intros e p l ->. apply (L e p (l ++ [q])). rewrite <- app_assoc. reflexivity.
Qed.

(** No legal history makes the library throw, read what is not there or run for ever: every
    call does its work. *)
Theorem C42_legal_calls_succeed calls : Forall typed calls -> legal_history calls -> exists w, document calls = Ok w.
Proof.
  induction calls as [|q calls IH] using rev_ind; intros T L.
  - apply is_ok_ex. vm_compute. reflexivity.
  - apply Forall_app in T. destruct T as [T Tq]. apply Forall_inv in Tq. destruct (legal_cut _ _ L) as [L0 Lq].
    destruct (IH T L0) as [w D]. destruct (call_ok calls w T D q Tq Lq) as [w' C]. exists w'. exact (document_cons _ _ _ _ D C).
Qed.
Print Assumptions C42_legal_calls_succeed.

(** A legal history within the limits of the file format can be saved, wherever the record
    store moves to; so the statements about saved documents apply to it. *)
Theorem C42_legal_documents_are_saved R moves calls : 0 <= R <= 65535 -> Forall typed calls -> legal_history calls -> fits R calls ->
  (R <= 32819 \/ forall e n, moves e n = false) -> exists stream, saved_ok R moves calls stream.
Proof.
  intros HR T L F C. destruct (C42_legal_calls_succeed calls T L) as [w D]. exists (concat (store_of w)). apply view_saved; assumption.
Qed.
Print Assumptions C42_legal_documents_are_saved.

(* ------------------------------------------------------------------ *)
(** * A legal history *)

Fixpoint legal_from (pre l : list call) : Prop :=
  match l with [] => True | q :: t => legal pre q /\ legal_from (pre ++ [q]) t end.
Lemma legal_from_history l : forall pre, legal_from pre l -> forall e q t, l = e ++ q :: t -> legal (pre ++ e) q.
Proof.
  induction l as [|p l IH]; intros pre L e q t E; [destruct e; discriminate E|]; destruct L as [L Lt]; destruct e as [|p' e]; injection E as <- E.
  - rewrite app_nil_r. exact L.
  - replace (pre ++ p :: e) with ((pre ++ [p]) ++ e) by (rewrite <- app_assoc; reflexivity). eapply IH; [exact Lt|exact E].
Qed.
Definition returned (calls : list call) (q : call) (h : Z) : bool :=
  match document calls with
  | Ok w => match q with
            | KFont n => snd (wb_font (wb_fs w) n) =? h
            | KFontNum n => match wb_fontnum (wb_fs w) n with Ok (_, i) => i =? h | _ => false end
            | KFormat t => snd (add_format (wb_fs w) (to16 t)) =? h
            | KXformat f m => match wb_xformat (wb_fs w) f m with Ok (_, i) => i =? h | _ => false end
            | _ => false end
  | _ => false end.
Lemma returned_ok calls q h : returned calls q h = true -> returns calls q h.
Proof.
  unfold returned, returns. destruct (document calls) as [w| |]; [|discriminate|discriminate]. intro H. exists w. split; [reflexivity|].
  destruct q; cbv beta iota in H |- *; lazymatch type of H with false = true => discriminate H | _ => idtac end.
  - apply Z.eqb_eq, H.
  - destruct (wb_fontnum (wb_fs w) n) as [[fs i]| |]; [|discriminate H|discriminate H]. exists fs. apply Z.eqb_eq in H. rewrite H. reflexivity.
  - apply Z.eqb_eq, H.
  - destruct (wb_xformat (wb_fs w) fnt fmt) as [[fs i]| |]; [|discriminate H|discriminate H]. exists fs. apply Z.eqb_eq in H. rewrite H. reflexivity.
Qed.
Definition legal_demo : list call :=
  [KSheet (TChar [65]); KFont [65; 114]; KFontSet 6 (NBold 1); KFormat (TChar [48; 46; 48]); KXformat (Some (Some 6)) (Some (Some 164)); KXfSet 21 (FXf (XHAlign 2));
   KCell 0 3 1 (ULabel (TChar [104; 105])) (Some 21); KCellOp 0 3 1 (CFont (NUnder 2)); KRange 0 2 0 3 1 (CFormat (FXf (XFill 1)));
   KCellOp 0 2 0 (CSetXF (Some 21)); KMerge 0 5 0 5 3; KNote 0 3 1 (TChar [97]) (TChar [98]); KHyperlink 0 3 1 (TChar [104]) (TChar [109]); KActive 0].
Lemma legal_demo_typed : Forall typed legal_demo.
Proof. unfold legal_demo. small_typed. Qed.
Ltac made_at n := match goal with |- made ?l _ _ => exists (firstn n l), (nth n l (KActive 0)), (skipn (S n) l); split; [reflexivity|split; [reflexivity|apply returned_ok; vm_compute; reflexivity]] end.
Ltac known_at n := let h := fresh in let K := fresh in intros h K; injection K as <-; made_at n.
Example legal_demo_legal : legal_history legal_demo.
Proof.
  intros e q t E. refine (legal_from_history legal_demo [] _ e q t E). clear. unfold legal_demo. cbn [legal_from app].
  split; [exact I|]. split; [exact I|]. split; [split; [made_at 1%nat|cbn [font_enums]; unfold enum; lia]|]. split; [exact I|].
  split; [split; intros x K; injection K as <-; [known_at 1%nat|known_at 3%nat]|].
  split; [split; [made_at 4%nat|cbn [set_legal xf_enums]; unfold enum; lia]|].
  split; [split; [unfold sheet_there; cbn; lia|known_at 4%nat]|].
  split; [split; [cbn; discriminate|cbn [op_legal font_enums]; unfold enum; lia]|].
  split; [split; [unfold sheet_there; cbn; lia|]; split; [lia|]; split; [lia|]; cbn [op_legal set_legal xf_enums]; unfold enum; lia|].
  split; [split; [cbn; discriminate|known_at 4%nat]|].
  split; [unfold legal, sheet_there; cbn; lia|]. split; [unfold legal, sheet_there; cbn; lia|]. split; [cbn; discriminate|]. split; [unfold legal, sheet_there; cbn; lia|]. exact I.
Qed.
Example legal_demo_runs : exists w, document legal_demo = Ok w.
Proof. exact (C42_legal_calls_succeed _ legal_demo_typed legal_demo_legal). Qed.
