(** Font setters and the looks of cells. *)
From Coq Require Import ZArith List Bool Lia ZifyBool ZifyNat Sorted.
From Verif Require Import Bytes UnitModel SpecBuf BufProofs RecModel SheetModel XfModel WbModel RecProofs RecFrames SpecXf XfProofs SpecXfOps PropsXf XfInv Looks ApiModel SpecBiff BookRecs ApiInv
  SpecApi ApiEff SheetProofs SheetTrace GlobTrace WbProofs SaveOk SaveRecs SaveRead SpecSaved SaveMeans DocLimits SavedView XfTrace SpecLook LookInv ViewPay RefTrace LookStep FontUse Careful ViewLook.
Import ListNotations.
Local Open Scope Z_scope.
Local Notation fld := SpecBiff.fld.

Lemma fld8 a v r off : length a = off -> fld 1 (a ++ byte_k 0 v :: r) off = Some (v mod 256).
Proof. intro E. change (byte_k 0 v :: r) with ([byte_k 0 v] ++ r). rewrite fldv by (auto; reflexivity). cbn [le_value]. rewrite byte_k0. f_equal. lia. Qed.
Lemma read_font_bytes v : read_font (font_bytes v) =
  olet n := whole_string 1 (ustr_bytes (fo_name v) LEN1) in
  Some (mkRFont (fo_height v mod 65536) (fo_attr v mod 65536) (fo_color v mod 65536) (fo_bold v mod 65536) (fo_script v mod 65536)
     (fo_under v mod 256) (fo_family v mod 256) (fo_charset v mod 256) n).
Proof.
  destruct v as [n h a c b s u f k]. unfold font_bytes, pl. cbn [appended op_bytes fo_name fo_height fo_attr fo_color fo_bold fo_script fo_under fo_family fo_charset].
  generalize (ustr_bytes n LEN1). intro t. rewrite app_nil_r.
  change ([byte_k 0 0] ++ t) with (byte_k 0 0 :: t). change ([byte_k 0 k] ++ byte_k 0 0 :: t) with (byte_k 0 k :: byte_k 0 0 :: t).
  unfold read_font.
  assert (E1 : fld 2 (le16 h ++ le16 a ++ le16 c ++ le16 b ++ le16 s ++ [byte_k 0 u] ++ [byte_k 0 f] ++ byte_k 0 k :: byte_k 0 0 :: t) 0 = Some (h mod 65536)) by (apply (fld16 []); reflexivity).
  assert (E2 : fld 2 (le16 h ++ le16 a ++ le16 c ++ le16 b ++ le16 s ++ [byte_k 0 u] ++ [byte_k 0 f] ++ byte_k 0 k :: byte_k 0 0 :: t) 2 = Some (a mod 65536)) by (apply (fld16 (le16 h)); reflexivity).
  assert (E3 : fld 2 (le16 h ++ le16 a ++ le16 c ++ le16 b ++ le16 s ++ [byte_k 0 u] ++ [byte_k 0 f] ++ byte_k 0 k :: byte_k 0 0 :: t) 4 = Some (c mod 65536)) by (apply (fld16 (le16 h ++ le16 a)); reflexivity).
  assert (E4 : fld 2 (le16 h ++ le16 a ++ le16 c ++ le16 b ++ le16 s ++ [byte_k 0 u] ++ [byte_k 0 f] ++ byte_k 0 k :: byte_k 0 0 :: t) 6 = Some (b mod 65536)) by (apply (fld16 (le16 h ++ le16 a ++ le16 c)); reflexivity).
  assert (E5 : fld 2 (le16 h ++ le16 a ++ le16 c ++ le16 b ++ le16 s ++ [byte_k 0 u] ++ [byte_k 0 f] ++ byte_k 0 k :: byte_k 0 0 :: t) 8 = Some (s mod 65536)) by (apply (fld16 (le16 h ++ le16 a ++ le16 c ++ le16 b)); reflexivity).
  assert (E6 : fld 1 (le16 h ++ le16 a ++ le16 c ++ le16 b ++ le16 s ++ [byte_k 0 u] ++ [byte_k 0 f] ++ byte_k 0 k :: byte_k 0 0 :: t) 10 = Some (u mod 256)) by (apply (fld8 (le16 h ++ le16 a ++ le16 c ++ le16 b ++ le16 s)); reflexivity).
  assert (E7 : fld 1 (le16 h ++ le16 a ++ le16 c ++ le16 b ++ le16 s ++ [byte_k 0 u] ++ [byte_k 0 f] ++ byte_k 0 k :: byte_k 0 0 :: t) 11 = Some (f mod 256)) by (apply (fld8 (le16 h ++ le16 a ++ le16 c ++ le16 b ++ le16 s ++ [byte_k 0 u])); reflexivity).
  assert (E8 : fld 1 (le16 h ++ le16 a ++ le16 c ++ le16 b ++ le16 s ++ [byte_k 0 u] ++ [byte_k 0 f] ++ byte_k 0 k :: byte_k 0 0 :: t) 12 = Some (k mod 256)) by (apply (fld8 (le16 h ++ le16 a ++ le16 c ++ le16 b ++ le16 s ++ [byte_k 0 u] ++ [byte_k 0 f])); reflexivity).
  rewrite E1, E2, E3, E4, E5, E6, E7, E8. reflexivity.
Qed.
Lemma whole_read s : zlen s < 256 -> Forall (fun c => 0 <= c < 65536) s -> whole_string 1 (ustr_bytes s LEN1) = Some s.
Proof.
  intros L F. unfold whole_string. rewrite ustr_spec by exact F. pose proof (read_spec_string s LEN1 1 [] F) as H. rewrite app_nil_r in H. rewrite H; [reflexivity|]. left. repeat split. lia.
Qed.
Lemma flag_mod m b a : flag m b a mod 65536 = put_bit (m mod 65536) b (a mod 65536).
Proof.
  unfold flag, put_bit. change 65536 with (2 ^ 16). rewrite <- !Z.land_ones by lia. destruct b.
  - rewrite Z.land_lor_distr_l. reflexivity.
  - apply Z.bits_inj'. intros n Hn. rewrite !Z.land_spec, !Z.ldiff_spec, !Z.land_spec. destruct (Z.testbit a n), (Z.testbit (Z.ones 16) n), (Z.testbit m n); reflexivity.
Qed.
Lemma table_in t i v : table_ub t i = Ok v -> 0 <= i < zlen t /\ v = nth (Z.to_nat i) t 0.
Proof. unfold table_ub. destruct ((0 <=? i) && (i <? zlen t))%bool eqn:E; [|discriminate]. intro H. apply ok_inj in H. subst v. split; [lia|reflexivity]. Qed.
Lemma small_nth t i m : forallb (fun v => (0 <=? v) && (v <? m))%bool t = true -> 0 < m -> nth i t 0 mod m = nth i t 0.
Proof.
  intros F M. apply Z.mod_small. destruct (Nat.ltb i (length t)) eqn:E.
  - rewrite forallb_forall in F. assert (J : In (nth i t 0) t) by (apply nth_In; lia). apply F in J. lia.
  - rewrite nth_overflow by lia. lia.
Qed.
(** A font setter, seen through the FONT record. *)
Lemma font_apply_spec o v v' f : font_arg o -> font_apply o v = Ok v' -> read_font (font_bytes v) = Some f -> read_font (font_bytes v') = Some (spec_font o f).
Proof.
  intros A H R. rewrite read_font_bytes in R. rewrite read_font_bytes. destruct v as [n h a c b s u fa k]. unfold font_apply in H.
  cbn [fo_name fo_height fo_attr fo_color fo_bold fo_script fo_under fo_family fo_charset] in *.
  destruct (whole_string 1 (ustr_bytes n LEN1)) as [nm|] eqn:En; [|discriminate R]. apply (some_inj) in R. subst f.
  destruct o; cbn [spec_font font_arg] in *; try (apply bind_ok in H; destruct H as (t & Ht & H); apply table_in in Ht; destruct Ht as [Hb ->]); apply ok_inj in H; subst v';
    cbn [fo_name fo_height fo_attr fo_color fo_bold fo_script fo_under fo_family fo_charset]; rewrite ?En.
  - destruct A as [A1 A2]. rewrite (whole_read _ A1 A2). reflexivity.
  - rewrite (Z.mod_small h0) by exact A. reflexivity.
  - rewrite (small_nth BOLD_TABLE) by reflexivity. reflexivity.
  - rewrite (small_nth UNDERLINE_TABLE) by reflexivity. reflexivity.
  - rewrite (small_nth SCRIPT_TABLE) by reflexivity. do 2 f_equal. change (zlen SCRIPT_TABLE) with 3 in Hb. assert (V : v = 0 \/ v = 1 \/ v = 2) by lia. destruct V as [->|[->| ->]]; reflexivity.
  - rewrite (small_nth COLOR_TABLE) by reflexivity. rewrite palette_agrees by auto. reflexivity.
  - rewrite (Z.mod_small i) by exact A. reflexivity.
  - rewrite (Z.mod_small a0) by exact A. reflexivity.
  - change (put_bit 2 b0 a) with (flag 2 b0 a). rewrite flag_mod. reflexivity.
  - change (put_bit 8 b0 a) with (flag 8 b0 a). rewrite flag_mod. reflexivity.
  - change (put_bit 16 b0 a) with (flag 16 b0 a). rewrite flag_mod. reflexivity.
  - change (put_bit 32 b0 a) with (flag 32 b0 a). rewrite flag_mod. reflexivity.
Qed.

(** What a font setter does to the look of the format object of its cell. *)
Lemma font_step fs p o fs' q x l R new : uses fs R new None -> In p R -> xf_at fs p = Some x -> okref p -> few fs' -> tidies fs -> font_arg o ->
  cell_font fs p o = Ok (fs', q) -> xlook fs p = Some l ->
  keeps fs fs' /\ exists j, xlook fs' q = Some (mkLook (with_font_index j (lk_attrs l)) (spec_font o (lk_font l)) (lk_number l)).
Proof.
  intros U J Ex O F T A H L.
  destruct (cell_font_keeps fs p o fs' q x Ex (fun i d E1 E2 => uses_live fs p R new x i d U J Ex E1 E2) H) as (K & fs1 & t0 & nf & d & v & y & Ed & Enf & Ev & Ea & Ey & Cy & En).
  split; [exact K|]. exists nf. pose proof (T _ _ O Ex) as Tx. destruct (dup_tidy _ _ _ _ Tx Ed) as [T0 A0].
  assert (B : 0 <= nf < 65536).
  { unfold fval in En. destruct (font_at fs' nf) as [dd|] eqn:E; [|discriminate En]. apply font_at_bound in E. destruct F as (F1 & F2 & F3). lia. }
  destruct (set_font_tidy t0 nf T0 B) as [T1 A1].
  unfold xlook. rewrite (xf_rec_tidy _ _ _ Ey) by (apply (tidy_core (with_font (Some nf) (set_flag ATRFONT t0))); [symmetry; exact Cy|exact T1]).
  rewrite (attrs_core _ _ Cy), A1, A0. unfold xlook in L. rewrite (xf_rec_tidy _ _ _ Ex Tx) in L. pose proof (look_at_attrs _ _ _ L) as La.
  rewrite La. unfold look_at in *. unfold with_font_index.
  assert (Fi : forall a, xa_font (spec_set (FFont (Some nf)) a) = nf /\ xa_numfmt (spec_set (FFont (Some nf)) a) = xa_numfmt a) by (intros []; split; reflexivity).
  destruct (Fi (attrs_of x)) as [-> ->].
  assert (Fx : xa_font (attrs_of x) = match x_font x with Some i => i | None => 0 end) by reflexivity.
  rewrite Fx in L. unfold font_rec in *. rewrite Ev in L. rewrite En.
  unfold number_rec in *. rewrite (formats_strs _ _ (kp_fmt _ _ K)).
  destruct (read_font (font_bytes d)) as [f0|] eqn:Ef; [|discriminate L]. rewrite (font_apply_spec _ _ _ _ A Ea Ef).
  destruct (traverse read_format (map format_bytes (indexed_formats (fs_formats fs) 164))) as [nn|]; [|discriminate L].
  apply some_inj in L. subst l. reflexivity.
Qed.
