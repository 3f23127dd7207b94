(** C51: texts in the build with iconv. *)
From Coq Require Import ZArith List Bool Lia ZifyBool ZifyNat Sorted.
From Verif Require Import Bytes UnitModel RecModel SpecBuf OleModel SheetModel XfModel ApiModel IconvModel ApiInv SpecBiff SpecApi SpecSaved SaveRecs
  SpecSheet PropsCells SpecFile PropsFile Lookups PropsSheet PropsRows SpecIconv.
Import ListNotations.
Local Open Scope Z_scope.
Ltac Zify.zify_post_hook ::= Z.div_mod_to_equations.

(* ------------------------------------------------------------------ *)
(** * UTF-8 *)

Lemma dec_enc c rest : scalar c -> dec_utf8 (utf8_char c ++ rest) = Some (c, rest).
Proof.
  intro H. unfold utf8_char, scalar in *. destruct (c <? 128) eqn:E1; [|destruct (c <? 2048) eqn:E2; [|destruct (c <? 65536) eqn:E3]]; cbn [app dec_utf8].
  - rewrite E1. reflexivity.
  - replace (192 + c / 64 <? 128) with false by lia. replace (192 + c / 64 <? 194) with false by lia. replace (192 + c / 64 <? 224) with true by lia.
    unfold cont. replace ((128 <=? 128 + c mod 64) && (128 + c mod 64 <? 192))%bool with true by lia. do 2 f_equal. lia.
  - replace (224 + c / 4096 <? 128) with false by lia. replace (224 + c / 4096 <? 194) with false by lia. replace (224 + c / 4096 <? 224) with false by lia. replace (224 + c / 4096 <? 240) with true by lia.
    cbv zeta. replace ((224 + c / 4096 - 224) * 4096 + (128 + c / 64 mod 64 - 128) * 64 + (128 + c mod 64 - 128)) with c by lia.
    unfold cont, surrogate. match goal with |- (if ?b then _ else _) = _ => replace b with true by lia end. reflexivity.
  - replace (240 + c / 262144 <? 128) with false by lia. replace (240 + c / 262144 <? 194) with false by lia. replace (240 + c / 262144 <? 224) with false by lia.
    replace (240 + c / 262144 <? 240) with false by lia. replace (240 + c / 262144 <? 245) with true by lia.
    cbv zeta. replace ((240 + c / 262144 - 240) * 262144 + (128 + c / 4096 mod 64 - 128) * 4096 + (128 + c / 64 mod 64 - 128) * 64 + (128 + c mod 64 - 128)) with c by lia.
    unfold cont. match goal with |- (if ?b then _ else _) = _ => replace b with true by lia end. reflexivity.
Qed.
Lemma enc_dec b c rest : Forall (fun x => 0 <= x < 256) b -> dec_utf8 b = Some (c, rest) -> scalar c /\ b = utf8_char c ++ rest.
Proof.
  intros F H. destruct b as [|a t]; [discriminate H|]. apply Forall_cons_iff in F. destruct F as [Ha F]. cbn [dec_utf8] in H. unfold scalar, utf8_char.
  destruct (a <? 128) eqn:E1. { apply some_inj, pair_equal_spec in H. destruct H as [<- <-]. rewrite E1. split; [lia|reflexivity]. }
  destruct (a <? 194) eqn:E2; [discriminate H|]. destruct (a <? 224) eqn:E3.
  { destruct t as [|b1 t1]; [discriminate H|]. destruct (cont b1) eqn:C; [|discriminate H]. unfold cont in C. apply some_inj, pair_equal_spec in H. destruct H as [Hc <-].
    split; [lia|]. replace (c <? 128) with false by lia. replace (c <? 2048) with true by lia. cbn [app]. repeat f_equal; lia. }
  destruct (a <? 240) eqn:E4.
  { destruct t as [|b1 [|b2 t2]]; try discriminate H. cbv zeta in H. match type of H with (if ?x then _ else _) = _ => destruct x eqn:C; [|discriminate H] end.
    unfold cont, surrogate in C. apply some_inj, pair_equal_spec in H. destruct H as [Hc <-]. rewrite Hc in C.
    split; [lia|]. replace (c <? 128) with false by lia. replace (c <? 2048) with false by lia. replace (c <? 65536) with true by lia. cbn [app]. repeat f_equal; lia. }
  destruct (a <? 245) eqn:E5; [|discriminate H].
  destruct t as [|b1 [|b2 [|b3 t3]]]; try discriminate H. cbv zeta in H. match type of H with (if ?x then _ else _) = _ => destruct x eqn:C; [|discriminate H] end.
  unfold cont in C. apply some_inj, pair_equal_spec in H. destruct H as [Hc <-]. rewrite Hc in C.
  split; [lia|]. replace (c <? 128) with false by lia. replace (c <? 2048) with false by lia. replace (c <? 65536) with false by lia. cbn [app]. repeat f_equal; lia.
Qed.
Lemma enc_length c : (0 < length (utf8_char c))%nat.
Proof. unfold utf8_char. destruct (c <? 128); [cbn; lia|]. destruct (c <? 2048); [cbn; lia|]. destruct (c <? 65536); cbn; lia. Qed.
Lemma utf8_length s : (length s <= length (utf8 s))%nat.
Proof. induction s as [|c s IH]; [reflexivity|]. unfold utf8 in *. cbn [flat_map length]. rewrite app_length. pose proof (enc_length c). lia. Qed.

(** An encoding: what the decoder accepts is what the encoder writes, at least one byte. *)
Record codec (dec : decoder) (enc : Z -> list Z) (okb : Z -> Prop) : Prop := mkCodec {
  cd_enc : forall c rest, scalar c -> dec (enc c ++ rest) = Some (c, rest);
  cd_dec : forall b c rest, Forall okb b -> dec b = Some (c, rest) -> scalar c /\ b = enc c ++ rest;
  cd_len : forall c, (0 < length (enc c))%nat }.
Section Loop.
  Variables (dec : decoder) (enc : Z -> list Z) (okb : Z -> Prop).
  Hypothesis K : codec dec enc okb.
  Lemma loop_enc s : forall fuel room, Forall bmp s -> (length (flat_map enc s) <= fuel)%nat -> (length s <= room)%nat -> iconv_loop fuel dec (flat_map enc s) room = Some s.
  Proof.
    induction s as [|c s IH]; intros fuel room F L R; [destruct fuel; reflexivity|]. apply Forall_cons_iff in F. destruct F as [[Sc Lc] F]. cbn [flat_map length] in *. rewrite app_length in L.
    pose proof (cd_len _ _ _ K c) as Le. destruct fuel as [|fuel]; [lia|]. destruct room as [|room]; [lia|]. cbn [iconv_loop].
    destruct (enc c ++ flat_map enc s) as [|x l] eqn:E. { apply (f_equal (@length _)) in E. rewrite app_length in E. cbn [length] in E. lia. }
    rewrite <- E, (cd_enc _ _ _ K c _ Sc). unfold scalar in Sc. unfold surrogate. replace ((c <? 65536) && negb _)%bool with true by lia. rewrite IH; auto; lia.
  Qed.
  Lemma loop_dec fuel : forall b room s, Forall okb b -> iconv_loop fuel dec b room = Some s -> Forall bmp s /\ b = flat_map enc s /\ (length s <= room)%nat.
  Proof.
    induction fuel as [|fuel IH]; intros b room s F H.
    - destruct b as [|x b]; cbn [iconv_loop] in H; [|discriminate H]. apply some_inj in H. subst s. split; [constructor|]. split; [reflexivity|cbn; lia].
    - destruct b as [|x b]; cbn [iconv_loop] in H. { apply some_inj in H. subst s. split; [constructor|]. split; [reflexivity|cbn; lia]. }
      destruct (dec (x :: b)) as [[c rest]|] eqn:D; [|discriminate H]. destruct room as [|room]; [discriminate H|]. destruct ((c <? 65536) && negb (surrogate c))%bool eqn:C; [|discriminate H].
      destruct (iconv_loop fuel dec rest room) as [l|] eqn:E; [|discriminate H]. apply some_inj in H. subst s. destruct (cd_dec _ _ _ K _ _ _ F D) as [Sc Eb]. rewrite Eb in F. apply Forall_app in F. destruct F as [_ F].
      destruct (IH _ _ _ F E) as (A & B & L). split; [constructor; [split; [exact Sc|lia]|exact A]|]. split; [cbn [flat_map]; rewrite <- B; exact Eb|cbn [length]; lia].
  Qed.
End Loop.
Lemma utf8_codec : codec dec_utf8 utf8_char (fun x => 0 <= x < 256).
Proof. constructor; [exact dec_enc|exact enc_dec|exact enc_length]. Qed.
Lemma wide_codec : codec dec_wchar le32 (fun x => 0 <= x < 256).
Proof.
  constructor.
  - intros c rest H. unfold scalar in H. unfold le32. cbn [app dec_wchar]. cbv zeta. rewrite !byte_k0, !byte_k1, !byte_k2, !byte_k3. unfold surrogate.
    replace (c mod 256 + 256 * (c / 256 mod 256) + 65536 * (c / 65536 mod 256) + 16777216 * (c / 16777216 mod 256)) with c by lia.
    match goal with |- (if ?b then _ else _) = _ => replace b with true by lia end. reflexivity.
  - intros b c rest F H. destruct b as [|b0 [|b1 [|b2 [|b3 t]]]]; try discriminate H. cbn [dec_wchar] in H. cbv zeta in H.
    repeat match goal with F : Forall _ (_ :: _) |- _ => apply Forall_cons_iff in F; destruct F as [? F] end.
    destruct (_ && _)%bool eqn:C in H; [|discriminate H]. unfold surrogate in C. apply some_inj, pair_equal_spec in H. destruct H as [Hc <-]. rewrite Hc in C. unfold scalar. split; [lia|].
    unfold le32. rewrite byte_k0, byte_k1, byte_k2, byte_k3. cbn [app]. repeat f_equal; lia.
  - intro c. cbn. lia.
Qed.

(* ------------------------------------------------------------------ *)
(** * The conversions *)

(** Every text of the basic multilingual plane given in UTF-8 is converted to its UTF-16
    units, whatever its length: the output buffer is never too small. *)
Theorem C51_utf8 s : Forall bmp s -> char_conv true true (utf8 s) = Ok s.
Proof.
  intro F. unfold char_conv. destruct (existsb (fun c => 128 <=? c) (utf8 s)) eqn:E; cbn [negb].
  - unfold iconv_ucs2, utf8. rewrite (loop_enc _ _ _ utf8_codec); [reflexivity|exact F|reflexivity|apply utf8_length].
  - f_equal. clear F. induction s as [|c s IH]; [reflexivity|]. unfold utf8 in *. cbn [flat_map] in *. rewrite existsb_app in E. apply orb_false_iff in E. destruct E as [E1 E2]. rewrite (IH E2). unfold utf8_char in *.
    destruct (c <? 128) eqn:C; [reflexivity|]. exfalso. destruct (c <? 2048) eqn:C2; [|destruct (c <? 65536) eqn:C3]; cbn [existsb] in E1; lia.
Qed.
Print Assumptions C51_utf8.
(** For every string of bytes the result is the text it encodes, or the words "iconv
    failed!" if it encodes none of the basic multilingual plane; nothing else. *)
Theorem C51_char_result b : Forall (fun x => 0 <= x < 256) b ->
  (exists s, Forall bmp s /\ b = utf8 s /\ char_conv true true b = Ok s) \/ ((forall s, Forall bmp s -> b <> utf8 s) /\ char_conv true true b = Ok FAILED).
Proof.
  intro F. unfold char_conv. destruct (existsb (fun c => 128 <=? c) b) eqn:E; cbn [negb].
  - unfold iconv_ucs2. destruct (iconv_loop (length b) dec_utf8 b (length b)) as [s|] eqn:L.
    + left. destruct (loop_dec _ _ _ utf8_codec _ _ _ _ F L) as (A & B & _). eauto.
    + right. split; [|reflexivity]. intros s Fs Eb. rewrite Eb in L. unfold utf8 in L. rewrite (loop_enc _ _ _ utf8_codec) in L; [discriminate L|exact Fs|reflexivity|apply utf8_length].
  - left. exists b. assert (G : Forall (fun x => 0 <= x < 128) b).
    { apply Forall_forall. intros x J. rewrite Forall_forall in F. specialize (F x J). destruct (128 <=? x) eqn:X; [|lia]. rewrite (proj2 (existsb_exists _ _)) in E; [discriminate E|]. exists x. auto. }
    split; [|split; [|reflexivity]].
    + eapply Forall_impl; [|exact G]. intros x X. unfold bmp, scalar. cbv beta in X. lia.
    + clear - G. induction G as [|x b X _ IH]; [reflexivity|]. unfold utf8 in *. cbn [flat_map]. rewrite <- IH. unfold utf8_char. replace (x <? 128) with true by lia. reflexivity.
Qed.
Print Assumptions C51_char_result.
Lemma wide_length w : (length w <= length (flat_map le32 w))%nat.
Proof. induction w as [|c w IH]; [reflexivity|]. cbn [flat_map length]. rewrite app_length. cbn [length le32]. lia. Qed.
Lemma flat_le32_inj w : forall s, Forall (fun c => 0 <= c < 4294967296) w -> Forall (fun c => 0 <= c < 4294967296) s -> flat_map le32 w = flat_map le32 s -> w = s.
Proof.
  induction w as [|c w IH]; intros [|d s] F G E; try reflexivity; try discriminate E. cbn [flat_map] in E. apply Forall_cons_iff in F, G. destruct F as [Fc F], G as [Gd G].
  assert (H : le32 c = le32 d /\ flat_map le32 w = flat_map le32 s) by (unfold le32 in *; cbn [app] in E; injection E as A B C D E'; split; [congruence|exact E']).
  destruct H as [H1 H2]. f_equal; [|apply IH; assumption]. apply (f_equal le_value) in H1. rewrite !le32_value in H1. lia.
Qed.
(** Wide texts: the units if all characters are in the basic multilingual plane, "iconv
    failed!" if one is not. *)
Theorem C51_wide_result w : Forall (fun c => 0 <= c < 4294967296) w ->
  (Forall bmp w /\ wide_conv true true dec_wchar w = Ok w) \/ (~ Forall bmp w /\ wide_conv true true dec_wchar w = Ok FAILED).
Proof.
  intro F. unfold wide_conv, iconv_ucs2. cbn [negb andb]. destruct (iconv_loop (length (flat_map le32 w)) dec_wchar (flat_map le32 w) (length w)) as [s|] eqn:L.
  - left. assert (Fb : Forall (fun x => 0 <= x < 256) (flat_map le32 w)) by (apply Forall_flat_map, Forall_forall; intros c _; apply le32_ok).
    destruct (loop_dec _ _ _ wide_codec _ _ _ _ Fb L) as (A & B & _). apply flat_le32_inj in B; [subst s; auto|exact F|].
    eapply Forall_impl; [|exact A]. intros x [Sx Lx]. unfold scalar in Sx. lia.
  - right. split; [|reflexivity]. intro Fw. rewrite (loop_enc _ _ _ wide_codec) in L; [discriminate L|exact Fw|reflexivity|reflexivity].
Qed.
Print Assumptions C51_wide_result.
Example C51_conversions : char_conv true true [104; 195; 169; 226; 130; 172] = Ok [104; 233; 8364] /\ char_conv true true [195] = Ok FAILED /\ char_conv true true [192; 128] = Ok FAILED
  /\ wide_conv true true dec_wchar [104; 233; 8364] = Ok [104; 233; 8364] /\ utf8 [104; 233; 8364] = [104; 195; 169; 226; 130; 172] /\ Forall bmp [104; 233; 8364].
Proof. repeat split; try reflexivity. repeat constructor; unfold scalar; lia. Qed.

(** A text with one character outside the basic multilingual plane (an emoji) is lost as a
    whole, although UTF-16 and the file format can represent it. *)
Theorem C51_astral_refuted s1 c s2 : Forall scalar (s1 ++ c :: s2) -> 65536 <= c ->
  char_conv true true (utf8 (s1 ++ c :: s2)) = Ok FAILED /\ wide_conv true true dec_wchar (s1 ++ c :: s2) = Ok FAILED.
Proof.
  intros F Hc. assert (Nb : forall l, Forall bmp l -> l <> s1 ++ c :: s2).
  { intros l Fl ->. apply Forall_app in Fl. destruct Fl as [_ Fl]. apply Forall_cons_iff in Fl. destruct Fl as [[_ Lc] _]. lia. }
  assert (Inj : forall l m, Forall scalar l -> Forall scalar m -> utf8 l = utf8 m -> l = m).
  { clear. induction l as [|x l IH]; intros [|y m] Fl Fm E; [reflexivity| | |].
    - exfalso. unfold utf8 in E. cbn [flat_map] in E. apply (f_equal (@length _)) in E. rewrite app_length in E. pose proof (enc_length y). cbn [length] in E. lia.
    - exfalso. unfold utf8 in E. cbn [flat_map] in E. apply (f_equal (@length _)) in E. rewrite app_length in E. pose proof (enc_length x). cbn [length] in E. lia.
    - apply Forall_cons_iff in Fl, Fm. destruct Fl as [Fx Fl], Fm as [Fy Fm]. unfold utf8 in *. cbn [flat_map] in E. apply (f_equal dec_utf8) in E. rewrite !dec_enc in E by assumption.
      apply some_inj, pair_equal_spec in E. destruct E as [-> E]. f_equal. apply IH; assumption. }
  split.
  - destruct (C51_char_result (utf8 (s1 ++ c :: s2))) as [(s & Fs & E & _)|[_ E]]; [| |exact E].
    + apply Forall_flat_map, (Forall_impl _ (P := scalar)); [|exact F]. intros x Sx. unfold scalar in Sx. unfold utf8_char. destruct (x <? 128) eqn:E1; [|destruct (x <? 2048) eqn:E2; [|destruct (x <? 65536) eqn:E3]]; repeat constructor; lia.
    + exfalso. apply Inj in E; [apply (Nb s Fs); symmetry; exact E|exact F|]. eapply Forall_impl; [|exact Fs]. intros x [Sx _]. exact Sx.
  - destruct (C51_wide_result (s1 ++ c :: s2)) as [[Fs _]|[_ E]]; [| |exact E].
    + eapply Forall_impl; [|exact F]. intros x Sx. unfold scalar in Sx. lia.
    + exfalso. exact (Nb _ Fs eq_refl).
Qed.
Print Assumptions C51_astral_refuted.
(** The result of calloc is not tested: without memory, every text that needs conversion is
    written to NULL. *)
Theorem C51_no_memory_refuted : (forall b x, In x b -> 128 <= x -> char_conv true false b = UB) /\ (forall dec w, w <> [] -> wide_conv true false dec w = UB).
Proof.
  split.
  - intros b x J H. unfold char_conv. rewrite (proj2 (existsb_exists _ _)); [reflexivity|]. exists x. split; [exact J|lia].
  - intros dec [|c w] H; [congruence|reflexivity].
Qed.
Print Assumptions C51_no_memory_refuted.
(** Choosing the input type: after any number of requests the type in force is the last one
    iconv knew (the initial one if none), and the answers are 0 for those and an errno for
    the others. *)
Definition requests {A} (known : A -> bool) (err : Z) (start : A) (l : list A) : list Z * A :=
  fold_left (fun st t => let (r, cur) := in_type known err (snd st) t in (fst st ++ [r], cur)) l ([], start).
Theorem C51_input_type (A : Type) (known : A -> bool) err (start : A) l : err <> 0 ->
  snd (requests known err start l) = last (filter known l) start /\ map (fun r => r =? 0) (fst (requests known err start l)) = map known l.
Proof.
  intro H. unfold requests. enough (G : forall acc cur, let st := fold_left (fun st t => let (r, cur) := in_type known err (snd st) t in (fst st ++ [r], cur)) l (acc, cur) in
    snd st = last (filter known l) cur /\ map (fun r => r =? 0) (fst st) = map (fun r => r =? 0) acc ++ map known l) by exact (G [] start).
  induction l as [|t l IH]; intros acc cur; cbn [fold_left filter map]; cbv zeta.
  - split; [reflexivity|]. rewrite app_nil_r. reflexivity.
  - cbn [fst snd]. unfold in_type at 2 4. destruct (known t) eqn:K.
    + destruct (IH (acc ++ [0]) t) as [A1 A2]. cbv zeta in A1, A2. rewrite A1, A2, map_app. split; [|rewrite <- app_assoc; reflexivity].
      generalize (filter known l). intro f. destruct f as [|x f]; [reflexivity|]. cbn [last]. revert x. induction f as [|y f IHf]; intro x; [reflexivity|]. exact (IHf y).
    + destruct (IH (acc ++ [err]) cur) as [A1 A2]. cbv zeta in A1, A2. rewrite A1, A2, map_app. split; [reflexivity|]. rewrite <- app_assoc. cbn [map app]. replace (err =? 0) with false by lia. reflexivity.
Qed.
Print Assumptions C51_input_type.

(* ------------------------------------------------------------------ *)
(** * Documents *)

Lemma conv_meant t s : meant t s -> conv_text dec_wchar t = Ok (T16 s).
Proof.
  destruct t as [b|w|u]; cbn [meant conv_text].
  - intros [-> F]. rewrite C51_utf8 by exact F. reflexivity.
  - intros [-> F]. destruct (C51_wide_result s) as [[_ E]|[N _]]; [|rewrite E; reflexivity|contradiction]. eapply Forall_impl; [|exact F]. intros x [Sx _]. unfold scalar in Sx. lia.
  - intros ->. reflexivity.
Qed.
Lemma conv_units t t' : conv_text dec_wchar t = Ok t' -> exists u, t' = T16 u.
Proof. destruct t; cbn [conv_text]; intro H; [apply bind_ok in H; destruct H as (u & _ & H)|apply bind_ok in H; destruct H as (u & _ & H)|]; apply ok_inj in H; eauto. Qed.
(** Every call list is converted: no text makes a call fail. *)
Lemma conv_text_ok t : exists u, conv_text dec_wchar t = Ok (T16 u).
Proof.
  destruct t as [b|w|u]; cbn [conv_text]; [| |eauto].
  - unfold char_conv. destruct (existsb _ b); cbn [negb bind]; eauto.
  - unfold wide_conv. cbn [negb andb bind]. eauto.
Qed.
Lemma conv_calls_ok calls : exists l, conv_calls dec_wchar calls = Ok l.
Proof.
  induction calls as [|q calls [l IH]]; cbn [conv_calls]; [eauto|].
  assert (E : exists x, conv_call dec_wchar q = Ok x).
  { destruct q; cbn [conv_call]; eauto.
    - destruct (conv_text_ok name) as [u ->]. cbn [bind]. eauto.
    - destruct v; eauto. destruct (conv_text_ok t) as [u ->]. cbn [bind]. eauto.
    - destruct (conv_text_ok author) as [u ->]. destruct (conv_text_ok remark) as [v ->]. cbn [bind]. eauto.
    - destruct (conv_text_ok url) as [u ->]. destruct (conv_text_ok mark) as [v ->]. cbn [bind]. eauto.
    - destruct (conv_text_ok t) as [u ->]. cbn [bind]. eauto. }
  destruct E as [x ->]. rewrite IH. cbn [bind]. eauto.
Qed.
Lemma conv_units_of t t' : conv_text dec_wchar t = Ok t' -> units_of t t'.
Proof.
  intro E. destruct (conv_text_ok t) as [u Eu]. rewrite Eu in E. apply ok_inj in E. subst t'. exists u. split; [reflexivity|]. intros s Me. rewrite (conv_meant _ _ Me) in Eu. apply ok_inj in Eu. congruence.
Qed.
(** The document is the one the build without iconv makes of the same calls with every text
    given as UTF-16 units: all other theorems about calls apply to it. *)
Theorem C51_same_calls calls : exists conv, conv_calls dec_wchar calls = Ok conv /\ Forall2 in_units calls conv.
Proof.
  destruct (conv_calls_ok calls) as [conv E]. exists conv. split; [exact E|]. revert conv E. induction calls as [|q calls IH]; intros conv E; cbn [conv_calls] in E.
  - apply ok_inj in E. subst conv. constructor.
  - apply bind_ok in E. destruct E as (x & Ex & E). apply bind_ok in E. destruct E as (l & El & E). apply ok_inj in E. subst conv. constructor; [|apply IH; exact El].
    destruct q; cbn [conv_call] in Ex; try (apply ok_inj in Ex; subst x; apply iu_other; intros; discriminate).
    + apply bind_ok in Ex. destruct Ex as (t & Et & Ex). apply ok_inj in Ex. subst x. constructor. apply conv_units_of. exact Et.
    + destruct v; try (apply ok_inj in Ex; subst x; apply iu_other; intros; discriminate).
      apply bind_ok in Ex. destruct Ex as (t' & Et & Ex). apply ok_inj in Ex. subst x. constructor. apply conv_units_of. exact Et.
    + apply bind_ok in Ex. destruct Ex as (a & Ea & Ex). apply bind_ok in Ex. destruct Ex as (t & Et & Ex). apply ok_inj in Ex. subst x. constructor; apply conv_units_of; assumption.
    + apply bind_ok in Ex. destruct Ex as (a & Ea & Ex). apply bind_ok in Ex. destruct Ex as (t & Et & Ex). apply ok_inj in Ex. subst x. constructor; apply conv_units_of; assumption.
    + apply bind_ok in Ex. destruct Ex as (t' & Et & Ex). apply ok_inj in Ex. subst x. constructor. apply conv_units_of. exact Et.
Qed.
Print Assumptions C51_same_calls.
Definition val_conv (u v : option uval) : Prop :=
  match u, v with
  | Some (ULabel t), Some (ULabel t') => conv_text dec_wchar t = Ok t'
  | _, _ => u = v
  end.
Lemma val_conv_same u : (forall t, u <> Some (ULabel t)) -> val_conv u u.
Proof. intro H. destruct u as [[]|]; cbn [val_conv]; try reflexivity. exfalso. eapply H. reflexivity. Qed.
Ltac unconv := repeat match goal with
  | H : bind _ _ = Ok _ |- _ => apply bind_ok in H; destruct H as (? & ? & H)
  | H : Ok _ = Ok _ |- _ => apply ok_inj in H; subst
  end.
Lemma cells_conv k calls : forall calls' m m', conv_calls dec_wchar calls = Ok calls' -> (forall r c, val_conv (m r c) (m' r c)) ->
  forall r c, val_conv (fold_left (cells_step k) calls m r c) (fold_left (cells_step k) calls' m' r c).
Proof.
  induction calls as [|q calls IH]; intros calls' m m' E H; cbn [conv_calls] in E; unconv; [exact H|]. cbn [fold_left]. apply IH; [assumption|]. clear IH. intros r c. specialize (H r c).
  match goal with E : conv_call _ q = Ok ?x |- _ => rename E into Eq; rename x into q' end.
  destruct q; cbn [conv_call] in Eq; unconv; try exact H.
  - destruct v; cbn [conv_call] in Eq; unconv; cbn [cells_step]; destruct (_ && _ && _)%bool; try exact H; try reflexivity. cbn [val_conv]. assumption.
  - cbn [cells_step]. destruct (_ && _ && _)%bool; [|exact H]. unfold val_conv in *. destruct (m r c) as [[]|], (m' r c) as [[]|]; try discriminate H; try exact H; reflexivity.
Qed.
Lemma names_conv calls : forall calls', conv_calls dec_wchar calls = Ok calls' -> Forall2 (fun t t' => conv_text dec_wchar t = Ok t') (sheet_names calls) (sheet_names calls').
Proof.
  induction calls as [|q calls IH]; intros calls' E; cbn [conv_calls] in E; unconv; [constructor|]. unfold sheet_names in *. cbn [flat_map]. apply Forall2_app; [|apply IH; assumption]. clear IH.
  match goal with E : conv_call _ q = Ok ?x |- _ => rename E into Eq; rename x into q' end.
  destruct q; cbn [conv_call] in Eq; unconv; try constructor; auto. destruct v; unconv; constructor.
Qed.
Lemma reads_conv u v x : val_conv (Some u) (Some v) -> reads_as v x -> reads_meant u x.
Proof.
  intros V R. destruct u; cbn [reads_meant]; try (cbn [val_conv] in V; apply some_inj in V; subst v; exact R).
  cbn [val_conv] in V. destruct v; try discriminate V. destruct (conv_units _ _ V) as [w ->]. destruct R as (s & -> & Rs). exists s. split; [reflexivity|].
  intros m Me St. rewrite (conv_meant _ _ Me) in V. apply ok_inj in V. injection V as <-. apply Rs; [reflexivity|exact St].
Qed.
(** End to end in this build: sheet names and cell texts given as UTF-8, as wide characters
    or as UTF-16 are read from the saved file as they were meant, and all other values as in
    the other build. *)
Theorem C51_end_to_end R moves calls conv stream us us2 us3 names : conv_calls dec_wchar calls = Ok conv -> saved_ok R moves conv stream -> R <= 32819 -> concat us = stream ->
  zlen stream + zlen (concat us2) + zlen (concat us3) <= 4294955000 -> Forall2 meant (sheet_names calls) names -> Forall (fun n => zlen n <= 255) names ->
  exists f sheets, ole_image us us2 us3 = Ok f /\ read_file f = Some sheets /\ map rs_name sheets = names
    /\ forall k sh, nth_error sheets k = Some sh -> StronglySorted before (rs_cells sh)
      /\ (forall x, In x (rs_cells sh) -> exists u, cells_of k calls (rc_row x) (rc_col x) = Some u /\ reads_meant u (rc_val x))
      /\ (forall r c u, cells_of k calls r c = Some u -> exists x, In x (rs_cells sh) /\ rc_row x = r /\ rc_col x = c).
Proof.
  intros E H HR Eu Hz Hn Hl. pose proof (names_conv _ _ E) as N.
  assert (N1 : map units (sheet_names conv) = map Some names).
  { clear - N Hn. revert names Hn. induction N as [|t t' l l' Ht _ IH]; intros names Hn; inversion Hn as [|? n ? ns Mn F]; subst; [reflexivity|]. cbn [map]. rewrite (IH ns F).
    rewrite (conv_meant _ _ Mn) in Ht. apply ok_inj in Ht. subst t'. reflexivity. }
  destruct (C35_end_to_end R moves conv stream us us2 us3 names H HR Eu Hz N1 Hl) as (f & sheets & E1 & E2 & E3 & C).
  exists f, sheets. split; [exact E1|]. split; [exact E2|]. split; [exact E3|]. intros k sh J. destruct (C k sh J) as [So [Ca Cb]]. split; [exact So|].
  assert (Q : forall r c, val_conv (cells_of k calls r c) (cells_of k conv r c)) by (intros; apply cells_conv; [exact E|intros; reflexivity]).
  split.
  - intros x Jx. destruct (Ca x Jx) as (v & Ev & Rv). specialize (Q (rc_row x) (rc_col x)). rewrite Ev in Q.
    destruct (cells_of k calls (rc_row x) (rc_col x)) as [u|]; [|discriminate Q]. exists u. split; [reflexivity|]. eapply reads_conv; eassumption.
  - intros r c u Ec. specialize (Q r c). rewrite Ec in Q. destruct (cells_of k conv r c) as [v|] eqn:Ev; [exact (Cb r c v Ev)|]. destruct u; discriminate Q.
Qed.
Print Assumptions C51_end_to_end.
(** The hypotheses are met: a sheet named with a Cyrillic letter in UTF-8, a UTF-8 label, a wide one. *)
Definition utf_doc : list call :=
  [KSheet (TChar [208; 145; 66]); KCell 0 0 0 (ULabel (TChar [104; 195; 169; 226; 130; 172])) None; KCell 0 1 0 (ULabel (TWide [8364; 49])) None; KCell 0 2 0 (UInt 7) None].
Definition utf_conv : list call :=
  [KSheet (T16 [1041; 66]); KCell 0 0 0 (ULabel (T16 [104; 233; 8364])) None; KCell 0 1 0 (ULabel (T16 [8364; 49])) None; KCell 0 2 0 (UInt 7) None].
Lemma utf_typed : Forall typed utf_conv.
Proof. unfold utf_conv. small_typed. Qed.
Lemma utf_fits : fits 40 utf_conv.
Proof.
  unfold utf_conv. small_fits. intro k. exists []. split; [cbn; lia|]. intros r H.
  match type of H with height_of k ?l r <> None => destruct (height_of k l r) as [[h p]|] eqn:E end; [|congruence]. apply heights_from in E. cbn [In] in E. each E.
Qed.
Example C51_case : conv_calls dec_wchar utf_doc = Ok utf_conv /\ (exists stream, saved_ok 40 (fun _ _ => false) utf_conv stream /\ zlen stream <= 100000)
  /\ Forall2 meant (sheet_names utf_doc) [[1041; 66]].
Proof.
  split; [vm_compute; reflexivity|]. split.
  - destruct (stream_of 400 utf_conv) as [s|] eqn:E.
    2:{ assert (K : match stream_of 400 utf_conv with Some _ => true | None => false end = true) by (vm_compute; reflexivity). rewrite E in K. discriminate K. }
    exists s. split; [exact (small_saved _ _ _ utf_typed utf_fits E)|].
    assert (K : match stream_of 400 utf_conv with Some s => zlen s <=? 100000 | None => false end = true) by (vm_compute; reflexivity). rewrite E in K. lia.
  - constructor; [|constructor]. split; [reflexivity|]. repeat constructor; unfold scalar; lia.
Qed.
