(** Property theorems C06-C11 and C36: the compound file. *)
From Coq Require Import ZArith List Lia Bool.
From Coq Require Import ZifyBool ZifyNat.
From Verif Require Import Bytes UnitModel OleModel OleBat SpecCFB OleProofs OleRead OleFsProofs OleDev.
Import ListNotations.
Local Open Scope Z_scope.
Ltac Zify.zify_post_hook ::= Z.div_mod_to_equations.

(** C06.  [get_bat_count total] is the modelled sizing loop, [None] would be running out of
    fuel.  d data sectors, nb table sectors, m master sectors, 1 directory sector. *)
Theorem C06_sizing_terminates_and_is_exact :
  forall total, 0 <= total ->
    exists b, get_bat_count total = Some b /\
      let d := total / 512 in let nb := bat_count b in let m := msat_count b in
      bat_entries b = m + d + nb + 1
      /\ 0 <= 128 * nb - (m + d + nb + 1) < 128
      /\ nb <= 109 + 127 * m /\ (m = 0 \/ 109 + 127 * (m - 1) < nb)
      /\ header_bat_count b = Z.min nb 109 /\ header_bat_count b + header_fill b = 109
      /\ header_bat_count b + extra_bat_count b = nb /\ extra_bat_count b + extra_fill b = 127 * m
      /\ 0 <= header_fill b /\ 0 <= extra_fill b
      /\ (forall nb' m', 0 <= nb' -> 0 <= m' -> nb' <= 109 + 127 * m' ->
            m' + d + nb' + 1 <= 128 * nb' -> nb <= nb').
Proof.
  intros total Ht. destruct (get_bat_count_spec total Ht) as (nb & E & H1 & H2 & H3).
  eexists. split; [exact E|]. cbv zeta.
  cbn [bat_entries bat_count msat_count header_bat_count extra_bat_count header_fill extra_fill].
  assert (G : forall nb' m', 0 <= nb' -> 0 <= m' -> nb' <= 109 + 127 * m' ->
            m' + total / 512 + nb' + 1 <= 128 * nb' -> nb <= nb').
  { intros nb' m' A B C D. apply H3; [exact A|]. unfold bat_step, msat_for. lia. }
  clear H3. unfold bat_step, msat_for in *.
  repeat match goal with |- _ /\ _ => split end; try exact G; lia.
Qed.
Print Assumptions C06_sizing_terminates_and_is_exact.

Example C06_not_vacuous :
  option_map (fun b => (bat_count b, msat_count b)) (get_bat_count (512 * 13844)) = Some (110, 1)
  /\ option_map (fun b => (bat_count b, msat_count b)) (get_bat_count (512 * 13842)) = Some (109, 0).
Proof. split; vm_compute; reflexivity. Qed.

Lemma padded_zero_padded b : zero_padded b (padded b).
Proof.
  unfold zero_padded. eexists. split; [reflexivity|]. rewrite padded_zlen.
  pose proof (zlen_nonneg _ b). unfold padded_size. lia.
Qed.

Lemma valid_workbook : valid_name name_workbook.
Proof. split; [repeat constructor; unfold is_byte; lia|vm_compute; lia]. Qed.
Lemma valid_summary : valid_name name_summary.
Proof. split; [repeat constructor; unfold is_byte; lia|vm_compute; lia]. Qed.
Lemma valid_docsummary : valid_name name_docsummary.
Proof. split; [repeat constructor; unfold is_byte; lia|vm_compute; lia]. Qed.

Lemma NoDup_app_intro {A} (a b : list A) :
  NoDup a -> NoDup b -> (forall x, In x a -> In x b -> False) -> NoDup (a ++ b).
Proof.
  induction a as [|x a IH]; cbn [app]; intros Ha Hb H; [exact Hb|]. inversion Ha; subst.
  constructor.
  - rewrite in_app_iff. intros [?|?]; [auto|]. eapply H; [left; reflexivity|assumption].
  - apply IH; auto. intros y Hy. apply H. right. exact Hy.
Qed.

Lemma real_layout us1 us2 us3 :
  zlen (concat us1) + zlen (concat us2) + zlen (concat us3) <= 4294955000 ->
  exists nb f,
    let D1 := padded (concat us1) in let D2 := padded (concat us2) in let D3 := padded (concat us3) in
    let s1 := zlen D1 / 512 in let s2 := zlen D2 / 512 in let s3 := zlen D3 / 512 in
    let M := msat_for nb in let d := s1 + s2 + s3 in
    zlen D1 + zlen D2 + zlen D3 < 4294967296 /\ 1 <= nb /\ bat_step d nb = nb /\
    f = (hdr_prefix nb M d ++ flat_map le32 (hdr_entries nb M d)) ++ msat_bytes nb M d
          ++ D1 ++ D2 ++ D3 ++ fat_bytes nb M s1 s2 s3
          ++ dir_bytes name_workbook name_summary name_docsummary us1 us2 us3 M (M + s1) (M + s1 + s2)
    /\ ole_image us1 us2 us3 = Ok f.
Proof.
  intro Hl.
  assert (Hp : zlen (padded (concat us1)) + zlen (padded (concat us2)) + zlen (padded (concat us3)) < 4294967296).
  { rewrite !padded_zlen. pose proof (zlen_nonneg _ (concat us1)). pose proof (zlen_nonneg _ (concat us2)).
    pose proof (zlen_nonneg _ (concat us3)). unfold padded_size. lia. }
  destruct (ole_layout (47 :: name_workbook) name_summary name_docsummary
              name_workbook name_summary name_docsummary us1 us2 us3) as (nb & H1 & H2 & _ & H4);
    try reflexivity; try discriminate;
    auto using valid_workbook, valid_summary, valid_docsummary.
  exists nb. eexists. cbv zeta. repeat (split; [first [exact Hp|exact H1|exact H2|reflexivity]|]). exact H4.
Qed.

(** C07.  [us1 us2 us3] are the data units of the three streams in order; the reader
    [cfb_read] (SpecCFB.v) sees only the bytes [f]. *)
Theorem C07_compound_file_reads_back :
  forall us1 us2 us3,
    zlen (concat us1) + zlen (concat us2) + zlen (concat us3) <= 4294955000 ->
    exists f b1 b2 b3,
      ole_image us1 us2 us3 = Ok f
      /\ cfb_read f name_workbook = Some b1 /\ zero_padded (concat us1) b1
      /\ cfb_read f name_summary = Some b2 /\ zero_padded (concat us2) b2
      /\ cfb_read f name_docsummary = Some b3 /\ zero_padded (concat us3) b3
      /\ cfb_names f = Some [name_workbook; name_summary; name_docsummary].
Proof.
  intros us1 us2 us3 Hl. destruct (real_layout us1 us2 us3 Hl) as (nb & f & H). cbv zeta in H.
  destruct H as (Hp & Hnb & Hfix & Hf & Himg).
  pose proof valid_workbook. pose proof valid_summary. pose proof valid_docsummary.
  exists f, (padded (concat us1)), (padded (concat us2)), (padded (concat us3)).
  split; [exact Himg|]. rewrite Hf.
  destruct (read_three name_workbook name_summary name_docsummary us1 us2 us3) with (nb := nb)
    as (R1 & R2 & R3); auto.
  rewrite R1, R2, R3. repeat (split; [first [reflexivity|apply padded_zero_padded]|]).
  apply names_three; auto.
Qed.
Print Assumptions C07_compound_file_reads_back.

Example C07_not_vacuous :
  match ole_image [[1; 2]; []; repeat 7 2000 ++ repeat 7 2000 ++ repeat 7 2000] [[3]] [[4; 5; 6]] with
  | Ok f => option_map (fun b => (firstn 4 b, zlen b)) (cfb_read f name_workbook) = Some ([1; 2; 7; 7], 6144)
            /\ option_map (firstn 4) (cfb_read f name_docsummary) = Some [4; 5; 6; 0]
  | _ => False
  end.
Proof. vm_compute. split; reflexivity. Qed.

(** C08.  [cfb_owned f] lists the sectors of each structure in turn: master table,
    allocation table, directory, and each stream's chain. *)
Theorem C08_sectors_disjoint_and_aligned :
  forall us1 us2 us3,
    zlen (concat us1) + zlen (concat us2) + zlen (concat us3) <= 4294955000 ->
    exists f master table dir c1 c2 c3 ft,
      ole_image us1 us2 us3 = Ok f
      /\ zlen f mod 512 = 0
      /\ cfb_owned f = Some [master; table; dir; c1; c2; c3]
      /\ NoDup (concat [master; table; dir; c1; c2; c3])
      /\ (forall s, In s (concat [master; table; dir; c1; c2; c3]) <-> 0 <= s /\ 512 * (s + 1) < zlen f)
      /\ fat f = Some ft
      /\ (forall s, In s master -> nth (Z.to_nat s) ft 0 = DIFSECT)
      /\ (forall s, In s table -> nth (Z.to_nat s) ft 0 = FATSECT)
      /\ (forall s, zlen f <= 512 * (s + 1) -> s < zlen ft -> nth (Z.to_nat s) ft 0 = FREESECT).
Proof.
  intros us1 us2 us3 Hl. destruct (real_layout us1 us2 us3 Hl) as (nb & f & H). cbv zeta in H.
  destruct H as (Hp & Hnb & Hfix & Hf & Himg).
  pose proof valid_workbook as V1. pose proof valid_summary as V2. pose proof valid_docsummary as V3.
  pose proof (owned_three name_workbook name_summary name_docsummary us1 us2 us3 V1 V2 V3 Hp nb Hnb Hfix) as HO.
  pose proof (fat_marks name_workbook name_summary name_docsummary us1 us2 us3 Hp nb Hnb Hfix) as HM.
  pose proof (file_size name_workbook name_summary name_docsummary us1 us2 us3 V1 V2 V3 Hp nb Hnb Hfix) as HS.
  destruct HM as (ft & F1 & F2 & F3 & F4).
  rewrite <- Hf in HO, F1, HS.
  assert (Z1 : 0 <= zlen (padded (concat us1)) / 512) by (pose proof (zlen_nonneg _ (padded (concat us1))); lia).
  assert (Z2 : 0 <= zlen (padded (concat us2)) / 512) by (pose proof (zlen_nonneg _ (padded (concat us2))); lia).
  assert (Z3 : 0 <= zlen (padded (concat us3)) / 512) by (pose proof (zlen_nonneg _ (padded (concat us3))); lia).
  assert (HMs : 0 <= msat_for nb) by (unfold msat_for; lia).
  set (s1 := zlen (padded (concat us1)) / 512) in *. set (s2 := zlen (padded (concat us2)) / 512) in *.
  set (s3 := zlen (padded (concat us3)) / 512) in *. set (M := msat_for nb) in *.
  clearbody s1 s2 s3 M.
  exists f. do 6 eexists. exists ft. split; [exact Himg|].
  split; [rewrite HS; lia|]. split; [exact HO|]. split.
  { cbn [concat]. repeat (apply NoDup_app_intro; [apply zseq_NoDup||(constructor; [intros []|constructor])|..]).
    all: try constructor.
    all: intros x Hx Hy; rewrite ?in_app_iff, ?zseq_In in *; cbn [In] in *; rewrite ?in_app_iff, ?zseq_In in *; cbn [In] in *; lia. }
  split.
  { intro s. cbn [concat]. rewrite ?in_app_iff, ?zseq_In. cbn [In]. rewrite ?in_app_iff, ?zseq_In. cbn [In]. rewrite HS. lia. }
  split; [exact F1|].
  split; [intros s Hs; apply zseq_In in Hs; apply F2; lia|].
  split; [intros s Hs; apply zseq_In in Hs; apply F3; lia|].
  intros s A B. apply F4. rewrite HS in A. lia.
Qed.
Print Assumptions C08_sectors_disjoint_and_aligned.

Example C08_not_vacuous :
  match ole_image [[1; 2]; []; repeat 7 2000 ++ repeat 7 2000 ++ repeat 7 2000] [[3]] [[4; 5; 6]] with
  | Ok f => zlen f = 512 * 31 /\ cfb_owned f = Some [[]; [28]; [29]; zseq 0 12; zseq 12 8; zseq 20 8]
  | _ => False
  end.
Proof. vm_compute. split; reflexivity. Qed.

(** C09.  [add_files fs_new h] performs the additions of [h] in order; [dir_spec [] h]
    is the specification: the first addition of each name is kept (code 0), every later
    one is refused (code -2, FS_NODE_ALREADY_EXISTS) and changes nothing. *)
Theorem C09_history_keeps_first_additions :
  forall h, Forall (fun p => plain_name (fst p)) h ->
    exists fs, add_files fs_new h = Ok (snd (dir_spec [] h), fs)
      /\ map (fun p => (op_name p, op_type p)) (get_all_nodes fs)
         = map (fun e => (fst e, PTYPE_FILE)) (fst (dir_spec [] h)).
Proof.
  intros h Hp. exists (fs_of (fst (dir_spec [] h))).
  split; [apply (add_files_spec h []); exact Hp|].
  rewrite nodes_fs_of. generalize (fst (dir_spec [] h)) as l.
  assert (G : forall l i p, map (fun p => (op_name p, op_type p)) (map ot_prop (tailkids i p l))
      = map (fun e => (fst e, PTYPE_FILE)) l).
  { induction l as [|[n us] r IH]; intros; cbn [tailkids map]; [reflexivity|]. rewrite IH. reflexivity. }
  destruct l as [|[n us] r]; [reflexivity|]. cbn [kids_of map]. rewrite G. reflexivity.
Qed.
Print Assumptions C09_history_keeps_first_additions.

Theorem C09_duplicate_refused_unchanged :
  forall h codes fs q n us,
    Forall (fun p => plain_name (fst p)) h -> add_files fs_new h = Ok (codes, fs) ->
    plain_name n -> q = n \/ q = 47 :: n -> In n (map fst h) ->
    add_file fs q us = Ok (-2, fs).
Proof.
  intros h codes fs q n us Hp Ha Hn Hq Hin.
  change fs_new with (fs_of []) in Ha. rewrite (add_files_spec h [] Hp) in Ha. injection Ha as <- <-.
  apply (add_file_dup _ q n).
  - destruct (split_plain n Hn) as [A B]. destruct Hq as [->| ->]; assumption.
  - clear - Hin. 
    assert (G : forall h acc, (forall m, In m (map fst acc) -> In m (map fst (fst (dir_spec acc h))))
        /\ (forall m, In m (map fst h) -> In m (map fst (fst (dir_spec acc h))))).
    { clear. induction h as [|[m um] h IH]; intro acc; cbn [dir_spec].
      - split; [auto|intros _ []].
      - destruct (existsb (name_eqb m) (map fst acc)) eqn:E.
        + destruct (IH acc) as [I1 I2]. destruct (dir_spec acc h). cbn [fst] in *.
          split; [exact I1|]. intros x [<-|Hx]; [|auto].
          apply existsb_exists in E. destruct E as (y & Hy & E). apply name_eqb_eq in E. cbn [fst] in E. subst y. auto.
        + destruct (IH (acc ++ [(m, um)])) as [I1 I2]. destruct (dir_spec (acc ++ [(m, um)]) h). cbn [fst] in *.
          split.
          * intros x Hx. apply I1. rewrite map_app. apply in_or_app. auto.
          * intros x [<-|Hx]; [|auto]. apply I1. rewrite map_app. apply in_or_app. right. left. reflexivity. }
    apply G. exact Hin.
Qed.
Print Assumptions C09_duplicate_refused_unchanged.

(** Lookup by the format's tree search.  Missing from the full property: names added in
    an order that is not increasing (see the refutation below).  The three names of every
    saved workbook are added in increasing order. *)
Theorem C09_names_found_partial :
  forall h codes fs n us,
    Forall (fun p => plain_name (fst p)) h -> add_files fs_new h = Ok (codes, fs) ->
    increasing (map fst (fst (dir_spec [] h))) -> In (n, us) (fst (dir_spec [] h)) ->
    zlen (fst (dir_spec [] h)) < 4294967280 ->
    exists root e, nth_error (dir_table fs) 0 = Some root
      /\ tree_find (dir_table fs) (length (dir_table fs)) (de_child root) n = Some e
      /\ de_name e = n /\ de_type e = 2.
Proof.
  intros h codes fs n us Hp Ha Hinc Hin Hlim.
  change fs_new with (fs_of []) in Ha. rewrite (add_files_spec h [] Hp) in Ha. injection Ha as <- <-.
  destruct (dir_find _ n us Hinc Hin Hlim) as (e & E1 & E2 & E3 & _).
  exists (dentry_of (root3 (child_of (fst (dir_spec [] h))))), e.
  split; [reflexivity|]. split; [|auto].
  replace (de_child (dentry_of (root3 (child_of (fst (dir_spec [] h)))))) with (child_of (fst (dir_spec [] h))); [exact E1|].
  destruct (fst (dir_spec [] h)) as [|? [|? ?]]; [destruct Hin|reflexivity|reflexivity].
Qed.
Print Assumptions C09_names_found_partial.

Definition demo_hist : list (list Z * list (list Z)) :=
  [(name_workbook, [[1]]); (name_summary, []); (name_workbook, [[2]]); (name_docsummary, [[3; 4]])].
Example C09_not_vacuous :
  Forall (fun p => plain_name (fst p)) demo_hist
  /\ snd (dir_spec [] demo_hist) = [0; 0; -2; 0]
  /\ increasing (map fst (fst (dir_spec [] demo_hist)))
  /\ map fst (fst (dir_spec [] demo_hist)) = [name_workbook; name_summary; name_docsummary].
Proof.
  split; [repeat constructor; cbn; discriminate || lia|]. split; [reflexivity|]. split; [|reflexivity].
  cbn. auto.
Qed.

(** Adding B and then A makes B unreachable for the format's search. *)
Theorem C09_names_found_refuted :
  exists h codes fs n us root,
    Forall (fun p => plain_name (fst p)) h /\ add_files fs_new h = Ok (codes, fs)
    /\ In (n, us) h /\ codes = [0; 0]
    /\ nth_error (dir_table fs) 0 = Some root
    /\ tree_find (dir_table fs) (length (dir_table fs)) (de_child root) n = None.
Proof.
  exists [([66], [[1]]); ([65], [[2]])], [0; 0]. eexists. exists [66], [[1]]. eexists.
  split; [repeat constructor; cbn; discriminate || lia|].
  split; [vm_compute; reflexivity|]. split; [left; reflexivity|].
  split; [reflexivity|]. split; [vm_compute; reflexivity|]. vm_compute. reflexivity.
Qed.
Print Assumptions C09_names_found_refuted.

(** C10.  Adding a stream to any directory built by a history: the new entry's data is the
    stream zero-padded, its recorded size is the padded length, and the data and sizes of
    all other entries are untouched. *)
Definition stream_of (p : oprop) : list Z * Z * option (list Z) :=
  (op_name p, op_size p, option_map (@concat Z) (op_data p)).

Theorem C10_padding_preserves_data :
  forall h codes fs q n us,
    Forall (fun p => plain_name (fst p)) h -> add_files fs_new h = Ok (codes, fs) ->
    plain_name n -> q = n \/ q = 47 :: n -> ~ In n (map fst h) ->
    exists fs' stored, add_file fs q us = Ok (0, fs')
      /\ zero_padded (concat us) stored
      /\ map stream_of (get_all_nodes fs')
         = map stream_of (get_all_nodes fs) ++ [(n, zlen stored, Some stored)].
Proof.
  intros h codes fs q n us Hp Ha Hn Hq Hin.
  change fs_new with (fs_of []) in Ha. rewrite (add_files_spec h [] Hp) in Ha. injection Ha as <- <-.
  set (l := fst (dir_spec [] h)).
  assert (Hnl : ~ In n (map fst l)).
  { intro H. apply Hin. revert H. unfold l.
    assert (G : forall h acc m, In m (map fst (fst (dir_spec acc h))) -> In m (map fst acc) \/ In m (map fst h)).
    { clear. induction h as [|[m um] h IH]; intros acc x; cbn [dir_spec]; [auto|].
      destruct (existsb (name_eqb m) (map fst acc)).
      - specialize (IH acc x). destruct (dir_spec acc h). cbn [fst map In] in *. tauto.
      - specialize (IH (acc ++ [(m, um)]) x). destruct (dir_spec (acc ++ [(m, um)]) h). cbn [fst map In] in *.
        intro H. destruct (IH H) as [H1|H1]; [|auto]. rewrite map_app in H1. apply in_app_or in H1.
        cbn [map In fst] in H1. tauto. }
    intro H. destruct (G h [] n H) as [[]|H1]. exact H1. }
  exists (fs_of (l ++ [(n, us)])), (padded (concat us)).
  split; [apply add_file_new; [destruct (split_plain n Hn) as [A B]; destruct Hq as [->| ->]; assumption|exact Hnl]|].
  split; [apply padded_zero_padded|].
  rewrite !nodes_fs_of.
  assert (G1 : forall i p nx c m um, stream_of (prop3 i p nx c m um)
      = (m, zlen (padded (concat um)), Some (padded (concat um)))).
  { intros. rewrite padded_zlen. unfold stream_of, prop3. cbn [op_name op_size op_data option_map].
    rewrite pad_units_concat. reflexivity. }
  assert (G2 : forall l i p, map stream_of (map ot_prop (tailkids i p l))
     = map (fun e => (fst e, zlen (padded (concat (snd e))), Some (padded (concat (snd e))))) l).
  { clear - G1. induction l as [|[m um] r IH]; intros; cbn [tailkids map ot_prop fst snd]; [reflexivity|]. rewrite IH, G1. reflexivity. }
  assert (G3 : forall l, map stream_of (map ot_prop (kids_of l))
     = map (fun e => (fst e, zlen (padded (concat (snd e))), Some (padded (concat (snd e))))) l).
  { clear - G1 G2. intros [|[m um] r]; [reflexivity|]. cbn [kids_of map ot_prop fst snd]. rewrite G1, G2. reflexivity. }
  rewrite !G3, map_app. reflexivity.
Qed.
Print Assumptions C10_padding_preserves_data.

Example C10_not_vacuous :
  match add_files fs_new demo_hist with
  | Ok (_, fs) =>
      match add_file fs [47; 88] [repeat 9 2500 ++ repeat 9 2500] with
      | Ok (0, fs') => map op_size (get_all_nodes fs') = [4096; 4096; 4096; 5120]
      | _ => False
      end
  | _ => False
  end.
Proof. vm_compute. reflexivity. Qed.

(** C11.  [ws] is the separator set; the C string function used also treats NUL as a
    separator. *)
Theorem C11_split_exact :
  forall ws s,
    stringtok (S (length s)) ws s = pieces (fun c => existsb (Z.eqb c) ws || (c =? 0)) s.
Proof.
  intros. apply stringtok_pieces. lia.
Qed.
Print Assumptions C11_split_exact.

Theorem C11_pieces_are_separator_free :
  forall ws s w, In w (stringtok (S (length s)) ws s) ->
    w <> [] /\ forall c, In c w -> c <> 0 /\ ~ In c ws.
Proof.
  intros ws s w H. rewrite C11_split_exact in H. apply pieces_clean in H. destruct H as [H1 H2].
  split; [exact H1|]. intros c Hc. rewrite forallb_forall in H2. specialize (H2 c Hc).
  apply negb_true_iff, orb_false_iff in H2. destruct H2 as [H2 H3]. split; [lia|].
  intro Hi. assert (existsb (Z.eqb c) ws = true); [|congruence].
  apply existsb_exists. exists c. split; [exact Hi|lia].
Qed.
Print Assumptions C11_pieces_are_separator_free.

(** Nothing is lost: the pieces joined are the string without its separators. *)
Theorem C11_nothing_lost :
  forall ws s, concat (stringtok (S (length s)) ws s)
    = filter (fun c => negb (existsb (Z.eqb c) ws || (c =? 0))) s.
Proof.
  intros. rewrite C11_split_exact. set (f := fun c => _). unfold pieces.
  assert (G : forall l : list (list Z), concat (filter nonempty l) = concat l).
  { induction l as [|w l IH]; [reflexivity|]. cbn [filter]. destruct w; cbn [nonempty concat app]; [exact IH|]. rewrite IH. reflexivity. }
  rewrite G. clear G. induction s as [|c t IH]; [reflexivity|]. cbn [cut filter].
  change (existsb (Z.eqb c) ws || (c =? 0)) with (f c). destruct (f c) eqn:E; cbn [negb].
  - cbn [concat app]. exact IH.
  - pose proof (cut_nonnil f t). destruct (cut f t) as [|w r]; [congruence|].
    cbn [concat app] in *. rewrite IH. reflexivity.
Qed.
Print Assumptions C11_nothing_lost.

Example C11_not_vacuous :
  stringtok 9 [47] [47; 47; 97; 98; 47; 99; 47; 47] = [[97; 98]; [99]].
Proof. reflexivity. Qed.

(** C36.  [save_dev cap pol ...] saves to a device that accepts [cap] bytes and then
    fails; [pol] is the arbitrary buffering policy of the C++ stream.  The result is the
    returned code and the final content of the file.  Proved: success means every byte
    of the image entered the stream, the file is a prefix of the image, the file is the
    image if the device has room for it or if the stream does not hold bytes back.
    Missing: bytes still buffered when Close runs (refuted below). *)
Theorem C36_success_means_complete_partial :
  forall cap pol q1 q2 q3 us1 us2 us3 e file,
    save_dev cap pol q1 q2 q3 us1 us2 us3 = Ok (e, file) ->
    exists image rest, ole_image_at q1 q2 q3 us1 us2 us3 = Ok image /\ e = 0
      /\ image = file ++ rest
      /\ ((length image <= cap)%nat -> rest = [])
      /\ ((forall k, length image <= pol k)%nat -> rest = []).
Proof.
  intros cap pol q1 q2 q3 us1 us2 us3 e file H. unfold save_dev in H. unfold ole_image_at.
  destruct (add_three_at q1 q2 q3 us1 us2 us3) as [fs| |]; cbn [bind] in *; try discriminate.
  destruct (dump_ole_dev cap pol fs) as [[e0 s]| |] eqn:E; cbn [bind] in H; try discriminate.
  injection H as <- <-. destruct (dump_dev_complete cap pol fs e0 s E) as (-> & Hb & Hd).
  exists (o_sent s ++ o_pend s), (o_pend (o_flush cap (length (o_pend s)) s)).
  split; [exact Hd|]. split; [reflexivity|]. split; [symmetry; apply o_flush_app|].
  split.
  - intro Hc. rewrite app_length in Hc. unfold o_flush. rewrite Nat.min_id.
    replace (Nat.leb _ _) with true by (symmetry; apply Nat.leb_le; lia).
    cbn [o_pend]. apply skipn_all.
  - intro Hpol. pose proof (dump_dev_drained cap pol fs _ s E Hpol) as Hn.
    unfold o_flush. rewrite Hn. cbn [length Nat.min Nat.leb o_pend skipn]. reflexivity.
Qed.
Print Assumptions C36_success_means_complete_partial.

(** A device that fails as soon as it is written to, behind a stream that buffers: saving
    reports success and the file is empty. *)
Theorem C36_success_means_complete_refuted :
  exists cap pol us1 us2 us3 file image,
    save_dev cap pol (47 :: name_workbook) name_summary name_docsummary us1 us2 us3 = Ok (0, file)
    /\ ole_image us1 us2 us3 = Ok image /\ file = [] /\ zlen image = 13824.
Proof.
  exists 0%nat, (fun _ => 0%nat), [[1]], [[2]], [[3]], []. eexists.
  split; [vm_compute; reflexivity|]. split; [vm_compute; reflexivity|]. split; reflexivity.
Qed.
Print Assumptions C36_success_means_complete_refuted.
