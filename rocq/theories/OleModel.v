(** Model of the compound-document writer: /repo/xlslib/src/oledoc/oledoc.cpp,
    olefs.cpp, oleprop.cpp, binfile.cpp and /repo/xlslib/src/common/stringtok.h. *)
From Coq Require Import ZArith List Lia Bool.
From Verif Require Import Bytes UnitModel.
Import ListNotations.
Local Open Scope Z_scope.

(** oledoc.h 64-105 and systype.h (BIG_BLOCK_SIZE 0x200). *)
Definition BIG_BLOCK_SIZE := 512.
Definition HEAD_SIZE := 512.
Definition BAT_NOT_USED := -1.
Definition BAT_END_CHAIN := -2.
Definition BAT_SELF_PLACE := -3.
Definition BAT_MSAT_PLACE := -4.
Definition BAT_ENTRIES_PER_BLOCK := 128.
Definition BAT_BLOCKS_PER_MSAT_BLOCK := 127.
Definition HEADER_SAT_SIZE := 109.

(** A writer's output is a list of chunks, one per write_service call
    (binfile.cpp 180-191); WriteByte, WriteSigned16, WriteUnsigned32 ... issue one
    call per byte (binfile.cpp 98-157). *)
Definition chunks := list (list Z).
Definition w8 (v : Z) : chunks := [[byte_k 0 v]].
Definition w16 (v : Z) : chunks := map (fun b => [b]) (le16 v).
Definition w32 (v : Z) : chunks := map (fun b => [b]) (le32 v).
Definition warr (l : list Z) : chunks := [l].
(** SerializeFixedArray, binfile.cpp 168-178. *)
Definition wfix (v : Z) (n : Z) : chunks := repeat [v] (Z.to_nat n).

(** struct blocks, oledoc.h 117-128 (debug counters omitted). *)
Record blocks := mkBlocks {
  bat_entries : Z;
  bat_count : Z;
  msat_count : Z;
  header_bat_count : Z;
  extra_bat_count : Z;
  header_fill : Z;
  extra_fill : Z
}.

(** One iteration of the sizing loop, oledoc.cpp 383-404.  State: msat_blocks and
    bat_blocks_needed; result adds bat_num_blocks, bat_num_entries, capacity.  size_t is
    unbounded here. *)
Definition bat_msat (bat_num_blocks msat_blocks : Z) : Z :=
  if HEADER_SAT_SIZE <? bat_num_blocks then
    let msat_bats := bat_num_blocks - HEADER_SAT_SIZE in
    msat_bats / BAT_BLOCKS_PER_MSAT_BLOCK
      + (if msat_bats mod BAT_BLOCKS_PER_MSAT_BLOCK =? 0 then 0 else 1)
  else msat_blocks.
Definition bat_needed (entries : Z) : Z :=
  entries / BAT_ENTRIES_PER_BLOCK + (if entries mod BAT_ENTRIES_PER_BLOCK =? 0 then 0 else 1).

(** The while loop; [None] is "out of fuel". Returns (bat_num_blocks, msat_blocks,
    bat_num_entries). *)
Fixpoint bat_loop (fuel : nat) (data_entries : Z)
  (bat_num_blocks capacity msat_blocks needed entries : Z) : option (Z * Z * Z) :=
  if ((capacity <? bat_num_blocks) || negb (bat_num_blocks =? needed))%bool then
    match fuel with
    | O => None
    | S fuel =>
        let nb := needed in
        let ms := bat_msat nb msat_blocks in
        let en := ms + data_entries + nb + 1 in
        bat_loop fuel data_entries nb (HEADER_SAT_SIZE + BAT_BLOCKS_PER_MSAT_BLOCK * ms) ms
          (bat_needed en) en
    end
  else Some (bat_num_blocks, msat_blocks, entries).

(** oledoc.cpp 379-380: seed. *)
Definition bat_seed (d : Z) : Z :=
  d / BAT_ENTRIES_PER_BLOCK + d / BAT_ENTRIES_PER_BLOCK / BAT_ENTRIES_PER_BLOCK.

(** COleDoc::GetBATCount, oledoc.cpp 355-432.  [None]: the loop did not finish within
    the fuel (shown impossible in OleBat.v). *)
Definition bat_fuel (d : Z) : nat := Z.to_nat (d + 4).
Definition get_bat_count (total_data_size : Z) : option blocks :=
  let d := total_data_size / BIG_BLOCK_SIZE in
  match bat_loop (bat_fuel d) d 1 0 0 (bat_seed d) 0 with
  | None => None
  | Some (nb, ms, en) =>
      if HEADER_SAT_SIZE <? nb then
        let extra := nb - HEADER_SAT_SIZE in
        let last := extra mod BAT_BLOCKS_PER_MSAT_BLOCK in
        Some (mkBlocks en nb ms HEADER_SAT_SIZE extra 0
                (if last =? 0 then 0 else BAT_BLOCKS_PER_MSAT_BLOCK - last))
      else
        Some (mkBlocks en nb 0 nb 0 (HEADER_SAT_SIZE - nb) 0)
  end.

(** [n] consecutive values from [start]: the "WriteUnsigned32(sectorID++)" loops. *)
Fixpoint zseq (start : Z) (n : nat) : list Z :=
  match n with O => [] | S n => start :: zseq (start + 1) n end.

(** oledoc.cpp 169-180: entries of the extra MSAT sectors; [i] counts from 1, [n] is the
    number of iterations left. *)
Fixpoint extra_loop (n : nat) (i extra sectorID msatID : Z) : list Z :=
  match n with
  | O => []
  | S n =>
      sectorID ::
      (if i mod BAT_BLOCKS_PER_MSAT_BLOCK =? 0 then
         if i =? extra then BAT_END_CHAIN :: extra_loop n (i + 1) extra (sectorID + 1) msatID
         else msatID :: extra_loop n (i + 1) extra (sectorID + 1) (msatID + 1)
       else extra_loop n (i + 1) extra (sectorID + 1) msatID)
  end.

(** OLE_FILETYPE, oledoc.cpp 47. *)
Definition OLE_FILETYPE : list Z := [208; 207; 17; 224; 161; 177; 26; 225].

(** COleDoc::DumpHeader, oledoc.cpp 65-195 (without the final position assertion,
    see [dump_ole]). *)
Definition dump_header (bks : blocks) (total_data_size : Z) : chunks :=
  let total_data_blocks := total_data_size / BIG_BLOCK_SIZE in
  let sectorID := msat_count bks + total_data_blocks in
  warr OLE_FILETYPE
  ++ w32 0 ++ w32 0 ++ w32 0 ++ w32 0           (* UK1, UK2, UK2b, UK3 *)
  ++ w16 62 ++ w16 3 ++ w16 (-2)                (* UK4, UK5, UK6 *)
  ++ w16 9 ++ w32 6                             (* LOG2 block sizes *)
  ++ w32 0 ++ w32 0                             (* UK7, UK8 *)
  ++ w32 (bat_count bks)
  ++ w32 (msat_count bks + total_data_blocks + bat_count bks)
  ++ w32 0 ++ w32 4096                          (* UK9, UK10 *)
  ++ w32 (-2) ++ w32 0                          (* SBAT *)
  ++ w32 (if msat_count bks =? 0 then -2 else 0)
  ++ w32 (msat_count bks)
  ++ flat_map w32 (zseq sectorID (Z.to_nat (header_bat_count bks)))
  ++ flat_map w32 (repeat BAT_NOT_USED (Z.to_nat (header_fill bks)))
  ++ flat_map w32 (extra_loop (Z.to_nat (extra_bat_count bks)) 1 (extra_bat_count bks)
                     (sectorID + header_bat_count bks) 1)
  ++ (if extra_fill bks =? 0 then []
      else flat_map w32 (repeat BAT_NOT_USED (Z.to_nat (extra_fill bks))) ++ w32 BAT_END_CHAIN).

(** A directory node (COleProp, oleprop.h 136-166).  [op_data] are the store units of
    the attached CDataStorage, [None] for NULL.  Time stamps are all 0
    (PPT_DFLT_*, systype.h) and are not stored. *)
Record oprop := mkProp {
  op_index : Z;
  op_name : list Z;
  op_type : Z;
  op_color : Z;
  op_prev : Z;
  op_next : Z;
  op_child : Z;
  op_start : Z;
  op_size : Z;
  op_data : option (list (list Z))
}.

Definition PTYPE_DIRECTORY := 1.
Definition PTYPE_FILE := 2.
Definition PTYPE_ROOT := 5.
Definition PLINK_EMPTY := -1.
Definition PBLOCK_END := -2.

(** CDataStorage::GetDataSize of a node (datast.cpp 152-155: the running total of the
    sizes of the units added). *)
Definition units_size (us : list (list Z)) : Z := fold_right (fun u n => zlen u + n) 0 us.
Definition op_data_size (p : oprop) : option Z :=
  match op_data p with None => None | Some us => Some (units_size us) end.

(** COleDoc::DumpData, oledoc.cpp 197-220: all units of all file nodes in index order. *)
Definition dump_data (nodes : list oprop) : chunks :=
  flat_map (fun p => if op_type p =? PTYPE_FILE
                     then match op_data p with Some us => us | None => [] end
                     else []) nodes.

(** oledoc.cpp 242-265: chain of each node, and the start block stored in it.  A node
    without data pointer is a NULL dereference, a node with less than one sector makes
    chain_len wrap to SIZE_MAX: both are [UB]. *)
Fixpoint dump_chains (nodes : list oprop) (bat_index : Z) : res (list Z * list oprop * Z) :=
  match nodes with
  | [] => Ok ([], [], bat_index)
  | p :: t =>
      match op_data_size p with
      | None => UB
      | Some sz =>
          if sz / BIG_BLOCK_SIZE <? 1 then UB else
          let chain_len := sz / BIG_BLOCK_SIZE - 1 in
          let words := zseq (bat_index + 1) (Z.to_nat chain_len) ++ [BAT_END_CHAIN] in
          let p' := mkProp (op_index p) (op_name p) (op_type p) (op_color p) (op_prev p)
                      (op_next p) (op_child p) bat_index (op_size p) (op_data p) in
          let* (ws, ps, bi) := dump_chains t (bat_index + chain_len + 1) in
          Ok (words ++ ws, p' :: ps, bi)
      end
  end.

(** COleDoc::DumpDepots, oledoc.cpp 222-307; includes the final assertion
    bat_entries == _bat_entries. *)
Definition dump_depots (bks : blocks) (nodes : list oprop) : res (chunks * list oprop) :=
  let* (ws, ps, bi) := dump_chains nodes (msat_count bks) in
  let words := repeat BAT_MSAT_PLACE (Z.to_nat (msat_count bks)) ++ ws
               ++ repeat BAT_SELF_PLACE (Z.to_nat (bat_count bks)) ++ [BAT_END_CHAIN] in
  let num_indexes := bi + bat_count bks + 1 in
  let to_fill := (BIG_BLOCK_SIZE - (4 * num_indexes) mod BIG_BLOCK_SIZE) mod BIG_BLOCK_SIZE in
  let* _ := xl_assert (bat_entries bks =? zlen words) in
  Ok (flat_map w32 words ++ wfix 255 to_fill, ps).

(** COleDoc::GetUnicodeName, oledoc.cpp 439-457. *)
Definition unicode_name (name : list Z) : list Z :=
  let n := if 32 <? zlen name then firstn 32 name else name in
  flat_map (fun c => [byte_k 0 c; 0]) n ++ [0; 0].

(** COleDoc::DumpNode, oledoc.cpp 459-522. *)
Definition dump_node (p : oprop) : res chunks :=
  let nm := unicode_name (op_name p) in
  let* _ := xl_assert (zlen nm <? 64) in
  Ok (warr nm ++ wfix 0 (64 - zlen nm)
      ++ w16 (zlen nm)
      ++ w8 (op_type p) ++ w8 (op_color p)
      ++ w32 (op_prev p) ++ w32 (op_next p) ++ w32 (op_child p)
      ++ wfix 0 20
      ++ w32 0 ++ w32 0 ++ w32 0 ++ w32 0
      ++ w32 (op_start p)
      ++ w32 (if op_type p =? PTYPE_FILE then op_size p else 0)
      ++ w32 0).

Fixpoint dump_nodes (ps : list oprop) : res chunks :=
  match ps with
  | [] => Ok []
  | p :: t => let* a := dump_node p in let* b := dump_nodes t in Ok (a ++ b)
  end.

(** ------------------------------------------------------------------ *)
(** Directory tree: olefs.cpp                                           *)

Inductive otree := OT (p : oprop) (kids : list otree).
Definition ot_prop (t : otree) : oprop := match t with OT p _ => p end.
Definition ot_kids (t : otree) : list otree := match t with OT _ k => k end.

Definition FS_NO_ERRORS := 0.
Definition FS_INVALID_PATH := -1.
Definition FS_NODE_ALREADY_EXISTS := -2.
Definition FS_NODE_NOT_A_DIRECTORY := -3.

Definition name_eqb (a b : list Z) : bool := if list_eq_dec Z.eq_dec a b then true else false.

(** COleFileSystem::COleFileSystem, olefs.cpp 48-65. "Root Entry" *)
Definition root_name : list Z := [82; 111; 111; 116; 32; 69; 110; 116; 114; 121].
Definition fs_root : oprop :=
  mkProp 0 root_name PTYPE_ROOT 1 PLINK_EMPTY PLINK_EMPTY PLINK_EMPTY PBLOCK_END 0 None.
Record ofs := mkFs { fs_tree : otree; fs_count : Z }.
Definition fs_new : ofs := mkFs (OT fs_root []) 0.

(** stringtok, stringtok.h 85-135; [isws c] is strchr(ws,c) != NULL, which also holds for
    the terminating NUL.  Greedy words separated by separator characters. *)
Definition isws (ws : list Z) (c : Z) : bool := existsb (Z.eqb c) ws || (c =? 0).
(** Fuelled by the input length; a word always starts with the current character (the
    j = i+1 start of the inner loop). *)
Fixpoint span_word (ws : list Z) (s : list Z) : list Z * list Z :=
  match s with
  | [] => ([], [])
  | c :: t => if isws ws c then ([], s) else let (w, r) := span_word ws t in (c :: w, r)
  end.
Fixpoint skip_ws (ws : list Z) (s : list Z) : list Z :=
  match s with
  | [] => []
  | c :: t => if isws ws c then skip_ws ws t else s
  end.
Fixpoint stringtok (fuel : nat) (ws : list Z) (s : list Z) : list (list Z) :=
  match fuel with
  | O => []
  | S fuel =>
      match skip_ws ws s with
      | [] => []
      | c :: t =>
          let (w, r) := span_word ws t in
          (c :: w) :: stringtok fuel ws (tl r)     (* i = j+1 skips the separator *)
      end
  end.
Definition split_path (s : list Z) : list (list Z) := stringtok (S (length s)) [47] s.

Definition set_links (p : oprop) (prev next child : Z) : oprop :=
  mkProp (op_index p) (op_name p) (op_type p) (op_color p) prev next child (op_start p)
    (op_size p) (op_data p).
Definition set_next (p : oprop) (next : Z) : oprop := set_links p (op_prev p) next (op_child p).
Definition set_child (p : oprop) (child : Z) : oprop := set_links p (op_prev p) (op_next p) child.

(** COleProp::COleProp(index, name), oleprop.cpp 66-87. *)
Definition new_prop (index : Z) (name : list Z) : oprop :=
  mkProp index name 0 0 0 0 0 0 0 None.

(** Set the next index of the last child. *)
Fixpoint set_last_next (kids : list otree) (n : Z) : list otree :=
  match kids with
  | [] => []
  | [OT p k] => [OT (set_next p n) k]
  | t :: r => t :: set_last_next r n
  end.

(** The creation branch of AddNode, olefs.cpp 228-258. *)
Definition create_child (base : otree) (name : list Z) (count : Z) : Z * otree * Z :=
  match base with
  | OT bp kids =>
      if ((op_type bp =? PTYPE_DIRECTORY) || (op_type bp =? PTYPE_ROOT))%bool then
        let idx := count + 1 in
        match kids with
        | [] =>
            (FS_NO_ERRORS,
             OT (set_child bp idx)
                [OT (set_links (new_prop idx name) PLINK_EMPTY PLINK_EMPTY PLINK_EMPTY) []], idx)
        | [k1] =>
            (FS_NO_ERRORS,
             OT (set_child bp idx)
                [k1; OT (set_links (new_prop idx name) (op_index (ot_prop k1)) PLINK_EMPTY PLINK_EMPTY) []], idx)
        | _ =>
            (FS_NO_ERRORS,
             OT bp (set_last_next kids idx
                    ++ [OT (set_links (new_prop idx name) PLINK_EMPTY PLINK_EMPTY PLINK_EMPTY) []]), idx)
        end
      else (FS_NODE_NOT_A_DIRECTORY, base, count)
  end.

(** COleFileSystem::AddNode, olefs.cpp 200-261.  With an exhausted path and a non-empty
    child list the code dereferences path_list.begin() of an empty list: [UB]. *)
Fixpoint add_node (path : list (list Z)) (base : otree) (count : Z) {struct path} :
  res (Z * otree * Z) :=
  match path with
  | [] => match ot_kids base with
          | [] => Ok (FS_NODE_ALREADY_EXISTS, base, count)
          | _ :: _ => UB
          end
  | name :: rest =>
      let fix go (pre : list otree) (kids : list otree) : res (Z * otree * Z) :=
        match kids with
        | [] =>
            match rest with
            | [] => Ok (create_child base name count)
            | _ :: _ => Ok (FS_INVALID_PATH, base, count)
            end
        | k :: ks =>
            if name_eqb (op_name (ot_prop k)) name then
              let* (e, k', c) := add_node rest k count in
              Ok (e, OT (ot_prop base) (rev pre ++ k' :: ks), c)
            else go (k :: pre) ks
        end in
      go [] (ot_kids base)
  end.

(** The node reached by SearchNode (olefs.cpp 87-109) is modified in place.  The search
    tries each remaining path element against the children, but always pops the first. *)
Definition find_kid (path : list (list Z)) (kids : list otree) : option nat :=
  let fix outer (ns : list (list Z)) : option nat :=
    match ns with
    | [] => None
    | n :: ns' =>
        let fix inner (i : nat) (ks : list otree) : option nat :=
          match ks with
          | [] => None
          | k :: ks' => if name_eqb n (op_name (ot_prop k)) then Some i else inner (S i) ks'
          end in
        match inner O kids with Some i => Some i | None => outer ns' end
    end in
  outer path.

Fixpoint modify_at (path : list (list Z)) (f : oprop -> oprop) (base : otree) : option otree :=
  match path with
  | [] => None
  | _ :: rest =>
      match find_kid path (ot_kids base) with
      | None => None
      | Some i =>
          match nth_error (ot_kids base) i with
          | None => None
          | Some k =>
              match rest with
              | [] => Some (OT (ot_prop base) (upd i (OT (f (ot_prop k)) (ot_kids k)) (ot_kids base)))
              | _ :: _ =>
                  match modify_at rest f k with
                  | None => None
                  | Some k' => Some (OT (ot_prop base) (upd i k' (ot_kids base)))
                  end
              end
          end
      end
  end.

(** Padding of AddFile, olefs.cpp 166-176: (trail_size, recorded size). *)
Definition MIN_DATA_SIZE := 4096.
Definition trail_and_size (sz : Z) : Z * Z :=
  let trail := if sz mod BIG_BLOCK_SIZE =? 0 then 0 else BIG_BLOCK_SIZE - sz mod BIG_BLOCK_SIZE in
  if trail + sz <? MIN_DATA_SIZE then (MIN_DATA_SIZE - sz, MIN_DATA_SIZE)
  else (trail, sz + trail).

(** COleFileSystem::AddFile, olefs.cpp 145-191. *)
Definition add_file (fs : ofs) (path : list Z) (units : list (list Z)) : res (Z * ofs) :=
  let toks := split_path path in
  let* (e, t, c) := add_node toks (fs_tree fs) (fs_count fs) in
  if e =? FS_NO_ERRORS then
    let '(trail, size) := trail_and_size (units_size units) in
    let data := units ++ [repeat 0 (Z.to_nat trail)] in
    match modify_at toks
            (fun p => mkProp (op_index p) (op_name p) PTYPE_FILE 1 (op_prev p) (op_next p)
                        PLINK_EMPTY (op_start p) size (Some data)) t with
    | Some t' => Ok (e, mkFs t' c)
    | None => UB
    end
  else Ok (e, mkFs t c).

(** COleFileSystem::AddDirectory, olefs.cpp 111-139. *)
Definition add_directory (fs : ofs) (path : list Z) : res (Z * ofs) :=
  let toks := split_path path in
  let* (e, t, c) := add_node toks (fs_tree fs) (fs_count fs) in
  if e =? FS_NO_ERRORS then
    match modify_at toks
            (fun p => mkProp (op_index p) (op_name p) PTYPE_DIRECTORY 1 (op_prev p) (op_next p)
                        PLINK_EMPTY (op_start p) 0 None) t with
    | Some t' => Ok (e, mkFs t' c)
    | None => UB
    end
  else Ok (e, mkFs t c).

(** GetAllNodesList (post-order) and SortList, olefs.cpp 263-291. *)
Fixpoint all_nodes_list (t : otree) : list oprop :=
  match t with
  | OT _ kids =>
      (fix go (ks : list otree) : list oprop :=
         match ks with
         | [] => []
         | k :: r => all_nodes_list k ++ ot_prop k :: go r
         end) kids
  end.
Fixpoint insert_prop (p : oprop) (l : list oprop) : list oprop :=
  match l with
  | [] => [p]
  | q :: r => if op_index p <=? op_index q then p :: l else q :: insert_prop p r
  end.
Definition sort_props (l : list oprop) : list oprop := fold_right insert_prop [] l.
Definition get_all_nodes (fs : ofs) : list oprop := sort_props (all_nodes_list (fs_tree fs)).

(** GetTotalDataSize, olefs.cpp 293-305. *)
Definition total_data_size (nodes : list oprop) : Z :=
  fold_right (fun p n => (if op_type p =? PTYPE_FILE
                          then match op_data_size p with Some s => s | None => 0 end
                          else 0) + n) 0 nodes.

(** ------------------------------------------------------------------ *)
(** DumpOleFile, oledoc.cpp 330-353, when every write succeeds: the bytes of the file.
    Position() is tellp() truncated to 32 bits (binfile.cpp 70-78). *)
Definition pos_of (cs : chunks) : Z := zlen (concat cs) mod 2 ^ 32.

Definition dump_ole_chunks (fs : ofs) : res chunks :=
  let nodes := get_all_nodes fs in
  let total := total_data_size nodes in
  match get_bat_count total with
  | None => UB                                  (* non-terminating sizing loop *)
  | Some bks =>
      let* _ := xl_assert (total =? total / BIG_BLOCK_SIZE * BIG_BLOCK_SIZE) in (* 366 *)
      let c1 := dump_header bks total in
      let* _ := xl_assert (pos_of c1 =? HEAD_SIZE + msat_count bks * BIG_BLOCK_SIZE) in (* 192 *)
      let* _ := xl_assert (pos_of c1 mod 512 =? 0) in
      let c2 := c1 ++ dump_data nodes in
      let* _ := xl_assert (pos_of c2 mod 512 =? 0) in
      let* (dc, ps) := dump_depots bks nodes in
      let c3 := c2 ++ dc in
      let* _ := xl_assert (pos_of c3 mod 512 =? 0) in
      let* fc := dump_nodes (ot_prop (fs_tree fs) :: ps) in
      let c4 := c3 ++ fc in
      let* _ := xl_assert (pos_of c4 mod 512 =? 0) in
      Ok c4
  end.
Definition dump_ole (fs : ofs) : res (list Z) :=
  let* cs := dump_ole_chunks fs in Ok (concat cs).

(** The stream names of workbook::Dump, /repo/xlslib/src/xlslib/workbook.cpp 260-334:
    "/Workbook", "\005SummaryInformation", "\005DocumentSummaryInformation". *)
Definition name_workbook : list Z := [87; 111; 114; 107; 98; 111; 111; 107].
Definition name_summary : list Z :=
  [5; 83; 117; 109; 109; 97; 114; 121; 73; 110; 102; 111; 114; 109; 97; 116; 105; 111; 110].
Definition name_docsummary : list Z :=
  [5; 68; 111; 99; 117; 109; 101; 110; 116; 83; 117; 109; 109; 97; 114; 121;
   73; 110; 102; 111; 114; 109; 97; 116; 105; 111; 110].

(** workbook::Dump 316-328 ignores the codes returned by AddFile. *)
Definition add_three_at (q1 q2 q3 : list Z) (us1 us2 us3 : list (list Z)) : res ofs :=
  let* (_, f1) := add_file fs_new q1 us1 in
  let* (_, f2) := add_file f1 q2 us2 in
  let* (_, f3) := add_file f2 q3 us3 in
  Ok f3.

(** The file image of workbook::Dump given the units of the three streams. *)
Definition ole_image_at (q1 q2 q3 : list Z) (us1 us2 us3 : list (list Z)) : res (list Z) :=
  let* fs := add_three_at q1 q2 q3 us1 us2 us3 in dump_ole fs.
Definition ole_image (us1 us2 us3 : list (list Z)) : res (list Z) :=
  ole_image_at (47 :: name_workbook) name_summary name_docsummary us1 us2 us3.
