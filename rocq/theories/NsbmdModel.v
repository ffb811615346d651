(** * Model of ndspy/model.py

    A file name or model name is the list of its latin-1 codes.  What _parseMDL0
    reads and drops (unknown values, bounding boxes, materials' names and so on) is
    read here too, so that the same files are refused, and dropped as well.  The
    warning printed for unknown geometry commands is not modelled. *)
From Coq Require Import String.
From Verif Require Import PyBase CommonModel WaveModel ColorModel SbnkModel TexModel.

(** ** Geometry commands (model.py:396-745): the parameter counts of the classes in
    _COMMANDS_BY_ID, by ID *)
Definition param_counts : list (Z * Z) :=
  [(0x00, 0); (0x10, 1); (0x11, 0); (0x12, 1); (0x13, 1); (0x14, 1); (0x15, 0); (0x16, 16); (0x17, 12); (0x18, 16); (0x19, 12);
   (0x1A, 9); (0x1B, 3); (0x1C, 3); (0x20, 1); (0x21, 1); (0x22, 1); (0x23, 2); (0x24, 1); (0x25, 1); (0x26, 1); (0x27, 1);
   (0x28, 1); (0x29, 1); (0x2A, 1); (0x2B, 1); (0x30, 1); (0x31, 1); (0x32, 1); (0x33, 1); (0x34, 32); (0x40, 1); (0x41, 0);
   (0x50, 1); (0x60, 1); (0x70, 3); (0x71, 2); (0x72, 3)].
(** _COMMANDS_BY_ID.get(id) (model.py:280, 704-745) *)
Fixpoint command_by_id (t : list (Z * Z)) (id : Z) : option (Z * Z) :=
  match t with [] => None | p :: r => if fst p =? id then Some p else command_by_id r id end.
(** a command object is known by its class: that of an ID, or the base class *)
Inductive command : Type := Known (id : Z) | Unknown.

(** the inner loop of _parseDisplayList (model.py:277-293): the commands of one group
    of IDs, and i after it.  The parameters are cut out and dropped by fromData *)
Fixpoint dl_group (ids : bytes) (i : Z) : list command * Z :=
  match ids with
  | [] => ([], i)
  | id :: r =>
      let '(cmd, paramCount) := match command_by_id param_counts id with None => (Unknown, 0) | Some p => (Known (fst p), snd p) end in
      let '(cmds, i) := dl_group r (i + 4 * paramCount) in
      (cmd :: cmds, i)
  end.
(** _parseDisplayList (model.py:268-294) *)
Fixpoint dl_loop (fuel : nat) (data : bytes) (i : Z) : res (list command) :=
  match fuel with
  | O => Err OutOfFuel
  | S k =>
      if i <? zlen data then
        let '(cmds, i) := dl_group (slice data i (i + 4)) (i + 4) in
        r <- dl_loop k data i ;; Ok (cmds ++ r)
      else Ok []
  end.
Definition parseDisplayList (data : bytes) : res (list command) := dl_loop (S (length data)) data 0.

(** ** MDL0 (model.py:72-265) *)

(** a loop reading the words of a table, '<I' or '<HBx', at off, off + 4, ... *)
Definition words (data : bytes) (off count : Z) : res (list Z) := mapM (fun i => unpack_u 4 data (off + 4 * i)) (range_z 0 (Z.to_nat count)).
(** '<HH' pairs of unknown values *)
Definition skip_pairs (data : bytes) (off count : Z) : res unit :=
  _ <- mapM (fun i => _ <- unpack_u 2 data (off + 4 * i) ;; unpack_u 2 data (off + 4 * i + 2)) (range_z 0 (Z.to_nat count)) ;; Ok tt.
Definition table_names (data : bytes) (off count : Z) : list bytes :=
  map (fun i => rstrip 0 (slice data (off + 16 * i) (off + 16 * i + 16))) (range_z 0 (Z.to_nat count)).
(** the tables of materials (model.py:124-151), textures (model.py:153-180),
    palettes (model.py:182-209) and polygons (model.py:221-248): the words, the names and the offset after *)
Definition read_table (data : bytes) (off : Z) : res (list Z * list bytes * Z) :=
  _ <- rd data off 1 ;;
  count <- unpack_u 1 data (off + 1) ;;
  _ <- unpack_u 2 data (off + 2) ;;
  let off := off + 4 in
  hl <- unpack_u 2 data off ;;
  _ <- unpack_u 2 data (off + 2) ;;
  unk04 <- unpack_u 4 data (off + 4) ;;
  let off := off + 8 in
  _ <- guard (hl =? 8) AssertionError ;;
  _ <- guard (unk04 =? 0x17F) AssertionError ;;
  _ <- skip_pairs data off count ;;
  let off := off + 4 * count in
  each <- unpack_u 2 data off ;;
  _ <- unpack_u 2 data (off + 2) ;;
  let off := off + 4 in
  _ <- guard (each =? 4) AssertionError ;;
  ws <- words data off count ;;
  let off := off + 4 * count in
  Ok (ws, table_names data off count, off + 16 * count).
(** one polygon (model.py:250-256) *)
Definition read_polygon (data : bytes) (base : Z) (polyOffset : Z) : res (list command) :=
  let o := base + polyOffset in
  _ <- unpack_u 4 data o ;;
  _ <- unpack_u 4 data (o + 4) ;;
  dlOff <- unpack_u 4 data (o + 8) ;;
  dlLen <- unpack_u 4 data (o + 12) ;;
  parseDisplayList (slice data (o + dlOff) (o + dlOff + dlLen)).
(** one model (model.py:104-261); the result is dropped: "model = None" *)
Definition read_model (data : bytes) (modelOff : Z) : res unit :=
  _ <- rd data modelOff 64 ;;
  materialsOffset <- unpack_u 4 data (modelOff + 8) ;;
  polygonsBeginOffset <- unpack_u 4 data (modelOff + 12) ;;
  let off := modelOff + materialsOffset + 4 in
  ' (_, _, off) <- read_table data off ;;
  ' (_, _, off) <- read_table data off ;;
  ' (_, _, off) <- read_table data off ;;
  let off := modelOff + polygonsBeginOffset in
  ' (polyOffsets, _, _) <- read_table data off ;;
  _ <- mapM (read_polygon data off) polyOffsets ;;
  Ok tt.
(** _parseMDL0 (model.py:72-265): self.models, without the None of each pair *)
Definition parse_mdl0 (data : bytes) : res (list bytes) :=
  _ <- guard (prefixb (asc "MDL0") data) AssertionError ;;
  _ <- rd data 8 1 ;;
  count <- unpack_u 1 data 9 ;;
  _ <- unpack_u 2 data 10 ;;
  let off := 0x0C in
  hl <- unpack_u 2 data off ;;
  _ <- unpack_u 2 data (off + 2) ;;
  unk04 <- unpack_u 4 data (off + 4) ;;
  _ <- guard (hl =? 8) AssertionError ;;
  _ <- guard (unk04 =? 0x17F) AssertionError ;;
  _ <- skip_pairs data (off + 8) count ;;
  let off := off + 8 + 4 * count in
  _ <- unpack_u 2 data off ;;
  _ <- unpack_u 2 data (off + 2) ;;
  modelOffsets <- words data (off + 4) count ;;
  let names := table_names data (off + 4 + 4 * count) count in
  _ <- mapM (read_model data) modelOffsets ;;
  Ok names.

(** ** NSBMD *)

(** the attributes: [nMDL0] and [nModels] do not exist before an MDL0 block is read;
    the texture attributes are those of a TEX0 block *)
Record nsbmd := { nMDL0 : option bytes; nModels : option (list bytes); nTex : tex0 }.
(** the constructor without data (model.py:29-40) *)
Definition nsbmd_new : nsbmd :=
  {| nMDL0 := None; nModels := None; nTex := {| x08 := 0; x10 := 0; x18 := 0; x20 := 0; x2C := 0; x32 := 0; xTextures := []; xPalettes := [] |} |}.
(** one block (model.py:59-69, with _parseTEX0, model.py:297-311) *)
Definition read_block (data : bytes) (m : nsbmd) (off : Z) : res nsbmd :=
  magic <- rd data off 4 ;;
  len <- unpack_u 4 data (off + 4) ;;
  let block := slice data off (off + len) in
  if beq magic (asc "MDL0") then
    names <- parse_mdl0 block ;;
    Ok {| nMDL0 := Some block; nModels := Some names; nTex := nTex m |}
  else if beq magic (asc "TEX0") then
    _ <- guard (prefixb (asc "TEX0") block) AssertionError ;;
    t <- readTEX0 block ;;
    Ok {| nMDL0 := nMDL0 m; nModels := nModels m; nTex := t |}
  else Err ValueError.
(** _initFromData (model.py:46-69) *)
Definition nsbmd_load (data : bytes) : res nsbmd :=
  _ <- guard (prefixb (asc "BMD0") data) ValueError ;;
  h <- std_unpack data ;;
  _ <- guard (hVersion h =? 2) ValueError ;;
  offs <- words data 0x10 (hBlocks h) ;;
  foldM (read_block data) nsbmd_new offs.
(** save (model.py:337-362, with _saveMDL0 and _saveTEX0, model.py:314-334) *)
Definition nsbmd_save (m : nsbmd) : res bytes :=
  match nMDL0 m with
  | None => Err AttributeError
  | Some mdl =>
      tex <- saveTEX0 (nTex m) ;;
      o1 <- pack_u 4 0x18 ;;
      o2 <- pack_u 4 (0x18 + zlen mdl) ;;
      h <- std_pack (asc "BMD0") 2 (0x18 + zlen mdl + zlen tex) 2 ;;
      Ok (h ++ o1 ++ o2 ++ mdl ++ tex)
  end.
(** exportNSBTX (model.py:365-377) and importNSBTX (model.py:380-392); an NSBTX's
    attributes are those of its TEX0 block *)
Definition exportNSBTX (m : nsbmd) : tex0 := nTex m.
Definition importNSBTX (m : nsbmd) (x : tex0) : nsbmd := {| nMDL0 := nMDL0 m; nModels := nModels m; nTex := x |}.
