(** * A reader of Python expressions, written independently of the printer

    The fragment: integers, str and bytes literals, names, the ellipsis, lists, tuples,
    sets, calls and keyword arguments. *)
From Coq Require Import String.
From Verif Require Import PyBase TextSpec SeqTextSpec.
From Verif Require BnModel ColorModel FntModel FntSpec NarcModel CodeModel BmgModel TexModel WaveModel SsarModel SdatModel.

Inductive value : Type :=
| VInt (n : Z)
| VStr (s : list Z)
| VBytes (b : bytes)
| VWord (w : list Z)
| VDots
| VList (l : list value)
| VTuple (l : list value)
| VSet (l : list value)
| VCall (f : list Z) (args : list value)
| VNamed (k : list Z) (v : value).

(** ** literals *)

(** an integer without sign: decimal without leading zeros, or hexadecimal *)
Definition nat_literal (s : list Z) : option Z :=
  match s with
  | 48 :: 120 :: r => match r with [] => None | _ => hexes 0 r end
  | 48 :: [] => Some 0
  | 48 :: _ => None
  | _ => numeral s
  end.
Definition int_literal (s : list Z) : option Z :=
  match s with 45 :: r => option_map Z.opp (nat_literal r) | _ => nat_literal s end.

(** a str literal after its opening quote [q], to its closing quote *)
Definition skeep (c : Z) (o : option (list Z)) : option (list Z) := if (0 <=? c) && (c <? 0x110000) then option_map (cons c) o else None.
Fixpoint str_quoted (q : Z) (s : list Z) : option (list Z) :=
  match s with
  | [] => None
  | c :: r =>
    if c =? q then match r with [] => Some [] | _ => None end
    else if c =? 92 then
      match r with
      | [] => None
      | d :: r1 =>
        if d =? 120 then
          match r1 with
          | a :: b :: r2 => obind (hexes 0 [a; b]) (fun v => skeep v (str_quoted q r2))
          | _ => None
          end
        else if d =? 117 then
          match r1 with
          | a :: b :: e :: f :: r2 => obind (hexes 0 [a; b; e; f]) (fun v => skeep v (str_quoted q r2))
          | _ => None
          end
        else if d =? 85 then
          match r1 with
          | a :: b :: e :: f :: a2 :: b2 :: e2 :: f2 :: r2 => obind (hexes 0 [a; b; e; f; a2; b2; e2; f2]) (fun v => skeep v (str_quoted q r2))
          | _ => None
          end
        else if d =? 110 then skeep 10 (str_quoted q r1)
        else if d =? 114 then skeep 13 (str_quoted q r1)
        else if d =? 116 then skeep 9 (str_quoted q r1)
        else if (d =? 92) || (d =? 39) || (d =? 34) then skeep d (str_quoted q r1)
        else None
      end
    else if (c =? 10) || (c =? 13) then None
    else skeep c (str_quoted q r)
  end.
(** the text up to and including the closing quote, and what follows *)
Fixpoint close_quote (q : Z) (s : list Z) : option (list Z * list Z) :=
  match s with
  | [] => None
  | c :: r =>
    if c =? q then Some ([c], r)
    else if c =? 92 then match r with d :: r1 => option_map (fun p => (c :: d :: fst p, snd p)) (close_quote q r1) | [] => None end
    else option_map (fun p => (c :: fst p, snd p)) (close_quote q r)
  end.

(** ** expressions *)

Definition is_quote (c : Z) : bool := (c =? 39) || (c =? 34).
Definition letter (c : Z) : bool := ((65 <=? c) && (c <=? 90)) || ((97 <=? c) && (c <=? 122)) || (c =? 95).
(** the characters of names with dots, and of numbers *)
Definition wordchar (c : Z) : bool := letter c || digit c || (c =? 46).
Fixpoint span (p : Z -> bool) (s : list Z) : list Z * list Z :=
  match s with
  | c :: r => if p c then (c :: fst (span p r), snd (span p r)) else ([], s)
  | [] => ([], [])
  end.
(** [parse] reads an expression or keyword argument, [more] at least one of them,
    separated by commas, up to [close]; both give the text that is left *)
Fixpoint parse (fuel : nat) (s : list Z) : option (value * list Z) :=
  match fuel with
  | O => None
  | S k =>
    let items close r := match r with
                         | c :: t => if c =? close then Some ([], t) else more k close r
                         | [] => None
                         end in
    match s with
    | [] => None
    | c :: r =>
      if c =? 91 then option_map (fun p => (VList (fst p), snd p)) (items 93 r)
      else if c =? 40 then option_map (fun p => (match fst p with [v] => v | l => VTuple l end, snd p)) (items 41 r)
      else if c =? 123 then obind (items 125 r) (fun p => match fst p with [] => None | l => Some (VSet l, snd p) end)
      else if is_quote c then obind (close_quote c r) (fun p => option_map (fun d => (VStr d, snd p)) (str_quoted c (fst p)))
      else if (c =? 98) && is_quote (hd 0 r) then
        obind (close_quote (hd 0 r) (tl r)) (fun p => option_map (fun d => (VBytes d, snd p)) (lit_quoted (hd 0 r) (fst p)))
      else if (c =? 45) || digit c then
        option_map (fun n => (VInt n, snd (span wordchar r))) (int_literal (c :: fst (span wordchar r)))
      else if c =? 46 then option_map (fun t => (VDots, t)) (after [46; 46] r)
      else if letter c then
        let '(w, t) := span wordchar s in
        if hd 0 t =? 40 then option_map (fun p => (VCall w (fst p), snd p)) (items 41 (tl t))
        else if hd 0 t =? 61 then option_map (fun p => (VNamed w (fst p), snd p)) (parse k (tl t))
        else Some (VWord w, t)
      else None
    end
  end
with more (fuel : nat) (close : Z) (s : list Z) : option (list value * list Z) :=
  match fuel with
  | O => None
  | S k =>
    obind (parse k s) (fun p =>
      match snd p with
      | [] => None
      | d :: t =>
        if d =? close then Some ([fst p], t)
        else if d =? 44 then option_map (fun q => (fst p :: fst q, snd q)) (more k close (strip_space t))
        else None
      end)
  end.
(** the expression a text is *)
Definition expr (s : list Z) : option value :=
  match parse (S (S (2 * length s))) s with Some (v, []) => Some v | _ => None end.

(** ** arguments of a call *)

(** arguments without names come first *)
Fixpoint split_args (args : list value) : option (list value * list (list Z * value)) :=
  match args with
  | [] => Some ([], [])
  | VNamed k v :: r => obind (split_args r) (fun p => match fst p with [] => Some ([], (k, v) :: snd p) | _ => None end)
  | v :: r => option_map (fun p => (v :: fst p, snd p)) (split_args r)
  end.
Fixpoint distinct (l : list (list Z)) : bool :=
  match l with [] => true | x :: r => negb (existsb (beq x) r) && distinct r end.
(** the values of the parameters with these names, of which [npos] can be given by position *)
Definition bind_args (npos : nat) (names : list (list Z)) (args : list value) : option (list (option value)) :=
  obind (split_args args) (fun p =>
    let rest := skipn (length (fst p)) names in
    if (length (fst p) <=? npos)%nat && distinct (map fst (snd p)) && forallb (fun k => existsb (beq k) rest) (map fst (snd p))
    then Some (map Some (fst p) ++ map (fun n => find_text n (snd p)) rest)
    else None).

Definition as_int (v : value) : option Z := match v with VInt n => Some n | _ => None end.
Definition as_str (v : value) : option (list Z) := match v with VStr s => Some s | _ => None end.
Definition as_bytes (v : value) : option bytes := match v with VBytes b => Some b | _ => None end.
Definition as_bool (v : value) : option bool :=
  match v with VWord w => if beq w (asc "True") then Some true else if beq w (asc "False") then Some false else None | _ => None end.
Definition as_list {A} (f : value -> option A) (v : value) : option (list A) := match v with VList l => all_some (map f l) | _ => None end.
(** an argument that may be left out *)
Definition or_else {A} (d : A) (f : value -> option A) (v : option value) : option A := match v with Some v => f v | None => Some d end.
(** the arguments of a call of [f] *)
Definition call_of (f : list Z) (v : value) : option (list value) :=
  match v with VCall g args => if beq g f then Some args else None | _ => None end.

(** ** the objects that expressions denote *)

(** Folder(folders, files, firstID) *)
Fixpoint eval_folder (v : value) : option FntModel.folder :=
  match v with
  | VCall f [VList fs; files; VInt first] =>
      if beq f (asc "Folder") then
        obind ((fix go (l : list value) : option (list (list Z * FntModel.folder)) :=
                  match l with
                  | [] => Some []
                  | VTuple [VStr n; g] :: r => obind (eval_folder g) (fun g => option_map (cons (n, g)) (go r))
                  | _ => None
                  end) fs) (fun fs =>
        option_map (fun files => FntModel.Folder fs files first) (as_list as_str files))
      else None
  | _ => None
  end.
(** BNBLTouchArea(x, y, width, height, alignment), BNBL.fromTouchAreas(touchAreas, unk04=0) *)
Definition eval_area (v : value) : option BnModel.touchArea :=
  obind (call_of (asc "BNBLTouchArea") v) (fun args =>
  match args with
  | [VInt x; VInt y; VInt w; VInt h; VInt a] => Some {| BnModel.taX := x; BnModel.taY := y; BnModel.taW := w; BnModel.taH := h; BnModel.taAlign := a |}
  | _ => None
  end).
Definition eval_bnbl (v : value) : option BnModel.bnbl :=
  obind (call_of (asc "BNBL.fromTouchAreas") v) (fun args =>
  obind (bind_args 2 [asc "touchAreas"; asc "unk04"] args) (fun a =>
  match a with
  | [Some l; u] => obind (as_list eval_area l) (fun l => option_map (fun u => {| BnModel.blUnk04 := u; BnModel.blAreas := l |}) (or_else 0 as_int u))
  | _ => None
  end)).
(** BNCLImagePosition(x, y, alignment, imageID), BNCL.fromImagePositions(imagePositions, unk04=0) *)
Definition eval_position (v : value) : option BnModel.imagePosition :=
  obind (call_of (asc "BNCLImagePosition") v) (fun args =>
  match args with
  | [VInt x; VInt y; VInt a; VInt i] => Some {| BnModel.ipX := x; BnModel.ipY := y; BnModel.ipAlign := a; BnModel.ipImageID := i |}
  | _ => None
  end).
Definition eval_bncl (v : value) : option BnModel.bncl :=
  obind (call_of (asc "BNCL.fromImagePositions") v) (fun args =>
  obind (bind_args 2 [asc "imagePositions"; asc "unk04"] args) (fun a =>
  match a with
  | [Some l; u] => obind (as_list eval_position l) (fun l => option_map (fun u => {| BnModel.clUnk04 := u; BnModel.clPositions := l |}) (or_else 0 as_int u))
  | _ => None
  end)).
(** NARC.fromFilesAndNames(files, filenames) *)
Definition eval_narc (v : value) : option NarcModel.narc :=
  obind (call_of (asc "NARC.fromFilesAndNames") v) (fun args =>
  match args with
  | [files; names] => obind (as_list as_bytes files) (fun files => option_map (fun f => NarcModel.fromFilesAndNames files (Some f)) (eval_folder names))
  | _ => None
  end).
(** Section(data, ramAddress, bssSize, *, implicit=False) *)
Definition eval_section (v : value) : option CodeModel.section :=
  obind (call_of (asc "Section") v) (fun args =>
  obind (bind_args 3 [asc "data"; asc "ramAddress"; asc "bssSize"; asc "implicit"] args) (fun a =>
  match a with
  | [Some d; Some r; Some b; i] =>
      obind (as_bytes d) (fun d => obind (as_int r) (fun r => obind (as_int b) (fun b => obind (or_else false as_bool i) (fun i =>
        Some {| CodeModel.sData := d; CodeModel.sRam := r; CodeModel.sBss := b; CodeModel.sImplicit := i |}))))
  | _ => None
  end)).
(** MainCodeFile.fromSections(sections, ramAddress) *)
Definition eval_mcf (v : value) : option (list CodeModel.section * Z) :=
  obind (call_of (asc "MainCodeFile.fromSections") v) (fun args =>
  match args with
  | [l; r] => obind (as_list eval_section l) (fun l => option_map (pair l) (as_int r))
  | _ => None
  end).
(** Overlay(data, ramAddress, ramSize, bssSize, staticInitStart, staticInitEnd, fileID,
    compressedSize, flags): the constructor's arguments *)
Definition eval_overlay (v : value) : option (bytes * list Z) :=
  obind (call_of (asc "Overlay") v) (fun args =>
  match args with
  | d :: r => if (length r =? 8)%nat then obind (as_bytes d) (fun d => option_map (pair d) (all_some (map as_int r))) else None
  | _ => None
  end).
(** Escape(type, data), Message(info, stringParts, isNull=False) *)
Definition eval_part (v : value) : option BmgModel.part :=
  match v with
  | VStr s => Some (BmgModel.Txt s)
  | VCall f [VInt t; VBytes d] => if beq f (asc "Escape") then Some (BmgModel.Esc t d) else None
  | _ => None
  end.
Definition eval_message (v : value) : option BmgModel.message :=
  obind (call_of (asc "Message") v) (fun args =>
  obind (bind_args 3 [asc "info"; asc "stringParts"; asc "isNull"] args) (fun a =>
  match a with
  | [i; p; n] =>
      obind (or_else [] as_bytes i) (fun i => obind (or_else [] (as_list eval_part) p) (fun p => obind (or_else false as_bool n) (fun n =>
        Some (BmgModel.mkMessage i p n))))
  | _ => None
  end)).
Definition as_pair (v : value) : option (Z * Z) := match v with VTuple [VInt a; VInt b] => Some (a, b) | _ => None end.
(** BMG.fromMessages(messages, instructions=None, labels=None, scripts=None, *, id=0):
    messages, instructions, labels, scripts, id *)
Definition eval_bmg (v : value) : option (list BmgModel.message * list bytes * list (Z * Z) * list (Z * Z) * Z) :=
  obind (call_of (asc "BMG.fromMessages") v) (fun args =>
  obind (bind_args 4 [asc "messages"; asc "instructions"; asc "labels"; asc "scripts"; asc "id"] args) (fun a =>
  match a with
  | [Some m; i; l; s; id] =>
      obind (as_list eval_message m) (fun m => obind (or_else [] (as_list as_bytes) i) (fun i =>
      obind (or_else [] (as_list as_pair) l) (fun l => obind (or_else [] (as_list as_pair) s) (fun s =>
      obind (or_else 0 as_int id) (fun id => Some (m, i, l, s, id))))))
  | _ => None
  end)).
(** Texture(unk00, unk02, params, unk04, data1, data2) *)
Definition eval_texture (v : value) : option TexModel.texture :=
  obind (call_of (asc "Texture") v) (fun args =>
  match args with
  | [VInt a; VInt b; VInt p; VInt c; VBytes d1; VBytes d2] => Some (TexModel.tex_new a b p c d1 d2)
  | _ => None
  end).
(** Palette.fromColors(unk00, unk02, unkHeader02, colors) *)
Definition as_color (v : value) : option ColorModel.color :=
  match v with VTuple [VInt r; VInt g; VInt b; VInt a] => Some (ColorModel.C4 r g b a) | _ => None end.
Definition eval_palette (v : value) : option TexModel.palette :=
  obind (call_of (asc "Palette.fromColors") v) (fun args =>
  match args with
  | [VInt a; VInt b; VInt h; l] =>
      option_map (fun l => {| TexModel.pl00 := a; TexModel.pl02 := b; TexModel.plH02 := h; TexModel.plColors := l |}) (as_list as_color l)
  | _ => None
  end).
(** SequencePlayer(maxSequences, channels, heapSize) *)
Definition as_set (v : value) : option (list Z) :=
  match v with
  | VSet l => all_some (map as_int l)
  | VCall f [] => if beq f (asc "set") then Some [] else None
  | _ => None
  end.
Definition eval_player (v : value) : option SdatModel.player :=
  obind (call_of (asc "SequencePlayer") v) (fun args =>
  match args with
  | [VInt m; c; VInt h] => option_map (fun c => (m, c, h)) (as_set c)
  | _ => None
  end).
(** StreamPlayer(channels=None) *)
Definition eval_splayer (v : value) : option (list Z) :=
  obind (call_of (asc "StreamPlayer") v) (fun args =>
  match args with
  | [] => Some []
  | [l] => as_list as_int l
  | _ => None
  end).
(** SSARSequence(firstEvent_firstEventOffset, bankID=0, volume=127, channelPressure=64,
    polyphonicPressure=50, playerID=0, *, parsed=True), not parsed: the offset and the five numbers *)
Definition as_offset (v : value) : option (option Z) :=
  match v with VInt n => Some (Some n) | VWord w => if beq w (asc "None") then Some None else None | _ => None end.
Definition eval_aseq (v : value) : option (option Z * list Z) :=
  obind (call_of (asc "SSARSequence") v) (fun args =>
  obind (bind_args 6 [asc "firstEvent_firstEventOffset"; asc "bankID"; asc "volume"; asc "channelPressure"; asc "polyphonicPressure"; asc "playerID"; asc "parsed"] args) (fun a =>
  match a with
  | [Some f; b; v; c; p; y; parsed] =>
      obind (or_else true as_bool parsed) (fun parsed => if (parsed : bool) then None else
      obind (as_offset f) (fun f => option_map (pair f)
        (all_some [or_else 0 as_int b; or_else 127 as_int v; or_else 64 as_int c; or_else 50 as_int p; or_else 0 as_int y])))
  | _ => None
  end)).
(** STRM.fromChannels(channels, unk02=0, volume=127, priority=64, playerID=0, unk07=0) *)
Definition eval_strm (v : value) : option (list (list bytes) * list Z) :=
  obind (call_of (asc "STRM.fromChannels") v) (fun args =>
  match args with
  | c :: r => if (length r =? 5)%nat then obind (as_list (as_list as_bytes) c) (fun c => option_map (pair c) (all_some (map as_int r))) else None
  | _ => None
  end).
(** SSEQ(file), SSAR(file, names=...), SDAT(data): the data, with the names *)
Definition eval_file (f : list Z) (v : value) : option bytes :=
  obind (call_of f v) (fun args => match args with d :: _ => as_bytes d | [] => None end).

(** ** what can be printed in full *)

(** a str: code points *)
Definition is_text (s : list Z) : Prop := Forall (fun c => 0 <= c < 0x110000) s.
(** bytes that are not cut off and contain no apostrophe *)
Definition short (d : bytes) : Prop := is_bytes d /\ zlen d <= 32 /\ ~ In 39 d.
(** bytes that are cut off, without an apostrophe in the part that is shown *)
Definition long (d : bytes) : Prop := is_bytes d /\ 32 < zlen d /\ ~ In 39 (firstn 32 d).
Definition folder_texts (r : FntModel.folder) : Prop := forall g, FntSpec.folder_in g r ->
  Forall is_text (FntModel.fFiles g) /\ Forall (fun p => is_text (fst p)) (FntModel.fFolders g).
Definition section_ok (s : CodeModel.section) : Prop := short (CodeModel.sData s) /\ 0 <= CodeModel.sRam s /\ 0 <= CodeModel.sBss s.
Definition part_ok (p : BmgModel.part) : Prop := match p with BmgModel.Txt s => is_text s | BmgModel.Esc _ d => is_bytes d end.
Definition message_ok (m : BmgModel.message) : Prop := is_bytes (BmgModel.mInfo m) /\ Forall part_ok (BmgModel.mParts m).
