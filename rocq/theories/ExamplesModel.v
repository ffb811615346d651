(** * Model of /repo/tools/instrumentExamples.py and soundfontExport.py

    Definitions only.  midiAndSF2ToMP3, which runs other programs, and the part of
    prepareSDAT after its [return] are not modelled. *)
From Coq Require Import String.
From Verif Require Import PyBase TextModel SeqModel WaveModel SsarModel SbnkModel SdatModel FilesModel.

(** makeScaleSSEQ (tools/instrumentExamples.py:15-21); the objects are numbered in the order
    they are made *)
Definition makeScaleSSEQ (bankID instrumentID : Z) : sseq :=
  sseq_fromEvents ([(0, Instr bankID instrumentID)] ++ map (fun i => (1 + i, Note i 127 false 50)) (range_z 0 0x80) ++ [(0x81, Bare 0xFF)]) (0, 0, 127, 64, 50, 0).

(** [0 in sbnk.waveArchiveIDs] *)
Definition uses_first (b : sbnk) : bool := existsb (fun w => match w with Some n => n =? 0 | None => false end) (bWars b).
(** the loop over the banks (instrumentExamples.py:31-33): the banks that are kept; None
    has no attribute waveArchiveIDs *)
Fixpoint keep_banks (banks : list (name * option (merged sbnk))) : res (list sbnk) :=
  match banks with
  | [] => Ok []
  | (_, None) :: _ => Err AttributeError
  | (_, Some (_, b)) :: r => rest <- keep_banks r ;; Ok (if uses_first b then b :: rest else rest)
  end.
(** prepareSDAT (instrumentExamples.py:24-40): what it prints; the output file is not
    written, as the function returns before *)
Definition prepareSDAT (order : list Z) (inFN : path) : io text :=
  sdatD <-- read_file inFN ;;
  sdat <-- pure (sdat_load order sdatD) ;;
  _ <-- pure (get (dWars sdat) 0) ;;
  sbnks <-- pure (keep_banks (dBanks sdat)) ;;
  io_ret (str_int (zlen (flat_map bInsts sbnks))).

(** ** tools/soundfontExport.py *)

(** convertToSF2 (soundfontExport.py:22-28) and SF2.save (soundfontExport.py:14-18): the
    object holds nothing *)
Inductive sf2 := SF2.
Definition convertToSF2 (b : sbnk) (l : list swar) : sf2 := SF2.
Definition sf2_save (s : sf2) : bytes := [].
(** main (soundfontExport.py:32-45); [here] is the directory it is run in *)
Definition soundfont_main (order : list Z) (here : list Z) : io unit :=
  sbnkD <-- read_file {| pDir := here; pName := asc "HGSS.sbnk" |} ;;
  swarD <-- read_file {| pDir := here; pName := asc "HGSS.swar" |} ;;
  b <-- pure (sbnk_load order sbnkD 0 None) ;;
  let b := {| bInsts := bInsts b; bInacc := bInacc b; bUnk := bUnk b; bWars := [Some 0] |} in
  w <-- pure (swar_load swarD 0) ;;
  write_file {| pDir := here; pName := asc "HGSS-ndspy.sf2" |} (sf2_save (convertToSF2 b [w])).
