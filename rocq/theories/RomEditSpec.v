(** * Vocabulary of the statements about editing and re-saving ROMs *)
From Verif Require Import PyBase CodeModel RomModel RomSpec.

(** file [i] is named by an entry of an overlay table: 32 bytes per entry, the
    file number 0x18 bytes into the entry *)
Definition listed (table : bytes) (i : Z) : Prop :=
  exists k, 0 <= k /\ 32 * k < zlen table /\ word table (32 * k + 0x18) = i.
Definition is_overlay (r : rom) (i : Z) : Prop := listed (arm9OverlayTable r) i \/ listed (arm7OverlayTable r) i.

(** a sequence of [setFileByName] calls *)
Definition rom_set_all (r : rom) (ops : list (list Z * bytes)) : res rom :=
  foldM (fun r op => rom_setFileByName r (fst op) (snd op)) r ops.

(** what a program does that puts changed overlays back:
    [for id, ov in t.items(): files[ov.fileID] = ov.save(compress=c(id, ov))];
    the result also holds the overlay objects afterwards *)
Definition store_overlay (c : Z * overlay -> bool) (st : list bytes * list (Z * overlay)) (x : Z * overlay)
  : res (list bytes * list (Z * overlay)) :=
  '(d, ov') <- overlay_save (snd x) (c x) ;;
  fs <- setl (fst st) (oFileID (snd x)) d ;;
  Ok (fs, snd st ++ [(fst x, ov')]).
Definition store_overlays (c : Z * overlay -> bool) (fs : list bytes) (t : list (Z * overlay)) : res (list bytes * list (Z * overlay)) :=
  foldM (store_overlay c) (fs, []) t.
