(** What goes wrong when a sequence event is saved: vocabulary, independent of the
    functions of the model *)
From Verif Require Import PyBase SeqModel SeqSpec.

(** [dest pos r o]: the event object [r] refers to is saved at offset [o] *)
Definition dest (pos : list (Z * Z)) (r : ref) (o : Z) : Prop := pos_of pos r = Some o.
Definition no_dest (pos : list (Z * Z)) (r : ref) : Prop := pos_of pos r = None.

(** one of the numbers is not a byte *)
Definition some_not_byte (l : list Z) : Prop := exists x, In x l /\ ~ 0 <= x < 256.

(** [save_fault e pos k]: saving [e] raises [k] *)
Inductive save_fault (pos : list (Z * Z)) : ev -> exc -> Prop :=
(* notes: pitch and a velocity that is too high are checked by the event; a
   negative velocity is found when it is turned into a byte *)
| sf_pitch t v f d : ~ 0 <= t <= 127 -> save_fault pos (Note t v f d) ValueError
| sf_velocity t v f d : 127 < v -> save_fault pos (Note t v f d) ValueError
| sf_negative t v f d : 0 <= t <= 127 -> v < 0 -> save_fault pos (Note t v f d) OverflowError
| sf_note t v f d : 0 <= v -> d < 0 -> save_fault pos (Note t v f d) ValueError
(* negative variable-length numbers *)
| sf_rest d : d < 0 -> save_fault pos (Rest d) ValueError
| sf_instr b i : b < 0 -> save_fault pos (Instr b i) ValueError
(* destinations: the track number is written first *)
| sf_track n r : ~ 0 <= n < 256 -> save_fault pos (BeginTrack n r) OverflowError
| sf_begin n r : 0 <= n < 256 -> no_dest pos r -> save_fault pos (BeginTrack n r) KeyError
| sf_begin_far n r o : dest pos r o -> ~ 0 <= o < 2 ^ 24 -> save_fault pos (BeginTrack n r) OverflowError
| sf_jump r : no_dest pos r -> save_fault pos (Jump r) KeyError
| sf_jump_far r o : dest pos r o -> ~ 0 <= o < 2 ^ 24 -> save_fault pos (Jump r) OverflowError
| sf_call r : no_dest pos r -> save_fault pos (Call r) KeyError
| sf_call_far r o : dest pos r o -> ~ 0 <= o < 2 ^ 24 -> save_fault pos (Call r) OverflowError
(* random: the arguments are written first *)
| sf_args s args lo hi : some_not_byte (s :: args) -> save_fault pos (Random s args lo hi) ValueError
| sf_random s args lo hi : ~ some_not_byte (s :: args) -> ~ (i16 lo /\ i16 hi) -> save_fault pos (Random s args lo hi) StructError
(* from variable: two layouts *)
| sf_unknown s v : 0xB0 <= s <= 0xBD -> save_fault pos (FromVar s v None) ValueError
| sf_fromvar_short s v u : ~ 0xB0 <= s <= 0xBD -> ~ (0 <= s < 256 /\ i16 v) -> save_fault pos (FromVar s v u) StructError
| sf_fromvar_long s v u : 0xB0 <= s <= 0xBD -> ~ (i8 u /\ i8 v) -> save_fault pos (FromVar s v (Some u)) StructError
(* the type byte of the remaining classes, and their values *)
| sf_type e t : match e with Arith t' _ _ | Byte1 t' _ | Word1 t' _ | Bare t' => t' = t | _ => False end ->
    ~ 0 <= t < 256 -> save_fault pos e OverflowError
| sf_arith t v w : 0 <= t < 256 -> ~ (0 <= v < 256 /\ i16 w) -> save_fault pos (Arith t v w) StructError
| sf_byte t v : ~ 0 <= v < 256 -> save_fault pos (Byte1 t v) OverflowError
| sf_word t v : 0 <= t < 256 -> ~ 0 <= v < 65536 -> save_fault pos (Word1 t v) StructError.

(** [length_fault e k]: asking for the length of [e] raises [k]; [Random] events
    only have a length if there is an event of the sub-type that takes arguments *)
Definition known_type (t : Z) : Prop :=
  t <= 0x7F \/ In t [0x80; 0x81; 0x93; 0x94; 0x95; 0xA0; 0xA1; 0xA2; 0xE0; 0xE1; 0xE3; 0xFC; 0xFD; 0xFE; 0xFF] \/
  0xB0 <= t <= 0xBD \/ 0xC0 <= t <= 0xD6.
Inductive length_fault : ev -> exc -> Prop :=
| lf_note t v f d : d < 0 -> length_fault (Note t v f d) ValueError
| lf_rest d : d < 0 -> length_fault (Rest d) ValueError
| lf_instr b i : b < 0 \/ i < 0 -> length_fault (Instr b i) ValueError
| lf_bare s args lo hi : In s [0xA2; 0xFC; 0xFD; 0xFF] -> length_fault (Random s args lo hi) ValueError
| lf_unknown s args lo hi : ~ known_type s -> length_fault (Random s args lo hi) KeyError.

(** the offsets of the events of a list, one after the other *)
Fixpoint offsets (off : Z) (evs : list (Z * ev)) (lens : list Z) : list (Z * Z) :=
  match evs, lens with
  | (i, _) :: r, n :: ns => (i, off) :: offsets (off + n) r ns
  | _, _ => []
  end.

(** [list_fault evs notable k]: the first thing that goes wrong when the list is
    saved.  All lengths are asked for before anything is saved; the notable events
    are looked up at the end. *)
Inductive list_fault (evs : list (Z * ev)) (notable : list Z) : exc -> Prop :=
| lst_length a p b k : evs = a ++ p :: b ->
    (forall q k', In q a -> ~ length_fault (snd q) k') -> length_fault (snd p) k -> list_fault evs notable k
| lst_save lens a p b k : Forall2 (fun q n => dataLength (snd q) = Ok n) evs lens -> evs = a ++ p :: b ->
    (forall q k', In q a -> ~ save_fault (offsets 0 evs lens) (snd q) k') ->
    save_fault (offsets 0 evs lens) (snd p) k -> list_fault evs notable k
| lst_notable lens n : Forall2 (fun q n => dataLength (snd q) = Ok n) evs lens ->
    (forall q k', In q evs -> ~ save_fault (offsets 0 evs lens) (snd q) k') ->
    In n notable -> ~ In n (map fst evs) -> list_fault evs notable KeyError.
