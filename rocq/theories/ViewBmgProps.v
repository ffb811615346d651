(** * C113: what arbitrary message files are read as *)
From Coq Require Import String.
From Verif Require Import PyBase PyLemmas BmgModel RomSpec ViewSpec ViewSdatSpec ViewBmgSpec ViewBmg ViewTexProps SdatLayout.

(** a shift-jis codec is a parameter; nothing but its encodings of the two marks matters *)
Theorem C113_read : forall sj id0 d b, is_bytes d -> c_char sj 0 = Ok [0] -> c_char sj 26 = Ok [26] ->
  bmg_load sj id0 d = Ok b <-> bmg_shape d /\ bmg_view sj id0 d b.
Proof. intros sj id0 d b B S0 S26. apply bmg_iff; assumption. Qed.
Print Assumptions C113_read.
(** A file with two INF1, two DAT1, one FLW1 and one FLI1 section: *)
Definition ex_sj : codec := mkCodec (fun c => Ok [c]) (fun b => Ok b).
Definition ex_head (n x : Z) : bytes := asc "MESGbmg1" ++ le 4 0x20 ++ le 4 n ++ [x] ++ le 4 5 ++ le 4 6 ++ le 4 7 ++ [9; 9; 9].
Definition ex_inf (id : Z) (l : list Z) : bytes := asc "INF1" ++ le 4 (16 + 5 * zlen l) ++ le 2 (zlen l) ++ le 2 5 ++ le 4 id ++ flat_map (fun o => le 4 o ++ [o]) l.
Definition ex_dat (t : bytes) : bytes := asc "DAT1" ++ le 4 (8 + zlen t) ++ t.
Definition ex_text : bytes := [65; 0; 66; 67; 26; 4; 9; 77; 68; 0].
Definition ex_d : bytes := ex_head 6 1 ++ ex_inf 3 [2] ++ ex_dat [1] ++ ex_inf 4 [0; 8] ++ ex_dat ex_text
  ++ (asc "FLW1" ++ le 4 45 ++ le 2 2 ++ le 2 4 ++ le 4 0 ++ [1; 2; 3; 4; 5; 6; 7; 8] ++ zeros 8 ++ le 2 0xFFFF ++ le 2 0 ++ le 2 0 ++ le 2 3 ++ [0; 0; 255; 2] ++ [88])
  ++ (asc "FLI1" ++ le 4 24 ++ le 2 1 ++ le 2 8 ++ le 4 0 ++ le 4 700 ++ le 2 8 ++ [1; 1]).
Definition ex_b : bmg := mkBmg [mkMessage [2] [Txt [66; 67]; Esc 9 [77]; Txt [68]] false; mkMessage [0] [] false; mkMessage [8] [Txt [68]] false]
  [[1; 2; 3; 4; 5; 6; 7; 8]] [(0, -1); (-1, 0); (2, 3)] [(700, 8)] 4 Cp1252 LE 5 6 7.
Example C113_read_ex : is_bytes ex_d /\ bmg_load ex_sj 1 ex_d = Ok ex_b /\ bmg_shape ex_d /\ bmg_view ex_sj 1 ex_d ex_b.
Proof. assert (B : is_bytes ex_d) by all_bytes. assert (L : bmg_load ex_sj 1 ex_d = Ok ex_b) by (vm_compute; reflexivity). split; [exact B|]. split; [exact L|]. apply C113_read; [exact B|reflexivity|reflexivity|exact L]. Qed.

(** what decides whether a file is read at all: the sections must be there, and each
    message must come to an end *)
Theorem C113_accepted : forall sj id0 d, is_bytes d -> c_char sj 0 = Ok [0] -> c_char sj 26 = Ok [26] ->
  (exists b, bmg_load sj id0 d = Ok b) <->
  bmg_shape d /\ forall x, match x with Cp1252 => 1 | Utf16 => 2 | ShiftJis => 3 | Utf8 => 4 end = byte d 16 ->
    forall entry, In entry (of_kind (bmg_endian d) d (asc "INF1") (inf_entries (bmg_endian d) d) (bmg_sections d)) ->
    exists ps stop, spelled (width x) (bmg_endian d) (c_dec (full_codec sj x (bmg_endian d))) (text_data (bmg_endian d) d (bmg_sections d)) (fst entry) ps stop.
Proof.
  intros sj id0 d B S0 S26. split.
  - intros (b & H). apply C113_read in H as (S & V); [|assumption..]. split; [exact S|]. destruct V as [V1 V2 _ _ _ _ _ V8]. rewrite V1 in V8. intros x X entry I. assert (EX : x = bEncoding b) by (destruct x, (bEncoding b); congruence || lia). subst x.
    apply In_nth_error in I as (i & I). destruct (SdatLayout.Forall2_nth _ _ _ _ _ V8 I) as (m & _ & stop & _ & SP & _). exists (mParts m), stop. exact SP.
  - intros (S & M). assert (X : exists x, match x with Cp1252 => 1 | Utf16 => 2 | ShiftJis => 3 | Utf8 => 4 end = byte d 16).
    { destruct S as (_ & _ & X & _). assert (byte d 16 = 1 \/ byte d 16 = 2 \/ byte d 16 = 3 \/ byte d 16 = 4) as [E|[E|[E|E]]] by lia; [exists Cp1252|exists Utf16|exists ShiftJis|exists Utf8]; symmetry; exact E. }
    destruct X as (x & X). specialize (M x X).
    assert (F : exists ms, Forall2 (message_at sj x (bmg_endian d) (text_data (bmg_endian d) d (bmg_sections d))) (of_kind (bmg_endian d) d (asc "INF1") (inf_entries (bmg_endian d) d) (bmg_sections d)) ms).
    { revert M. generalize (of_kind (bmg_endian d) d (asc "INF1") (inf_entries (bmg_endian d) d) (bmg_sections d)) as l. induction l as [|a l IH]; intros M; [exists []; constructor|].
      destruct (IH (fun en I => M en (or_intror I))) as (ms & F). destruct (M a (or_introl eq_refl)) as (ps & stop & SP). exists (mkMessage (snd a) ps (stop =? 0) :: ms). constructor; [|exact F]. exists stop. split; [reflexivity|]. split; [exact SP|reflexivity]. }
    destruct F as (ms & F). eexists. apply C113_read; [assumption..|]. split; [exact S|].
    apply (Build_bmg_view sj id0 d (mkBmg ms (of_kind (bmg_endian d) d (asc "FLW1") (flw_insts (bmg_endian d) d) (bmg_sections d)) (of_kind (bmg_endian d) d (asc "FLW1") (flw_labels (bmg_endian d) d) (bmg_sections d))
      (of_kind (bmg_endian d) d (asc "FLI1") (fli_scripts (bmg_endian d) d) (bmg_sections d)) (last (of_kind (bmg_endian d) d (asc "INF1") (fun p => [num (bmg_endian d) 4 d (p + 12)]) (bmg_sections d)) id0) x (bmg_endian d)
      (num (bmg_endian d) 4 d 17) (num (bmg_endian d) 4 d 21) (num (bmg_endian d) 4 d 25))); try reflexivity; [exact X|exact F].
Qed.
Print Assumptions C113_accepted.
Example C113_accepted_ex : exists b, bmg_load ex_sj 1 ex_d = Ok b.
Proof. exists ex_b. vm_compute. reflexivity. Qed.
(** text without an end is not accepted (the program never finishes on it, see C58) *)
Example C113_accepted_ex2 : bmg_shape (ex_head 2 1 ++ ex_inf 3 [1] ++ ex_dat [0; 65]) /\ ~ exists b, bmg_load ex_sj 1 (ex_head 2 1 ++ ex_inf 3 [1] ++ ex_dat [0; 65]) = Ok b.
Proof.
  split; [|intros (b & H); vm_compute in H; discriminate]. split; [vm_compute; reflexivity|]. split; [vm_compute; discriminate|]. split; [vm_compute; split; discriminate|].
  intros j J. change (bmg_sections (ex_head 2 1 ++ ex_inf 3 [1] ++ ex_dat [0; 65])) with 2%nat in J. change (bmg_endian (ex_head 2 1 ++ ex_inf 3 [1] ++ ex_dat [0; 65])) with LE. destruct j as [|[|j]]; [| |lia].
  - split; [vm_compute; discriminate|]. left. split; [vm_compute; reflexivity|]. split; [vm_compute; discriminate|]. intros i I. change (Z.to_nat _) with 1%nat in I. destruct i as [|i]; [vm_compute; discriminate|lia].
  - split; [vm_compute; discriminate|]. right. left. vm_compute. reflexivity.
Qed.

(** a message is spelled in one way only *)
Theorem C113_one : forall w e decode dat o ps stop ps' stop', 1 <= w -> spelled w e decode dat o ps stop -> spelled w e decode dat o ps' stop' -> ps = ps' /\ stop = stop'.
Proof.
  intros w e decode dat o ps stop ps' stop' W H. revert ps' stop'.
  assert (K : forall o k p k' p' v v', p = o + w * Z.of_nat k -> p' = o + w * Z.of_nat k' -> stretch w e dat o k -> stretch w e dat o k' -> num e w dat p = v -> num e w dat p' = v' -> (v = 0 \/ v = 26) -> (v' = 0 \/ v' = 26) -> p = p').
  { intros o0 k p k' p' v v' E E' S S' V V' C C'. destruct (lt_eq_lt_dec k k') as [[L|L]|L]; [|subst; reflexivity|].
    - destruct (S' k L) as (A1 & A2). rewrite <- E, V in A1, A2. lia.
    - destruct (S k' L) as (A1 & A2). rewrite <- E', V' in A1, A2. lia. }
  assert (T : forall o p qs qs', text_part decode dat o p qs -> text_part decode dat o p qs' -> qs = qs').
  { intros o0 p qs qs' A A'. unfold text_part in *. destruct ((o0 =? 0) || (p =? o0)); [congruence|]. destruct A as (s & D & ->), A' as (s' & D' & ->). congruence. }
  induction H as [o k p qs E L S V TP|o k p qs l rest stop E L S V TP EL SP IH]; intros ps' stop' H'; destruct H' as [o k' p' qs' E' L' S' V' TP'|o k' p' qs' l' rest' stop' E' L' S' V' TP' EL' SP'];
    assert (P : p = p') by (eapply (K o k p k' p'); try eassumption; lia); clear E'; subst p'.
  - split; [exact (T _ _ _ _ TP TP')|reflexivity].
  - congruence.
  - congruence.
  - rewrite (T _ _ _ _ TP TP'). subst l l'. destruct (IH _ _ SP') as (-> & ->). split; reflexivity.
Qed.
Print Assumptions C113_one.
Example C113_one_ex : spelled 1 LE (fun b => Ok b) [1; 65; 26; 3; 5; 66; 0] 1 [Txt [65]; Esc 5 []; Txt [66]] 6.
Proof.
  apply (Escape 1 LE (fun b => Ok b) [1; 65; 26; 3; 5; 66; 0] 1 1 2 [Txt [65]] 3 [Txt [66]] 6); try (vm_compute; reflexivity || discriminate).
  - intros i I. assert (i = 0%nat) as -> by lia. vm_compute. split; discriminate.
  - exists [65]. split; reflexivity.
  - apply (Ends 1 LE (fun b => Ok b) [1; 65; 26; 3; 5; 66; 0] 5 1 6 [Txt [66]]); try (vm_compute; reflexivity || discriminate).
    + intros i I. assert (i = 0%nat) as -> by lia. vm_compute. split; discriminate.
    + exists [66]. split; reflexivity.
Qed.

(** Not all text is read: what starts at place 0 is dropped, though the message is not
    taken for a null message. *)
Theorem C113_text_refuted : ~ (forall sj id0 d b i entry m, is_bytes d -> bmg_load sj id0 d = Ok b ->
  nth_error (of_kind (bEndian b) d (asc "INF1") (inf_entries (bEndian b) d) (bmg_sections d)) i = Some entry -> nth_error (bMessages b) i = Some m ->
  num (bEndian b) (width (bEncoding b)) (text_data (bEndian b) d (bmg_sections d)) (fst entry) <> 0 -> mParts m <> []).
Proof.
  intros H. assert (L : bmg_load ex_sj 1 (ex_head 2 1 ++ ex_inf 3 [0] ++ ex_dat [65; 66; 0]) = Ok (mkBmg [mkMessage [0] [] false] [] [] [] 3 Cp1252 LE 5 6 7)) by (vm_compute; reflexivity).
  apply (H ex_sj 1 (ex_head 2 1 ++ ex_inf 3 [0] ++ ex_dat [65; 66; 0]) _ 0%nat (0, [0]) (mkMessage [0] [] false) ltac:(all_bytes) L); vm_compute; reflexivity || discriminate.
Qed.
Print Assumptions C113_text_refuted.
(** Not every file that is read can be saved: an instruction cut off by the end of the
    file is kept. *)
Theorem C113_save_refuted : ~ (forall sj id0 d b, is_bytes d -> bmg_load sj id0 d = Ok b -> exists f, bmg_save sj b = Ok f).
Proof.
  intros H. destruct (H ex_sj 1 (ex_head 1 1 ++ asc "FLW1" ++ le 4 20 ++ le 2 1 ++ le 2 0 ++ le 4 0 ++ [1; 2; 3; 4])
    (mkBmg [] [[1; 2; 3; 4]] [] [] 1 Cp1252 LE 5 6 7) ltac:(all_bytes) ltac:(vm_compute; reflexivity)) as (f & F). vm_compute in F. discriminate.
Qed.
Print Assumptions C113_save_refuted.
