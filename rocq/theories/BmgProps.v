(** * Properties of BMG message files (C21, C22, C57, C58) *)
From Coq Require Import String.
From Verif Require Import PyBase PyLemmas PyTac AtLemmas BmgModel BmgSpec BmgText BmgScan BmgFile BmgLoad BmgSave.

(** a parameter for the examples: shift-jis restricted to ASCII *)
Definition sj_ascii : codec :=
  mkCodec (fun c => if c <? 128 then Ok [c] else Err UnicodeError)
          (fun b => if forallb (fun c => c <? 128) b then Ok b else Err UnicodeError).

(** "Hi" + escape + U+1F600 (a surrogate pair) + "!", a null message, an empty one *)
Definition bmg_ex (e : endian) (x : encoding) : bmg :=
  mkBmg [mkMessage [1; 2] [Txt [72; 105]; Esc 7 [9; 0; 26]; Txt [0x1F600; 33]] false;
         mkMessage [3; 4] [] true;
         mkMessage [5; 6] [] false;
         mkMessage [7; 8] [Esc 255 []; Esc 0 [0; 0]] false]
        [[1; 0; 0; 0; 0; 0; 0; 0]; [0; 0; 0; 0; 0; 0; 0; 2]; [3; 3; 3; 3; 3; 3; 3; 3]]
        [(-1, -1); (5, 300); (0, 1)] [(0x12345, match e with LE => 0xFFFF | BE => 0 end); (1, 0)]
        77 x e 1 2 0xFFFFFFFF.

(** C21: loading a saved BMG gives everything back, up to the normalisations
    spelled out by [loaded]: adjacent strings are joined and empty ones dropped,
    the parts of null messages are dropped, all-zero instructions and (0, 0)
    labels are dropped, and script indices keep two of their four bytes.  The
    file length must tell the endianness (see C22). *)
Theorem C21_load_save : forall sj id0 b data,
  bmg_save sj b = Ok data -> texts_ok b -> (bEncoding b = ShiftJis -> sjis_fits sj b) ->
  length_tells (bEndian b) (claimed_len data) ->
  bmg_load sj id0 data = Ok (loaded b).
Proof. exact load_save. Qed.
Print Assumptions C21_load_save.

Lemma filter_all {A} (f : A -> bool) l : (forall x, In x l -> f x = true) -> filter f l = l.
Proof. induction l as [|x l IH]; intros H; [reflexivity|]. cbn [filter]. rewrite (H x (or_introl eq_refl)), IH; [reflexivity|]. intros y Hy. apply H. right. exact Hy. Qed.

Lemma map_same {A} (f : A -> A) l : (forall x, In x l -> f x = x) -> map f l = l.
Proof. induction l as [|x l IH]; intros H; [reflexivity|]. cbn [map]. rewrite (H x (or_introl eq_refl)), IH; [reflexivity|]. intros y Hy. apply H. right. exact Hy. Qed.

(** a canonical BMG comes back unchanged, also the endianness *)
Theorem C21_canonical_roundtrip : forall sj id0 b data,
  bmg_save sj b = Ok data -> texts_ok b -> (bEncoding b = ShiftJis -> sjis_fits sj b) ->
  length_tells (bEndian b) (claimed_len data) -> canonical b ->
  bmg_load sj id0 data = Ok b.
Proof.
  intros sj id0 b data H T S L (C1 & C2 & C3 & C4). rewrite (load_save sj id0 b data H T S L). f_equal. unfold loaded.
  assert (SC : Forall (fun p : Z * Z => 0 <= snd p) (bScripts b)).
  { apply save_shape in H as (nul & ens & x & _ & _ & _ & _ & _ & FS & _). eapply Forall_impl; [|exact FS]. intros p [_ Q]. apply Q. }
  rewrite (map_same loaded_message), (filter_all nonzero_inst), (filter_all nonzero_label), (map_same (loaded_script (bEndian b))).
  - destruct b; reflexivity.
  - intros [i x] Hx. rewrite Forall_forall in SC. pose proof (SC _ Hx) as P. unfold loaded_script. specialize (C4 _ Hx). cbn [fst snd] in *. f_equal. destruct C4 as [[-> R]| ->].
    + apply Z.mod_small. lia.
    + destruct (bEndian b); reflexivity.
  - intros [i x] Hx. specialize (C3 _ Hx). unfold nonzero_label. cbn [fst snd]. destruct (Z.eqb_spec i 0), (Z.eqb_spec x 0); subst; try reflexivity. contradiction.
  - exact C2.
  - intros m Hm. specialize (C1 m Hm). unfold loaded_message. destruct m as [i p n]. cbn [mNull mParts mInfo] in *. destruct n; rewrite C1; reflexivity.
Qed.
Print Assumptions C21_canonical_roundtrip.

Example C21_example_le : exists data, bmg_save sj_ascii (bmg_ex LE Utf16) = Ok data /\
  texts_ok (bmg_ex LE Utf16) /\ length_tells LE (claimed_len data) /\ canonical (bmg_ex LE Utf16) /\
  bmg_load sj_ascii 0 data = Ok (bmg_ex LE Utf16).
Proof.
  eexists. split; [vm_compute; reflexivity|]. split.
  { intros m s Hm Hs. cbn in Hm. repeat destruct Hm as [<-|Hm]; try contradiction; cbn in Hs; repeat destruct Hs as [Hs|Hs]; try contradiction; try discriminate; inversion Hs; repeat constructor; lia. }
  split; [vm_compute; reflexivity|]. split; [|vm_compute; reflexivity].
  split; [|split; [|split]].
  - intros m Hm. cbn in Hm. repeat destruct Hm as [<-|Hm]; try contradiction; reflexivity.
  - intros m Hm. cbn in Hm. repeat destruct Hm as [<-|Hm]; try contradiction; reflexivity.
  - intros m Hm. cbn in Hm. repeat destruct Hm as [<-|Hm]; try contradiction; discriminate.
  - intros m Hm. cbn in Hm. repeat destruct Hm as [<-|Hm]; try contradiction; left; split; (reflexivity || (cbn; lia)).
Qed.
Example C21_example_be : exists data, bmg_save sj_ascii (bmg_ex BE Utf8) = Ok data /\
  length_tells BE (claimed_len data) /\ bmg_load sj_ascii 0 data = Ok (bmg_ex BE Utf8).
Proof. eexists. split; [vm_compute; reflexivity|]. split; [vm_compute; discriminate|vm_compute; reflexivity]. Qed.
(** the euro sign in cp1252, written as one byte *)
Example C21_example_cp1252 :
  let b := mkBmg [mkMessage [] [Txt [0x20AC; 65]] false] [] [] [] 0 Cp1252 LE 0 0 0 in
  exists data, bmg_save sj_ascii b = Ok data /\ slice data 73 75 = [0x80; 65] /\ bmg_load sj_ascii 0 data = Ok b.
Proof. eexists. split; [vm_compute; reflexivity|]. split; vm_compute; reflexivity. Qed.

(** C21 in full is false: a big-endian BMG loses the index of every script,
    because [save] writes '>II' and loading reads '>IHxx'. *)
Theorem C21_scripts_roundtrip_refuted : exists b data b',
  fits sj_ascii b /\ bmg_save sj_ascii b = Ok data /\ bmg_load sj_ascii 0 data = Ok b' /\
  bScripts b = [(1, 5)] /\ bScripts b' = [(1, 0)].
Proof.
  set (b := mkBmg [] [] [] [(1, 5)] 0 Utf16 BE 0 0 0).
  assert (H : exists data, bmg_save sj_ascii b = Ok data /\ bmg_load sj_ascii 0 data = Ok (mkBmg [] [] [] [(1, 0)] 0 Utf16 BE 0 0 0)).
  { eexists. split; [vm_compute; reflexivity|]. vm_compute. reflexivity. }
  destruct H as (data & H1 & H2). exists b, data. eexists. split; [apply (save_fits sj_ascii b data); [discriminate|exact H1]|]. split; [exact H1|]. split; [exact H2|]. split; reflexivity.
Qed.
Print Assumptions C21_scripts_roundtrip_refuted.

(** C22: the endianness that loading picks for a saved file is the one it was
    saved with exactly when the claimed length is smaller than its byte swap. *)
Theorem C22_detected_iff : forall sj id0 b data b',
  bmg_save sj b = Ok data -> bmg_load sj id0 data = Ok b' ->
  (bEndian b' = bEndian b <-> length_tells (bEndian b) (claimed_len data)).
Proof.
  intros sj id0 b data b' S L. rewrite <- (guess_saved sj b data S). unfold bmg_load in L. apply bind_ok in L as (? & _ & L). apply bind_ok in L as (e & G & L).
  repeat (apply bind_ok in L as (? & _ & L)). apply ok_inj in L. subst b'. cbn [bEndian]. rewrite G. split; [intros <-; reflexivity|apply ok_inj].
Qed.
Print Assumptions C22_detected_iff.

Lemma length_tells_small e n : 0 < n < 65536 -> n mod 32 = 0 -> length_tells e n.
Proof. intros H M. assert (n < swap32 n); [|destruct e; cbn [length_tells]; lia]. unfold swap32. Z.to_euclidean_division_equations. lia. Qed.

(** every saved file shorter than 64 KiB (claimed length) is detected correctly,
    and loads *)
Theorem C22_small_files : forall sj id0 b data,
  bmg_save sj b = Ok data -> texts_ok b -> (bEncoding b = ShiftJis -> sjis_fits sj b) ->
  zlen data <= 65504 -> bmg_load sj id0 data = Ok (loaded b) /\ bEndian (loaded b) = bEndian b.
Proof.
  intros sj id0 b data H T S L. split; [|reflexivity]. apply (load_save sj id0 b data H T S). apply length_tells_small.
  - apply save_at in H as (ens & dat & _ & _ & Z). pose proof (zlen_nonneg (body_of b ens dat)). unfold claimed_len. Z.to_euclidean_division_equations. lia.
  - unfold claimed_len. apply Z.mod_mul. lia.
Qed.
Print Assumptions C22_small_files.
Example C22_small_files_ex : exists data, bmg_save sj_ascii (bmg_ex LE Utf16) = Ok data /\ zlen data <= 65504.
Proof. eexists. split; [vm_compute; reflexivity|]. vm_compute. discriminate. Qed.

(** larger files are detected correctly whenever their claimed length is not a
    multiple of 256 *)
Theorem C22_most_files : forall e n,
  0 < n < 2 ^ 32 -> n mod 32 = 0 -> n mod 256 <> 0 -> n / 2 ^ 24 < n mod 256 -> length_tells e n.
Proof.
  intros e n H M N Q. change (2 ^ 32) with 4294967296 in H. change (2 ^ 24) with 16777216 in Q.
  assert (n < swap32 n); [|destruct e; cbn [length_tells]; lia]. unfold swap32. clear N. Z.to_euclidean_division_equations. lia.
Qed.
Print Assumptions C22_most_files.
Example C22_most_files_ex : 0 < 0x123420 < 2 ^ 32 /\ 0x123420 mod 32 = 0 /\ 0x123420 mod 256 <> 0 /\ 0x123420 / 2 ^ 24 < 0x123420 mod 256.
Proof. vm_compute. repeat split; discriminate. Qed.

(** C22 in full is false: a file of exactly 64 KiB is taken for the other
    endianness, whichever it was saved with, and then cannot be loaded. *)
Definition bmg_64k (e : endian) : bmg :=
  mkBmg [mkMessage (repeat 1 (Z.to_nat 65452)) [] false] [] [] [] 0 Utf16 e 0 0 0.
Theorem C22_always_detected_refuted : forall e, exists data,
  fits sj_ascii (bmg_64k e) /\ bmg_save sj_ascii (bmg_64k e) = Ok data /\ zlen data = 65536 /\
  guess_endian data = Ok (match e with LE => BE | BE => LE end) /\
  exists x, bmg_load sj_ascii 0 data = Err x.
Proof.
  intros e.
  assert (H : exists data, bmg_save sj_ascii (bmg_64k e) = Ok data /\ zlen data = 65536 /\ guess_endian data = Ok (match e with LE => BE | BE => LE end) /\ exists x, bmg_load sj_ascii 0 data = Err x).
  { assert (S : match bmg_save sj_ascii (bmg_64k e) with
                | Ok data => (zlen data =? 65536) && match guess_endian data, e with Ok BE, LE => true | Ok LE, BE => true | _, _ => false end &&
                             match bmg_load sj_ascii 0 data with Err _ => true | _ => false end
                | Err _ => false end = true) by (destruct e; vm_compute; reflexivity).
    destruct (bmg_save sj_ascii (bmg_64k e)) as [data|]; [|discriminate]. exists data. apply andb_prop in S as [S S3]. apply andb_prop in S as [S1 S2]. split; [reflexivity|]. split; [lia|].
    split; [destruct (guess_endian data) as [[]|], e; (reflexivity || discriminate)|]. destruct (bmg_load sj_ascii 0 data) as [|x]; [discriminate|]. exists x. reflexivity. }
  destruct H as (data & H1 & H2). exists data. split; [apply (save_fits sj_ascii _ data); [discriminate|exact H1]|]. split; [exact H1|exact H2].
Qed.
Print Assumptions C22_always_detected_refuted.

(** C57: [save] succeeds exactly on the BMGs described by [fits] ... *)
Theorem C57_saves_iff_fits : forall sj b,
  (bEncoding b = ShiftJis -> c_char sj 0 = Ok [0] /\ c_char sj 26 = Ok [26]) ->
  (exists data, bmg_save sj b = Ok data) <-> fits sj b.
Proof. intros sj b S. split; [intros (data & H); apply (save_fits sj b data S H)|apply fits_save; exact S]. Qed.
Print Assumptions C57_saves_iff_fits.
(** ... and the file has exactly the length [file_size] *)
Theorem C57_file_size : forall sj b data,
  (bEncoding b = ShiftJis -> c_char sj 0 = Ok [0] /\ c_char sj 26 = Ok [26]) ->
  bmg_save sj b = Ok data -> zlen data = file_size sj b.
Proof. exact save_size. Qed.
Print Assumptions C57_file_size.
Example C57_example : fits sj_ascii (bmg_ex LE Utf16) /\ file_size sj_ascii (bmg_ex LE Utf16) = 288 /\
  ~ fits sj_ascii (mkBmg [mkMessage [] [Esc 0 (zeros 252)] false] [] [] [] 0 Utf16 LE 0 0 0) /\
  fits sj_ascii (mkBmg [mkMessage [] [Esc 0 (zeros 252)] false] [] [] [] 0 Utf8 LE 0 0 0).
Proof.
  split; [|split; [vm_compute; reflexivity|split]].
  - apply C57_saves_iff_fits; [discriminate|]. eexists. vm_compute. reflexivity.
  - intros F. apply (C57_saves_iff_fits sj_ascii) in F; [|discriminate]. destruct F as (d & H). vm_compute in H. discriminate.
  - apply C57_saves_iff_fits; [discriminate|]. eexists. vm_compute. reflexivity.
Qed.

(** C58: the loop that reads a message either ends within one step per byte of
    DAT1 or never ends. *)
Theorem C58_scan_ends_or_diverges : forall c nul esc dat off,
  is_bytes dat -> 1 <= zlen nul -> zlen esc = zlen nul -> 0 <= off ->
  (forall d, c_dec c d <> Err OutOfFuel) ->
  scan (S (length dat)) c nul esc dat off off [] = Err OutOfFuel ->
  forall steps, scan steps c nul esc dat off off [] = Err OutOfFuel.
Proof.
  intros c nul esc dat off HB N1 E1 O D H. apply (scan_diverges c nul esc dat HB N1 E1 D (S (length dat)) off off []); [exact O| |exact H]. unfold zlen. lia.
Qed.
Print Assumptions C58_scan_ends_or_diverges.

(** "loading a BMG terminates" is false: a message that is not terminated, or an
    escape sequence of length 0, makes it loop forever *)
Definition hang_file (dat : bytes) : bytes :=
  asc "MESGbmg1" ++ le 4 0x60 ++ le 4 2 ++ [4] ++ zeros 15 ++
  asc "INF1" ++ le 4 0x20 ++ le 2 1 ++ le 2 4 ++ le 4 0 ++ le 4 1 ++ zeros 12 ++
  asc "DAT1" ++ le 4 (8 + zlen dat) ++ dat.
Theorem C58_load_terminates_refuted : exists dat1 dat2,
  bmg_load sj_ascii 0 (hang_file dat1) = Err OutOfFuel /\
  (forall n, scan n (full_codec sj_ascii Utf8 LE) [0] [26] dat1 1 1 [] = Err OutOfFuel) /\
  bmg_load sj_ascii 0 (hang_file dat2) = Err OutOfFuel /\
  (forall n, scan n (full_codec sj_ascii Utf8 LE) [0] [26] dat2 1 1 [] = Err OutOfFuel).
Proof.
  assert (D : forall d, c_dec (full_codec sj_ascii Utf8 LE) d <> Err OutOfFuel).
  { cbn [full_codec c_dec]. assert (G : forall n d, (length d <= n)%nat -> utf8_dec d <> Err OutOfFuel).
    { induction n as [|n IH]; intros d L; [destruct d; [discriminate|cbn in L; lia]|]. destruct d as [|a r]; [discriminate|]. cbn [length] in L. cbn [utf8_dec].
      assert (B : forall x y, (length y <= n)%nat -> (s <- utf8_dec y ;; Ok (x :: s)) <> Err OutOfFuel) by (intros x y Ly; specialize (IH y Ly); destruct (utf8_dec y); cbn [bind]; congruence).
      destruct (a <? 128); [apply B; lia|]. destruct (a <? 194); [discriminate|]. destruct (a <? 224).
      { destruct r as [|b r]; [discriminate|]. cbn [length] in L. destruct (contb b); [apply B; lia|discriminate]. }
      destruct (a <? 240). { destruct r as [|b [|x r]]; try discriminate. cbn [length] in L. cbv zeta. destruct (_ && _); [apply B; lia|discriminate]. }
      destruct (a <? 245); [|discriminate]. destruct r as [|b [|x [|y r]]]; try discriminate. cbn [length] in L. cbv zeta. destruct (_ && _); [apply B; lia|discriminate]. }
    intros d. apply (G (length d)). lia. }
  exists [0; 65; 66], [0; 65; 26; 0; 0; 0]. split; [vm_compute; reflexivity|]. split; [|split; [vm_compute; reflexivity|]].
  - apply C58_scan_ends_or_diverges; [repeat (apply Forall_cons; [unfold is_byte; lia|]); apply Forall_nil|vm_compute; discriminate|reflexivity|lia|exact D|vm_compute; reflexivity].
  - apply C58_scan_ends_or_diverges; [repeat (apply Forall_cons; [unfold is_byte; lia|]); apply Forall_nil|vm_compute; discriminate|reflexivity|lia|exact D|vm_compute; reflexivity].
Qed.
Print Assumptions C58_load_terminates_refuted.
