(** * Properties of the LZ formats: lz10.py and codeCompression.py (C01-C07, C49) *)
From Coq Require Import String.
From Verif Require Import PyBase PyLemmas LzModel LzSpec LzLemmas Lz10Lemmas CodeLzLemmas.

Definition sample : bytes := asc "This is some data to compress, some data to compress".

(** C01: below 2^24 bytes compression succeeds and decompression gives back the
    original (whatever follows the compressed data); above, struct.error. *)
Theorem C01_lz10_lossless : forall data tail,
  zlen data < 2 ^ 24 ->
  exists c, lz10_compress data = Ok c /\ lz10_decompress (c ++ tail) = Ok data.
Proof. exact lz10_roundtrip. Qed.
Print Assumptions C01_lz10_lossless.
Example C01_ex : zlen sample < 2 ^ 24 /\
  lz10_compress (asc "This is some data to compress") =
  Ok [16; 29; 0; 0; 4; 84; 104; 105; 115; 32; 0; 2; 115; 111; 0; 109; 101; 32;
      100; 97; 116; 97; 32; 0; 116; 111; 32; 99; 111; 109; 112; 114; 0; 101;
      115; 115; 0; 0; 0; 0; 0].
Proof. vm_compute. split; reflexivity. Qed.

Theorem C01_lz10_too_long : forall data,
  2 ^ 24 <= zlen data -> lz10_compress data = Err StructError.
Proof. exact lz10_too_long. Qed.
Print Assumptions C01_lz10_too_long.
Example C01_too_long_ex : 2 ^ 24 <= zlen (zeros (2 ^ 24)).
Proof. unfold zeros. rewrite zlen_rep by (apply Z.pow_nonneg; discriminate). apply Z.le_refl. Qed.

(** C02: decompression of anything raises or returns as many bytes as announced. *)
Theorem C02_lz10_decompress_safe : forall data, is_bytes data ->
  match lz10_decompress data with
  | Ok o => exists rest n, data = [0x10] ++ le 3 n ++ rest /\ 0 <= n < 2 ^ 24 /\ zlen o = n /\ is_bytes o
  | Err e => match data with
             | b :: _ => if b =? 0x10 then e = IndexError \/ e = StructError else e = TypeError
             | [] => e = IndexError
             end
  end.
Proof. exact lz10_decompress_safe. Qed.
Print Assumptions C02_lz10_decompress_safe.
Example C02_ex :
  lz10_decompress [0x10; 3; 0; 0; 0x80; 0; 0] = Ok [0; 0; 0] /\          (* reference before the start *)
  lz10_decompress [0x10; 9; 0; 0; 0; 1; 2; 3] = Err IndexError /\
  lz10_decompress [0x10; 9; 0; 0; 0x80; 1] = Err StructError /\
  lz10_decompress [0x11; 9; 0; 0; 0x80; 1] = Err TypeError.
Proof. vm_compute. repeat split; reflexivity. Qed.

(** C03: header and worst-case size. *)
Theorem C03_lz10_size : forall data, zlen data < 2 ^ 24 ->
  exists c, lz10_compress data = Ok c /\ slice c 0 4 = 0x10 :: le 3 (zlen data) /\
    zlen c <= 7 + 9 * ((zlen data + 7) / 8).
Proof. exact lz10_size. Qed.
Print Assumptions C03_lz10_size.
Theorem C03_lz10_output_is_bytes : forall data c,
  is_bytes data -> lz10_compress data = Ok c -> is_bytes c.
Proof. exact lz10_out_bytes. Qed.
Print Assumptions C03_lz10_output_is_bytes.
Example C03_ex :  (* the tighter bound 4 + 9*ceil(n/8) does not hold *)
  match lz10_compress (rep 97 6) with Ok c => zlen c | Err _ => 0 end = 14.
Proof. vm_compute. reflexivity. Qed.
Example C03_ex2 : is_bytes sample /\ zlen sample < 2 ^ 24 /\ exists c, lz10_compress sample = Ok c.
Proof. split; [apply forallb_byteb; reflexivity|]. split; [reflexivity|]. vm_compute. eauto. Qed.

(** C04: for both parameter sets the compressor writes, in blocks of eight, tokens
    that expand to the input, every reference being a true earlier copy inside the
    window ([tok_ok]) and no longer match being available (greedy). *)
Theorem C04_lz_tokens_sound : forall p data, p = lz10_params \/ p = code_params ->
  exists bs ignD ignC,
    lz_compress p data = Ok (stream_bytes p bs, ignD, ignC) /\ blocks_shape bs /\
    expand [] (concat bs) = data /\ toks_ok p data 0 (concat bs) (zlen data).
Proof. intros p data [->| ->]; apply lz_tokens; [exact lz10_params_ok|exact code_params_ok]. Qed.
Print Assumptions C04_lz_tokens_sound.
Example C04_ex : (* a match is really found and encoded *)
  lz_compress lz10_params (asc "abcdabcd") =
  Ok (stream_bytes lz10_params [[Lit 97; Lit 98; Lit 99; Lit 100; Ref 4 4]], 8, 10).
Proof. vm_compute. reflexivity. Qed.

(** C05: whenever the trailer of the compressed file records a non-zero size
    difference, decompression gives back the data, also when followed by appended
    data that the decompressor detects. *)
Theorem C05_code_roundtrip : forall data isArm9 c,
  zlen data < 2 ^ 24 -> code_compress data isArm9 = Ok c ->
  slice_from c (-4) <> [0; 0; 0; 0] ->
  code_decompress c = Ok data.
Proof.
  intros data a c H E N. pose proof (code_roundtrip data a c [] H E N (or_introl eq_refl)) as R.
  rewrite !app_nil_r in R. exact R.
Qed.
Print Assumptions C05_code_roundtrip.
Theorem C05_code_roundtrip_appended : forall data isArm9 c tail,
  zlen data < 2 ^ 24 -> code_compress data isArm9 = Ok c ->
  slice_from c (-4) <> [0; 0; 0; 0] ->
  detectAppendedData (c ++ tail) = Ok (Some (zlen tail)) ->
  code_decompress (c ++ tail) = Ok (data ++ tail).
Proof. intros data a c tail H E N D. exact (code_roundtrip data a c tail H E N (or_intror D)). Qed.
Print Assumptions C05_code_roundtrip_appended.
Definition nitro : bytes := [0x21; 0x06; 0xC0; 0xDE; 0x68; 0x0B; 0; 0; 0; 0; 0; 0].
Example C05_ex : exists c, code_compress (sample ++ sample) false = Ok c /\
  slice_from c (-4) <> [0; 0; 0; 0] /\ zlen c < zlen (sample ++ sample) /\
  detectAppendedData (c ++ nitro) = Ok (Some (zlen nitro)).
Proof.
  eexists. split; [vm_compute; reflexivity|]. split; [vm_compute; discriminate|].
  split; vm_compute; reflexivity.
Qed.
Example C05_ex_arm9 : exists c, code_compress (zeros 0x4000 ++ sample ++ sample) true = Ok c /\
  slice_from c (-4) <> [0; 0; 0; 0].
Proof. eexists. split; [vm_compute; reflexivity|]. vm_compute. discriminate. Qed.

(** the only way compression fails (below 2^24 bytes) is struct.error *)
Theorem C05_code_compress_errors : forall data isArm9 e,
  zlen data < 2 ^ 24 -> code_compress data isArm9 = Err e -> e = StructError.
Proof. exact code_compress_errors. Qed.
Print Assumptions C05_code_compress_errors.
Example C05_errors_ex : zlen (zeros 19) < 2 ^ 24 /\ code_compress (zeros 19) false = Err StructError.
Proof. vm_compute. split; reflexivity. Qed.

(** C06: the unconditional inverse promised by the docstrings is false: some inputs
    make compress raise, some come back changed. *)
Theorem C06_code_inverse_refuted :
  ~ (forall data, is_bytes data -> zlen data < 2 ^ 24 ->
       exists c, code_compress data false = Ok c /\ code_decompress c = Ok data).
Proof.
  intros H. destruct (H (zeros 13) (is_bytes_zeros 13) ltac:(reflexivity)) as (c & E & _). vm_compute in E. discriminate.
Qed.
Print Assumptions C06_code_inverse_refuted.
Example C06_ex_raises : code_compress (zeros 13) false = Err StructError.
Proof. vm_compute. reflexivity. Qed.
Example C06_ex_stored : code_compress [1; 2; 3] false = Ok [1; 2; 3; 0; 0; 0; 0; 0] /\
  code_decompress [1; 2; 3; 0; 0; 0; 0; 0] = Ok [1; 2; 3; 0; 0; 0; 0; 0].
Proof. vm_compute. split; reflexivity. Qed.
Example C06_ex_zero_difference : exists c, code_compress (zeros 20) false = Ok c /\ code_decompress c = Ok c /\ c <> zeros 20.
Proof. eexists. split; [vm_compute; reflexivity|]. split; [vm_compute; reflexivity|]. vm_compute. discriminate. Qed.

(** C07: data in which no three bytes occur twice (so that nothing can be saved)
    is stored verbatim, zero-padded to a multiple of 4, with a zero trailer. *)
Theorem C07_code_stored : forall data,
  (forall i j, 0 <= i -> i + 3 <= j -> j + 3 <= zlen data ->
               slice data i (i + 3) <> slice data j (j + 3)) ->
  code_compress data false = Ok (data ++ rep 0 ((- zlen data) mod 4) ++ [0; 0; 0; 0]).
Proof. intros data N. unfold code_compress. rewrite (code_stored data N). unfold stored, pad_to. rewrite <- app_assoc. reflexivity. Qed.
Print Assumptions C07_code_stored.
Example C07_ex : code_compress (asc "abcdefghijklm") false = Ok (asc "abcdefghijklm" ++ [0; 0; 0; 0; 0; 0; 0]).
Proof. vm_compute. reflexivity. Qed.
(** every successful outcome ends in a zero word exactly when it is the stored form,
    or is a compressed form whose recorded size difference is its real one *)
Theorem C07_code_outcomes : forall data c, zlen data < 2 ^ 24 -> code_compress data false = Ok c ->
  c = data ++ rep 0 ((- zlen data) mod 4) ++ [0; 0; 0; 0] \/
  (exists ex, 0 <= ex /\ slice_from c (-4) = le 4 ex /\ zlen c = zlen data - ex /\ zlen c mod 4 = 0).
Proof. exact code_outcomes. Qed.
Print Assumptions C07_code_outcomes.
Example C07_outcomes_ex : exists c, code_compress (zeros 64) false = Ok c /\ zlen c = 28 /\ slice_from c (-4) = le 4 36.
Proof. eexists. split; [vm_compute; reflexivity|]. split; vm_compute; reflexivity. Qed.

(** C49: decompression of an arbitrary file terminates; it raises one of four
    exceptions, returns the input unchanged, or returns exactly the number of bytes
    that the trailer announces (or, for a zero size difference, the input without the
    detected appended data). *)
Theorem C49_code_decompress_safe : forall data, is_bytes data ->
  match code_decompress data with
  | Ok o => o = data \/
      exists amt ex, In amt [0; 4; 8; 12; 16; 20; 24; 28] /\ 8 + amt <= zlen data /\
        unpack_u 4 data (zlen data - amt - 4) = Ok ex /\
        ((ex = 0 /\ o = slice_to data (zlen data - amt)) \/ (0 < ex /\ zlen o = zlen data + ex))
  | Err e => e = StructError \/ e = ValueError \/ e = RuntimeError \/ e = IndexError
  end.
Proof. exact code_decompress_safe. Qed.
Print Assumptions C49_code_decompress_safe.
Example C49_ex : code_decompress [1; 2; 3; 4; 5] = Err StructError /\
  code_decompress [1; 2; 3; 4] = Ok [1; 2; 3; 4] /\
  code_decompress [9; 0; 0; 8; 5; 0; 0; 0] = Ok [9; 0; 0; 8; 5; 0; 0; 0].
Proof. vm_compute. repeat split; reflexivity. Qed.
