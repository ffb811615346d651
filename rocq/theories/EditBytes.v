(** * What is saved from bytes consists of bytes (for C119) *)
From Coq Require Import String.
From Verif Require Import PyBase PyLemmas PyTac CommonModel FntModel FntLemmas FntSaveLemmas RomModel RomSpec NarcModel RomHeader BmgReload SeqRead.

Lemma foldM_keep {S A} (f : S -> A -> res S) (P : S -> Prop) (Q : A -> Prop) : (forall s a s', P s -> Q a -> f s a = Ok s' -> P s') ->
  forall l s s', P s -> Forall Q l -> foldM f s l = Ok s' -> P s'.
Proof.
  intros F. induction l as [|a l IH]; intros s s' H1 H2 H; cbn [foldM] in H; [injection H as <-; exact H1|]. apply bind_ok in H as (t & T & H). inversion H2; subst. apply (IH t); [apply (F s a); assumption|assumption|exact H].
Qed.
Lemma app_bytes a b : is_bytes a -> is_bytes b -> is_bytes (a ++ b).
Proof. intros A B. apply Forall_app. split; assumption. Qed.
Lemma skipn_bytes n (a : bytes) : is_bytes a -> is_bytes (skipn n a).
Proof. intros A. rewrite <- (firstn_skipn n a) in A. apply Forall_app in A. apply A. Qed.
Lemma firstn_bytes n (a : bytes) : is_bytes a -> is_bytes (firstn n a).
Proof. intros A. rewrite <- (firstn_skipn n a) in A. apply Forall_app in A. apply A. Qed.
Lemma pack_u_bytes n v b : pack_u n v = Ok b -> is_bytes b.
Proof. intros H. apply pack_u_inv in H as (_ & ->). apply is_bytes_le. Qed.
Lemma pack_us_bytes fs : forall b, pack_us fs = Ok b -> is_bytes b.
Proof.
  induction fs as [|[n v] fs IH]; intros b H; cbn [pack_us] in H; [injection H as <-; constructor|]. apply bind_ok in H as (x & X & H). apply bind_ok in H as (y & Y & H). injection H as <-.
  apply app_bytes; [exact (pack_u_bytes _ _ _ X)|exact (IH _ Y)].
Qed.
Lemma put_bytes d o b r : is_bytes d -> is_bytes b -> put d o b = Ok r -> is_bytes r.
Proof.
  intros D B H. unfold put in H. apply bind_ok in H as (x & _ & H). injection H as <-.
  apply app_bytes; [apply firstn_bytes; exact D|]. apply app_bytes; [exact B|apply skipn_bytes; exact D].
Qed.
Lemma rep_bytes n x : is_byte x -> is_bytes (rep x n).
Proof. intros X. unfold rep. apply Forall_forall. intros y Y. apply repeat_spec in Y. subst. exact X. Qed.
Lemma zeros_bytes n : is_bytes (zeros n).
Proof. apply rep_bytes. unfold is_byte. lia. Qed.
Lemma pad_bytes n f d : is_byte f -> is_bytes d -> is_bytes (pad_to n f d).
Proof. intros F D. unfold pad_to. apply app_bytes; [exact D|]. apply rep_bytes. exact F. Qed.
Lemma concat_bytes l : Forall (fun b : bytes => is_bytes b) l -> is_bytes (concat l).
Proof. induction 1 as [|a l A _ IH]; [constructor|]. cbn [concat]. apply app_bytes; assumption. Qed.

(** ** filename tables *)
Lemma encoded_bytes l b : encode_latin1 l = Ok b -> is_bytes b.
Proof. unfold encode_latin1. destruct (forallb byteb l) eqn:E; [|discriminate]. intros [= <-]. apply Forall_forall. intros x X. pose proof (proj1 (forallb_forall _ _) E x X) as Q. unfold byteb in Q. unfold is_byte. lia. Qed.
Lemma file_entry_bytes f b : fileEntry f = Ok b -> is_bytes b.
Proof.
  intros H. unfold fileEntry in H. apply bind_ok in H as ([] & G & H). apply bind_ok in H as (x & X & H). injection H as <-. constructor; [|exact (encoded_bytes _ _ X)].
  pose proof (zlen_nonneg f). unfold guard in G. destruct (zlen f <=? 127) eqn:E; [|discriminate]. unfold is_byte. lia.
Qed.
Lemma folder_entry_bytes f i b : folderEntry f i = Ok b -> is_bytes b.
Proof.
  intros H. unfold folderEntry in H. apply bind_ok in H as ([] & G & H). apply bind_ok in H as (x & X & H). apply bind_ok in H as (y & Y & H). injection H as <-.
  constructor; [|apply app_bytes; [exact (encoded_bytes _ _ X)|exact (pack_u_bytes _ _ _ Y)]].
  pose proof (zlen_nonneg f). unfold guard in G. destruct (zlen f <=? 127) eqn:E; [|discriminate]. change 0x80 with (1 * 2 ^ 7). rewrite (lor_add _ 1 7) by lia. unfold is_byte. lia.
Qed.
Definition table_bytes (e : fentry) : Prop := is_bytes (snd (snd e)).
Lemma parse_bytes g : forall parent next ents a b es, parseFolder g parent next ents = Ok (a, b, es) -> Forall table_bytes ents -> Forall table_bytes es.
Proof.
  induction g as [l files i IH] using folder_ind'. intros par next ents id next' ents' H F. rewrite parseFolder_eq in H.
  apply bind_ok in H as (t1 & T1 & H). apply bind_ok in H as ([[t2 n2] e2] & ES & H). injection H as <- <- <-.
  assert (G : forall l', (forall x, In x l' -> In x l) -> forall nx en t2 n2 e2, parseSubs next l' nx en = Ok (t2, n2, e2) -> Forall table_bytes en -> is_bytes t2 /\ Forall table_bytes e2).
  { clear - IH. induction l' as [|[n f] l' IHl]; intros SUB nx en t2 n2 e2 H F; cbn [parseSubs] in H.
    - injection H as <- <- <-. split; [constructor|exact F].
    - apply bind_ok in H as ([[o n1] e1] & E1 & H). apply bind_ok in H as (h & EH & H). apply bind_ok in H as ([[t n3] e3] & E3 & H). injection H as <- <- <-.
      pose proof (IH n f (SUB _ (or_introl eq_refl)) _ _ _ _ _ _ E1 F) as F1. destruct (IHl (fun x I => SUB x (or_intror I)) _ _ _ _ _ E3 F1) as (A & B).
      split; [apply app_bytes; [exact (folder_entry_bytes _ _ _ EH)|exact A]|exact B]. }
  destruct (G l (fun _ I => I) _ _ _ _ _ ES F) as (A & B). apply Forall_app. split; [exact B|]. constructor; [|constructor]. unfold table_bytes. cbn [snd].
  apply app_bytes; [|apply app_bytes; [exact A|repeat constructor; lia]]. apply concat_bytes. apply Forall_forall. intros y Y. destruct (mapM_in _ _ _ T1 y Y) as (x & _ & X). exact (file_entry_bytes _ _ X).
Qed.
Lemma insert_bytes e l : table_bytes e -> Forall table_bytes l -> Forall table_bytes (insert_key e l).
Proof. intros E. induction 1 as [|x l X L IH]; cbn [insert_key]; [constructor; [exact E|constructor]|]. destruct (_ <=? _); constructor; try assumption. constructor; assumption. Qed.
Lemma fnt_bytes g t : save g = Ok t -> is_bytes t.
Proof.
  intros H. unfold save in H. apply bind_ok in H as ([[a b] es] & P & H). apply bind_ok in H as (_ & _ & H). apply parse_bytes in P; [|constructor].
  apply (foldM_keep writeEntry (fun b : bytes => is_bytes b) table_bytes) in H; [exact H| |apply zeros_bytes|].
  - intros s [k [[x y] tb]] s' S T E. cbn [writeEntry] in E. apply bind_ok in E as (h & Hh & E). apply bind_ok in E as (d & D & E). injection E as <-. apply app_bytes; [apply (put_bytes _ _ _ _ S) in D; [exact D|exact (pack_us_bytes _ _ Hh)]|exact T].
  - unfold sorted_entries. clear H. induction P as [|e l E L IH]; [constructor|]. cbn [fold_right]. apply insert_bytes; assumption.
Qed.

(** ** archives *)
Lemma asc_bytes l : forallb byteb l = true -> is_bytes l.
Proof. intros H. apply forallb_byteb. exact H. Qed.
Lemma narc_bytes n d : narc_save n = Ok d -> Forall (fun f : bytes => is_bytes f) (nFiles n) -> is_bytes d.
Proof.
  intros H F. unfold narc_save in H. apply bind_ok in H as (h & Hh & H). apply bind_ok in H as ([fimg fatb] & A & H).
  assert (AB : is_bytes fimg /\ is_bytes fatb).
  { apply (foldM_keep narc_addFile (fun s => is_bytes (fst s) /\ is_bytes (snd s)) (fun f : bytes => is_bytes f)) in A; [exact A| | |exact F].
    - intros [s1 s2] f s' (S1 & S2) Q E. cbn [narc_addFile fst snd] in *. apply bind_ok in E as (e & Ee & E). injection E as <-. cbn [fst snd]. split; [apply pad_bytes; [unfold is_byte; lia|apply app_bytes; assumption]|apply app_bytes; [exact S2|exact (pack_us_bytes _ _ Ee)]].
    - cbn [fst snd]. split; [apply zeros_bytes|apply app_bytes; [apply asc_bytes; reflexivity|exact (pack_us_bytes _ _ Hh)]]. }
  clear A. destruct AB as (B1 & B2). apply bind_ok in H as (l & L & H). apply bind_ok in H as (fimg' & P & H).
  apply put_bytes in P; [|exact B1|apply app_bytes; [apply asc_bytes; reflexivity|exact (pack_u_bytes _ _ _ L)]].
  apply bind_ok in H as (t & T & H). apply fnt_bytes in T. apply bind_ok in H as (nl & N & H). apply pack_u_bytes in N.
  cbv zeta in H. destruct (match nEndian n with BE => _ | LE => _ end) as [bom v]. apply bind_ok in H as (hd & D & H). apply pack_us_bytes in D.
  apply put_bytes in H; [exact H| |apply app_bytes; [apply asc_bytes; reflexivity|exact D]].
  apply app_bytes; [apply zeros_bytes|]. apply app_bytes; [exact B2|]. apply app_bytes; [|exact P]. apply app_bytes; [apply asc_bytes; reflexivity|]. apply app_bytes; [exact N|]. apply pad_bytes; [unfold is_byte; lia|exact T].
Qed.

(** ** ROMs *)
Definition byte_parts (r : rom) : Prop := Forall (fun f : bytes => is_bytes f)
  ([name r; idCode r; developerCode r; secureAreaDisable r; pad088 r; nintendoLogo r; pad16C r; pad200 r; rsaSignature r; arm9 r; arm9PostData r; arm7 r;
    arm9OverlayTable r; arm7OverlayTable r; iconBanner r; debugRom r] ++ files r).
Definition st_bytes (s : bytes * offs) : Prop := is_bytes (fst s).
Lemma align_bytes d : is_bytes d -> is_bytes (alignF d).
Proof. intros D. apply pad_bytes; [unfold is_byte; lia|exact D]. Qed.
Lemma get_bytes fs i f : Forall (fun f : bytes => is_bytes f) fs -> get fs i = Ok f -> is_bytes f.
Proof.
  intros F G. unfold get in G. cbv zeta in G. set (j := if i <? 0 then _ else i) in G. clearbody j. destruct (j <? 0); [discriminate|]. destruct (nth_error fs (Z.to_nat j)) as [y|] eqn:E; [|discriminate].
  injection G as <-. apply nth_error_In in E. exact (proj1 (Forall_forall _ _) F _ E).
Qed.
Lemma part_bytes p d : is_bytes p -> is_bytes d -> is_bytes (fst (pack_part p d)).
Proof. intros P D. unfold pack_part. destruct p as [|x p]; [exact D|]. cbn [fst]. apply align_bytes, app_bytes; assumption. Qed.
Lemma field_bytes f b : (match f with HLen x _ | HFix x _ => is_bytes x | _ => True end) -> hwrite f = Ok b -> is_bytes b.
Proof.
  destruct f as [x n|x n|v|v|v]; cbn [hwrite]; intros X H.
  - apply bind_ok in H as (_ & _ & H). injection H as <-. exact X.
  - injection H as <-. apply is_bytes_slice. unfold ljust. apply app_bytes; [exact X|apply rep_bytes; unfold is_byte; lia].
  - destruct (byteb v) eqn:E; [|discriminate]. injection H as <-. constructor; [unfold byteb in E; unfold is_byte; lia|constructor].
  - exact (pack_u_bytes _ _ _ H).
  - exact (pack_u_bytes _ _ _ H).
Qed.
Lemma fields_bytes fs bs : Forall (fun f => match f with HLen x _ | HFix x _ => is_bytes x | _ => True end) fs -> mapM hwrite fs = Ok bs -> is_bytes (concat bs).
Proof. intros F H. apply concat_bytes. apply Forall_forall. intros y Y. destruct (mapM_in _ _ _ H y Y) as (x & X1 & X). exact (field_bytes _ _ (proj1 (Forall_forall _ _) F x X1) X). Qed.
Section Body.
  Context (fs : list bytes) (F : Forall (fun f : bytes => is_bytes f) fs).
  Lemma overlays_bytes t s s' : st_bytes s -> pack_overlays fs t s = Ok s' -> st_bytes s'.
  Proof.
    intros S H. unfold pack_overlays in H. apply (foldM_keep _ st_bytes (fun _ => True)) in H; [exact H| |exact S|apply Forall_forall; trivial]. intros a n b A _ E. unfold pack_overlay in E.
    apply bind_ok in E as (id & _ & E). apply bind_ok in E as (f & G & E). injection E as <-. unfold st_bytes. cbn [fst]. apply align_bytes, app_bytes; [exact A|exact (get_bytes _ _ _ F G)].
  Qed.
  Lemma pack_file_bytes s n s' : st_bytes s -> pack_file fs s n = Ok s' -> st_bytes s'.
  Proof. intros A E. unfold pack_file in E. apply bind_ok in E as (f & G & E). injection E as <-. unfold st_bytes. cbn [fst]. apply app_bytes; [apply align_bytes; exact A|exact (get_bytes _ _ _ F G)]. Qed.
  Lemma sorted_bytes l s s' : st_bytes s -> foldM (pack_sorted fs) s l = Ok s' -> st_bytes s'.
  Proof.
    intros S H. apply (foldM_keep _ st_bytes (fun _ => True)) in H; [exact H| |exact S|apply Forall_forall; trivial]. intros a n b A _ E. unfold pack_sorted in E. destruct (_ && _); [exact (pack_file_bytes _ _ _ A E)|injection E as <-; exact A].
  Qed.
  Lemma rest_bytes l s s' : st_bytes s -> foldM (pack_rest fs) s l = Ok s' -> st_bytes s'.
  Proof.
    intros S H. apply (foldM_keep _ st_bytes (fun _ => True)) in H; [exact H| |exact S|apply Forall_forall; trivial]. intros a n b A _ E. unfold pack_rest in E. destruct (negb _); [exact (pack_file_bytes _ _ _ A E)|injection E as <-; exact A].
  Qed.
End Body.
Lemma fat_bytes o off l d d' : is_bytes d -> foldM (put_fat o off) d l = Ok d' -> is_bytes d'.
Proof.
  intros S H. apply (foldM_keep _ (fun b : bytes => is_bytes b) (fun _ => True)) in H; [exact H| |exact S|apply Forall_forall; trivial]. intros a [i f] b A _ E. cbn [put_fat] in E. destruct (off_of o i); [|discriminate].
  apply bind_ok in E as (w & W & E). exact (put_bytes _ _ _ _ A (pack_us_bytes _ _ W) E).
Qed.
Lemma body_bytes r d l : byte_parts r -> rom_body r = Ok (d, l) -> is_bytes d.
Proof.
  intros P H. unfold byte_parts in P. apply Forall_app in P as (P & F). repeat match type of P with Forall _ (_ :: _) => let A := fresh "A" in apply Forall_cons_iff in P as (A & P) end. clear P.
  unfold rom_body in H. set (d0 := pad_to 0x4000 0 (zeros 0x200 ++ pad200 r)) in H. assert (D0 : is_bytes d0) by (apply pad_bytes; [unfold is_byte; lia|apply app_bytes; [apply zeros_bytes|assumption]]). clearbody d0.
  set (d1 := alignF _) in H. assert (D1 : is_bytes d1) by (apply align_bytes, app_bytes; [exact D0|apply app_bytes; assumption]). clearbody d1.
  pose proof (part_bytes (arm9OverlayTable r) d1 ltac:(assumption) D1) as D2. destruct (pack_part (arm9OverlayTable r) d1) as [d2 k2]. cbn [fst] in D2.
  apply bind_ok in H as ([d3 o3] & H3 & H). apply (overlays_bytes _ F) in H3; [|exact D2]. unfold st_bytes in H3. cbn [fst] in H3.
  set (d4 := alignF (d3 ++ arm7 r)) in H. assert (D4 : is_bytes d4) by (apply align_bytes, app_bytes; assumption). clearbody d4.
  pose proof (part_bytes (arm7OverlayTable r) d4 ltac:(assumption) D4) as D5. destruct (pack_part (arm7OverlayTable r) d4) as [d5 k5]. cbn [fst] in D5.
  apply bind_ok in H as ([d6 o6] & H6 & H). apply (overlays_bytes _ F) in H6; [|exact D5]. unfold st_bytes in H6. cbn [fst] in H6.
  apply bind_ok in H as (t & T & H). apply fnt_bytes in T.
  set (d7 := alignF (d6 ++ t)) in H. assert (D7 : is_bytes d7) by (apply align_bytes, app_bytes; assumption). clearbody d7.
  set (d8 := alignF (d7 ++ _)) in H. assert (D8 : is_bytes d8) by (apply align_bytes, app_bytes; [assumption|apply zeros_bytes]). clearbody d8.
  apply bind_ok in H as (u & _ & H).
  pose proof (part_bytes (iconBanner r) d8 ltac:(assumption) D8) as D9. destruct (pack_part (iconBanner r) d8) as [d9 k9]. cbn [fst] in D9.
  pose proof (part_bytes (debugRom r) d9 ltac:(assumption) D9) as D10. destruct (pack_part (debugRom r) d9) as [d10 k10]. cbn [fst] in D10.
  apply bind_ok in H as (st & H11 & H). apply (sorted_bytes _ F) in H11; [|exact D10].
  apply bind_ok in H as ([d12 o12] & H12 & H). apply (rest_bytes _ F) in H12; [|exact H11]. unfold st_bytes in H12. cbn [fst] in H12.
  apply bind_ok in H as (d13 & H13 & H). apply fat_bytes in H13; [|exact H12].
  set (d14 := pad_to 0x20 0 d13) in H. assert (D14 : is_bytes d14) by (apply pad_bytes; [unfold is_byte; lia|exact H13]). clearbody d14.
  apply bind_ok in H as (w & W & H). apply pack_u_bytes in W. apply bind_ok in H as (d15 & D15 & H). apply put_bytes in D15; [|apply app_bytes; assumption|exact W].
  injection H as <- _. apply pad_bytes; [unfold is_byte; lia|exact D15].
Qed.
Lemma rom_bytes upd r d r1 : byte_parts r -> rom_save upd r = Ok (d, r1) -> is_bytes d.
Proof.
  intros P H. unfold rom_save in H. apply bind_ok in H as ([b l] & B & H). apply (body_bytes r b l P) in B. apply bind_ok in H as (h & Hh & H). apply SeqRead.ok_inj in H. apply (f_equal fst) in H. cbn [fst] in H. rewrite <- H. clear H. apply app_bytes; [|apply skipn_bytes; exact B].
  unfold byte_parts in P. apply Forall_app in P as (P & _). repeat match type of P with Forall _ (_ :: _) => let A := fresh "A" in apply Forall_cons_iff in P as (A & P) end. clear P.
  unfold rom_header in Hh. apply bind_ok in Hh as (a & A' & Hh). apply bind_ok in Hh as (c & C & Hh). apply bind_ok in Hh as (e & E & Hh). injection Hh as <-.
  apply app_bytes; [|apply app_bytes].
  - apply (fields_bytes _ _) in A'; [exact A'|]. unfold header_fields. repeat (apply Forall_cons; [first [exact I|assumption]|]). constructor.
  - exact (field_bytes (H16 (crc16 (concat a))) _ I C).
  - apply (fields_bytes _ _) in E; [exact E|]. unfold debug_fields. repeat (apply Forall_cons; [first [exact I|assumption]|]). constructor.
Qed.
