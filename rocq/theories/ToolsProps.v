(** * The tools for archives and sound archives (C126) *)
From Coq Require Import String Permutation Sorted.
From Verif Require Import PyBase PyLemmas FntModel SdatModel SdatSpec SdatRound FilesModel ToolsModel ToolsLemmas.
From Verif Require SdatProps SdatResaveProps FilesProps.
Import FilesProps SdatProps.

(** ** tools/narctool.py *)

(** It neither extracts nor packs: it always raises an exception, and no file is changed *)
Theorem C126_narctool_refuted : forall mode lowlevel isdir infile outfile d, exists e,
  narctool mode lowlevel isdir infile outfile d = (Failed e, d) /\
  (contents d infile <> None -> e = Raised AttributeError).
Proof.
  intros mode ll isdir i o d. unfold narctool, io_bind, io_ret, pure, read_file.
  destruct mode as [[]|]; destruct (contents d i) as [x|] eqn:C; rewrite ?C; cbn [contents]; try destruct isdir; eexists; (split; [reflexivity|]); intro N; try reflexivity; contradiction N; reflexivity.
Qed.
Print Assumptions C126_narctool_refuted.
Example C126_narctool_ex : let d := ex_disk [(ex_path "a.narc", [0x4E; 0x41; 0x52; 0x43])] in
  narctool None false false (ex_path "a.narc") None d = (Failed (Raised AttributeError), d) /\
  narctool None false true (ex_path "folder") None d = (Failed (Raised AttributeError), d) /\ narctool None false false (ex_path "b") None d = (Failed (Raised TypeError), d).
Proof. repeat split. Qed.

(** ** tools/testSDAT.py *)

(** the file that is expected to differ (testSDAT.py:43) *)
Definition known_bad : list Z := asc "ace_attorney_investigations_miles_edgeworth_2_prosecutor's_path".
(** the folder out in a folder, and the files in a folder or below it *)
Definition out_folder (folder out : list Z) : Prop :=
  (folder = [] /\ out = asc "out") \/ (exists f, folder = f ++ asc "/" /\ out = folder ++ asc "out") \/
  (exists f c, folder = f ++ [c] /\ [c] <> asc "/" /\ out = folder ++ asc "/out").
Definition inside (dir : list Z) (p : path) : Prop := pDir p = dir \/ exists r, pDir p = dir ++ asc "/" ++ r.
Lemma join_out folder : out_folder folder (join_dir folder (asc "out")).
Proof.
  unfold join_dir. destruct (rev folder) as [|c r] eqn:R; apply (f_equal (@rev Z)) in R; rewrite rev_involutive in R; subst folder; [left; split; reflexivity|]. right. cbn [rev].
  destruct (Z.eqb_spec c 47) as [->|N]; [left; exists (rev r); split; reflexivity|right; exists (rev r), c]. split; [reflexivity|]. split; [intro E; injection E as E; contradiction|reflexivity].
Qed.
Lemma within_inside dir p : within dir p = true <-> inside dir p.
Proof.
  unfold within, inside. rewrite orb_true_iff. split.
  - intros [E|E]; [left; apply beq_eq; exact E|right]. apply prefixb_app in E as (r & E). exists r. rewrite E, <- app_assoc. reflexivity.
  - intros [E|(r & E)]; [left; rewrite E; apply beq_refl|right]. apply prefixb_app. exists r. rewrite E, <- app_assoc. reflexivity.
Qed.
Lemma within_not dir p : within dir p = false <-> ~ inside dir p.
Proof. rewrite <- within_inside. destruct (within dir p); split; congruence. Qed.

Lemma report_raw : forall order isdir listing folder d lines ok d', testSDAT order isdir listing folder d = (Done (lines, ok), d') ->
  let out := join_dir folder (asc "out") in
  exists fns, Permutation fns listing /\ StronglySorted (fun a b => ~ before b a) fns /\ Forall2 (tested order folder out d d') (sdat_names fns) lines /\
    (ok = true <-> forall nm x s, In (nm ++ asc ".sdat") listing -> contents d {| pDir := folder; pName := nm ++ asc ".sdat" |} = Some x -> sdat_load order x = Ok s -> sdat_save s = Ok x \/ nm = fan_game) /\
    (forall p, within out p = false -> contents d' p = contents d p) /\
    (forall p, within out p = true -> (exists nm, In (nm ++ asc ".sdat") listing /\ p = {| pDir := out; pName := nm ++ asc "_out.sdat" |}) \/ contents d' p = if isdir then None else contents d p).
Proof.
  intros order isdir listing folder d lines ok d' T out. unfold testSDAT, io_bind in T. fold out in T.
  set (d0 := {| contents := fun p => if isdir && within out p then None else contents d p; writable := writable d |}).
  assert (T' : exists dd, (forall p, contents dd p = contents d0 p) /\ test_each order folder out (sorted listing) dd = (Done (lines, ok), d')).
  { destruct isdir; cbn [rmtree io_ret] in T.
    - exists d0. split; [reflexivity|exact T].
    - unfold mkdir in T. destruct (contents d _); [discriminate T|]. exists d. split; [reflexivity|exact T]. }
  destruct T' as (dd & D0 & T'). destruct (each_spec order folder out (join_diff folder) _ _ _ _ T') as (W & K & F & G).
  assert (I : forall fn, contents dd {| pDir := folder; pName := fn |} = contents d {| pDir := folder; pName := fn |}).
  { intro fn. rewrite D0. cbn [contents d0]. unfold out. rewrite within_folder, andb_false_r. reflexivity. }
  exists (sorted listing). split; [apply sorted_perm|]. split; [apply sorted_sorted|]. split; [|split; [|split]].
  - clear - F I. induction F as [|a b l l' H F IH]; [constructor|]. constructor; [|exact IH]. destruct H as (nm & x & s & y & -> & C & R). exists nm, x, s, y. split; [reflexivity|]. split; [rewrite <- I; exact C|exact R].
  - rewrite G. split.
    + intros H nm x s N C L. destruct (H nm) as (x' & s' & y & C' & L' & V & E); [exact (Permutation_in _ (Permutation_sym (sorted_perm listing)) N)|]. rewrite I, C in C'. injection C' as <-. rewrite L in L'. injection L' as <-. destruct E as [->|E]; [left; exact V|right; exact E].
    + intros H nm N. assert (N' : In (nm ++ asc ".sdat") (sdat_names (sorted listing))) by (apply sdat_names_in; split; [exact N|exists nm; reflexivity]).
      assert (X : exists x s y, contents dd {| pDir := folder; pName := nm ++ asc ".sdat" |} = Some x /\ sdat_load order x = Ok s /\ sdat_save s = Ok y).
      { clear - F N'. induction F as [|a b l l' H F IH]; [contradiction|]. destruct N' as [->|N']; [|exact (IH N')]. destruct H as (n & x & s & y & E & C & L & V & _). exists x, s, y. repeat split; assumption. }
      destruct X as (x & s & y & C & L & V). exists x, s, y. split; [exact C|]. split; [exact L|]. split; [exact V|]. rewrite I in C.
      destruct (H nm x s (Permutation_in _ (sorted_perm listing) N) C L) as [V'|E]; [left; rewrite V in V'; injection V' as ->; reflexivity|right; exact E].
  - intros p P. rewrite K; [rewrite D0; cbn [contents d0]; rewrite P, andb_false_r; reflexivity|]. intros nm _ ->. unfold within in P. cbn [pDir] in P. rewrite beq_refl in P. discriminate P.
  - intros p P. destruct (in_dec (list_eq_dec Z.eq_dec) (pName p) (map (fun fn => drop_last fn 5 ++ asc "_out.sdat") (sdat_names listing))) as [Q|Q].
    + destruct (list_eq_dec Z.eq_dec (pDir p) out) as [E|E].
      * left. apply in_map_iff in Q as (fn & E' & Q). apply sdat_names_in in Q as (Q & nm & ->). exists nm. split; [exact Q|]. change 5%nat with (length (asc ".sdat")) in E'. rewrite drop_last_app in E'. destruct p as [a b]. cbn [pDir pName] in *. congruence.
      * right. rewrite K; [rewrite D0; cbn [contents d0]; rewrite P, andb_true_r; destruct isdir; reflexivity|]. intros nm _ ->. apply E. reflexivity.
    + right. rewrite K; [rewrite D0; cbn [contents d0]; rewrite P, andb_true_r; destruct isdir; reflexivity|]. intros nm N ->. apply Q. cbn [pName]. apply in_map_iff. exists (nm ++ asc ".sdat"). split; [change 5%nat with (length (asc ".sdat")); rewrite drop_last_app; reflexivity|].
      apply sdat_names_in. split; [exact (Permutation_in _ (sorted_perm listing) N)|exists nm; reflexivity].
Qed.
Lemma stops_raw : forall order isdir listing folder d e d', testSDAT order isdir listing folder d = (Failed e, d') ->
  let out := join_dir folder (asc "out") in
  ((isdir = false /\ contents d {| pDir := folder; pName := asc "out" |} <> None /\ e = OSError) \/
   (exists nm, In (nm ++ asc ".sdat") listing /\ trouble order folder out d nm e)) /\
  (forall p, within out p = false -> contents d' p = contents d p).
Proof.
  intros order isdir listing folder d e d' T out. unfold testSDAT, io_bind in T. fold out in T.
  set (d0 := {| contents := fun p => if isdir && within out p then None else contents d p; writable := writable d |}).
  assert (T' : (isdir = false /\ contents d {| pDir := folder; pName := asc "out" |} <> None /\ e = OSError /\ d' = d) \/
    exists dd, (forall p, contents dd p = contents d0 p) /\ writable dd = writable d /\ test_each order folder out (sorted listing) dd = (Failed e, d')).
  { destruct isdir; cbn [rmtree io_ret] in T.
    - right. exists d0. split; [reflexivity|]. split; [reflexivity|exact T].
    - unfold mkdir in T. destruct (contents d _) eqn:C; [injection T as <- <-; left; repeat split; discriminate|]. right. exists d. split; [reflexivity|]. split; [reflexivity|exact T]. }
  destruct T' as [(B & C & E & ->)|(dd & D0 & WW & T')]; [split; [left; repeat split; assumption|reflexivity]|].
  destruct (each_spec order folder out (join_diff folder) _ _ _ _ T') as (W & K & nm & N & R). split.
  - right. exists nm. split; [exact (Permutation_in _ (sorted_perm listing) N)|]. unfold trouble in *. rewrite D0 in R. cbn [contents d0] in R. unfold out in R at 1. rewrite within_folder, andb_false_r, WW in R. exact R.
  - intros p P. rewrite K; [rewrite D0; cbn [contents d0]; rewrite P, andb_false_r; reflexivity|]. intros n _ ->. unfold within in P. cbn [pDir] in P. rewrite beq_refl in P. discriminate P.
Qed.

(** If it runs to its end, there is a line for every file whose name ends in .sdat, in
    the order of the names.  Each of them has been saved again under its name with
    _out in the folder out; its line says good exactly if the data is the same, and BAD
    exactly if it is not and the file is not the one that is expected to fail.  The
    result is success exactly if no file is BAD.  Nothing outside the folder out is
    changed, and nothing else is in it if it existed before. *)
Theorem C126_report : forall order isdir listing folder d lines ok d', testSDAT order isdir listing folder d = (Done (lines, ok), d') ->
  exists out fns, out_folder folder out /\ Permutation fns listing /\ StronglySorted (fun a b => ~ before b a) fns /\ Forall2 (tested order folder out d d') (sdat_names fns) lines /\
    (ok = true <-> forall nm x s, In (nm ++ asc ".sdat") listing -> contents d {| pDir := folder; pName := nm ++ asc ".sdat" |} = Some x -> sdat_load order x = Ok s -> sdat_save s = Ok x \/ nm = known_bad) /\
    (forall p, ~ inside out p -> contents d' p = contents d p) /\
    (forall p, inside out p -> (exists nm, In (nm ++ asc ".sdat") listing /\ p = {| pDir := out; pName := nm ++ asc "_out.sdat" |}) \/ contents d' p = if isdir then None else contents d p).
Proof.
  intros order isdir listing folder d lines ok d' T. destruct (report_raw _ _ _ _ _ _ _ _ T) as (fns & A1 & A2 & A3 & A4 & A5 & A6).
  exists (join_dir folder (asc "out")), fns. split; [apply join_out|]. split; [exact A1|]. split; [exact A2|]. split; [exact A3|]. split; [exact A4|].
  split; intros p P; [apply A5, within_not, P|apply A6, within_inside, P].
Qed.
Print Assumptions C126_report.

(** If it stops before, then there is a file called out in the way, or one of the files
    cannot be opened, loaded, saved or written; no file outside the folder out is changed. *)
Theorem C126_stops : forall order isdir listing folder d e d', testSDAT order isdir listing folder d = (Failed e, d') ->
  exists out, out_folder folder out /\
  ((isdir = false /\ contents d {| pDir := folder; pName := asc "out" |} <> None /\ e = OSError) \/
   (exists nm, In (nm ++ asc ".sdat") listing /\ trouble order folder out d nm e)) /\
  (forall p, ~ inside out p -> contents d' p = contents d p).
Proof.
  intros order isdir listing folder d e d' T. destruct (stops_raw _ _ _ _ _ _ _ T) as (A1 & A2). exists (join_dir folder (asc "out")). split; [apply join_out|]. split; [exact A1|]. intros p P. apply A2, within_not, P.
Qed.
Print Assumptions C126_stops.

(** Applied to a folder of archives that the library itself has saved three times, the test succeeds
    ([C62_settles]; once is not enough, [C62_unconditional_refuted]) *)
Theorem C126_settled : forall order isdir listing folder d lines ok d',
  (forall nm x, In (nm ++ asc ".sdat") listing -> contents d {| pDir := folder; pName := nm ++ asc ".sdat" |} = Some x ->
     exists s d1 s1 d2 s2, (fileAlign s | 0x200) /\ (forall f, firstAlign s = Some f -> (f | 0x200)) /\ loadable s /\
       sdat_save s = Ok d1 /\ sdat_load order d1 = Ok s1 /\ sdat_save s1 = Ok d2 /\ sdat_load order d2 = Ok s2 /\ sdat_save s2 = Ok x) ->
  testSDAT order isdir listing folder d = (Done (lines, ok), d') -> ok = true.
Proof.
  intros order isdir listing folder d lines ok d' H T. destruct (C126_report _ _ _ _ _ _ _ _ T) as (out & fns & _ & _ & _ & _ & G & _). apply G. intros nm x t N C L. left.
  destruct (H nm x N C) as (s & d1 & s1 & d2 & s2 & A & B & LO & S1 & L1 & S2 & L2 & S3). destruct (SdatResaveProps.C62_settles _ _ _ _ _ _ _ A B LO S1 L1 S2 L2 S3) as (t' & L' & V). rewrite L in L'. injection L' as <-. exact V.
Qed.
Print Assumptions C126_settled.

(** a disk that can be written everywhere *)
Definition open_disk (l : list (path * bytes)) : disk := {| contents := contents (ex_disk l); writable := fun _ => true |}.
Definition one_file : bytes := Eval vm_compute in SdatResaveProps.save_ (SdatResaveProps.one_seq [0xFF] false None 0x20 false).
Definition two_file : bytes := Eval vm_compute in SdatResaveProps.save_ (SdatResaveProps.gen (SdatResaveProps.one_seq [0xFF] false None 0x20 false)).
Definition three_file : bytes := Eval vm_compute in SdatResaveProps.save_ (SdatResaveProps.gen (SdatResaveProps.gen (SdatResaveProps.one_seq [0xFF] false None 0x20 false))).
Definition in_out (s : string) : path := {| pDir := asc "dir/out"; pName := asc s |}.
Example C126_report_ex : let d := open_disk [(ex_path "b.sdat", one_file); (ex_path "a.sdat", three_file); (ex_path "c", [1]); (in_out "old", [2])] in
  shows (testSDAT [] true [asc "out"; asc "b.sdat"; asc "c"; asc "a.sdat"] (asc "dir/") d)
    [(ex_path "b.sdat", Some one_file); (in_out "b_out.sdat", Some two_file); (in_out "a_out.sdat", Some three_file); (in_out "old", None)] =
    Some ([asc "a.sdat ............................................................... good"; asc "b.sdat ............................................................... BAD"], false) /\
  one_file <> two_file /\ two_file <> three_file.
Proof. split; [vm_compute; reflexivity|]. split; discriminate. Qed.
Example C126_stops_ex : fst (testSDAT [] false [asc "b.sdat"] (asc "dir/") (open_disk [(ex_path "b.sdat", [1; 2])])) = Failed (Raised StructError) /\
  fst (testSDAT [] false [asc "b.sdat"] (asc "dir/") (ex_disk [(ex_path "b.sdat", one_file)])) = Failed OSError /\
  fst (testSDAT [] false [asc "b.sdat"] (asc "dir/") (open_disk [])) = Failed OSError /\ fst (testSDAT [] false [] (asc "dir/") (open_disk [(ex_path "out", [])])) = Failed OSError.
Proof. repeat split; vm_compute; reflexivity. Qed.
Example C126_settled_ex : exists lines d', testSDAT [] false [asc "a.sdat"] (asc "dir/") (open_disk [(ex_path "a.sdat", three_file)]) = (Done (lines, true), d').
Proof. eexists _, _. vm_compute. reflexivity. Qed.
