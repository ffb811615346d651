(** * Model of /repo/tools/narctool.py and /repo/tools/testSDAT.py

    Definitions only.  The file system is that of FilesModel, with the same
    simplifications.  What os.listdir and os.path.isdir answer is passed as an
    argument, since the file system of FilesModel has no directories of its own;
    argparse is not modelled. *)
From Coq Require Import String.
From Verif Require Import PyBase FntModel SdatModel FilesModel.

(** ** tools/narctool.py *)

(** main after the arguments have been parsed (narctool.py:44-101); [mode] is
    None when neither -e nor -p is given, and Some true for -e.  Module ndspy.narc has
    neither a function load nor save: looking them up raises AttributeError, before
    the arguments are computed. *)
Definition narctool (mode : option bool) (lowlevel : bool) (isdir : bool) (infile : path) (outfile : option path) : io unit :=
  extract <-- (match mode with
               | Some m => io_ret m
               | None => fun d => match contents d infile with
                                  | Some _ => (Done true, d)
                                  | None => if isdir then (Done false, d) else (Failed (Raised TypeError), d)
                                  end
               end) ;;
  if extract then ind <-- read_file infile ;; pure (Err AttributeError)
  else pure (Err AttributeError).

(** ** tools/testSDAT.py *)

(** [a < b] and [sorted] of strings: by code points (CPython) *)
Fixpoint str_ltb (a b : list Z) : bool :=
  match a, b with
  | _, [] => false
  | [], _ :: _ => true
  | x :: a', y :: b' => (x <? y) || ((x =? y) && str_ltb a' b')
  end.
Fixpoint put (a : list Z) (l : list (list Z)) : list (list Z) :=
  match l with [] => [a] | b :: r => if str_ltb b a then b :: put a r else a :: l end.
Definition sorted (l : list (list Z)) : list (list Z) := fold_right put [] l.

(** [s.endswith(e)] *)
Definition endswith (s e : list Z) : bool := prefixb (rev e) (rev s).
(** [os.path.join(a, b)] for a name [b] that is no absolute path *)
Definition join_dir (a b : list Z) : list Z :=
  match rev a with [] => b | c :: _ => if c =? 47 then a ++ b else a ++ [47] ++ b end.
(** [s[:-n]] for n > 0 *)
Definition drop_last (s : list Z) (n : nat) : list Z := firstn (length s - n) s.

(** shutil.rmtree: no file in the directory or below it is left *)
Definition within (dir : list Z) (p : path) : bool := beq (pDir p) dir || prefixb (dir ++ [47]) (pDir p).
Definition rmtree (dir : list Z) : io unit :=
  fun d => (Done tt, {| contents := fun p => if within dir p then None else contents d p; writable := writable d |}).
(** os.mkdir: OSError if there is a file of that name *)
Definition mkdir (parent nm : list Z) : io unit :=
  fun d => match contents d {| pDir := parent; pName := nm |} with Some _ => (Failed OSError, d) | None => (Done tt, d) end.

(** the line that is printed (testSDAT.py:50-53) *)
Definition report (fn result : list Z) : list Z :=
  let line := fn ++ [32] in
  line ++ repeat 46 (70 - length line) ++ [32] ++ result.
(** the expected failure (testSDAT.py:43) *)
Definition fan_game : list Z := asc "ace_attorney_investigations_miles_edgeworth_2_prosecutor's_path".

(** one round of the loop (testSDAT.py:23-53): the line and whether the test goes on
    being a success *)
Definition test_one (order : list Z) (folder outDir fn : list Z) : io (list Z * bool) :=
  let nm := drop_last fn 5 in
  sdatD <-- read_file {| pDir := folder; pName := fn |} ;;
  sdat <-- pure (sdat_load order sdatD) ;;
  sdatD2 <-- pure (sdat_save sdat) ;;
  _ <-- write_file {| pDir := outDir; pName := nm ++ asc "_out.sdat" |} sdatD2 ;;
  io_ret (if beq sdatD sdatD2 then (report fn (asc "good"), true)
          else if beq nm fan_game then (report fn (asc "wontfix: Fangame; SWAR padding is insane"), true)
          else (report fn (asc "BAD"), false)).
(** the loop (testSDAT.py:23-55) *)
Fixpoint test_each (order : list Z) (folder outDir : list Z) (fns : list (list Z)) : io (list (list Z) * bool) :=
  match fns with
  | [] => io_ret ([], true)
  | fn :: r =>
      if negb (endswith fn (asc ".sdat")) then test_each order folder outDir r
      else one <-- test_one order folder outDir fn ;;
           rest <-- test_each order folder outDir r ;;
           io_ret (fst one :: fst rest, snd one && snd rest)
  end.
(** testSDAT (testSDAT.py:7-55): the printed lines and the result; [isdir] is
    whether the directory for the output exists, [listing] what os.listdir gives *)
Definition testSDAT (order : list Z) (isdir : bool) (listing : list (list Z)) (folder : list Z) : io (list (list Z) * bool) :=
  let outDir := join_dir folder (asc "out") in
  _ <-- (if isdir then rmtree outDir else io_ret tt) ;;
  _ <-- (if isdir then io_ret tt else mkdir folder (asc "out")) ;;
  test_each order folder outDir (sorted listing).
