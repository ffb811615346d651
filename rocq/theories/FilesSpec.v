(** * What it means to read and to write exactly one file *)
From Coq Require Import String.
From Verif Require Import PyBase FilesModel.

(** [d'] is [d] with the file [p] holding [b] *)
Definition replaced (p : path) (b : bytes) (d d' : disk) : Prop :=
  contents d' p = Some b /\ (forall q, q <> p -> contents d' q = contents d q) /\ (forall q, writable d' q = writable d q).

(** [w] writes the bytes computed by [r] to [p] and returns the other part of [r]:
    it raises [r]'s exception, or OSError if [p] cannot be written, leaving every file
    as it was; otherwise exactly [p] changes *)
Definition writes {A} (w : io A) (p : path) (r : res (bytes * A)) : Prop := forall d,
  match r with
  | Err e => w d = (Failed (Raised e), d)
  | Ok (b, a) => if writable d p then exists d', w d = (Done a, d') /\ replaced p b d d' else w d = (Failed OSError, d)
  end.

(** [w] gives the result of [f] on the contents of [p]; it raises [f]'s exception, or
    OSError if there is no such file; no file changes *)
Definition reads {A} (w : io A) (p : path) (f : bytes -> res A) : Prop := forall d,
  w d = (match contents d p with
         | None => Failed OSError
         | Some b => match f b with Ok a => Done a | Err e => Failed (Raised e) end
         end, d).

(** the result of [r] with [f] applied *)
Definition res_map {A B} (f : A -> B) (r : res A) : res B := match r with Ok a => Ok (f a) | Err e => Err e end.

(** [q] is [p] with the part of the name from its last full stop on replaced by [s];
    a full stop that begins or ends the name does not count, and without one [s] is
    added *)
Definition dot : Z := 46.
Definition suffixed (p : path) (s : list Z) (q : path) : Prop :=
  pDir q = pDir p /\
  ((exists stem ext, pName p = stem ++ dot :: ext /\ stem <> [] /\ ext <> [] /\ ~ In dot ext /\ pName q = stem ++ s) \/
   ((forall stem ext, pName p = stem ++ dot :: ext -> ~ In dot ext -> stem = [] \/ ext = []) /\ pName q = pName p ++ s)).

(** running [a], then [b] *)
Definition andthen {A B} (a : io A) (b : io B) : io B := fun d =>
  match a d with (Done _, d') => b d' | (Failed e, d') => (Failed e, d') end.

(** the output file: the one given, or the input file with another suffix *)
Definition target (p : path) (out : option path) (s : list Z) (q : path) : Prop :=
  match out with Some o => q = o | None => suffixed p s q end.

(** [w] reads [p], converts its contents with [f] and writes the result to [q] *)
Definition converts (w : io unit) (f : bytes -> res bytes) (p q : path) : Prop := forall d,
  match contents d p with
  | None => w d = (Failed OSError, d)
  | Some x => match f x with
              | Err e => w d = (Failed (Raised e), d)
              | Ok b => if writable d q then exists d', w d = (Done tt, d') /\ replaced q b d d' else w d = (Failed OSError, d)
              end
  end.
