(** * Model of ndspy/fnt.py: filename tables

    A [str] is the list of its code points, as everywhere.  Folders are immutable
    values (the code only reads them here); a folder that contains itself, which
    Python allows and on which save() raises RecursionError, is not representable.
    _strListUncombined, _strList and __str__ are in TextModel, __repr__ in ReprModel.
    Not modelled: __iter__, which always raises ValueError. *)
From Verif Require Import PyBase CommonModel.

(** Folder (fnt.py:29-52): (name, Folder) pairs, file names, firstID *)
Inductive folder : Type :=
| Folder (folders : list (list Z * folder)) (files : list (list Z)) (firstID : Z).

Definition fFolders (f : folder) := let 'Folder fs _ _ := f in fs.
Definition fFiles (f : folder) := let 'Folder _ l _ := f in l.
Definition fFirst (f : folder) := let 'Folder _ _ i := f in i.

(** ** lookups *)

(** [path.split('/')] (47 is '/') *)
Fixpoint split_slash (s : list Z) : list (list Z) :=
  match s with
  | [] => [[]]
  | c :: r => if c =? 47 then [] :: split_slash r
              else match split_slash r with
                   | [] => [[c]]
                   | h :: t => (c :: h) :: t
                   end
  end.

(** ['/'.join(parts)] *)
Fixpoint join_slash (l : list (list Z)) : list Z :=
  match l with
  | [] => []
  | [x] => x
  | x :: r => x ++ 47 :: join_slash r
  end.

(** [while not pathList[0]: pathList = pathList[1:]] (fnt.py:124, 154);
    an exhausted list raises IndexError *)
Fixpoint dropEmpty (l : list (list Z)) : res (list (list Z)) :=
  match l with
  | [] => Err IndexError
  | [] :: r => dropEmpty r
  | _ => Ok l
  end.

(** the path list (fnt.py:122-124, 152-154); the loop on [pathList[-1]] is the
    same loop on the reversed list *)
Definition pathParts (path : list Z) : res (list (list Z)) :=
  l <- dropEmpty (rev (split_slash path)) ;; dropEmpty (rev l).

(** [name in files] followed by [files.index(name)] (fnt.py:107-109) *)
Fixpoint files_index (name : list Z) (l : list (list Z)) (i : Z) : option Z :=
  match l with
  | [] => None
  | x :: r => if beq x name then Some i else files_index name r (i + 1)
  end.

(** the first (name, Folder) pair with this name (fnt.py:115-118, 141-148) *)
Fixpoint folders_find (name : list Z) (l : list (list Z * folder)) : option folder :=
  match l with
  | [] => None
  | (n, f) :: r => if beq n name then Some f else folders_find name r
  end.

(** idOf.findInFolder (fnt.py:99-120) *)
Fixpoint idOf_find (path : list (list Z)) (f : folder) : res (option Z) :=
  match path with
  | [] => Err IndexError
  | [p] => Ok (match files_index p (fFiles f) 0 with
               | Some i => Some (fFirst f + i)
               | None => None
               end)
  | p :: rest => match folders_find p (fFolders f) with
                 | Some g => idOf_find rest g
                 | None => Ok None
                 end
  end.
(** idOf (fnt.py:93-125) *)
Definition idOf (self : folder) (path : list Z) : res (option Z) :=
  l <- pathParts path ;; idOf_find l self.

(** subfolder.findInFolder (fnt.py:135-150) *)
Fixpoint subfolder_find (path : list (list Z)) (f : folder) : res (option folder) :=
  match path with
  | [] => Err IndexError
  | [p] => Ok (folders_find p (fFolders f))
  | p :: rest => match folders_find p (fFolders f) with
                 | Some g => subfolder_find rest g
                 | None => Ok None
                 end
  end.
(** subfolder (fnt.py:128-155) *)
Definition subfolder (self : folder) (path : list Z) : res (option folder) :=
  l <- pathParts path ;; subfolder_find l self.

(** filenameOf.findInFolder (fnt.py:165-186), without the accumulated prefix:
    the prefix is put in front on the way back *)
Fixpoint filenameOf_find (id : Z) (f : folder) : option (list (list Z)) :=
  let 'Folder folders files firstID := f in
  if (firstID <=? id) && (id <? firstID + zlen files)
  then match nth_error files (Z.to_nat (id - firstID)) with
       | Some n => Some [n]
       | None => None
       end
  else (fix go (l : list (list Z * folder)) : option (list (list Z)) :=
          match l with
          | [] => None
          | (n, g) :: r => match filenameOf_find id g with
                           | Some p => Some (n :: p)
                           | None => go r
                           end
          end) folders.
(** filenameOf (fnt.py:158-192) *)
Definition filenameOf (self : folder) (id : Z) : option (list Z) :=
  match filenameOf_find id self with Some p => Some (join_slash p) | None => None end.

(** __getitem__ for int and str keys (fnt.py:59-82) *)
Definition getitem_int (self : folder) (key : Z) : res (list Z) :=
  match filenameOf self key with Some n => Ok n | None => Err KeyError end.
Definition getitem_str (self : folder) (key : list Z) : res (Z + folder) :=
  o <- idOf self key ;;
  match o with
  | Some i => Ok (inl i)
  | None => s <- subfolder self key ;;
            match s with Some g => Ok (inr g) | None => Err KeyError end
  end.
(** __contains__ (fnt.py:85-90): every exception means False *)
Definition contains_int (self : folder) (key : Z) : bool :=
  match getitem_int self key with Ok _ => true | Err _ => false end.
Definition contains_str (self : folder) (key : list Z) : bool :=
  match getitem_str self key with Ok _ => true | Err _ => false end.

(** ** load (fnt.py:267-309) *)

(** the entry loop (fnt.py:287-304); [rec] is loadFolder.  [n] is fuel: each
    iteration consumes at least one byte (proved: it never runs out). *)
Fixpoint loadEntries (rec : Z -> res folder) (data : bytes) (n : nat) (off : Z)
    (folders : list (list Z * folder)) (files : list (list Z))
  : res (list (list Z * folder) * list (list Z)) :=
  match n with
  | O => Err OutOfFuel
  | S k =>
    control <- unpack_u 1 data off ;;
    let off := off + 1 in
    if control =? 0 then Ok (folders, files)
    else
      let len_ := Z.land control 0x7F in
      let isFolder := Z.land control 0x80 in
      let name := slice data off (off + len_) in
      let off := off + len_ in
      if negb (isFolder =? 0) then
        sub <- unpack_u 2 data off ;;
        f <- rec sub ;;
        loadEntries rec data k (off + 2) (folders ++ [(name, f)]) files
      else loadEntries rec data k off folders (files ++ [name])
  end.

(** loadFolder (fnt.py:272-306); [depth] is the number of nested calls Python's
    recursion limit allows *)
Fixpoint loadFolder (depth : nat) (data : bytes) (folderId : Z) : res folder :=
  match depth with
  | O => Err RecursionError
  | S d =>
    let off := 8 * Z.land folderId 0xFFF in
    entriesTableOff <- unpack_u 4 data off ;;
    fileID <- unpack_u 2 data (off + 4) ;;
    ' (folders, files) <- loadEntries (loadFolder d data) data (S (length data)) entriesTableOff [] [] ;;
    Ok (Folder folders files fileID)
  end.
Definition load (depth : nat) (data : bytes) : res folder := loadFolder depth data 0xF000.

(** ** save (fnt.py:312-407) *)

(** one file entry (fnt.py:349-353) *)
Definition fileEntry (file : list Z) : res bytes :=
  _ <- guard (zlen file <=? 127) ValueError ;;
  b <- encode_latin1 file ;;
  Ok (zlen file :: b).

(** one subfolder entry, after the subfolder itself was parsed (fnt.py:362-371) *)
Definition folderEntry (name : list Z) (otherID : Z) : res bytes :=
  _ <- guard (zlen name <=? 127) ValueError ;;
  b <- encode_latin1 name ;;
  i <- pack_u 2 otherID ;;
  Ok (Z.lor (zlen name) 0x80 :: b ++ i).

(** folderEntries: dict from folder ID to (firstID, parentID, table), in insertion order *)
Definition fentry : Type := Z * (Z * Z * bytes).

(** parseFolder (fnt.py:332-378); [next] is nextFolderID, [ents] folderEntries *)
Fixpoint parseFolder (d : folder) (parentID next : Z) (ents : list fentry)
  : res (Z * Z * list fentry) :=
  let 'Folder folders files firstID := d in
  let folderID := next in
  t1 <- mapM fileEntry files ;;
  ' (t2, next', ents') <-
    (fix go (l : list (list Z * folder)) (next : Z) (ents : list fentry)
       : res (bytes * Z * list fentry) :=
       match l with
       | [] => Ok ([], next, ents)
       | (name, f) :: r =>
         ' (otherID, n1, e1) <- parseFolder f folderID next ents ;;
         h <- folderEntry name otherID ;;
         ' (t, n2, e2) <- go r n1 e1 ;;
         Ok (h ++ t, n2, e2)
       end) folders (next + 1) ents ;;
  Ok (folderID, next', ents' ++ [(folderID, (firstID, parentID, concat t1 ++ t2 ++ [0]))]).

(** countFoldersIn (fnt.py:381-385) *)
Fixpoint countFoldersIn (f : folder) : Z :=
  let 'Folder folders _ _ := f in
  fold_right (fun p n => countFoldersIn (snd p) + n) 0 folders + 1.

(** iteration in order of [sorted(folderEntries.keys())] (fnt.py:396-397) *)
Fixpoint insert_key (e : fentry) (l : list fentry) : list fentry :=
  match l with
  | [] => [e]
  | x :: r => if fst e <=? fst x then e :: l else x :: insert_key e r
  end.
Definition sorted_entries (l : list fentry) : list fentry := fold_right insert_key [] l.

(** body of the writing loop (fnt.py:396-405) *)
Definition writeEntry (fnt : bytes) (e : fentry) : res bytes :=
  let '(currentFolderID, (fileID, parentID, table)) := e in
  h <- pack_us [(4%nat, zlen fnt); (2%nat, fileID); (2%nat, parentID)] ;;
  d <- put fnt (8 * Z.land currentFolderID 0xFFF) h ;;
  Ok (d ++ table).

Definition save (root : folder) : res bytes :=
  ' (rootId, _, ents) <- parseFolder root (countFoldersIn root) 0xF000 [] ;;
  _ <- guard (rootId =? 0xF000) AssertionError ;;
  foldM writeEntry (zeros (zlen ents * 8)) (sorted_entries ents).
