(** DocumentIndex over several files: paths (py/docria/collection.py 747-760) and the file filter of build_msgpack_directory_fileindex
    (794-836).  The path functions are those of Python's posixpath module: split, normpath, abspath, relpath, join.
    The file system is a function from the components of an absolute path to the bytes of a file.
    Simplifications: no symbolic links; a path is followed component by component without asking whether the directories exist; the files
    are listed in the order in which the worker processes finish (os.listdir promises no order either). *)
From Verif Require Import PyBase Model_Heap Model_Text Model_Msgpack Model_Document Model_Codec Model_Lazy Model_Collection Model_Index Model_Tar.
From Verif Require Model_Printout.
Local Open Scope Z_scope.

Definition slash : N := 47.
(** p.split("/") (os.path, collection.py 747-836) *)
Fixpoint split_slash (p : pystr) : list pystr :=
  match p with
  | [] => [[]]
  | c :: r => if N.eqb c slash then [] :: split_slash r
              else match split_slash r with x :: l => (c :: x) :: l | [] => [[c]] end
  end.
(** os.path, collection.py 747-836 *)
Definition dot : pystr := s ".".
(** os.path, collection.py 747-836 *)
Definition dotdot : pystr := s "..".
(** os.path, collection.py 747-836 *)
Definition isabs (p : pystr) : bool := match p with c :: _ => N.eqb c slash | [] => false end.
(** normpath: how many slashes stay in front; two stay two (os.path, collection.py 747-836) *)
Definition initial_slashes (p : pystr) : nat :=
  match p with
  | a :: b :: c :: _ => if N.eqb a slash then if N.eqb b slash && negb (N.eqb c slash) then 2 else 1 else 0
  | [a; b] => if N.eqb a slash then if N.eqb b slash then 2 else 1 else 0
  | [a] => if N.eqb a slash then 1 else 0
  | [] => 0
  end.
(** the loop of normpath; [acc] is new_comps in reverse (os.path, collection.py 747-836) *)
Fixpoint norm_comps (rooted : bool) (acc comps : list pystr) : list pystr :=
  match comps with
  | [] => rev acc
  | c :: r =>
      if str_eqb c [] || str_eqb c dot then norm_comps rooted acc r
      else if negb (str_eqb c dotdot) || (negb rooted && match acc with [] => true | _ => false end) || match acc with x :: _ => str_eqb x dotdot | [] => false end
      then norm_comps rooted (c :: acc) r
      else norm_comps rooted (tl acc) r
  end.
(** os.path, collection.py 747-836 *)
Definition join_slash (l : list pystr) : pystr := Model_Printout.join [slash] l.
(** os.path, collection.py 747-836 *)
Definition normpath (p : pystr) : pystr :=
  match p with
  | [] => dot
  | _ => let k := initial_slashes p in
         match repeat slash k ++ join_slash (norm_comps (negb (Nat.eqb k 0)) [] (split_slash p)) with
         | [] => dot
         | x => x
         end
  end.
(** os.path, collection.py 747-836 *)
Definition abspath (cwd p : pystr) : pystr := normpath (if isabs p then p else path_join cwd p).
(** [x for x in p.split("/") if x] (os.path, collection.py 747-836) *)
Definition parts (p : pystr) : list pystr := filter (fun x => match x with [] => false | _ => true end) (split_slash p).
(** len(commonprefix([a, b])) (os.path, collection.py 747-836) *)
Fixpoint common (a b : list pystr) : nat :=
  match a, b with
  | x :: a, y :: b => if str_eqb x y then S (common a b) else 0
  | _, _ => 0
  end.
(** os.path, collection.py 747-836 *)
Definition relpath (cwd p start : pystr) : res pystr :=
  match p with
  | [] => Err ValueError
  | _ => let a := parts (abspath cwd start) in
         let b := parts (abspath cwd p) in
         let i := common a b in
         match repeat dotdot (length a - i) ++ skipn i b with
         | [] => Ok dot
         | x :: r => Ok (fold_left path_join r x)
         end
  end.

(** ** Opening files *)
(** collection.py 305-331, 695 *)
Definition files := list pystr -> option (list N).
(** open(p, "rb") in the directory cwd (collection.py 305-331, 695) *)
Definition open_file (fs : files) (cwd p : pystr) : res (list N) :=
  match fs (parts (abspath cwd p)) with Some b => Ok b | None => Err IOError end.
(** build_msgpack_fileindex(p, names) (782-791) *)
Definition file_index (fuel : nat) (g : registry) (fs : files) (cwd p : pystr) (names : list pystr) : res findex :=
  let* b := open_file fs cwd p in index_build fuel g b names.
(** 722-723: the file is opened only if there are hits *)
Definition path_search {A} (take : heap -> block -> block * hres A) (g : registry) (fs : files) (cwd : pystr) (h : heap) (p : pystr) (ix : findex) (conds : dict mobj) : heap * list A * res unit :=
  match found ix conds with
  | Err e => (h, [], Err e)
  | Ok [] => (h, [], Ok tt)
  | Ok _ => match open_file fs cwd p with
            | Err e => (h, [], Err e)
            | Ok b => index_search take g h b ix conds
            end
  end.

(** ** DocumentIndex (747-760) *)
Record multi := mkMI { mi_base : pystr; mi_index : dict findex }.
Definition new_index (cwd basepath : pystr) : multi := mkMI (abspath cwd basepath) [].
(** 753-755: the path of the index becomes relative to the base path *)
Definition multi_add (cwd : pystr) (m : multi) (p : pystr) (ix : findex) : res multi :=
  let* q := relpath cwd p (mi_base m) in Ok (mkMI (mi_base m) (dset (mi_index m) q ix)).
Fixpoint multi_adds (cwd : pystr) (m : multi) (l : list (pystr * findex)) : res multi :=
  match l with
  | [] => Ok m
  | (p, ix) :: r => let* m := multi_add cwd m p ix in multi_adds cwd m r
  end.
(** 757-760 *)
Fixpoint multi_search {A} (take : heap -> block -> block * hres A) (g : registry) (fs : files) (cwd : pystr) (h : heap) (l : dict findex) (conds : dict mobj) : heap * list A * res unit :=
  match l with
  | [] => (h, [], Ok tt)
  | (p, ix) :: r =>
      match path_search take g fs cwd h p ix conds with
      | (h1, l, Err e) => (h1, l, Err e)
      | (h1, l, Ok _) => let '(h2, l', e) := multi_search take g fs cwd h1 r conds in (h2, l ++ l', e)
      end
  end.

(** ** 812-815: the names that the full match of [^.]+?\.docria(\.(xz|bz2|z|lz4))? accepts *)
Fixpoint split_dot (x : pystr) : pystr * option pystr :=
  match x with
  | [] => ([], None)
  | c :: r => if N.eqb c 46 then ([], Some r) else let (a, b) := split_dot r in (c :: a, b)
  end.
Definition name_filter (x : pystr) : bool :=
  match split_dot x with
  | (c :: _, Some r) => existsb (str_eqb r) [s "docria"; s "docria.xz"; s "docria.bz2"; s "docria.z"; s "docria.lz4"]
  | _ => false
  end.
(** 814-815: os.listdir gives the names *)
Definition docria_files (path : pystr) (names : list pystr) : list pystr := map (path_join path) (filter name_filter names).
(** 794-836 *)
Definition directory_index (fuel : nat) (g : registry) (fs : files) (cwd path : pystr) (names props : list pystr) (basepath : pystr) : res multi :=
  let* l := mapM (fun p => let* ix := file_index fuel g fs cwd p props in Ok (p, ix)) (docria_files path names) in
  multi_adds cwd (new_index cwd basepath) l.
