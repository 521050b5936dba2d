(* Model of path names as std::path and the operating system (Unix) treat them, and of a file system without links.
   Strings are their UTF-8 bytes. *)
From Verif Require Import M_Base.

(* the pieces between slashes *)
Fixpoint split_slash (s : list N) : list (list N) :=
  match s with
  | [] => [[]]
  | c :: t => if c =? 47 then [] :: split_slash t
              else match split_slash t with p :: ps => (c :: p) :: ps | [] => [[c]] end
  end.
(* std::path::Component *)
Inductive component := RootDir | CurDir | ParentDir | Normal (s : list N).
(* Path::components on Unix: empty pieces are left out; "." too, except at the start of a relative path *)
Definition piece_component (first : bool) (p : list N) : list component :=
  if eqbl p [] then []
  else if eqbl p [46] then (if first then [CurDir] else [])
  else if eqbl p [46; 46] then [ParentDir]
  else [Normal p].
Definition components (s : list N) : list component :=
  match split_slash s with
  | [] => []
  | p :: ps =>
      (match s with 47 :: _ => [RootDir] | _ => [] end)
      ++ piece_component true p ++ concat (map (piece_component false) ps)
  end.
(* src/file_utils.rs:230-236, Path::file_name: the last component if it is a normal one. to_string_lossy changes nothing:
   the argument is valid UTF-8 and so are its pieces. *)
Definition get_file_name_part_of_path (s : list N) : option (list N) :=
  match rev (components s) with Normal p :: _ => Some p | _ => None end.
(* PathBuf::push on Unix *)
Definition path_push (buf part : list N) : list N :=
  match part with
  | 47 :: _ => part
  | _ => match rev buf with
         | [] => part
         | c :: _ => if c =? 47 then buf ++ part else buf ++ 47 :: part
         end
  end.
(* src/misc_utils.rs:176-184 *)
Definition make_path (parts : list (list N)) : list N := fold_left path_push parts [].

(* ---- the file system ---- *)
(* A place: the names from the root on. Links, device files and permissions inside directories are not modelled. *)
Definition loc := list (list N).
Inductive node := NFile (c : file) | NDir.
Definition fs := loc -> option node.
Fixpoint loc_eqb (a b : loc) : bool :=
  match a, b with
  | [], [] => true
  | x :: a', y :: b' => eqbl x y && loc_eqb a' b'
  | _, _ => false
  end.
Definition upd (s : fs) (l : loc) (n : node) : fs := fun x => if loc_eqb x l then Some n else s x.
Definition is_dir_at (s : fs) (l : loc) : bool := match s l with Some NDir => true | _ => false end.
(* one piece of a path, from a directory *)
Definition step_loc (l : loc) (p : list N) : loc :=
  if eqbl p [] then l else if eqbl p [46] then l else if eqbl p [46; 46] then removelast l else l ++ [p].
(* path resolution (path_resolution(7)): every piece is looked up in a directory; the last one need not exist *)
Fixpoint walk (s : fs) (l : loc) (ps : list (list N)) : option loc :=
  match ps with
  | [] => Some l
  | p :: ps' => if is_dir_at s l then walk s (step_loc l p) ps' else None
  end.
(* An empty path names nothing; Rust refuses paths with a zero byte. *)
Definition resolve (s : fs) (cwd : loc) (path : list N) : option loc :=
  if eqbl path [] || existsb (N.eqb 0) path then None
  else walk s (match path with 47 :: _ => [] | _ => cwd end) (split_slash path).
Definition lookup (s : fs) (cwd : loc) (path : list N) : option node :=
  match resolve s cwd path with Some l => s l | None => None end.
(* src/file_utils.rs:32-46: Path::exists, Path::is_file, Path::is_dir *)
Definition path_exists (s : fs) (cwd : loc) (path : list N) : bool := match lookup s cwd path with Some _ => true | None => false end.
Definition path_is_dir (s : fs) (cwd : loc) (path : list N) : bool := match lookup s cwd path with Some NDir => true | _ => false end.

(* Opening a file. [can]: what the system permits, by place. *)
Definition open_read (s : fs) (cwd : loc) (can : loc -> bool) (path : list N) : option (loc * file) :=
  match resolve s cwd path with
  | Some l => match s l with Some (NFile c) => if can l then Some (l, c) else None | _ => None end
  | None => None
  end.
(* OpenOptions::write(true).create(true).truncate(t), src/file_writer.rs:101-122 *)
Definition open_write (s : fs) (cwd : loc) (can : loc -> bool) (truncate : bool) (path : list N) : option (loc * fs) :=
  match resolve s cwd path with
  | Some l =>
      if negb (can l) then None
      else match s l with
           | Some NDir => None
           | Some (NFile c) => Some (l, upd s l (NFile (if truncate then [] else c)))
           | None => Some (l, upd s l (NFile []))
           end
  | None => None
  end.
