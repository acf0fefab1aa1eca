(** The file-system model: what the kernel and [std::fs] do for the calls the
    code makes.  This is environment, not code of /repo.

    Simplifications: no symbolic links; no permission checks (a denied call is
    an injected fault, see Prog.v); every call is atomic. *)
From Verif Require Import Bytes Err.

Notation name := (list byte) (only parsing).
Notation path := (list (list byte)).        (* absolute, from the root of the file system *)

(** What a directory entry is. *)
Inductive node := NDir | NFile (ino : nat).

(** [i_creator] and [i_temp] are ghosts: the process that created the inode, and
    whether it did so with [fs_mktemp].  No system call returns them.
    See local.rs 74-78, 166-177 for where they are made. *)
Record inode := Inode {
  i_data : bytes; i_uid : N; i_mode : N; i_creator : nat; i_temp : bool }.

(** Ghost history of the events theorems talk about: a successful [fs_link] or
    [fs_unlink] (with the canonical name made or removed), and an answer chosen
    by a server process (status code and argument lines).
    See local.rs 185, 251 and processor.rs 705-726. *)
Inductive obs := OLink (p : path) | OUnlink (p : path) | OAnswer (code : N) (args : list bytes).

(** Directory entries by canonical path, and the inode table.  The table only
    grows; an inode with no entry left is unreachable except through handles.
    [hist] is a ghost, newest first, with the acting process; no system call
    looks at it. The repository below [lfs_path] (local.rs 17) is part of it. *)
Record fs := FS { nodes : gmap path node; inodes : list inode; hist : list (nat * obs) }.

(** An open [File] (local.rs 135, 368), or a directory opened for reading. *)
Inductive handle := HDir | HFile (ino : nat).

(** ** Error values *)
(** What the operating system and [std::io] report. The kinds are told apart in local.rs 113, 172, 187, 370. *)
Definition ENOENT := IoErr KNotFound (bs "No such file or directory (os error 2)").
(** local.rs 172, 187. *)
Definition EEXIST := IoErr KAlreadyExists (bs "File exists (os error 17)").
(** [io::Error] of another kind. *)
Definition ENOTDIR := IoErr KOther (bs "Not a directory (os error 20)").
(** [io::Error] of another kind. *)
Definition EISDIR := IoErr KOther (bs "Is a directory (os error 21)").
(** [io::Error] of another kind. *)
Definition EBADF := IoErr KOther (bs "Bad file descriptor (os error 9)").
(** [io::Error] of another kind; see [has_nul]. *)
Definition EINVAL_NUL := IoErr KOther (bs "file name contained an unexpected NUL byte").
(** [read_exact] at the end of the input (pktline.rs 74, 84, 92, 100; processor.rs 663). *)
Definition EEOF := IoErr KUnexpectedEof (bs "failed to fill whole buffer").

(** The entry at a canonical path; the root is a directory. *)
Definition node_at (s : fs) (p : path) : option node :=
  match p with [] => Some NDir | _ => nodes s !! p end.

(** The inode with a number. *)
Definition inode_at (s : fs) (i : nat) : option inode := inodes s !! i.

(** Kernel path resolution: every component but the last must be a directory;
    "" and "." stay, ".." goes to the parent.
    For all paths given to [std::fs], e.g. local.rs 135, 367-368. *)
Fixpoint walk (s : fs) (cur comps : path) : ioerr + path :=
  match comps with
  | [] => inr cur
  | c :: cs =>
      match node_at s cur with
      | None => inl ENOENT
      | Some (NFile _) => inl ENOTDIR
      | Some NDir =>
          if decide (c = [] \/ c = bs ".") then walk s cur cs
          else if decide (c = bs "..") then walk s (removelast cur) cs
          else walk s (cur ++ [c]) cs
      end
  end.

(** [std::fs] refuses names with a NUL byte before calling the kernel.
    A name may come from a client: local.rs 367, processor.rs 640. *)
Definition has_nul (p : path) : bool :=
  existsb (fun c => existsb (fun b => bool_decide (b = Byte.x00)) c) p.

(** The canonical path a path leads to. *)
Definition resolve (s : fs) (p : path) : ioerr + path :=
  if has_nul p then inl EINVAL_NUL else walk s [] p.

(** Changes the entries. *)
Definition set_nodes (f : gmap path node -> gmap path node) (s : fs) : fs :=
  FS (f (nodes s)) (inodes s) (hist s).

(** Creates a new inode and returns its number. See [fs_mktemp], [fs_create_new]. *)
Definition alloc (x : inode) (s : fs) : nat * fs :=
  (length (inodes s), FS (nodes s) (inodes s ++ [x]) (hist s)).

(** Changes an inode. *)
Definition upd_inode (i : nat) (f : inode -> inode) (s : fs) : fs :=
  FS (nodes s) (alter f i (inodes s)) (hist s).

(** Records what a process did, in the ghost history. *)
Definition log (pid : nat) (x : obs) (s : fs) : fs :=
  FS (nodes s) (inodes s) ((pid, x) :: hist s).

(** A write at the end of a file (local.rs 78, 177). *)
Definition append_data (b : bytes) (x : inode) : inode :=
  Inode (i_data x ++ b) (i_uid x) (i_mode x) (i_creator x) (i_temp x).
(** A change of mode (local.rs 36-37). *)
Definition set_mode (m : N) (x : inode) : inode :=
  Inode (i_data x) (i_uid x) m (i_creator x) (i_temp x).

(** ** The calls *)

(** mkdir -p.  [p] is a canonical path. For [fs_mkdir_all]. *)
Fixpoint fs_mkdirs (s : fs) (cur comps : path) : ioerr + fs :=
  match comps with
  | [] => inr s
  | c :: cs =>
      let p := cur ++ [c] in
      match nodes s !! p with
      | None => fs_mkdirs (set_nodes <[p := NDir]> s) p cs
      | Some NDir => fs_mkdirs s p cs
      | Some (NFile _) => inl EEXIST
      end
  end.

(** [fs::create_dir_all] (local.rs 95, git-lfs-transfer.rs 91). *)
Definition fs_mkdir_all (p : path) (s : fs) : iores unit * fs :=
  match fs_mkdirs s [] p with
  | inl e => (IErr e, s)
  | inr s' => (IOk tt, s')
  end.

(** A name longer than the last component of every entry, so certainly free. For [free_name]. *)
Definition max_name (s : fs) : nat :=
  foldr (fun '(p, _) m => Nat.max (length (default [] (last p))) m) 0
        (map_to_list (nodes s)).

(** A name that is not taken, for [fs_mktemp]. *)
Definition free_name (s : fs) (dir : path) (want : name) : name :=
  match nodes s !! (dir ++ [want]) with
  | None => want
  | Some _ => want ++ replicate (S (max_name s)) Byte.x78
  end.

(** tempfile's [tempfile_in]: O_CREAT|O_EXCL, mode 0600, prefix plus a random
    suffix; if the name is taken another one is tried until one is free. local.rs 74-77 *)
Definition fs_mktemp (pid : nat) (uid : N) (dir : path) (prefix sfx : name) (s : fs)
  : iores (path * nat) * fs :=
  match resolve s dir with
  | inl e => (IErr e, s)
  | inr d =>
      match node_at s d with
      | None => (IErr ENOENT, s)
      | Some (NFile _) => (IErr ENOTDIR, s)
      | Some NDir =>
          let n := free_name s d (prefix ++ sfx) in
          let '(i, s1) := alloc (Inode [] uid 384 (* 0600 *) pid true) s in
          (IOk (dir ++ [n], i), set_nodes <[d ++ [n] := NFile i]> s1)
      end
  end.

(** open(O_CREAT|O_EXCL), mode 0666 minus the process umask. local.rs 166-169 *)
Definition fs_create_new (pid : nat) (uid umask : N) (p : path) (s : fs)
  : iores nat * fs :=
  match resolve s p with
  | inl e => (IErr e, s)
  | inr q =>
      match node_at s q with
      | Some _ => (IErr EEXIST, s)
      | None =>
          let '(i, s1) := alloc (Inode [] uid (N.ldiff 438 umask) pid false) s in
          (IOk i, set_nodes <[q := NFile i]> s1)
      end
  end.

(** [write_all] on a file opened for writing (local.rs 78, 177). *)
Definition fs_write (i : nat) (b : bytes) (s : fs) : iores unit * fs :=
  match inode_at s i with
  | Some _ => (IOk tt, upd_inode i (append_data b) s)
  | None => (IErr EBADF, s)
  end.

(** The inode a path names, if it is a regular file.
    For [fs_rename], [fs_unlink] and [fs_link]. *)
Definition file_at (s : fs) (p : path) : ioerr + (path * nat) :=
  match resolve s p with
  | inl e => inl e
  | inr q => match node_at s q with
             | Some (NFile i) => inr (q, i)
             | Some NDir => inl EISDIR
             | None => inl ENOENT
             end
  end.

(** [rename] by [TempPath::persist] (local.rs 102). *)
Definition fs_rename (a b : path) (s : fs) : iores unit * fs :=
  match file_at s a with
  | inl e => (IErr e, s)
  | inr (qa, i) =>
      match resolve s b with
      | inl e => (IErr e, s)
      | inr qb =>
          match node_at s qb with
          | Some NDir => (IErr EISDIR, s)
          | _ => (IOk tt, set_nodes (fun m => <[qb := NFile i]> (delete qa m)) s)
          end
      end
  end.

(** [fs::remove_file] (local.rs 199, 251), and a [NamedTempFile] that is dropped. *)
Definition fs_unlink (pid : nat) (p : path) (s : fs) : iores unit * fs :=
  match file_at s p with
  | inl e => (IErr e, s)
  | inr (q, _) => (IOk tt, log pid (OUnlink q) (set_nodes (delete q) s))
  end.

(** [fs::hard_link] (local.rs 185). *)
Definition fs_link (pid : nat) (a b : path) (s : fs) : iores unit * fs :=
  match file_at s a with
  | inl e => (IErr e, s)
  | inr (_, i) =>
      match resolve s b with
      | inl e => (IErr e, s)
      | inr qb =>
          match node_at s qb with
          | Some _ => (IErr EEXIST, s)
          | None => (IOk tt, log pid (OLink qb) (set_nodes <[qb := NFile i]> s))
          end
      end
  end.

(** [File::open], [OpenOptions::open] for reading (local.rs 135, 368). *)
Definition fs_open (p : path) (s : fs) : iores handle :=
  match resolve s p with
  | inl e => IErr e
  | inr q => match node_at s q with
             | Some (NFile i) => IOk (HFile i)
             | Some NDir => IOk HDir
             | None => IErr ENOENT
             end
  end.

(** The contents of a file. *)
Definition fs_data (i : nat) (s : fs) : bytes :=
  match inode_at s i with Some x => i_data x | None => [] end.

(** [read_to_end] (local.rs 374). *)
Definition fs_read_all (h : handle) (s : fs) : iores bytes :=
  match h with HDir => IErr EISDIR | HFile i => IOk (fs_data i s) end.

(** [read] by [io::copy] (processor.rs 169). *)
Definition fs_read_at (h : handle) (off : nat) (n : N) (s : fs) : iores bytes :=
  match h with
  | HDir => IErr EISDIR
  | HFile i => IOk (take (N.to_nat n) (drop off (fs_data i s)))
  end.

(** Directory sizes are file-system specific; 4096 is typical and never used in
    a theorem about objects. *)
Definition dir_size : N := 4096.

(** [File::metadata] (local.rs 136). *)
Definition fs_fstat (h : handle) (s : fs) : iores N :=
  match h with HDir => IOk dir_size | HFile i => IOk (lenN (fs_data i s)) end.

(** [fs::metadata(p)]: size and owner. local.rs 35, 111, 321 and processor.rs 235. *)
Definition fs_stat (p : path) (s : fs) : iores (N * N) :=
  match resolve s p with
  | inl e => IErr e
  | inr q => match node_at s q with
             | Some (NFile i) =>
                 IOk (lenN (fs_data i s),
                      match inode_at s i with Some x => i_uid x | None => 0%N end)
             | Some NDir => IOk (dir_size, 0%N)
             | None => IErr ENOENT
             end
  end.

(** [fs::set_permissions]; the mode of a directory is not recorded. local.rs 37. *)
Definition fs_chmod (p : path) (m : N) (s : fs) : iores unit * fs :=
  match resolve s p with
  | inl e => (IErr e, s)
  | inr q => match node_at s q with
             | Some (NFile i) => (IOk tt, upd_inode i (set_mode m) s)
             | Some NDir => (IOk tt, s)
             | None => (IErr ENOENT, s)
             end
  end.

(** The entries of a directory, in no particular order. For [fs_readdir]. *)
Definition children (s : fs) (d : path) : list name :=
  omap (fun '(p, _) =>
          match last p with
          | Some n => if decide (removelast p = d) then Some n else None
          | None => None
          end) (map_to_list (nodes s)).

(** [fs::read_dir] (local.rs 408). *)
Definition fs_readdir (p : path) (s : fs) : iores (list name) :=
  match resolve s p with
  | inl e => IErr e
  | inr q => match node_at s q with
             | Some NDir => IOk (children s q)
             | Some (NFile _) => IErr ENOTDIR
             | None => IErr ENOENT
             end
  end.
