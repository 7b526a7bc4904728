(** Python runtime, part 3: a file system of decoded text files, as far as the modelled
    code uses it.  A path is its list of components; [[]] is the root, always a
    directory.  Permissions, links, quotas and concurrent writers are not modelled. *)
From Verif Require Import PyBase.

Definition path := list str.
Inductive node : Type := File (content : str) | Dir.
Definition fs := path -> option node.

Fixpoint path_eqb (a b : path) : bool :=
  match a, b with
  | [], [] => true
  | x :: a', y :: b' => str_eqb x y && path_eqb a' b'
  | _, _ => false
  end.
Definition fs_set (f : fs) (p : path) (n : node) : fs :=
  fun q => if path_eqb q p then Some n else f q.

Definition is_dir (f : fs) (p : path) : bool :=
  match p with
  | [] => true
  | _ :: _ => match f p with Some Dir => true | _ => false end
  end.

(** Walk the proper ancestors of a path below the root: the first one that is missing or
    not a directory determines the error. *)
Fixpoint walk (f : fs) (pre rest : path) : res unit :=
  match rest with
  | [] => Ok tt
  | x :: rest' =>
      match rest' with
      | [] => Ok tt                       (* the last component itself is not walked *)
      | _ :: _ =>
          match f (pre ++ [x]) with
          | None => Err FileNotFoundError
          | Some (File _) => Err NotADirectoryError
          | Some Dir => walk f (pre ++ [x]) rest'
          end
      end
  end.

(** [open(p).read()] *)
Definition read_text (f : fs) (p : path) : res str :=
  do _ <- walk f [] p;
  if is_dir f p then Err IsADirectoryError
  else match f p with
       | Some (File c) => Ok (univ_nl c)
       | Some Dir => Err IsADirectoryError
       | None => Err FileNotFoundError
       end.

(** Effects of a program on the file system, in program order. *)
Inductive fop : Type :=
| OTrunc (p : path)              (* open(p,'w'): create or truncate *)
| OAppend (p : path) (s : str).  (* f.write(s) on the handle of [p] *)

Definition content_of (f : fs) (p : path) : str :=
  match f p with Some (File c) => c | _ => [] end.
Definition run_op (f : fs) (o : fop) : fs :=
  match o with
  | OTrunc p => fs_set f p (File [])
  | OAppend p s => fs_set f p (File (content_of f p ++ s))
  end.
Definition run_ops (f : fs) (ops : list fop) : fs := fold_left run_op ops f.

(** What can be on disk when the process stops while executing [ops]: some operations
    have taken effect completely, and of a following write any prefix (data reaches the
    disk in order, in pieces of any size). *)
Inductive crash : fs -> list fop -> fs -> Prop :=
| crash_here f ops : crash f ops f
| crash_partial f p s ops s1 s2 :
    s = s1 ++ s2 -> crash f (OAppend p s :: ops) (run_op f (OAppend p s1))
| crash_later f o ops f' : crash (run_op f o) ops f' -> crash f (o :: ops) f'.

(** [open(p,'w')] can fail before any effect. *)
Definition can_open_w (f : fs) (p : path) : res unit :=
  do _ <- walk f [] p;
  if is_dir f p then Err IsADirectoryError else Ok tt.

(** [os.mkdir]. *)
Definition os_mkdir (f : fs) (p : path) : res fs :=
  do _ <- walk f [] p;
  match p with
  | [] => Err FileExistsError
  | _ :: _ => match f p with Some _ => Err FileExistsError | None => Ok (fs_set f p Dir) end
  end.
