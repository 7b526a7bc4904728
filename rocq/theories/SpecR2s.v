(** Specifications used by the properties of r2s_cell. *)
From Verif Require Import PyBase PyFloat PyFs M_input M_mcout M_r2s.
From Coq Require Import Permutation.

(** The keys a configuration may have. *)
Definition recognised : list str :=
  map lit ["mc_input"; "mc_output"; "mc_gamma_input"; "mc_code"; "files_file"; "fispact_template";
           "tallies"; "cells"; "fispact_path"; "cooling_step"]%string.
(** The value of a key, or the default if it is not there. *)
Definition setting (cfg : list (str * json)) (key : str) (default v : json) : Prop :=
  In (key, v) cfg \/ (~ In key (map fst cfg) /\ v = default).
(** A file at a path: its proper ancestors are directories. *)
Definition file_at (f : fs) (p : path) (c : str) : Prop :=
  p <> [] /\ f p = Some (File c) /\ forall a b, p = a ++ b -> a <> [] -> b <> [] -> f a = Some Dir.
(** Nothing at a path. *)
Definition nothing_at (f : fs) (p : path) : Prop :=
  p <> [] /\ (f p = None \/ exists a b, p = a ++ b /\ a <> [] /\ b <> [] /\ f a <> Some Dir).

(** A configuration file that holds the object [cfg]. *)
Definition config_file (json_load : str -> res json) (f : fs) (p : path) (cfg : list (str * json)) : Prop :=
  exists text, read_text f p = Ok text /\ json_load text = Ok (JObj cfg) /\ NoDup (map fst cfg).

(** Tallies whose cells are taken. *)
Definition selected (particle : str) (numbers : option (list Z)) (t : tally) : Prop :=
  t_type t = chr 52 /\ t_particle t = particle /\
  match numbers with None => True | Some ns => In (t_number t) ns end.

(** The first binding of a key. *)
Definition binds {V} (d : list (Z * V)) (k : Z) (v : V) : Prop :=
  exists d1 d2, d = d1 ++ (k, v) :: d2 /\ ~ In k (map fst d1).

(** The text of lines, each ended by a newline. *)
Definition text_of (lines : list String.string) : str :=
  concat (map (fun l => lit l ++ [chr 10]) lines).
Definition collapse_text : str := text_of
  ["<< -----collapse cross section data----- >>"; "CLOBBER"; "GETXS 1 175"; "FISPACT"; "* COLLAPSE"; "END"; "* END OF RUN"]%string.
Definition array_text : str := text_of
  ["<< -----condense decay data----- >>"; "CLOBBER"; "SPEK"; "GETDECAY 1"; "FISPACT"; "* CONDENSE"; "END"; "* END OF RUN"]%string.

(** What a folder must hold; [files] is the content of FILES. *)
Definition folder_file (name files : str) (file content : str) : Prop :=
  (file = lit "collapse.i" /\ content = collapse_text) \/ (file = lit "array.i" /\ content = array_text) \/
  (file = name ++ lit ".i" /\ content = []) \/ (file = lit "FILES" /\ content = files) \/
  (file = lit "fluxes" /\ content = []).
Definition folder_name (name file : str) : Prop := exists files content, folder_file name files file content.
(** The folder holds its five files and nothing else has changed. *)
Definition folder_made (f : fs) (name files : str) (f' : fs) : Prop :=
  f' [name] = Some Dir /\
  (forall file content, folder_file name files file content -> f' [name; file] = Some (File content)) /\
  (forall q, q <> [name] -> (forall file, folder_name name file -> q <> [name; file]) -> f' q = f q).
(** The folder can be made: it is missing or a directory, and none of the five names is a
    directory in it. *)
Definition folder_free (f : fs) (name : str) : Prop :=
  (f [name] = None \/ f [name] = Some Dir) /\ (forall file, folder_name name file -> f [name; file] <> Some Dir).
(** The files would not collide. *)
Definition plain_name (name : str) : Prop := name <> lit "collapse" /\ name <> lit "array".
Definition inside (name : str) (q : path) : Prop := exists r, q = name :: r.
Definition folder_holds (f : fs) (name files : str) : Prop :=
  f [name] = Some Dir /\ forall file content, folder_file name files file content -> f [name; file] = Some (File content).
Definition folder_path (name : str) (q : path) : Prop :=
  q = [name] \/ exists file, folder_name name file /\ q = [name; file].
(** The folder of a cell. *)
Definition cell_folder (n : Z) : str := lit "cell" ++ str_of_Z n.
(** A listing of the elements of a set built from a list, in any order. *)
Definition set_listing (so : list Z -> list Z) : Prop := forall l, NoDup (so l) /\ forall x, In x (so l) <-> In x l.
