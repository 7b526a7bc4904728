(** Property C239: the files that reading an MCNP output file changes.  Vocabulary:
    SpecMcout.v, SpecUtil.v. *)
From Verif Require Import PyBase PyFloat PyFs PyIo SpecStr SpecInput SpecOutput M_util SpecUtil M_mcout SpecMcout P_mcout2 M_mcdump P_mcdump Prop_mcout.

(** C239 *)
Theorem C239_quiet : forall cwd torder sorder p f,
  read_output_file_io false cwd torder sorder p f = (f, read_output_file torder sorder f p).
Proof. exact quiet_file. Qed.
Print Assumptions C239_quiet.
Theorem C239_debug : forall cwd torder sorder p f f' r data, rearranges torder -> get_lines f p = Ok data ->
  read_output_file_io true cwd torder sorder p f = (f', r) ->
  (forall q, (forall t l, In l data -> listed_tally l t -> q <> cwd ++ [lit "tally_test" ++ t ++ lit ".txt"]) -> f' q = f q) /\
  (forall a, r = Ok a <-> read_output_file torder sorder f p = Ok a /\
     forall t l, In l data -> listed_tally l t -> openable f (cwd ++ [lit "tally_test" ++ t ++ lit ".txt"])) /\
  (forall a t l hdr body, r = Ok a -> In l data -> listed_tally l t -> tally_section data t hdr body ->
     f' (cwd ++ [lit "tally_test" ++ t ++ lit ".txt"]) = Some (File (full_text (removelast body)))).
Proof. exact debug_file. Qed.
Print Assumptions C239_debug.
Example C239_ex : exists f' a, read_output_file_io true [] (fun l => l) (fun l => l) [lit "o.io"] C64_fs = (f', Ok a) /\
  get_lines f' [lit "tally_test4.txt"] = Ok (removelast C59_body) /\ get_lines f' [lit "tally_test14.txt"] = Ok (removelast C59_body) /\
  get_lines f' [lit "o.io"] = get_lines C64_fs [lit "o.io"].
Proof. do 2 eexists. split; [vm_compute; reflexivity|]. vm_compute. repeat split. Qed.
(** The input itself is lost if it has the name of a copy. *)
Example C239_ex_input : let f := fun q : path => if path_eqb q [lit "tally_test4.txt"] then Some (File C64_file) else None in
  exists f' a, read_output_file_io true [] (fun l => l) (fun l => l) [lit "tally_test4.txt"] f = (f', Ok a) /\
    get_lines f' [lit "tally_test4.txt"] = Ok (removelast C59_body).
Proof. do 2 eexists. split; [vm_compute; reflexivity|]. vm_compute. reflexivity. Qed.
(** A directory of that name: no results. *)
Example C239_ex_directory : let f := fun q : path => if path_eqb q [lit "tally_test14.txt"] then Some Dir else C64_fs q in
  snd (read_output_file_io true [] (fun l => l) (fun l => l) [lit "o.io"] f) = Err IsADirectoryError.
Proof. vm_compute. reflexivity. Qed.
