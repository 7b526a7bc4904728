(** Lemmas about the file of the collapse stage. *)
From Verif Require Import PyBase PyFacts PyNumFacts PyFloat PyFs PyIo M_util SpecStr SpecUtil P_util M_input M_mcout M_r2s SpecR2s P_r2s2 P_r2s3 P_r2s4 TextFacts.
Import ListNotations.

Lemma str_of_Z_no_break n : no_break (str_of_Z n).
Proof.
  assert (D : forall p, no_break (str_of_N (N.pos p))).
  { intros p. generalize (proj1 (proj2 (str_of_N_spec (N.pos p)))). apply Forall_impl. intros c. destruct c as [[] [] [] [] [] [] [] []]; vm_compute; congruence. }
  destruct n as [|p|p]; cbn [str_of_Z]; [repeat constructor|apply D|constructor; [reflexivity|apply D]].
Qed.
Lemma collapse_written p n f f' : write_collapse p n f = (f', Ok tt) -> exists a b, get_lines f' p = Ok (a ++ (lit "GETXS 1 " ++ str_of_Z n) :: b) /\
  a = map lit ["<< -----collapse cross section data----- >>"; "CLOBBER"]%string /\ b = map lit ["FISPACT"; "* COLLAPSE"; "END"; "* END OF RUN"]%string.
Proof.
  unfold write_collapse, io_write. destruct (write_lines f p _) as [g|e] eqn:E; [|discriminate]. intros H. injection H as <-.
  pose proof (proj1 (write_get_iff _ _ _ _ E)) as G. eexists _, _. split; [|split; reflexivity]. apply G.
  repeat apply Forall_cons; try apply Forall_nil; try exact (str_of_Z_no_break n); try reflexivity.
  all: try (repeat (apply Forall_cons; [reflexivity|]); first [apply Forall_nil|apply str_of_Z_no_break]).
Qed.
Lemma collapse_other p q n f : q <> p -> fst (write_collapse p n f) q = f q.
Proof.
  intros N. unfold write_collapse, io_write. destruct (write_lines f p _) as [g|e] eqn:E; [|reflexivity]. cbn [fst].
  apply write_lines_Ok in E. destruct E as (_ & ->). rewrite write_lines_run. destruct (path_eqb q p) eqn:Q; [|reflexivity].
  destruct (path_eqb_spec q p); [contradiction|discriminate].
Qed.

(** In a folder that has been set up the count is 175. *)
Lemma setup_groups name v f src f' : plain_name name -> path_of_json v = Ok src -> ~ inside name src -> fispact_setup [name] v f = (f', Ok tt) ->
  f' [name; lit "collapse.i"] = Some (File collapse_text) /\ occurs (lit "GETXS 1 175") collapse_text.
Proof.
  intros P V I E. destruct (setup_made name v f src f' P V I E) as (_ & c & _ & _ & M & _). split.
  - apply M. left. split; reflexivity.
  - eexists (lit "<< -----collapse cross section data----- >>" ++ chr 10 :: lit "CLOBBER" ++ [chr 10]), (chr 10 :: lit "FISPACT" ++ chr 10 :: lit "* COLLAPSE" ++ chr 10 :: lit "END" ++ chr 10 :: lit "* END OF RUN" ++ [chr 10]).
    vm_compute. reflexivity.
Qed.
