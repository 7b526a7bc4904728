(** Tactics for facts about concrete texts, used in the examples. *)
From Verif Require Import PyBase PyFacts PyFloat TextFacts SpecStr SpecOutput SpecMcout P_output P_output3.

Ltac text :=
  lazymatch goal with
  | |- words _ _ => apply words_split; vm_compute; reflexivity
  | |- prefix_of _ _ => apply starts_with_spec; vm_compute; reflexivity
  | |- ~ prefix_of _ _ => rewrite <- starts_with_spec; vm_compute; discriminate
  | |- occurs _ _ => apply contains_spec; vm_compute; reflexivity
  | |- ~ occurs _ _ => apply contains_false; vm_compute; reflexivity
  | |- heads _ _ => apply heads_spec; vm_compute; reflexivity
  | |- ~ heads _ _ => apply headsF; vm_compute; reflexivity
  | |- trimmed _ _ => apply trimmed_strip; vm_compute; reflexivity
  | |- blank _ => repeat constructor
  | |- word _ => split; [discriminate|repeat constructor]
  | |- reads _ _ => vm_compute; reflexivity
  | |- ~ In _ _ => let H := fresh in vm_compute; intros H; repeat (destruct H as [H|H]; [discriminate H|]); exact H
  | |- none_of _ _ => let l := fresh in let H := fresh in
      intros l H; repeat (destruct H as [<-|H]; [try progress cbv delta [rendezvous ends_run any_tally names_cell names_surface] beta; text|]); destruct H
  | |- plain_line _ => split; [text|split; [unfold total_line; text|discriminate]]
  | |- total_line _ => unfold total_line; text
  | |- Forall _ _ => repeat (apply Forall_cons; [text|]); apply Forall_nil
  | |- Forall2 _ _ _ => repeat (apply Forall2_cons; [text|]); apply Forall2_nil
  | |- numeral _ => split; [discriminate|repeat (apply Forall_cons; [vm_compute; tauto|]); apply Forall_nil]
  | |- _ /\ _ => split; text
  | |- _ <> _ => discriminate
  | |- _ => idtac
  end.
