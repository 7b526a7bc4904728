(** Proofs about the table of dominant nuclides when it is malformed. *)
From Coq Require Import Lia.
From Verif Require Import PyBase PyFloat PyFacts TextFacts PyFs SpecStr SpecUtil SpecOutput M_util P_util P_output P_output3 M_ptrac M_fisout SpecFis P_fisout P_fisout2.
Local Open Scope nat_scope.

Lemma read_top_Err l e : read_top l = Err e -> e = ValueError.
Proof.
  unfold read_top. apply as_value_error_Err. intros e'.
  repeat match goal with |- (do _ <- ?r; _) = Err _ -> _ => let E := fresh "E" in destruct r eqn:E; cbn [bind]; [|intros [= <-]; left; exact (read_entry_Err _ _ _ E)] end. discriminate.
Qed.
Lemma read_low_Err l e : as_value_error (do x <- read_entry 7 l; do y <- read_entry 38 l; Ok (DomLow x y)) = Err e -> e = ValueError.
Proof.
  apply as_value_error_Err. intros e'.
  repeat match goal with |- (do _ <- ?r; _) = Err _ -> _ => let E := fresh "E" in destruct r eqn:E; cbn [bind]; [|intros [= <-]; left; exact (read_entry_Err _ _ _ E)] end. discriminate.
Qed.
Lemma read_lower_Err ls e : read_lower ls = Err e -> e = ValueError \/ e = IndexError /\ In [] ls.
Proof.
  induction ls as [|l ls IH]; [discriminate|]. cbn [read_lower]. change 0%Z with (Z.of_nat 0). rewrite py_nth_nat. destruct l as [|c l]; cbn [nth_error bind].
  - intros [= <-]. right. split; [reflexivity|now left].
  - destruct (Ascii.eqb c (chr 49)); [discriminate|]. destruct (as_value_error _) eqn:E; cbn [bind]; [|intros [= <-]; left; exact (read_low_Err _ _ E)].
    destruct (read_lower ls); cbn [bind]; [discriminate|]. intros [= <-]. destruct (IH eq_refl) as [H|(H & I)]; [now left|right; split; [exact H|now right]].
Qed.
Lemma parse_dominant_Err data e : parse_dominant data = Err e -> e = ValueError \/ e = IndexError /\ In [] data.
Proof.
  unfold parse_dominant. destruct data as [|l0 data]; [intros [= <-]; now left|]. set (D := l0 :: data).
  destruct (find_ind D _) as [p|x] eqn:E; cbn [bind]; [|intros [= <-]; left; apply find_ind_Err in E; tauto]. cbv zeta. rewrite slice_from_nat.
  destruct (find_ind _ (lit "(Bq) ")) as [d1|x] eqn:E1; cbn [bind]; [|intros [= <-]; left; apply find_ind_Err in E1; tauto].
  destruct (find_ind _ (lit "GAMMA HEAT")) as [d2|x] eqn:E2; cbn [bind]; [|intros [= <-]; left; apply find_ind_Err in E2; tauto].
  destruct (mapM _ _) as [ts|x] eqn:E3; cbn [bind]; [|intros [= <-]; left; revert E3; apply (mapM_only _ (fun e => e = ValueError)); exact read_top_Err].
  replace (Z.of_nat d2 + 3)%Z with (Z.of_nat (d2 + 3)) by lia. rewrite slice_from_nat.
  destruct (read_lower _) as [ls|x] eqn:E4; cbn [bind].
  - unfold dom_table. destruct ts; [discriminate|]. destruct (Nat.eqb _ _); [discriminate|]. intros [= <-]. now left.
  - intros [= <-]. destruct (read_lower_Err _ _ E4) as [H|(H & I)]; [now left|right]. split; [exact H|].
    rewrite <- (firstn_skipn p D). apply in_or_app. right. rewrite <- (firstn_skipn (d2 + 3) (skipn p D)). apply in_or_app. now right.
Qed.
(** The lines are taken up to an empty one. *)
Lemma dominant_empty data p d1 d2 lows rest ts ls : first_index (occurs (lit "DOMINANT NUCLIDES")) data p ->
  first_index (occurs (lit "(Bq) ")) (skipn p data) d1 -> first_index (occurs (lit "GAMMA HEAT")) (skipn p data) d2 -> 1 <= d2 ->
  Forall2 top_line (span (d1 + 2) (d2 - 1) (skipn p data)) ts -> skipn (d2 + 3) (skipn p data) = lows ++ [] :: rest ->
  Forall (fun l => ~ starts_with_1 l) lows -> Forall2 low_line lows ls -> parse_dominant data = Err IndexError.
Proof.
  intros Hp H1 H2 L HT E HF HL. unfold parse_dominant. destruct data as [|l0 data]; [elim (first_index_nonempty _ _ _ Hp eq_refl)|].
  apply find_ind_Ok in Hp. rewrite Hp. cbn [bind]. rewrite slice_from_nat. apply find_ind_Ok in H1. apply find_ind_Ok in H2. rewrite H1. cbn [bind]. rewrite H2. cbn [bind]. cbv zeta.
  rewrite (slice_span' _ _ (d1 + 2) (d2 - 1)) by lia. replace (Z.of_nat d2 + 3)%Z with (Z.of_nat (d2 + 3)) by lia. rewrite slice_from_nat, E.
  apply (mapM_Forall2 _ _ _ _ read_top_spec) in HT. rewrite HT. cbn [bind]. clear - HF HL.
  assert (R : read_lower (lows ++ [] :: rest) = Err IndexError); [|now rewrite R].
  induction HL as [|l t lows ls Hl _ IH]; [reflexivity|]. apply Forall_cons_iff in HF as (N & HF). cbn [app read_lower].
  destruct (low_line_cons _ _ Hl) as (c & r & ->). change 0%Z with (Z.of_nat 0). rewrite py_nth_nat. cbn [nth_error bind].
  destruct (Ascii.eqb_spec c (chr 49)) as [->|]; [elim N; exists r; reflexivity|]. apply read_low_spec in Hl. rewrite Hl. cbn [bind]. now rewrite IH.
Qed.
(** Lines or tables that do not fit. *)
Lemma F2_len {A B} (P : A -> B -> Prop) a b : Forall2 P a b -> List.length a = List.length b.
Proof. intros H. induction H; cbn; congruence. Qed.
Lemma dominant_refused data tops lows : dominant_tables data tops lows -> ~ In [] lows ->
  ((exists l, In l tops /\ forall t, ~ top_line l t) \/ (exists l, In l lows /\ forall t, ~ low_line l t) \/ (tops <> [] /\ List.length tops <> List.length lows)) ->
  parse_dominant data = Err ValueError.
Proof.
  intros D HE H. destruct (parse_dominant data) as [rows|e] eqn:E.
  - exfalso. apply (parse_dominant_spec _ _ _ _ D) in E as (ts & ls & HT & HL & C). destruct H as [(l & I & N)|[(l & I & N)|(N & N')]].
    + apply In_nth_error in I as (i & I). clear -HT I N. revert i I. induction HT as [|x t tops ts Hx _ IH]; intros [|i] I; try discriminate; [injection I as ->; exact (N t Hx)|exact (IH i I)].
    + apply In_nth_error in I as (i & I). clear -HL I N. revert i I. induction HL as [|x t tops ts Hx _ IH]; intros [|i] I; try discriminate; [injection I as ->; exact (N t Hx)|exact (IH i I)].
    + apply F2_len in HT, HL. destruct C as [(-> & _)|(_ & L & _)]; [destruct tops; [contradiction|discriminate]|congruence].
  - f_equal. destruct D as (p & d1 & d2 & tail & Hp & H1 & H2 & L & -> & E4 & HF & HT). unfold parse_dominant in E. destruct data as [|l0 data]; [elim (first_index_nonempty _ _ _ Hp eq_refl)|].
    apply find_ind_Ok in Hp. rewrite Hp in E. cbn [bind] in E. rewrite slice_from_nat in E. apply find_ind_Ok in H1. apply find_ind_Ok in H2. rewrite H1 in E. cbn [bind] in E. rewrite H2 in E. cbn [bind] in E. cbv zeta in E.
    replace (Z.of_nat d2 + 3)%Z with (Z.of_nat (d2 + 3)) in E by lia. rewrite slice_from_nat, E4 in E.
    destruct (mapM _ _) as [ts|x] eqn:E3; cbn [bind] in E; [|injection E as <-; revert E3; apply (mapM_only _ (fun e => e = ValueError)); exact read_top_Err].
    assert (R : forall x, read_lower (lows ++ tail) = Err x -> x = ValueError).
    { clear -HE HT HF. intros x. induction HF as [|l lows N HF IH].
      - cbn [app]. destruct HT as [->|(l & r & -> & c & ->)]; [discriminate|]. cbn [read_lower]. change 0%Z with (Z.of_nat 0). rewrite py_nth_nat. discriminate.
      - cbn [app read_lower]. change 0%Z with (Z.of_nat 0). rewrite py_nth_nat. destruct l as [|c l]; [elim HE; now left|]. cbn [nth_error bind].
        destruct (Ascii.eqb c (chr 49)); [discriminate|]. destruct (as_value_error _) eqn:E; cbn [bind]; [|intros [= <-]; exact (read_low_Err _ _ E)].
        destruct (read_lower (lows ++ tail)) eqn:E5; cbn [bind]; [discriminate|]. intros [= <-]. apply IH; [|reflexivity]. intros K. apply HE. now right. }
    destruct (read_lower _) as [ls|x] eqn:E5; cbn [bind] in E; [|injection E as <-; now apply R].
    unfold dom_table in E. destruct ts; [discriminate|]. destruct (Nat.eqb _ _); [discriminate|]. now injection E as <-.
Qed.
