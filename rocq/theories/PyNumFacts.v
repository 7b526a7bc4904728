(** int()/float() of rendered integers. *)
From Coq Require Import Lia ZifyBool ZifyN.
From Verif Require Import PyBase PyFloat PyFacts.

Lemma digits_val_app a c : digits_val (a ++ [c]) = (10 * digits_val a + digit_val c)%N.
Proof. unfold digits_val. now rewrite fold_left_app. Qed.

Lemma digit_chr_decimal d : (d < 10)%N -> is_decimal (digit_chr d) = true.
Proof.
  intros H. unfold is_decimal, digit_chr. rewrite code_chr by lia.
  apply andb_true_intro; split; apply N.leb_le; lia.
Qed.
Lemma digit_val_chr d : (d < 10)%N -> digit_val (digit_chr d) = d.
Proof. intros H. unfold digit_val, digit_chr. rewrite code_chr by lia. lia. Qed.

Lemma dec_rev_spec fuel n : (n < 10 ^ N.of_nat fuel)%N -> fuel <> 0 ->
  digits_val (rev (dec_rev fuel n)) = n /\ Forall (fun c => is_decimal c = true) (dec_rev fuel n) /\ dec_rev fuel n <> [].
Proof.
  revert n. induction fuel as [|fuel IH]; intros n Hn H0; [now elim H0|].
  cbn [dec_rev]. destruct (N.ltb_spec n 10) as [Hl|Hl].
  - unfold digits_val. cbn [rev app fold_left]. rewrite digit_val_chr by assumption.
    split; [reflexivity|]. split; [|discriminate].
    constructor; [now apply digit_chr_decimal|constructor].
  - assert (Hm : (n mod 10 < 10)%N) by (apply N.mod_lt; lia).
    destruct fuel as [|fuel'].
    { exfalso. change (N.of_nat 1) with 1%N in Hn. rewrite N.pow_1_r in Hn. lia. }
    destruct (IH (n / 10)%N) as (E1 & E2 & E3).
    + apply N.div_lt_upper_bound; [lia|]. rewrite Nat2N.inj_succ, N.pow_succ_r' in Hn. lia.
    + discriminate.
    + cbn [rev]. rewrite digits_val_app, E1, digit_val_chr by assumption. repeat split.
      * pose proof (N.div_mod n 10 ltac:(lia)). lia.
      * constructor; [now apply digit_chr_decimal|assumption].
      * discriminate.
Qed.
Lemma N_size_bound n : (n < 2 ^ N.size n)%N.
Proof. apply N.size_gt. Qed.
Lemma str_of_N_spec n : digits_val (str_of_N n) = n /\ Forall (fun c => is_decimal c = true) (str_of_N n) /\ str_of_N n <> [].
Proof.
  unfold str_of_N. destruct (dec_rev_spec (S (N.to_nat (N.size n))) n) as (E1 & E2 & E3); [|discriminate|].
  - rewrite Nat2N.inj_succ, N2Nat.id. eapply N.lt_le_trans; [apply N_size_bound|].
    eapply N.le_trans; [apply N.pow_le_mono_l; instantiate (1 := 10%N); lia|].
    apply N.pow_le_mono_r; lia.
  - repeat split; [assumption| |].
    + apply Forall_rev. assumption.
    + intros H. apply E3. apply (f_equal (@rev ascii)) in H. now rewrite rev_involutive in H.
Qed.

Lemma decimal_not c : is_decimal c = true ->
  is_num_ws c = false /\ is_ws c = false /\ (code c =? 95)%N = false /\ (code c =? 45)%N = false /\ (code c =? 43)%N = false /\
  is_digit c = true /\ lower_c c = c /\ (code c =? 46)%N = false.
Proof.
  intros H. assert (G : implb (is_decimal c) (negb (is_num_ws c) && negb (is_ws c) && negb (code c =? 95)%N && negb (code c =? 45)%N
     && negb (code c =? 43)%N && is_digit c && Ascii.eqb (lower_c c) c && negb (code c =? 46)%N) = true).
  { revert c H. intros c _. revert c. apply ascii_all. vm_compute. reflexivity. }
  rewrite H in G. cbn [implb] in G. rewrite !andb_true_iff, !negb_true_iff in G.
  destruct G as [[[[[[[G1 G2] G3] G4] G5] G6] G7] G8]. apply Ascii.eqb_eq in G7. repeat split; assumption.
Qed.

Lemma drop_underscores_id b s : Forall (fun c => (code c =? 95)%N = false) s -> drop_underscores b s = Some s.
Proof.
  revert b. induction s as [|c s IH]; intros b H; [reflexivity|]. inversion H as [|? ? Hc Hs]; subst.
  cbn [drop_underscores]. rewrite Hc, IH by assumption. reflexivity.
Qed.
Lemma lstrip_by_none p s : Forall (fun c => p c = false) s -> lstrip_by p s = s.
Proof. intros H. destruct H as [|c s Hc Hs]; [reflexivity|]. cbn. now rewrite Hc. Qed.
Lemma rstrip_by_none p s : Forall (fun c => p c = false) s -> rstrip_by p s = s.
Proof. induction 1 as [|c s Hc Hs IH]; [reflexivity|]. cbn. rewrite IH, Hc. now destruct s. Qed.

Lemma py_int_clean s : Forall (fun c => is_num_ws c = false) s -> Forall (fun c => (code c =? 95)%N = false) s ->
  py_int s = let '(neg, ds) := take_sign s in
      match ds with
      | [] => Err ValueError
      | _ :: _ => if forallb is_decimal ds
          then Ok (if neg then - Z.of_N (digits_val ds) else Z.of_N (digits_val ds))%Z else Err ValueError
      end.
Proof.
  intros H1 H2. unfold py_int. rewrite rstrip_by_none by assumption. rewrite lstrip_by_none by assumption.
  now rewrite drop_underscores_id.
Qed.
Lemma py_int_digits ds : ds <> [] -> Forall (fun c => is_decimal c = true) ds -> py_int ds = Ok (Z.of_N (digits_val ds)).
Proof.
  intros H0 H. rewrite py_int_clean.
  - destruct ds as [|c ds]; [now elim H0|]. inversion H as [|? ? Hc Hs]; subst.
    destruct (decimal_not c Hc) as (_ & _ & _ & E1 & E2 & _).
    unfold take_sign. rewrite E1, E2.
    assert (E : forallb is_decimal (c :: ds) = true) by (apply forallb_forall; rewrite Forall_forall in H; exact H).
    now rewrite E.
  - eapply Forall_impl; [|exact H]. intros c Hc. apply decimal_not in Hc. tauto.
  - eapply Forall_impl; [|exact H]. intros c Hc. apply decimal_not in Hc. tauto.
Qed.
Lemma py_int_str_of_N n : py_int (str_of_N n) = Ok (Z.of_N n).
Proof. destruct (str_of_N_spec n) as (E1 & E2 & E3). rewrite py_int_digits by assumption. now rewrite E1. Qed.
Lemma py_int_str_of_Z z : py_int (str_of_Z z) = Ok z.
Proof.
  destruct z as [|p|p]; [reflexivity|apply (py_int_str_of_N (Npos p))|].
  unfold str_of_Z. destruct (str_of_N_spec (Npos p)) as (E1 & E2 & E3).
  rewrite py_int_clean.
  - change (take_sign (chr 45 :: str_of_N (N.pos p))) with (true, str_of_N (N.pos p)). cbv beta iota zeta.
    destruct (str_of_N (N.pos p)) as [|c ds] eqn:E; [now elim E3|].
    assert (G : forallb is_decimal (c :: ds) = true) by (apply forallb_forall; rewrite Forall_forall in E2; exact E2).
    rewrite G, E1. reflexivity.
  - constructor; [reflexivity|]. eapply Forall_impl; [|exact E2]. intros c Hc. apply decimal_not in Hc. tauto.
  - constructor; [reflexivity|]. eapply Forall_impl; [|exact E2]. intros c Hc. apply decimal_not in Hc. tauto.
Qed.
Lemma str_of_Z_nonneg z : (0 <= z)%Z -> Forall (fun c => is_decimal c = true) (str_of_Z z) /\ str_of_Z z <> [].
Proof.
  destruct z as [|p|p]; intros H; [|apply (str_of_N_spec (Npos p))|lia].
  split; [repeat constructor|discriminate].
Qed.
Lemma str_of_Z_word z : Forall (fun c => is_ws c = false) (str_of_Z z) /\ str_of_Z z <> [].
Proof.
  destruct z as [|p|p].
  - split; [repeat constructor|discriminate].
  - destruct (str_of_N_spec (Npos p)) as (_ & E2 & E3). split; [|assumption].
    eapply Forall_impl; [|exact E2]. intros c Hc. apply decimal_not in Hc. tauto.
  - destruct (str_of_N_spec (Npos p)) as (_ & E2 & E3). split; [|discriminate]. constructor; [reflexivity|].
    eapply Forall_impl; [|exact E2]. intros c Hc. apply decimal_not in Hc. tauto.
Qed.
Lemma str_of_Z_inj a b : str_of_Z a = str_of_Z b -> a = b.
Proof. intros H. apply (f_equal py_int) in H. rewrite !py_int_str_of_Z in H. now injection H. Qed.

Lemma span_digits_all s : Forall (fun c => is_decimal c = true) s -> span_digits s = (s, []).
Proof. induction 1 as [|c s Hc Hs IH]; [reflexivity|]. cbn. now rewrite Hc, IH. Qed.
Lemma lower_decimals s : Forall (fun c => is_decimal c = true) s -> lower s = s.
Proof.
  induction 1 as [|c s Hc Hs IH]; [reflexivity|]. cbn. destruct (decimal_not c Hc) as (_ & _ & _ & _ & _ & _ & E & _).
  unfold lower in IH. now rewrite E, IH.
Qed.
Lemma py_float_digits ds : ds <> [] -> Forall (fun c => is_decimal c = true) ds ->
  py_float ds = Ok (f_of_dec false (digits_val ds) 0).
Proof.
  intros H0 H. unfold py_float.
  assert (H1 : Forall (fun c => is_num_ws c = false) ds) by (eapply Forall_impl; [|exact H]; intros c Hc; apply decimal_not in Hc; tauto).
  rewrite rstrip_by_none by assumption. rewrite lstrip_by_none by assumption.
  rewrite drop_underscores_id by (eapply Forall_impl; [|exact H]; intros c Hc; apply decimal_not in Hc; tauto).
  destruct ds as [|c ds]; [now elim H0|]. inversion H as [|? ? Hc Hs]; subst.
  destruct (decimal_not c Hc) as (_ & _ & _ & E1 & E2 & _).
  unfold take_sign. rewrite E1, E2. unfold parse_unsigned.
  assert (El : lower (c :: ds) = c :: ds) by now apply lower_decimals. rewrite El.
  assert (Hi : str_eqb (c :: ds) (lit "inf") = false).
  { apply str_eqb_neq. intros E. injection E as -> _. discriminate. }
  assert (Hj : str_eqb (c :: ds) (lit "infinity") = false).
  { apply str_eqb_neq. intros E. injection E as -> _. discriminate. }
  assert (Hk : str_eqb (c :: ds) (lit "nan") = false).
  { apply str_eqb_neq. intros E. injection E as -> _. discriminate. }
  rewrite Hi, Hj, Hk. cbn [orb]. rewrite span_digits_all by assumption.
  rewrite app_nil_r. reflexivity.
Qed.
Lemma py_float_str_of_N n : py_float (str_of_N n) = Ok (f_of_dec false n 0).
Proof. destruct (str_of_N_spec n) as (E1 & E2 & E3). rewrite py_float_digits by assumption. now rewrite E1. Qed.
Lemma py_float_str_of_Z z : (0 <= z)%Z -> py_float (str_of_Z z) = Ok (f_of_Z z).
Proof.
  intros H. destruct z as [|p|p]; [vm_compute; reflexivity| |lia].
  change (str_of_Z (Z.pos p)) with (str_of_N (N.pos p)). rewrite py_float_str_of_N. reflexivity.
Qed.
