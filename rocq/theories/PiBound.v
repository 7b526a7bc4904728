(** Bounds on pi, from the series of arctan. *)
From Coq Require Import Reals Lra Lia QArith Qreals Machin Ratan Qfield.
Local Open Scope R_scope.

Fixpoint qpow (x : Q) (n : nat) : Q := match n with O => 1%Q | S n => Qred (x * qpow x n)%Q end.
Definition qterm (n : nat) : Q :=
  Qred (qpow (-1) n * (2 * (qpow (1 # 3) (2 * n + 1) / inject_Z (Z.of_nat (2 * n + 1))) + qpow (1 # 7) (2 * n + 1) / inject_Z (Z.of_nat (2 * n + 1))))%Q.
Fixpoint qsum (n : nat) : Q := match n with O => qterm 0 | S k => Qred (qsum k + qterm (S k))%Q end.
Lemma Q2R_red q : Q2R (Qred q) = Q2R q.
Proof. apply Qeq_eqR, Qred_correct. Qed.
Lemma qpow_R x n : Q2R (qpow x n) = Q2R x ^ n.
Proof. induction n as [|n IH]; cbn [qpow pow]; [unfold Q2R; cbn; lra|]. now rewrite Q2R_red, Q2R_mult, IH. Qed.
Lemma qterm_R n : Q2R (qterm n) = tg_alt PI_2_3_7_tg n.
Proof.
  unfold qterm, tg_alt, PI_2_3_7_tg, Ratan_seq. rewrite Q2R_red, Q2R_mult, Q2R_plus, Q2R_mult, !qpow_R.
  assert (Z : ~ (inject_Z (Z.of_nat (2 * n + 1)) == 0)%Q) by (unfold Qeq; cbn; lia).
  rewrite !Q2R_div by exact Z. rewrite !qpow_R.
  replace (Q2R (inject_Z (Z.of_nat (2 * n + 1)))) with (INR (2 * n + 1)) by (rewrite INR_IZR_INZ; unfold Q2R, inject_Z; cbn [Qnum Qden]; lra).
  replace (Q2R (-1)) with (-1) by (unfold Q2R; cbn; lra). replace (Q2R 2) with 2 by (unfold Q2R; cbn; lra).
  replace (Q2R (1 # 3)) with (/ 3) by (unfold Q2R; cbn; lra). replace (Q2R (1 # 7)) with (/ 7) by (unfold Q2R; cbn; lra). reflexivity.
Qed.
Lemma qsum_R n : Q2R (qsum n) = sum_f_R0 (tg_alt PI_2_3_7_tg) n.
Proof. induction n as [|n IH]; cbn [qsum sum_f_R0]; [apply qterm_R|]. now rewrite Q2R_red, Q2R_plus, IH, qterm_R. Qed.
Lemma PI_near : 3141592653589793238 / 10 ^ 18 <= PI <= 3141592653589793239 / 10 ^ 18.
Proof.
  destruct (PI_2_3_7_ineq 20) as [A B]. rewrite <- qsum_R in A, B.
  assert (A' : (Q2R (3141592653589793238 # 4000000000000000000) <= Q2R (qsum (S (2 * 20))))) by (apply Qle_Rle; apply Qle_bool_iff; vm_compute; reflexivity).
  assert (B' : (Q2R (qsum (2 * 20)) <= Q2R (3141592653589793239 # 4000000000000000000))) by (apply Qle_Rle; apply Qle_bool_iff; vm_compute; reflexivity).
  revert A' B' A B. generalize (Q2R (qsum (S (2 * 20)))) (Q2R (qsum (2 * 20))). intros a b. unfold Q2R. cbn [Qnum Qden]. intros; lra.
Qed.
