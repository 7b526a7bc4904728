(** Proofs about M_fisout.v: atom fractions as real numbers. *)
From Coq Require Import Reals Lra Lia Floats.SpecFloat.
From Flocq Require Import Core.
From Verif Require Import PyBase PyFacts PyFloat FloatR P_mesh5 M_fisout SpecFis P_fisout.
Local Open Scope R_scope.

Lemma parse_unsigned_valid neg u x : parse_unsigned neg u = Some x -> valid x = true.
Proof.
  unfold parse_unsigned. intros H.
  repeat match type of H with context [match ?t with _ => _ end] => destruct t; try discriminate end;
  injection H as <-; try reflexivity; try (apply f_of_dec_R); destruct neg; reflexivity.
Qed.
Lemma py_float_valid s x : py_float s = Ok x -> valid x = true.
Proof.
  unfold py_float. destruct (drop_underscores _ _) as [t|]; [|discriminate]. destruct (take_sign t) as [neg u]. destruct (parse_unsigned neg u) eqn:E; [|discriminate]. intros [= <-]. exact (parse_unsigned_valid _ _ _ E).
Qed.
Lemma Rsum_nonneg l : Forall (fun x => 0 <= x) l -> 0 <= Rsum l.
Proof. induction 1; cbn; [lra|]. unfold Rsum in *. lra. Qed.
Lemma Rsum_In l x : Forall (fun x => 0 <= x) l -> In x l -> x <= Rsum l.
Proof. intros H. induction H as [|y l Hy Hl IH]; [contradiction|]. pose proof (Rsum_nonneg _ Hl). cbn. fold (Rsum l). intros [->|K]; [lra|]. specialize (IH K). lra. Qed.
Lemma half_bound eps : 0 <= eps <= 1 / 2 -> 0 < 1 - eps.
Proof. lra. Qed.
(** One fraction. *)
Lemma fraction_R a t : valid a = true -> valid t = true -> is_finite_f a = true -> is_finite_f t = true -> 0 <= FR a -> 0 < FR t -> FR a <= 2 * FR t ->
  is_finite_f (fdiv a t) = true /\ 0 <= FR (fdiv a t) /\ Rabs (FR (fdiv a t) - FR a / FR t) <= bpow radix2 (-53) * (FR a / FR t) + bpow radix2 (-1075).
Proof.
  intros Va Vt Fa Ft Pa Pt B. destruct (fdiv_R a t Va Vt Fa Ft ltac:(lra)) as (_ & H & _).
  assert (Q : 0 <= FR a / FR t) by (apply Rmult_le_pos; [exact Pa|]; left; apply Rinv_0_lt_compat; exact Pt).
  assert (Q2 : FR a / FR t <= 2). { apply Rmult_le_reg_r with (FR t); [exact Pt|]. unfold Rdiv. rewrite Rmult_assoc, Rinv_l by lra. lra. }
  destruct (rnd_bound (FR a / FR t) 2) as (M & _); [rewrite Rabs_pos_eq by exact Q; exact Q2| |].
  { apply Rle_trans with (10 ^ 1); [lra|]. apply Rle_pow; [lra|lia]. }
  destruct (H M) as (E & F). split; [exact F|]. rewrite E. split.
  - rewrite <- rnd_0. apply rnd_le. exact Q.
  - pose proof (rnd_error (FR a / FR t)) as Er. rewrite (Rabs_pos_eq (FR a / FR t)) in Er by exact Q. exact Er.
Qed.
Lemma fractions_sum atoms t eps : Forall (fun a => valid a = true /\ is_finite_f a = true /\ 0 <= FR a) atoms -> valid t = true -> is_finite_f t = true -> 0 < FR t -> 0 <= eps <= 1 / 2 ->
  Rabs (FR t - Rsum (map FR atoms)) <= eps * Rsum (map FR atoms) ->
  Forall (fun f => is_finite_f f = true /\ 0 <= FR f) (map (fun a => fdiv a t) atoms) /\
  Rabs (Rsum (map FR (map (fun a => fdiv a t) atoms)) - 1) <= (eps + bpow radix2 (-53)) / (1 - eps) + INR (List.length atoms) * bpow radix2 (-1075).
Proof.
  intros HA Vt Ft Pt He Ht. set (S := Rsum (map FR atoms)) in *.
  assert (HP : Forall (fun x => 0 <= x) (map FR atoms)). { apply Forall_forall. intros x Hx. apply in_map_iff in Hx. destruct Hx as (a & <- & Ha). rewrite Forall_forall in HA. apply HA. exact Ha. }
  assert (PS : 0 <= S) by (apply Rsum_nonneg; exact HP).
  assert (ST : S * (1 - eps) <= FR t). { assert (- (eps * S) <= FR t - S) by (revert Ht; unfold Rabs; destruct (Rcase_abs _); intros; nra). lra. }
  assert (S2 : S <= 2 * FR t) by nra.
  assert (One : forall a, In a atoms -> is_finite_f (fdiv a t) = true /\ 0 <= FR (fdiv a t) /\ Rabs (FR (fdiv a t) - FR a / FR t) <= bpow radix2 (-53) * (FR a / FR t) + bpow radix2 (-1075)).
  { intros a Ha. pose proof HA as HA'. rewrite Forall_forall in HA'. destruct (HA' a Ha) as (Va & Fa & Pa). apply fraction_R; try assumption. apply Rle_trans with S; [|exact S2]. apply Rsum_In; [exact HP|]. apply in_map. exact Ha. }
  split; [apply Forall_forall; intros f Hf; apply in_map_iff in Hf; destruct Hf as (a & <- & Ha); destruct (One a Ha) as (A & B & _); auto|].
  assert (D : Rabs (Rsum (map FR (map (fun a => fdiv a t) atoms)) - S / FR t) <= bpow radix2 (-53) * (S / FR t) + INR (List.length atoms) * bpow radix2 (-1075)).
  { unfold S. clear - One. induction atoms as [|a atoms IH].
    - cbn. unfold Rdiv. rewrite !Rmult_0_l, Rmult_0_r, Rminus_0_r, Rabs_R0. lra.
    - assert (IH' := IH (fun b Hb => One b (or_intror Hb))). destruct (One a (or_introl eq_refl)) as (_ & _ & E).
      change (Rsum (map FR (map (fun a0 : float => fdiv a0 t) (a :: atoms)))) with (FR (fdiv a t) + Rsum (map FR (map (fun a0 : float => fdiv a0 t) atoms))).
      change (Rsum (map FR (a :: atoms))) with (FR a + Rsum (map FR atoms)). change (List.length (a :: atoms)) with (Datatypes.S (List.length atoms)). rewrite S_INR.
      replace ((FR a + Rsum (map FR atoms)) / FR t) with (FR a / FR t + Rsum (map FR atoms) / FR t) by (unfold Rdiv; ring).
      set (X := Rsum (map FR (map (fun a0 : float => fdiv a0 t) atoms))) in *. set (Y := Rsum (map FR atoms) / FR t) in *. set (u := FR (fdiv a t)) in *. set (v := FR a / FR t) in *.
      replace (u + X - (v + Y)) with ((u - v) + (X - Y)) by ring. apply Rle_trans with (1 := Rabs_triang _ _). lra. }
  assert (R1 : S / FR t <= / (1 - eps)).
  { apply Rmult_le_reg_r with (FR t); [exact Pt|]. unfold Rdiv. rewrite Rmult_assoc, Rinv_l, Rmult_1_r by lra. apply Rmult_le_reg_l with (1 - eps); [lra|]. rewrite <- Rmult_assoc, Rinv_r by lra. lra. }
  assert (R0 : 0 <= S / FR t) by (apply Rmult_le_pos; [exact PS|]; left; apply Rinv_0_lt_compat; exact Pt).
  assert (D2 : Rabs (S / FR t - 1) <= eps * (S / FR t)).
  { replace (S / FR t - 1) with ((S - FR t) * / FR t) by (field; lra). rewrite Rabs_mult, (Rabs_pos_eq (/ FR t)) by (left; apply Rinv_0_lt_compat; exact Pt). rewrite Rabs_minus_sym.
    unfold Rdiv. rewrite <- Rmult_assoc. apply Rmult_le_compat_r; [left; apply Rinv_0_lt_compat; exact Pt|exact Ht]. }
  set (X := Rsum (map FR (map (fun a => fdiv a t) atoms))) in *. replace (X - 1) with ((X - S / FR t) + (S / FR t - 1)) by ring. apply Rle_trans with (1 := Rabs_triang _ _).
  assert (B53 : 0 < bpow radix2 (-53)) by apply bpow_gt_0. unfold Rdiv at 3. 
  assert (K : (eps + bpow radix2 (-53)) * (S / FR t) <= (eps + bpow radix2 (-53)) * / (1 - eps)) by (apply Rmult_le_compat_l; [lra|exact R1]). lra.
Qed.
