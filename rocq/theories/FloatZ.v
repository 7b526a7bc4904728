(** Integers in binary64. *)
From Coq Require Import Reals ZArith Lia Lra Floats.SpecFloat.
From Flocq Require Import Core IEEE754.BinarySingleNaN.
From Verif Require Import PyBase PyFloat FloatR.

Lemma feq_R x y : valid x = true -> valid y = true -> is_finite_f x = true -> is_finite_f y = true ->
  feq x y = true <-> FR x = FR y.
Proof.
  intros Vx Vy Fx Fy.
  pose proof (Beqb_correct prec emax (toB x Vx) (toB y Vy)) as H. rewrite !toB_fin, !toB_R in H.
  specialize (H Fx Fy). unfold Beqb in H. rewrite !toB_SF in H. unfold feq. rewrite H.
  destruct (Req_bool_spec (FR x) (FR y)); split; intros; try lra; try discriminate; reflexivity.
Qed.
Lemma rnd_IZR z : (Z.abs z < 2 ^ 53)%Z -> rnd (IZR z) = IZR z.
Proof.
  intros H. apply round_generic; [apply valid_rnd_N|]. apply generic_format_FLT.
  exists (Float radix2 z 0); cbn [Fnum Fexp]; [unfold F2R; cbn; lra|exact H|lia].
Qed.
Lemma f_of_Z_R z : (Z.abs z < 2 ^ 53)%Z -> valid (f_of_Z z) = true /\ is_finite_f (f_of_Z z) = true /\ FR (f_of_Z z) = IZR z.
Proof.
  intros H. destruct (f_of_dec_R (z <? 0)%Z (Z.abs_N z) 0) as (V & Hf & _).
  assert (E : dec_value (z <? 0)%Z (Z.abs_N z) 0 = IZR z).
  { unfold dec_value. cbn [powerRZ]. rewrite N2Z.inj_abs_N. destruct (Z.ltb_spec z 0).
    - rewrite Z.abs_neq by lia. rewrite opp_IZR. lra.
    - rewrite Z.abs_eq by lia. lra. }
  rewrite E in Hf. rewrite rnd_IZR in Hf by assumption. split; [exact V|]. destruct Hf as [Hf1 Hf2]; [|split; assumption].
  rewrite <- abs_IZR. unfold fmax_bound. apply Rlt_trans with (IZR (2 ^ 53)); [now apply IZR_lt|].
  change (IZR (2 ^ 53)) with (bpow radix2 53). apply bpow_lt. reflexivity.
Qed.
Lemma feq_f_of_Z a b : (Z.abs a < 2 ^ 53)%Z -> (Z.abs b < 2 ^ 53)%Z -> feq (f_of_Z a) (f_of_Z b) = true <-> a = b.
Proof.
  intros Ha Hb. destruct (f_of_Z_R a Ha) as (Va & Fa & Ea). destruct (f_of_Z_R b Hb) as (Vb & Fb & Eb).
  rewrite feq_R by assumption. rewrite Ea, Eb. split; [apply eq_IZR|congruence].
Qed.
