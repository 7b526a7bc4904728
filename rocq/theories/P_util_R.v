(** The tolerance comparison in terms of real numbers (uses Flocq and the reals). *)
From Coq Require Import Reals Lra Lia Floats.SpecFloat.
From Verif Require Import PyBase PyFloat M_util FloatFacts FloatR.

Lemma fabs_valid x : valid (fabs x) = valid x.
Proof. destruct x; reflexivity. Qed.
Lemma fabs_fin x : is_finite_f (fabs x) = is_finite_f x.
Proof. destruct x; reflexivity. Qed.

Lemma is_same_sound a b tol :
  valid a = true -> valid b = true -> valid tol = true ->
  is_finite_f a = true -> is_finite_f b = true -> is_finite_f tol = true ->
  is_same_value a b tol = true -> (Rabs (FR a - FR b) < FR tol)%R.
Proof.
  intros Va Vb Vt Fa Fb Ft H. unfold is_same_value in H.
  destruct (fsub_R a b Va Vb Fa Fb) as (V & H1 & H2).
  destruct (Rlt_or_le (Rabs (rnd (FR a - FR b))) fmax_bound) as [Hl|Hl].
  - destruct (H1 Hl) as [E F]. apply flt_R in H; rewrite ?fabs_valid, ?fabs_fin; auto.
    rewrite fabs_R, E in H. destruct (Rlt_or_le (Rabs (FR a - FR b)) (FR tol)) as [|Hge]; [assumption|].
    exfalso. apply rnd_le in Hge. rewrite rnd_FR, rnd_abs in Hge by assumption. lra.
  - destruct (H2 Hl) as [s E]. rewrite E in H. exfalso. destruct tol as [[|]|[|]| |[|] m e]; discriminate.
Qed.
Lemma is_same_complete a b tol x :
  valid a = true -> valid b = true -> valid tol = true -> valid x = true ->
  is_finite_f a = true -> is_finite_f b = true -> is_finite_f tol = true -> is_finite_f x = true ->
  (Rabs (FR a - FR b) <= FR x)%R -> (FR x < FR tol)%R -> is_same_value a b tol = true.
Proof.
  intros Va Vb Vt Vx Fa Fb Ft Fx Hx Ht. unfold is_same_value.
  destruct (fsub_R a b Va Vb Fa Fb) as (V & H1 & H2).
  assert (Hr : (Rabs (rnd (FR a - FR b)) <= FR x)%R).
  { rewrite <- rnd_abs. rewrite <- (rnd_FR x) by assumption. now apply rnd_le. }
  assert (Hl : (Rabs (rnd (FR a - FR b)) < fmax_bound)%R).
  { eapply Rle_lt_trans; [exact Hr|]. eapply Rle_lt_trans; [apply Rle_abs|]. now apply FR_lt_max. }
  destruct (H1 Hl) as [E F]. apply flt_R; rewrite ?fabs_valid, ?fabs_fin; auto.
  rewrite fabs_R, E. lra.
Qed.
