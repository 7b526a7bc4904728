(** Lemmas about areas and volumes in binary64: order and symmetry. *)
From Coq Require Import Reals Lra Lia Floats.SpecFloat.
From Flocq Require Import Core.
From Verif Require Import PyBase PyFacts PyFloat FloatFacts FloatR FloatZ PyFrame Float32 M_geomf SpecGeomf P_geomf.
Local Open Scope R_scope.

Lemma Ok_eq {A} (x y : A) : Ok x = Ok y -> x = y.
Proof. intros H. now injection H. Qed.
Definition le_l (x y : float) : Prop := length_f x /\ length_f y /\ FR x <= FR y.
Lemma mul_fin x y : is_finite_f (fmul x y) = true -> is_finite_f x = true /\ is_finite_f y = true.
Proof. destruct x, y; cbn; intros H; try discriminate; split; reflexivity. Qed.
Lemma add_fin x y : is_finite_f (fadd x y) = true -> is_finite_f x = true /\ is_finite_f y = true.
Proof. destruct x as [| [] | |], y as [| [] | |]; cbn; intros H; try discriminate; split; reflexivity. Qed.
Lemma sqrt_fin x : is_finite_f (fsqrt x) = true -> is_finite_f x = true.
Proof. destruct x as [| [] | |]; cbn; intros H; try discriminate; reflexivity. Qed.
Lemma rounded_fin r z : rounded64 r z -> is_finite_f z = true -> FR z = rnd r /\ Rabs (rnd r) < fmax_bound.
Proof.
  intros (V & F & I) H. destruct (Rlt_or_le (Rabs (rnd r)) fmax_bound) as [L|L]; [split; [now apply F|exact L]|]. rewrite (I L) in H. discriminate.
Qed.
Lemma rnd_nonneg r : 0 <= r -> 0 <= rnd r.
Proof. intros H. rewrite <- rnd_0. now apply rnd_le. Qed.
Lemma round_mono r r' z z' : rounded64 r z -> rounded64 r' z' -> 0 <= r -> r <= r' -> is_finite_f z' = true -> le_l z z'.
Proof.
  intros Z Z' P L F. destruct (rounded_fin _ _ Z' F) as [E' B']. pose proof (rnd_le _ _ L) as Q. pose proof (rnd_nonneg r P) as P'. pose proof (rnd_nonneg r' ltac:(lra)) as P''.
  rewrite Rabs_pos_eq in B' by exact P''. destruct Z as (V & G & _). destruct (G ltac:(rewrite Rabs_pos_eq; lra)) as [E F'].
  split; [split; [now split|lra]|]. split; [split; [split; [apply Z'|exact F]|lra]|lra].
Qed.
Lemma mul_mono x x' y y' : le_l x x' -> le_l y y' -> is_finite_f (fmul x' y') = true -> le_l (fmul x y) (fmul x' y').
Proof.
  intros (((Vx & Fx) & Px) & ((Vx' & Fx') & Px') & Lx) (((Vy & Fy) & Py) & ((Vy' & Fy') & Py') & Ly) F.
  apply (round_mono (FR x * FR y) (FR x' * FR y')); [now apply mul64_R|now apply mul64_R|now apply Rmult_le_pos|now apply Rmult_le_compat|exact F].
Qed.
Lemma add_mono x x' y y' : le_l x x' -> le_l y y' -> is_finite_f (fadd x' y') = true -> le_l (fadd x y) (fadd x' y').
Proof.
  intros (((Vx & Fx) & Px) & ((Vx' & Fx') & Px') & Lx) (((Vy & Fy) & Py) & ((Vy' & Fy') & Py') & Ly) F.
  apply (round_mono (FR x + FR y) (FR x' + FR y')); [now apply add64_R|now apply add64_R|lra|lra|exact F].
Qed.
Lemma sqrt_mono x x' : le_l x x' -> le_l (fsqrt x) (fsqrt x').
Proof.
  intros (((Vx & Fx) & Px) & ((Vx' & Fx') & Px') & Lx). destruct (fsqrt_R x Vx Fx Px) as (V & E & F). destruct (fsqrt_R x' Vx' Fx' Px') as (V' & E' & F').
  pose proof (rnd_nonneg _ (sqrt_pos (FR x))). pose proof (rnd_nonneg _ (sqrt_pos (FR x'))). pose proof (rnd_le _ _ (sqrt_le_1_alt _ _ Lx)).
  split; [split; [now split|lra]|]. split; [split; [now split|lra]|lra].
Qed.
Lemma le_refl_l x : length_f x -> le_l x x.
Proof. intros H. split; [exact H|split; [exact H|lra]]. Qed.
Lemma le_fle x y : le_l x y -> fle x y = true.
Proof. intros (((Vx & Fx) & _) & ((Vy & Fy) & _) & L). now apply fle_R. Qed.
Lemma fle_le x y : length_f x -> length_f y -> fle x y = true -> le_l x y.
Proof. intros Hx Hy L. pose proof Hx as [[Vx Fx] _]. pose proof Hy as [[Vy Fy] _]. split; [exact Hx|split; [exact Hy|]]. now apply fle_R in L. Qed.
Lemma pi_length : length_f pi_f.
Proof. destruct pi_approx as (O & L & _). split; [exact O|exact (rel_nonneg _ _ _ L)]. Qed.
Lemma two_length : length_f two_f.
Proof. split; [split; reflexivity|]. change (FR two_f) with (IZR 4503599627370496 * bpow radix2 (-51)). cbn. lra. Qed.
Lemma two_pi_length : length_f (fmul two_f pi_f).
Proof. destruct two_pi_approx as (O & L & _). split; [exact O|exact (rel_nonneg _ _ _ L)]. Qed.
Lemma third_length : length_f (fdiv (f_of_Z 1) (f_of_Z 3)).
Proof. destruct third_approx as (O & L & _). split; [exact O|exact (rel_nonneg _ _ _ L)]. Qed.
Ltac fins := repeat match goal with
  | H : is_finite_f (fmul ?a ?b) = true |- _ => let A := fresh in let B := fresh in pose proof (mul_fin a b H) as [A B]; revert H
  | H : is_finite_f (fadd ?a ?b) = true |- _ => let A := fresh in let B := fresh in pose proof (add_fin a b H) as [A B]; revert H
  | H : is_finite_f (fsqrt ?a) = true |- _ => let A := fresh in pose proof (sqrt_fin a H) as A; revert H
  end; intros.
Ltac mono := lazymatch goal with
  | |- le_l (fmul _ _) (fmul _ _) => apply mul_mono; mono
  | |- le_l (fadd _ _) (fadd _ _) => apply add_mono; mono
  | |- le_l (fsqrt _) (fsqrt _) => apply sqrt_mono; mono
  | |- le_l pi_f pi_f => apply le_refl_l; exact pi_length
  | |- le_l two_f two_f => apply le_refl_l; exact two_length
  | |- le_l (fdiv _ _) (fdiv _ _) => apply le_refl_l; exact third_length
  | |- _ => assumption
  end.

(** The results of two calls, when the second does not overflow. *)
Lemma perim_mono r r' : length_f r -> length_f r' -> fle r r' = true -> not_more (perim_circle_f r) (perim_circle_f r').
Proof.
  intros H H' L b E F. apply fle_le in L; try assumption. unfold perim_circle_f in *. rewrite !length_ok in * by assumption. cbn [bind] in *. apply Ok_eq in E; subst b.
  eexists. split; [reflexivity|]. fins. apply le_fle. mono.
Qed.
Lemma circle_mono r r' : length_f r -> length_f r' -> fle r r' = true -> not_more (area_circle_f r) (area_circle_f r').
Proof.
  intros H H' L b E F. apply fle_le in L; try assumption. unfold area_circle_f in *. rewrite !length_ok in * by assumption. cbn [bind] in *. apply Ok_eq in E; subst b.
  eexists. split; [reflexivity|]. fins. apply le_fle. mono.
Qed.
Lemma cyl_area_mono r r' h h' : length_f r -> length_f r' -> length_f h -> length_f h' -> fle r r' = true -> fle h h' = true -> not_more (area_cyl_f r h) (area_cyl_f r' h').
Proof.
  intros H H' N N' L M b E F. apply fle_le in L; try assumption. apply fle_le in M; try assumption. unfold area_cyl_f, area_circle_f, perim_circle_f in *. rewrite !length_ok in * by assumption. cbn [bind] in *. apply Ok_eq in E; subst b.
  eexists. split; [reflexivity|]. fins. apply le_fle. mono.
Qed.
Lemma cone_surf_mono r r' h h' : length_f r -> length_f r' -> length_f h -> length_f h' -> fle r r' = true -> fle h h' = true -> not_more (area_cone_surf_f r h) (area_cone_surf_f r' h').
Proof.
  intros H H' N N' L M b E F. apply fle_le in L; try assumption. apply fle_le in M; try assumption. unfold area_cone_surf_f in *. rewrite !length_ok in * by assumption. cbn [bind] in *. apply Ok_eq in E; subst b.
  eexists. split; [reflexivity|]. fins. apply le_fle. mono.
Qed.
Lemma cyl_mono r r' h h' : length_f r -> length_f r' -> length_f h -> length_f h' -> fle r r' = true -> fle h h' = true -> not_more (volume_cyl_f r h) (volume_cyl_f r' h').
Proof.
  intros H H' N N' L M b E F. apply fle_le in L; try assumption. apply fle_le in M; try assumption. unfold volume_cyl_f, area_circle_f in *. rewrite !length_ok in * by assumption. cbn [bind] in *. apply Ok_eq in E; subst b.
  eexists. split; [reflexivity|]. fins. apply le_fle. mono.
Qed.
Lemma cone_mono r r' h h' : length_f r -> length_f r' -> length_f h -> length_f h' -> fle r r' = true -> fle h h' = true -> not_more (volume_cone_f r h) (volume_cone_f r' h').
Proof.
  intros H H' N N' L M b E F. apply fle_le in L; try assumption. apply fle_le in M; try assumption. unfold volume_cone_f, volume_cyl_f, area_circle_f in *. rewrite !length_ok in * by assumption. cbn [bind] in *. apply Ok_eq in E; subst b.
  eexists. split; [reflexivity|]. fins. apply le_fle. mono.
Qed.
(** A cone is not larger than its cylinder. *)
Lemma cone_in_cyl r h : length_f r -> length_f h -> not_more (volume_cone_f r h) (volume_cyl_f r h).
Proof.
  intros H N b E F. unfold volume_cone_f. rewrite E. cbn [bind]. eexists. split; [reflexivity|].
  assert (B : length_f b).
  { unfold volume_cyl_f, area_circle_f in E. rewrite !length_ok in E by assumption. cbn [bind] in E. apply Ok_eq in E; subst b. fins.
    assert (X : le_l (fmul (fmul (fmul pi_f r) r) h) (fmul (fmul (fmul pi_f r) r) h)) by (pose proof (le_refl_l r H); pose proof (le_refl_l h N); mono). apply X. }
  destruct B as [[Vb Fb] Pb]. destruct third_length as [[V3 F3] P3]. destruct third_approx as (_ & _ & T).
  assert (T' : FR (fdiv (f_of_Z 1) (f_of_Z 3)) <= 1) by (eapply Rle_trans; [apply T|cbn; lra]).
  pose proof (mul64_R b _ Vb V3 Fb F3) as (V & G & _).
  assert (Q : rnd (FR b * FR (fdiv (f_of_Z 1) (f_of_Z 3))) <= FR b).
  { rewrite <- (rnd_FR b Vb) at 2. apply rnd_le. rewrite <- (Rmult_1_r (FR b)) at 2. now apply Rmult_le_compat_l. }
  pose proof (rnd_nonneg (FR b * FR (fdiv (f_of_Z 1) (f_of_Z 3))) ltac:(now apply Rmult_le_pos)) as Q0. pose proof (FR_lt_max b Vb) as M. rewrite Rabs_pos_eq in M by exact Pb.
  destruct (G ltac:(rewrite Rabs_pos_eq; lra)) as [E1 E2]. apply fle_R; try assumption. lra.
Qed.

(** Shells. *)
Lemma shell_comm r1 r2 : area_cyl_shell_f r1 r2 = area_cyl_shell_f r2 r1.
Proof.
  unfold area_cyl_shell_f, area_circle_f, check_positive_f. destruct (flt r1 fzero), (flt r2 fzero); try reflexivity. cbn [bind]. now rewrite fabs_sub_comm.
Qed.
Lemma cyl_shell_comm r1 r2 h : volume_cyl_shell_f r1 r2 h = volume_cyl_shell_f r2 r1 h.
Proof. unfold volume_cyl_shell_f. now rewrite shell_comm. Qed.
Lemma sphere_shell_comm power r1 r2 : volume_spherical_shell_f power r1 r2 = volume_spherical_shell_f power r2 r1.
Proof.
  unfold volume_spherical_shell_f, volume_sphere_f, check_positive_f. destruct (flt r1 fzero), (flt r2 fzero); try reflexivity. cbn [bind]. now rewrite fabs_sub_comm.
Qed.
Lemma shell_same r a : area_circle_f r = Ok a -> is_finite_f a = true -> area_cyl_shell_f r r = Ok fzero.
Proof. intros E F. unfold area_cyl_shell_f. rewrite E. cbn [bind]. now rewrite fsub_self. Qed.
(** The shell between two circles is not larger than the outer one. *)
Lemma shell_bound r1 r2 : length_f r1 -> length_f r2 -> fle r1 r2 = true -> not_more (area_cyl_shell_f r1 r2) (area_circle_f r2).
Proof.
  intros H1 H2 L b E F. destruct (circle_mono r1 r2 H1 H2 L b E F) as (a & Ea & La). unfold area_cyl_shell_f. rewrite Ea, E. cbn [bind]. eexists. split; [reflexivity|].
  assert (X : le_l a b).
  { apply fle_le in L; try assumption. unfold area_circle_f in *. rewrite !length_ok in * by assumption. cbn [bind] in *. apply Ok_eq in Ea; subst a. apply Ok_eq in E; subst b. fins. mono. }
  destruct X as (((Va & Fa) & Pa) & ((Vb & Fb) & Pb) & Lab). rewrite fabs_sub_comm. pose proof (sub64_R b a Vb Va Fb Fa) as (V & G & _).
  assert (Q : rnd (FR b - FR a) <= FR b) by (rewrite <- (rnd_FR b Vb) at 2; apply rnd_le; lra). pose proof (rnd_nonneg (FR b - FR a) ltac:(lra)) as Q0.
  pose proof (FR_lt_max b Vb) as M. rewrite Rabs_pos_eq in M by exact Pb. destruct (G ltac:(rewrite Rabs_pos_eq; lra)) as [E1 E2].
  apply fle_R; try assumption.
  - destruct (fsub b a); exact V.
  - destruct (fsub b a); try discriminate; reflexivity.
  - rewrite fabs_R, E1, Rabs_pos_eq; assumption.
Qed.
(** Lengths that are refused. *)
Lemma refused x : check_positive_f x = Err ValueError <-> flt x fzero = true.
Proof. unfold check_positive_f. destruct (flt x fzero); split; intros H; try reflexivity; discriminate. Qed.
Lemma nan_circle : area_circle_f S754_nan = Ok S754_nan.
Proof. reflexivity. Qed.
