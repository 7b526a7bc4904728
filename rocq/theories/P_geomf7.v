(** Lemmas about shells in binary64. *)
From Coq Require Import Reals Lra Lia Floats.SpecFloat.
From Flocq Require Import Core.
From Verif Require Import PyBase PyFacts PyFloat FloatFacts FloatR FloatZ PyFrame Float32 M_geomf SpecGeomf P_const P_geomf P_geomf2 P_mcana2 P_mesh5.
Local Open Scope R_scope.
Local Notation u := (bpow radix2 (-53)).

Lemma u_bound : 0 < u <= / 1000000.
Proof. split; [apply bpow_gt_0|]. change (-53)%Z with (- (53))%Z. rewrite bpow_opp, <- IZR_Zpower by lia. apply Rinv_le_contravar; [lra|zle]. Qed.
(** The magnitude of a difference of positive numbers. *)
Lemma diff_near a b A B k : ordinary a -> ordinary b -> 0 <= FR a <= bpow radix2 1000 -> 0 <= FR b <= bpow radix2 1000 ->
  0 <= A -> 0 <= B -> within k (FR a) A -> within k (FR b) B -> (0 <= k <= 20)%Z ->
  ordinary (fabs (fsub a b)) /\ 0 <= FR (fabs (fsub a b)) <= bpow radix2 1001 /\ Rabs (FR (fabs (fsub a b)) - Rabs (A - B)) <= (IZR k + 2) * u * (A + B).
Proof.
  intros [Va Fa] [Vb Fb] Ra Rb PA PB WA WB Hk. pose proof u_bound as U. assert (Hk' : 0 <= IZR k <= 20) by (split; apply IZR_le; lia).
  destruct (rnd_minus (FR a) (FR b) (FR_format a Va) (FR_format b Vb)) as (e & He & E). change (Rabs e <= u) in He.
  assert (M : Rabs (rnd (FR a - FR b)) <= bpow radix2 1001).
  { rewrite <- rnd_abs. rewrite <- (rnd_bpow 1001) by lia. apply rnd_le. pose proof (bpow_le radix2 1000 1001 ltac:(lia)). apply Rabs_le. lra. }
  destruct (fsub_R a b Va Vb Fa Fb) as (V & O & _). destruct O as [E1 F1]; [apply Rle_lt_trans with (1 := M); apply bpow_lt; reflexivity|].
  split; [split; destruct (fsub a b); assumption|]. rewrite fabs_R, E1. split; [split; [apply Rabs_pos|exact M]|].
  apply Rle_trans with (1 := Rabs_triang_inv2 _ _). rewrite E. unfold within in WA, WB.
  set (ku := IZR k * u) in *. assert (Ku : 0 <= ku <= 20 * / 1000000) by (unfold ku; split; [apply Rmult_le_pos; lra|apply Rmult_le_compat; lra]).
  replace ((FR a - FR b) * (1 + e) - (A - B)) with ((FR a - A) - (FR b - B) + (FR a - FR b) * e) by ring.
  assert (T : Rabs ((FR a - FR b) * e) <= 2 * (A + B) * u).
  { rewrite Rabs_mult. apply Rmult_le_compat; [apply Rabs_pos|apply Rabs_pos| |exact He].
    assert (QA : ku * A <= 1 * A) by (apply Rmult_le_compat_r; lra). assert (QB : ku * B <= 1 * B) by (apply Rmult_le_compat_r; lra).
    apply Rabs_le_inv in WA, WB. apply Rabs_le. lra. }
  apply Rabs_le_inv in WA, WB, T. apply Rabs_le. unfold ku in *. lra.
Qed.
Lemma circle_parts r : moderate r -> exists a, area_circle_f r = Ok a /\ ordinary a /\ 0 <= FR a <= bpow radix2 1000 /\ within 4 (FR a) (PI * FR r ^ 2) /\ bpow radix2 (-610) <= PI * FR r ^ 2.
Proof.
  intros M. unfold area_circle_f. rewrite (length_ok r (moderate_length r M)). cbn [bind]. eexists. split; [reflexivity|].
  pose proof (circle_approx r M) as A. destruct (approx_out _ _ _ _ _ A ltac:(lia)) as [O W]. split; [exact O|]. destruct A as (_ & _ & L & H).
  split; [|split; [exact W|]].
  - pose proof (bpow_gt_0 radix2 (-599)). pose proof (bpow_le radix2 602 1000 ltac:(lia)). lra.
  - destruct M as [_ [Lr _]]. pose proof (bpow_gt_0 radix2 (-300)). assert (3 < PI) by (pose proof PI2_3_2; lra).
    apply Rle_trans with (1 * (bpow radix2 (-300) * bpow radix2 (-300))); [rewrite <- bpow_plus, Rmult_1_l; apply bpow_le; lia|].
    cbn [pow]. rewrite Rmult_1_r. apply Rmult_le_compat; [lra| |lra|]; [apply Rmult_le_pos; apply bpow_ge_0|apply Rmult_le_compat; lra].
Qed.
Lemma shell_area_near r1 r2 : moderate r1 -> moderate r2 -> exists a, area_cyl_shell_f r1 r2 = Ok a /\ ordinary a /\ 0 <= FR a <= bpow radix2 604 /\
  Rabs (FR a - Rabs (PI * FR r1 ^ 2 - PI * FR r2 ^ 2)) <= 6 * u * (PI * FR r1 ^ 2 + PI * FR r2 ^ 2).
Proof.
  intros M1 M2. destruct (circle_parts r1 M1) as (a & Ea & Oa & Ra & Wa & La). destruct (circle_parts r2 M2) as (b & Eb & Ob & Rb & Wb & Lb).
  unfold area_cyl_shell_f. rewrite Ea, Eb. cbn [bind]. eexists. split; [reflexivity|]. pose proof (bpow_gt_0 radix2 (-610)) as P.
  assert (Na : 0 <= PI * FR r1 ^ 2) by lra. assert (Nb : 0 <= PI * FR r2 ^ 2) by lra.
  destruct (diff_near a b _ _ 4 Oa Ob Ra Rb Na Nb Wa Wb ltac:(lia)) as (O & R & D). split; [exact O|]. split; [|replace 6 with (4 + 2) by lra; exact D].
  split; [apply R|]. assert (Q : forall r, moderate r -> PI * FR r ^ 2 <= bpow radix2 602).
  { intros r [_ [Lr Hr]]. pose proof PI_4. pose proof (bpow_gt_0 radix2 (-300)). change 602%Z with (2 + (300 + 300))%Z. rewrite !bpow_plus. change (bpow radix2 2) with 4.
    cbn [pow]. rewrite Rmult_1_r. pose proof PI_RGT_0. apply Rmult_le_compat; [lra|apply Rmult_le_pos; lra|lra|apply Rmult_le_compat; lra]. }
  pose proof (Q r1 M1) as Q1. pose proof (Q r2 M2) as Q2. set (X := PI * FR r1 ^ 2) in *. set (Y := PI * FR r2 ^ 2) in *.
  assert (HA : bpow radix2 604 = 4 * bpow radix2 602) by (change 604%Z with (2 + 602)%Z; rewrite bpow_plus; reflexivity). rewrite HA.
  pose proof u_bound as U. assert (T : 6 * u * (X + Y + 0) <= 1 * (X + Y)) by (rewrite Rplus_0_r; apply Rmult_le_compat_r; lra).
  assert (Ab : Rabs (X - Y) <= bpow radix2 602) by (apply Rabs_le; lra). apply Rabs_le_inv in D. lra.
Qed.
Lemma shell_volume_near r1 r2 h : moderate r1 -> moderate r2 -> moderate h -> exists v, volume_cyl_shell_f r1 r2 h = Ok v /\ ordinary v /\
  Rabs (FR v - Rabs (PI * FR r1 ^ 2 - PI * FR r2 ^ 2) * FR h) <= 9 * u * (PI * FR r1 ^ 2 + PI * FR r2 ^ 2) * FR h.
Proof.
  intros M1 M2 Mh. destruct (shell_area_near r1 r2 M1 M2) as (a & Ea & [Va Fa] & Ra & D). unfold volume_cyl_shell_f.
  rewrite (length_ok h (moderate_length h Mh)), Ea. cbn [bind]. eexists. split; [reflexivity|].
  destruct (circle_parts r1 M1) as (_ & _ & _ & _ & _ & L1). destruct (circle_parts r2 M2) as (_ & _ & _ & _ & _ & L2).
  set (X := PI * FR r1 ^ 2) in *. set (Y := PI * FR r2 ^ 2) in *. destruct Mh as [[Vh Fh] [Lh Hh]]. pose proof (bpow_gt_0 radix2 (-300)) as P3. pose proof (bpow_gt_0 radix2 (-610)) as P6.
  destruct (fmul_R a h Va Vh Fa Fh) as (V & O & _).
  assert (B : Rabs (FR a * FR h) <= bpow radix2 904).
  { rewrite Rabs_pos_eq by (apply Rmult_le_pos; lra). change 904%Z with (604 + 300)%Z. rewrite bpow_plus. apply Rmult_le_compat; lra. }
  assert (M : Rabs (rnd (FR a * FR h)) <= bpow radix2 904) by (rewrite <- rnd_abs, <- (rnd_bpow 904) by lia; now apply rnd_le).
  destruct O as [E F]; [apply Rle_lt_trans with (1 := M); apply bpow_lt; reflexivity|]. split; [split; assumption|]. rewrite E.
  pose proof (rnd_error (FR a * FR h)) as R. pose proof u_bound as U.
  assert (S : bpow radix2 (-1075) <= u * ((X + Y) * FR h)).
  { apply Rle_trans with (u * (bpow radix2 (-610) * bpow radix2 (-300))); [rewrite <- !bpow_plus; apply bpow_le; lia|].
    apply Rmult_le_compat_l; [lra|]. apply Rmult_le_compat; lra. }
  assert (Z : Rabs (FR a * FR h - Rabs (X - Y) * FR h) <= 6 * u * (X + Y) * FR h).
  { rewrite <- Rmult_minus_distr_r, Rabs_mult, (Rabs_pos_eq (FR h)) by lra. apply Rmult_le_compat_r; [lra|exact D]. }
  assert (W : Rabs (FR a * FR h) <= 2 * ((X + Y) * FR h)).
  { rewrite Rabs_pos_eq by (apply Rmult_le_pos; lra). rewrite <- Rmult_assoc. apply Rmult_le_compat_r; [lra|].
    assert (T : 6 * u * (X + Y) <= / 2 * (X + Y)) by (apply Rmult_le_compat_r; lra). assert (Rabs (X - Y) <= X + Y) by (apply Rabs_le; lra).
    apply Rabs_le_inv in D. lra. }
  assert (W' : u * Rabs (FR a * FR h) <= u * (2 * ((X + Y) * FR h))) by (apply Rmult_le_compat_l; lra).
  replace (rnd (FR a * FR h) - Rabs (X - Y) * FR h) with ((rnd (FR a * FR h) - FR a * FR h) + (FR a * FR h - Rabs (X - Y) * FR h)) by ring.
  apply Rle_trans with (1 := Rabs_triang _ _). lra.
Qed.
Lemma sphere_parts power r : power_accurate power -> moderate r -> exists a, volume_sphere_f power r = Ok a /\ ordinary a /\ 0 <= FR a <= bpow radix2 1000 /\
  within 8 (FR a) (4 / 3 * PI * powerRZ (FR r) 3) /\ 0 <= 4 / 3 * PI * powerRZ (FR r) 3.
Proof.
  intros PA M. unfold volume_sphere_f. rewrite (length_ok r (moderate_length r M)). cbn [bind]. eexists. split; [reflexivity|].
  pose proof (approx_mul _ _ _ _ _ _ _ _ _ _ four_thirds_pi_approx (power_approx power r 3 PA ltac:(auto) M) ltac:(lia) ltac:(lia)) as A.
  destruct (approx_out _ _ _ _ _ A ltac:(lia)) as [O W]. split; [exact O|]. destruct A as (_ & (Z & _) & L & H).
  pose proof (bpow_gt_0 radix2 (2 + -901)). pose proof (bpow_le radix2 (3 + 901) 1000 ltac:(lia)). split; [lra|]. now split.
Qed.
Lemma sphere_shell_near power r1 r2 : power_accurate power -> moderate r1 -> moderate r2 -> exists v, volume_spherical_shell_f power r1 r2 = Ok v /\ ordinary v /\
  Rabs (FR v - Rabs (4 / 3 * PI * powerRZ (FR r1) 3 - 4 / 3 * PI * powerRZ (FR r2) 3)) <= 10 * u * (4 / 3 * PI * powerRZ (FR r1) 3 + 4 / 3 * PI * powerRZ (FR r2) 3).
Proof.
  intros PA M1 M2. destruct (sphere_parts power r1 PA M1) as (a & Ea & Oa & Ra & Wa & La). destruct (sphere_parts power r2 PA M2) as (b & Eb & Ob & Rb & Wb & Lb).
  unfold volume_spherical_shell_f. rewrite Ea, Eb. cbn [bind]. eexists. split; [reflexivity|].
  destruct (diff_near a b _ _ 8 Oa Ob Ra Rb La Lb Wa Wb ltac:(lia)) as (O & _ & D). split; [exact O|]. replace 10 with (8 + 2) by lra. exact D.
Qed.
Lemma shells_near power r1 r2 h : power_accurate power -> moderate r1 -> moderate r2 -> moderate h ->
  (exists a, area_cyl_shell_f r1 r2 = Ok a /\ ordinary a /\
     Rabs (FR a - Rabs (PI * FR r1 ^ 2 - PI * FR r2 ^ 2)) <= 6 * u * (PI * FR r1 ^ 2 + PI * FR r2 ^ 2)) /\
  (exists v, volume_cyl_shell_f r1 r2 h = Ok v /\ ordinary v /\
     Rabs (FR v - Rabs (PI * FR r1 ^ 2 - PI * FR r2 ^ 2) * FR h) <= 9 * u * (PI * FR r1 ^ 2 + PI * FR r2 ^ 2) * FR h) /\
  (exists v, volume_spherical_shell_f power r1 r2 = Ok v /\ ordinary v /\
     Rabs (FR v - Rabs (4 / 3 * PI * powerRZ (FR r1) 3 - 4 / 3 * PI * powerRZ (FR r2) 3)) <= 10 * u * (4 / 3 * PI * powerRZ (FR r1) 3 + 4 / 3 * PI * powerRZ (FR r2) 3)).
Proof.
  intros PA M1 M2 Mh. split; [|split; [now apply shell_volume_near|now apply sphere_shell_near]].
  destruct (shell_area_near r1 r2 M1 M2) as (a & E & O & _ & D). eauto.
Qed.
