(** Lemmas about rotations of points that are not whole numbers. *)
From Coq Require Import Reals Lra Lia Floats.SpecFloat.
From Flocq Require Import Core BinarySingleNaN.
From Verif Require Import PyBase PyFacts PyFloat FloatFacts FloatR FloatZ Float32 P_const M_geomf SpecGeomf P_geomf P_geomf2 P_geomf3 P_geomf4 P_geomf5 P_geomf6 P_geomf8 P_geomf9 M_geomt SpecGeomt P_geomt.
Import ListNotations.
Local Open Scope R_scope.

Definition diff (v : float) (D : R) : Prop := ordinary v /\ Rabs (FR v - D) <= bpow radix2 (-53) * Rabs D /\ (FR v = 0 \/ bpow radix2 (-400) <= Rabs (FR v) <= bpow radix2 400).
Lemma sub_diff p o : ordinary p -> ordinary o -> apart p o -> diff (fsub p o) (FR p - FR o).
Proof.
  intros [Vp Fp] [Vo Fo] A. destruct (sub64_R p o Vp Vo Fp Fo) as (V & G & _). destruct A as [Z0|[L H]].
  - rewrite Z0, rnd_0, Rabs_R0 in G. destruct (G (bpow_gt_0 _ _)) as [E F]. split; [now split|]. rewrite Z0, E, Rminus_diag_eq, Rabs_R0 by reflexivity. split; [lra|now left].
  - assert (RL : bpow radix2 (-400) <= Rabs (rnd (FR p - FR o))) by (rewrite <- rnd_abs, <- (rnd_bpow (-400)) by lia; now apply rnd_le).
    assert (RH : Rabs (rnd (FR p - FR o)) <= bpow radix2 400) by (rewrite <- rnd_abs, <- (rnd_bpow 400) by lia; now apply rnd_le).
    destruct G as [E F]; [eapply Rle_lt_trans; [exact RH|apply bpow_lt; lia]|]. split; [now split|]. rewrite E. split; [|right; lra].
    destruct (rnd_rel (FR p - FR o)) as (e & Le & R); [eapply Rle_trans; [|exact RL]; apply bpow_le; lia|]. rewrite R. unfold u53 in Le.
    replace ((FR p - FR o) * (1 + e) - (FR p - FR o)) with (e * (FR p - FR o)) by ring. rewrite Rabs_mult. apply Rmult_le_compat_r; [apply Rabs_pos|exact Le].
Qed.
Lemma entry_diff_tame e E v D : entry e E -> diff v D -> tame e v.
Proof.
  intros N (O & _ & Z0). pose proof (entry_big e E N) as G. destruct N as [(_ & _ & B) C]. destruct B as [B|B]; [left; rewrite B; ring|]. destruct Z0 as [Z0|[Z0 Z1]]; [left; rewrite Z0; ring|right].
  rewrite Rabs_mult. split.
  - apply Rle_trans with (bpow radix2 (-300) * bpow radix2 (-400)); [rewrite <- bpow_plus; apply bpow_le; lia|]. apply Rmult_le_compat; try assumption; apply bpow_ge_0.
  - apply Rle_trans with (bpow radix2 1 * bpow radix2 400); [|rewrite <- bpow_plus; apply bpow_le; lia]. apply Rmult_le_compat; try assumption; try apply Rabs_pos.
    pose proof u_tiny. change (bpow radix2 1) with 2. apply Rle_trans with ((1 + 2 * bpow radix2 (-53)) * 1); [|lra]. eapply Rle_trans; [exact G|]. apply Rmult_le_compat_l; lra.
Qed.
Lemma term_near e E v D : entry e E -> diff v D -> Rabs (FR e * FR v - E * D) <= (3 + / 100) * bpow radix2 (-53) * Rabs (E * D).
Proof.
  intros [(_ & A & _) _] (_ & B & _). set (u := bpow radix2 (-53)) in *. pose proof u_tiny as U. fold u in U.
  replace (FR e * FR v - E * D) with ((FR e - E) * D + (E * (FR v - D) + (FR e - E) * (FR v - D))) by ring.
  eapply Rle_trans; [apply Rabs_triang|]. eapply Rle_trans; [apply Rplus_le_compat_l, Rabs_triang|]. rewrite !Rabs_mult.
  pose proof (Rabs_pos E) as PE. pose proof (Rabs_pos D) as PD. set (M := Rabs E * Rabs D). assert (PM : 0 <= M) by (unfold M; now apply Rmult_le_pos).
  assert (H1 : Rabs (FR e - E) * Rabs D <= 2 * u * M) by (unfold M; rewrite <- Rmult_assoc; now apply Rmult_le_compat_r).
  assert (H2 : Rabs E * Rabs (FR v - D) <= u * M) by (unfold M; apply Rle_trans with (Rabs E * (u * Rabs D)); [now apply Rmult_le_compat_l|lra]).
  assert (H3 : Rabs (FR e - E) * Rabs (FR v - D) <= 2 * u * Rabs E * (u * Rabs D)) by (apply Rmult_le_compat; try assumption; apply Rabs_pos).
  replace (2 * u * Rabs E * (u * Rabs D)) with (2 * u * u * M) in H3 by (unfold M; ring).
  assert (H4 : 2 * u * u * M <= / 100 * u * M). { apply Rmult_le_compat_r; [exact PM|]. nra. }
  replace ((3 + / 100) * u * M) with (2 * u * M + (u * M + / 100 * u * M)) by ring. lra.
Qed.
Lemma row_real dot e1 e2 e3 E1 E2 E3 v1 v2 v3 D1 D2 D3 : dot_accurate dot -> entry e1 E1 -> entry e2 E2 -> entry e3 E3 -> diff v1 D1 -> diff v2 D2 -> diff v3 D3 ->
  off 8 (dot (FV e1 e2 e3) (FV v1 v2 v3)) (E1 * D1 + E2 * D2 + E3 * D3) (Rabs (E1 * D1) + Rabs (E2 * D2) + Rabs (E3 * D3)).
Proof.
  intros DA N1 N2 N3 F1 F2 F3. destruct (DA (FV e1 e2 e3) (FV v1 v2 v3)) as [O H].
  - repeat split; try apply N1; try apply N2; try apply N3.
  - repeat split; try apply F1; try apply F2; try apply F3.
  - split; [|split]; [exact (entry_diff_tame _ _ _ _ N1 F1)|exact (entry_diff_tame _ _ _ _ N2 F2)|exact (entry_diff_tame _ _ _ _ N3 F3)].
  - split; [exact O|]. unfold inner_f, inner_abs in H. cbn [fx fy fz] in H.
    pose proof (term_near _ _ _ _ N1 F1) as A1. pose proof (term_near _ _ _ _ N2 F2) as A2. pose proof (term_near _ _ _ _ N3 F3) as A3.
    set (u := bpow radix2 (-53)) in *. pose proof u_tiny as U. fold u in U.
    assert (T : forall s t, Rabs (s - t) <= (3 + / 100) * u * Rabs t -> Rabs s <= (1 + / 100) * Rabs t).
    { intros s t L. pose proof (Rabs_triang (s - t) t) as Q. replace (s - t + t) with s in Q by ring. pose proof (Rabs_pos t) as P. assert ((3 + / 100) * u * Rabs t <= / 100 * Rabs t) by (apply Rmult_le_compat_r; lra). lra. }
    pose proof (T _ _ A1) as G1. pose proof (T _ _ A2) as G2. pose proof (T _ _ A3) as G3.
    set (P1 := Rabs (E1 * D1)) in *. set (P2 := Rabs (E2 * D2)) in *. set (P3 := Rabs (E3 * D3)) in *.
    assert (Q : 0 <= P1 /\ 0 <= P2 /\ 0 <= P3) by (repeat split; apply Rabs_pos). set (d := FR (dot _ _)) in *.
    replace (d - (E1 * D1 + E2 * D2 + E3 * D3)) with ((d - (FR e1 * FR v1 + FR e2 * FR v2 + FR e3 * FR v3)) + ((FR e1 * FR v1 - E1 * D1) + ((FR e2 * FR v2 - E2 * D2) + (FR e3 * FR v3 - E3 * D3)))) by ring.
    eapply Rle_trans; [apply Rabs_triang|]. eapply Rle_trans; [apply Rplus_le_compat_l; eapply Rle_trans; [apply Rabs_triang|apply Rplus_le_compat_l, Rabs_triang]|].
    set (S := P1 + P2 + P3). assert (SS : 0 <= S) by (unfold S; lra).
    apply Rle_trans with (4 * u * ((1 + / 100) * S) + (3 + / 100) * u * S).
    + apply Rle_trans with (4 * u * (Rabs (FR e1 * FR v1) + Rabs (FR e2 * FR v2) + Rabs (FR e3 * FR v3)) + (3 + / 100) * u * S); [unfold S; lra|].
      apply Rplus_le_compat_r. apply Rmult_le_compat_l; [lra|]. unfold S. lra.
    + assert (X : 0 <= u * S) by (apply Rmult_le_pos; lra). replace (4 * u * ((1 + / 100) * S) + (3 + / 100) * u * S) with ((7 + 5 / 100) * (u * S)) by field. rewrite Rmult_assoc. lra.
Qed.
Section Rotate.
  Variables (dot : fvec -> fvec -> float) (cosf sinf : float -> float) (ps : list fvec) (o : fvec) (theta : float) (i : nat) (p : fvec).
  Hypotheses (DA : dot_accurate dot) (T : trig_accurate cosf sinf theta) (NE : nth_error ps i = Some p) (P : ordinary_vec p) (O : ordinary_vec o)
    (Ax : apart (fx p) (fx o)) (Ay : apart (fy p) (fy o)) (Az : apart (fz p) (fz o)).
  Let X := FR (fx p) - FR (fx o).
  Let Y := FR (fy p) - FR (fy o).
  Let Z_ := FR (fz p) - FR (fz o).
  Let C := cos (FR theta).
  Let S := sin (FR theta).
  Ltac row N1 N2 N3 F1 F2 F3 :=
    eapply off_to; [apply (row_real dot _ _ _ _ _ _ _ _ _ _ _ _ DA N1 N2 N3 F1 F2 F3)|ring|]; rewrite ?Rmult_0_l, ?Rmult_1_l, ?Rabs_R0, <- ?Ropp_mult_distr_l, ?Rabs_Ropp; ring.
  Ltac start EC ES F1 F2 F3 :=
    rewrite nth_error_map, NE; eexists; (split; [reflexivity|]); unfold mat_vec_f, vmap2; cbn [fx fy fz];
    pose proof (entry_cos _ _ _ T) as EC; pose proof (entry_sin _ _ _ T) as ES; fold C in EC; fold S in ES;
    pose proof (sub_diff _ _ (proj1 P) (proj1 O) Ax) as F1; pose proof (sub_diff _ _ (proj1 (proj2 P)) (proj1 (proj2 O)) Ay) as F2; pose proof (sub_diff _ _ (proj2 (proj2 P)) (proj2 (proj2 O)) Az) as F3;
    fold X in F1; fold Y in F2; fold Z_ in F3.
  Lemma rotate_x_real : exists q, nth_error (rotate_x_f dot cosf sinf ps o theta) i = Some q /\ close 8 (fx q) X /\
    off 8 (fy q) (C * Y - S * Z_) (Rabs (C * Y) + Rabs (S * Z_)) /\ off 8 (fz q) (S * Y + C * Z_) (Rabs (S * Y) + Rabs (C * Z_)).
  Proof.
    unfold rotate_x_f, close. start EC ES F1 F2 F3. split; [|split].
    - row entry_one entry_zero entry_zero F1 F2 F3.
    - row entry_zero EC (entry_opp _ _ ES) F1 F2 F3.
    - row entry_zero ES EC F1 F2 F3.
  Qed.
  Lemma rotate_y_real : exists q, nth_error (rotate_y_f dot cosf sinf ps o theta) i = Some q /\ close 8 (fy q) Y /\
    off 8 (fx q) (C * X + S * Z_) (Rabs (C * X) + Rabs (S * Z_)) /\ off 8 (fz q) (C * Z_ - S * X) (Rabs (C * Z_) + Rabs (S * X)).
  Proof.
    unfold rotate_y_f, close. start EC ES F1 F2 F3. split; [|split].
    - row entry_zero entry_one entry_zero F1 F2 F3.
    - row EC entry_zero ES F1 F2 F3.
    - row (entry_opp _ _ ES) entry_zero EC F1 F2 F3.
  Qed.
  Lemma rotate_z_real : exists q, nth_error (rotate_z_f dot cosf sinf ps o theta) i = Some q /\ close 8 (fz q) Z_ /\
    off 8 (fx q) (C * X - S * Y) (Rabs (C * X) + Rabs (S * Y)) /\ off 8 (fy q) (S * X + C * Y) (Rabs (S * X) + Rabs (C * Y)).
  Proof.
    unfold rotate_z_f, close. start EC ES F1 F2 F3. split; [|split].
    - row entry_zero entry_zero entry_one F1 F2 F3.
    - row EC (entry_opp _ _ ES) entry_zero F1 F2 F3.
    - row ES EC entry_zero F1 F2 F3.
  Qed.
End Rotate.
Lemma centre_moved dot cosf sinf o theta : dot_accurate dot -> trig_accurate cosf sinf theta -> ordinary_vec o ->
  (exists q, rotate_x_f dot cosf sinf [o] o theta = [q] /\ no_normal q) /\ (exists q, rotate_y_f dot cosf sinf [o] o theta = [q] /\ no_normal q) /\
  (exists q, rotate_z_f dot cosf sinf [o] o theta = [q] /\ no_normal q).
Proof.
  intros DA T O. assert (A : forall x, apart x x) by (intros x; left; ring).
  assert (Z0 : forall x V s, off 8 x V s -> V = 0 -> s = 0 -> FR x = 0).
  { intros x V s [_ H] -> ->. rewrite Rmult_0_r, Rminus_0_r in H. destruct (Req_dec (FR x) 0) as [E|N]; [exact E|]. apply Rabs_pos_lt in N. lra. }
  destruct (rotate_x_real dot cosf sinf [o] o theta 0 o DA T eq_refl O O (A _) (A _) (A _)) as (q1 & E1 & A1 & A2 & A3).
  destruct (rotate_y_real dot cosf sinf [o] o theta 0 o DA T eq_refl O O (A _) (A _) (A _)) as (q2 & E2 & B1 & B2 & B3).
  destruct (rotate_z_real dot cosf sinf [o] o theta 0 o DA T eq_refl O O (A _) (A _) (A _)) as (q3 & E3 & C1 & C2 & C3).
  split; [|split]; [exists q1|exists q2|exists q3]; (split; [cbn in E1, E2, E3 |- *; congruence|]); unfold no_normal.
  - repeat split; [apply (Z0 _ _ _ A1)|apply (Z0 _ _ _ A2)|apply (Z0 _ _ _ A3)]; (repeat match goal with |- context [?a - ?a] => replace (a - a) with 0 by ring end; rewrite ?Rmult_0_r, ?Rabs_R0; ring).
  - repeat split; [apply (Z0 _ _ _ B2)|apply (Z0 _ _ _ B1)|apply (Z0 _ _ _ B3)]; (repeat match goal with |- context [?a - ?a] => replace (a - a) with 0 by ring end; rewrite ?Rmult_0_r, ?Rabs_R0; ring).
  - repeat split; [apply (Z0 _ _ _ C2)|apply (Z0 _ _ _ C3)|apply (Z0 _ _ _ C1)]; (repeat match goal with |- context [?a - ?a] => replace (a - a) with 0 by ring end; rewrite ?Rmult_0_r, ?Rabs_R0; ring).
Qed.
Lemma apart_ints a b : (Z.abs a < 2 ^ 53)%Z -> (Z.abs b < 2 ^ 53)%Z -> apart (f_of_Z a) (f_of_Z b).
Proof.
  intros A B. destruct (int_of_Z a A) as [_ Ea]. destruct (int_of_Z b B) as [_ Eb]. unfold apart. rewrite Ea, Eb, <- minus_IZR. destruct (Z.eq_dec (a - b) 0) as [->|N]; [now left|right].
  rewrite <- abs_IZR. split.
  - apply Rle_trans with 1; [change 1 with (bpow radix2 0); apply bpow_le; lia|apply IZR_le; lia].
  - apply Rle_trans with (bpow radix2 54); [change (bpow radix2 54) with (IZR (2 ^ 54)); apply IZR_le; lia|apply bpow_le; lia].
Qed.
