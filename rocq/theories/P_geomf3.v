(** Lemmas about points and planes in binary64. *)
From Coq Require Import Reals Lra Lia Floats.SpecFloat.
From Flocq Require Import Core Plus_error Mult_error Relative BinarySingleNaN.
From Verif Require Import PyBase PyFacts PyFloat FloatFacts FloatR FloatZ PyFrame Float32 PyArith PyArithR M_const SpecConst P_const M_geomf SpecGeomf P_geomf P_geomf2.
Local Open Scope R_scope.

(** * Integers *)
Lemma fmax_big z : (Z.abs z < 2 ^ 53)%Z -> Rabs (IZR z) < fmax_bound.
Proof.
  intros H. rewrite <- abs_IZR. apply Rlt_trans with (IZR (2 ^ 53)); [now apply IZR_lt|]. change (IZR (2 ^ 53)) with (bpow radix2 53). apply bpow_lt. lia.
Qed.
Lemma int_round r x z : rounded64 r x -> r = IZR z -> (Z.abs z < 2 ^ 53)%Z -> integral x z.
Proof.
  intros (V & F & _) -> B. destruct (F ltac:(rewrite rnd_IZR by exact B; now apply fmax_big)) as [E1 E2]. rewrite rnd_IZR in E1 by exact B. split; [now split|exact E1].
Qed.
Lemma int_mul x y a b : integral x a -> integral y b -> (Z.abs (a * b) < 2 ^ 53)%Z -> integral (fmul x y) (a * b).
Proof. intros [[Vx Fx] Ex] [[Vy Fy] Ey] B. eapply int_round; [now apply mul64_R| |exact B]. now rewrite Ex, Ey, mult_IZR. Qed.
Lemma int_add x y a b : integral x a -> integral y b -> (Z.abs (a + b) < 2 ^ 53)%Z -> integral (fadd x y) (a + b).
Proof. intros [[Vx Fx] Ex] [[Vy Fy] Ey] B. eapply int_round; [now apply add64_R| |exact B]. now rewrite Ex, Ey, plus_IZR. Qed.
Lemma int_sub x y a b : integral x a -> integral y b -> (Z.abs (a - b) < 2 ^ 53)%Z -> integral (fsub x y) (a - b).
Proof. intros [[Vx Fx] Ex] [[Vy Fy] Ey] B. eapply int_round; [now apply sub64_R| |exact B]. now rewrite Ex, Ey, minus_IZR. Qed.
Lemma int_of_Z z : (Z.abs z < 2 ^ 53)%Z -> integral (f_of_Z z) z.
Proof. intros B. destruct (f_of_Z_R z B) as (V & F & E). split; [now split|exact E]. Qed.
Lemma FR_inj x y : ordinary x -> ordinary y -> FR x = FR y -> FR x <> 0 -> x = y.
Proof.
  intros [Vx Fx] [Vy Fy] E N.
  assert (S : forall x (V : valid x = true), is_finite_f x = true -> FR x <> 0 -> is_finite_strict (toB x V) = true).
  { intros z V F Q. destruct z; try discriminate; [exfalso; apply Q; reflexivity|reflexivity]. }
  rewrite <- (toB_SF x Vx), <- (toB_SF y Vy). f_equal. apply B2R_inj; [now apply S|apply S; [exact Fy|congruence]|]. now rewrite !toB_R.
Qed.
Lemma int_unique x z : integral x z -> z <> 0%Z -> (Z.abs z < 2 ^ 53)%Z -> x = f_of_Z z.
Proof.
  intros [O E] N B. destruct (int_of_Z z B) as [O' E']. apply FR_inj; try assumption; [congruence|]. rewrite E. now apply not_0_IZR.
Qed.

(** * Signs *)
Lemma side_unique x s t : side x s -> side x t -> s = t.
Proof. intros [[A ->]|[[A ->]|[A ->]]] [[B ->]|[[B ->]|[B ->]]]; try reflexivity; lra. Qed.
Lemma side_like x y s : (x < 0 <-> y < 0) -> (0 < x <-> 0 < y) -> side x s -> side y s.
Proof.
  intros A B [[C ->]|[[C ->]|[C ->]]]; [left; tauto| |right; right; tauto]. right; left. split; [|reflexivity].
  destruct (Rtotal_order y 0) as [Q|[Q|Q]]; [apply A in Q; lra|exact Q|apply B in Q; lra].
Qed.
Lemma sense_side x : ordinary x -> exists s, sense_of x = Some s /\ side (FR x) s.
Proof.
  intros [V F]. unfold sense_of. assert (V0 : valid fzero = true) by reflexivity. assert (F0 : is_finite_f fzero = true) by reflexivity.
  destruct (flt fzero x) eqn:A; [apply flt_R in A; try assumption; exists (-1)%Z; split; [reflexivity|right; right; now split]|].
  destruct (flt x fzero) eqn:B; [apply flt_R in B; try assumption; exists 1%Z; split; [reflexivity|left; now split]|].
  assert (E : FR x = 0).
  { destruct (Rtotal_order (FR x) 0) as [Q|[Q|Q]]; [|exact Q|].
    - exfalso. assert (flt x fzero = true) by (apply flt_R; assumption). congruence.
    - exfalso. assert (flt fzero x = true) by (apply flt_R; assumption). congruence. }
  assert (C : feq x fzero = true) by (apply feq_R; assumption). rewrite C. exists 0%Z. split; [reflexivity|right; left; now split].
Qed.
#[local] Instance prec53 : Prec_gt_0 53 := eq_refl.
#[local] Instance exp_not_ftz : Exp_not_FTZ (FLT_exp (-1074) 53).
Proof. intros e. unfold FLT_exp. lia. Qed.
Lemma sub_sign x y : ordinary x -> ordinary y -> (rnd (FR x - FR y) < 0 <-> FR x - FR y < 0) /\ (0 < rnd (FR x - FR y) <-> 0 < FR x - FR y).
Proof.
  intros [Vx _] [Vy _]. assert (N : FR x - FR y <> 0 -> rnd (FR x - FR y) <> 0).
  { unfold Rminus. apply round_plus_neq_0; [apply FLT_exp_valid; reflexivity|exact exp_not_ftz|apply valid_rnd_N|now apply FR_format|].
    apply generic_format_opp. now apply FR_format. }
  assert (L : FR x - FR y <= 0 -> rnd (FR x - FR y) <= 0) by (intros; rewrite <- rnd_0; now apply rnd_le).
  assert (G : 0 <= FR x - FR y -> 0 <= rnd (FR x - FR y)) by (intros; rewrite <- rnd_0; now apply rnd_le).
  revert N L G. generalize (FR x - FR y) (rnd (FR x - FR y)). intros r q N L G.
  destruct (Rtotal_order r 0) as [Q|[Q|Q]]; split; split; intros W; try lra;
    repeat match goal with K : ?A -> _ |- _ => specialize (K ltac:(lra)) end; lra.
Qed.
Lemma sense_inf s : sense_of (S754_infinity s) = Some (if s then 1%Z else (-1)%Z).
Proof. destruct s; reflexivity. Qed.
Lemma sense_sub x y : ordinary x -> ordinary y -> exists s, sense_of (fsub x y) = Some s /\ side (FR x - FR y) s.
Proof.
  intros Ox Oy. pose proof Ox as [Vx Fx]. pose proof Oy as [Vy Fy]. destruct (sub64_R x y Vx Vy Fx Fy) as (V & F & I).
  destruct (sub_sign x y Ox Oy) as [L G]. destruct (Rlt_or_le (Rabs (rnd (FR x - FR y))) fmax_bound) as [Q|Q].
  - destruct (F Q) as [E1 E2]. destruct (sense_side (fsub x y) (conj V E2)) as (s & A & B). exists s. split; [exact A|]. rewrite E1 in B. exact (side_like _ _ _ L G B).
  - rewrite (I Q), sense_inf. eexists. split; [reflexivity|]. assert (P : 0 < fmax_bound) by apply bpow_gt_0.
    destruct (Rlt_bool_spec (FR x - FR y) 0) as [W|W]; [left; now split|]. right; right. split; [|reflexivity].
    apply G. pose proof (rnd_nonneg _ W) as W'. rewrite Rabs_pos_eq in Q by exact W'. lra.
Qed.

(** * Planes *)
Lemma plane_exists n : ordinary_vec n -> ~ (FR (fx n) = 0 /\ FR (fy n) = 0 /\ FR (fz n) = 0) -> check_plane_exists_f n = Ok tt.
Proof.
  intros ((Vx & Fx) & (Vy & Fy) & (Vz & Fz)) N. unfold check_plane_exists_f, veq_f. cbn [fx fy fz].
  destruct (feq (fx n) fzero) eqn:A; [|reflexivity]. destruct (feq (fy n) fzero) eqn:B; [|reflexivity]. destruct (feq (fz n) fzero) eqn:C; [|reflexivity].
  exfalso. apply N. apply feq_R in A; try assumption; try reflexivity. apply feq_R in B; try assumption; try reflexivity. apply feq_R in C; try assumption; try reflexivity. now split.
Qed.
Lemma no_plane n : ordinary_vec n -> FR (fx n) = 0 /\ FR (fy n) = 0 /\ FR (fz n) = 0 -> check_plane_exists_f n = Err ValueError.
Proof.
  intros ((Vx & Fx) & (Vy & Fy) & (Vz & Fz)) (A & B & C). unfold check_plane_exists_f, veq_f. cbn [fx fy fz].
  assert (Q : forall x, valid x = true -> is_finite_f x = true -> FR x = 0 -> feq x fzero = true) by (intros; apply feq_R; try assumption; reflexivity).
  now rewrite !Q.
Qed.
Section Planes.
  Variable dot : fvec -> fvec -> float.
  Lemma plane_sense n d p : dot_accurate dot -> ordinary_vec n -> ordinary_vec p -> ordinary d -> tame_vec n p ->
    4 * bpow radix2 (-53) * inner_abs n p < Rabs (inner_f n p - FR d) -> ~ (FR (fx n) = 0 /\ FR (fy n) = 0 /\ FR (fz n) = 0) ->
    exists s, find_sense_plane_f dot n d p = Ok (Some s) /\ side (inner_f n p - FR d) s.
  Proof.
    intros DA On Op Od T B N. unfold find_sense_plane_f, evaluate_plane_eq_f. rewrite (plane_exists n On N). cbn [bind].
    destruct (DA n p On Op T) as [O E]. destruct (sense_sub _ _ O Od) as (s & A & S). exists s. split; [now rewrite A|].
    apply Rabs_le_inv in E. revert S. apply side_like; unfold Rabs in B; destruct (Rcase_abs (inner_f n p - FR d)); split; intros; lra.
  Qed.
  Lemma plane_sense_int n d p a b c k x y z : dot_integers dot -> integral_vec n a b c -> integral d k -> integral_vec p x y z -> ~ (a = 0 /\ b = 0 /\ c = 0)%Z ->
    (Z.abs (a * x) + Z.abs (b * y) + Z.abs (c * z) < 2 ^ 53)%Z ->
    exists s, find_sense_plane_f dot n d p = Ok (Some s) /\ side (IZR (a * x + b * y + c * z - k)) s.
  Proof.
    intros DI Hn [Od Ed] Hp N B. destruct (DI n p _ _ _ _ _ _ Hn Hp B) as [O E]. unfold find_sense_plane_f, evaluate_plane_eq_f.
    destruct Hn as ((Oa & Ea) & (Ob & Eb) & (Oc & Ec)). rewrite plane_exists; [|repeat split; apply Oa || apply Ob || apply Oc|].
    - cbn [bind]. destruct (sense_sub _ _ O Od) as (s & A & S). exists s. split; [now rewrite A|]. now rewrite E, Ed, <- minus_IZR in S.
    - rewrite Ea, Eb, Ec. intros (A & A' & A''). apply N. now apply eq_IZR in A, A', A''.
  Qed.
  (** Two planes with the same normal. *)
  Lemma feq_self x : is_nan_f x = false -> feq x x = true.
  Proof. intros H. destruct (fle x x) eqn:E; [|rewrite fle_refl in E by exact H; discriminate]. revert E H. unfold fle, feq, SFleb, SFeqb. destruct x as [| [] | | [] m e]; cbn; try reflexivity; try discriminate; intros; now rewrite Z.compare_refl, Pcompare_refl. Qed.
  Lemma div_not_nan x y : ordinary x -> ordinary y -> FR y <> 0 -> is_nan_f (fdiv x y) = false.
  Proof.
    intros [Vx Fx] [Vy Fy] N. destruct (fdiv_R x y Vx Vy Fx Fy N) as (_ & F & I). destruct (Rlt_or_le (Rabs (rnd (FR x / FR y))) fmax_bound) as [L|L].
    - destruct (F L) as [_ Q]. destruct (fdiv x y); try reflexivity; discriminate.
    - destruct (I L) as [s ->]. reflexivity.
  Qed.
  Lemma norm_ok n : dot_accurate dot -> ordinary_vec n -> tame_vec n n -> ~ (FR (fx n) = 0 /\ FR (fy n) = 0 /\ FR (fz n) = 0) ->
    ordinary (norm_f dot n) /\ 0 < FR (norm_f dot n).
  Proof.
    intros DA O T N. destruct (DA n n O O T) as [[Vd Fd] E]. assert (P : 0 < inner_f n n).
    { unfold inner_f. destruct (Req_dec (FR (fx n)) 0); [destruct (Req_dec (FR (fy n)) 0); [destruct (Req_dec (FR (fz n)) 0); [tauto|]|]|]; nra. }
    assert (Q : inner_abs n n = inner_f n n).
    { unfold inner_abs, inner_f. rewrite !Rabs_pos_eq by nra. reflexivity. }
    rewrite Q in E. fold u53 in E. pose proof u_small. pose proof u_pos. apply Rabs_le_inv in E. assert (D : 0 < FR (dot n n)) by nra.
    destruct (fsqrt_R _ Vd Fd (Rlt_le _ _ D)) as (V & S & F). split; [now split|]. unfold norm_f. rewrite S.
    pose proof (sqrt_lt_R0 _ D) as W. destruct (Rle_or_lt (rnd (sqrt (FR (dot n n)))) 0) as [Z|Z]; [|exact Z]. exfalso.
    assert (G : bpow radix2 (-1020) <= FR (dot n n)).
    { assert (L : bpow radix2 (-1000) <= inner_f n n).
      { destruct T as (T1 & T2 & T3). unfold inner_f, tame in *. rewrite Rabs_pos_eq in T1, T2, T3 by nra.
        destruct T1 as [T1|T1]; [destruct T2 as [T2|T2]; [destruct T3 as [T3|T3]|]|]; unfold inner_f in P; nra. }
      apply Rle_trans with (bpow radix2 (-1000) * / 2); [|nra]. change (/ 2) with (bpow radix2 (-1)). rewrite <- bpow_plus. apply bpow_le. lia. }
    assert (S2 : bpow radix2 (-510) <= sqrt (FR (dot n n))).
    { rewrite <- (sqrt_square (bpow radix2 (-510))) by apply bpow_ge_0. rewrite <- bpow_plus. now apply sqrt_le_1_alt. }
    pose proof (rnd_le _ _ S2) as Y. rewrite rnd_bpow in Y by lia. pose proof (bpow_gt_0 radix2 (-510)). lra.
  Qed.
  Lemma parallel_self n : dot_accurate dot -> ordinary_vec n -> tame_vec n n -> ~ (FR (fx n) = 0 /\ FR (fy n) = 0 /\ FR (fz n) = 0) ->
    check_parallel_planes_f dot n n = true.
  Proof.
    intros DA O T N. destruct (norm_ok n DA O T N) as [On Pn]. destruct O as (Ox & Oy & Oz). unfold check_parallel_planes_f, veq_f, vmap. cbn [fx fy fz].
    rewrite !feq_self; try reflexivity; apply div_not_nan; try assumption; lra.
  Qed.
End Planes.

(** * Points *)
Lemma abs_sign x y : fabs x = fabs y -> up_to_sign x y.
Proof.
  unfold up_to_sign, fabs, fopp. destruct x as [[]|[]| |[] m e], y as [[]|[]| |[] n f]; cbn; intros E; try discriminate E;
    solve [now left|now right|injection E as <- <-; now left|injection E as <- <-; now right].
Qed.
Lemma sub_self_zero x : is_finite_f x = true -> exists s, fsub x x = S754_zero s.
Proof. intros F. pose proof (fsub_self x F) as E. unfold fabs, SFabs in E. destruct (fsub x x) as [s| | |]; try discriminate. now exists s. Qed.
Section Points.
  Variable dot : fvec -> fvec -> float.
  Lemma dist_comm p q : dot_signs dot -> dist_bet_points_f dot p q = dist_bet_points_f dot q p.
  Proof. intros H. unfold dist_bet_points_f, norm_f, vmap2. f_equal. apply H; cbn [fx fy fz]; apply abs_sign, fabs_sub_comm. Qed.
  Lemma zero_int x : is_finite_f x = true -> integral (fsub x x) 0.
  Proof. intros F. destruct (sub_self_zero x F) as [s ->]. repeat split. Qed.
  Lemma sqrt_zero x : ordinary x -> FR x = 0 -> feq (fsqrt x) fzero = true.
  Proof.
    intros [V F] E. destruct (fsqrt_R x V F ltac:(lra)) as (V' & S & F'). apply feq_R; try assumption; try reflexivity. rewrite S, E, sqrt_0. apply rnd_0.
  Qed.
  Lemma dist_self p : dot_integers dot -> ordinary_vec p -> feq (dist_bet_points_f dot p p) fzero = true.
  Proof.
    intros DI ((_ & F1) & (_ & F2) & (_ & F3)). assert (I : integral_vec (vmap2 fsub p p) 0 0 0) by (repeat split; cbn [fx fy fz vmap2]; now apply zero_int).
    destruct (DI _ _ _ _ _ _ _ _ I I ltac:(cbn; lia)) as [O E]. unfold dist_bet_points_f, norm_f. now apply sqrt_zero.
  Qed.
  Lemma within4_rel x X : 0 <= X -> within 4 x X -> rel 5 x X.
  Proof.
    intros P W. unfold within in W. fold u53 in W. apply Rabs_le_inv in W. split; [exact P|]. pose proof u_pos. pose proof u_small.
    assert (A : (1 - u53) ^ 5 <= 1 - 4 * u53) by (cbn [pow]; nra). assert (B : 1 + 4 * u53 <= (1 + u53) ^ 5) by (cbn [pow]; nra). split; nra.
  Qed.
  Lemma sub_square x y : ordinary x -> ordinary y -> FR x - FR y = 0 \/ bpow radix2 (-400) <= Rabs (FR x - FR y) <= bpow radix2 400 ->
    let z := fsub y x in ordinary z /\ tame z z /\ rel 2 (FR z * FR z) ((FR y - FR x) ^ 2) /\ FR z * FR z <= bpow radix2 800.
  Proof.
    intros Ox Oy D z. subst z. pose proof Ox as [Vx Fx]. pose proof Oy as [Vy Fy]. pose proof (sub64_R y x Vy Vx Fy Fx) as (V & F & _).
    destruct D as [D|D].
    - assert (E : FR y - FR x = 0) by lra. rewrite E, rnd_0, Rabs_R0 in F. destruct (F (bpow_gt_0 _ _)) as [E1 E2]. rewrite E1. split; [now split|]. split; [left; rewrite E1; ring|]. rewrite E.
      pose proof (bpow_gt_0 radix2 800). split; [|lra]. split; [lra|]. cbn [pow]. lra.
    - assert (D' : bpow radix2 (-400) <= Rabs (FR y - FR x) <= bpow radix2 400) by (now rewrite Rabs_minus_sym).
      destruct (rnd_range _ (-400) 400 ltac:(lia) ltac:(lia) D') as (A & B & C). rewrite rnd_abs in A, B, C. rewrite Rabs_Rabsolu in B. destruct (F B) as [E1 E2].
      assert (SQ : FR (fsub y x) * FR (fsub y x) = Rabs (rnd (FR y - FR x)) * Rabs (rnd (FR y - FR x))) by (rewrite E1, <- Rabs_mult, Rabs_pos_eq; [reflexivity|nra]).
      pose proof (bpow_gt_0 radix2 (-400)) as PB. pose proof (bpow_gt_0 radix2 400) as PB'.
      assert (LO : bpow radix2 (-800) <= FR (fsub y x) * FR (fsub y x)) by (rewrite SQ; change (-800)%Z with (-400 + -400)%Z; rewrite bpow_plus; nra).
      assert (HI : FR (fsub y x) * FR (fsub y x) <= bpow radix2 800) by (rewrite SQ; change 800%Z with (400 + 400)%Z; rewrite bpow_plus; nra).
      split; [now split|]. split; [|split; [|exact HI]].
      + right. rewrite Rabs_pos_eq by nra. split; [apply Rle_trans with (2 := LO)|apply Rle_trans with (1 := HI)]; apply bpow_le; lia.
      + rewrite SQ. replace ((FR y - FR x) ^ 2) with (Rabs (FR y - FR x) * Rabs (FR y - FR x)) by (rewrite <- (pow2_abs (FR y - FR x)); cbn [pow]; lra).
        exact (rel_mul _ _ _ _ _ _ C C).
  Qed.
  Lemma dist_near p q : dot_accurate dot -> ordinary_vec p -> ordinary_vec q ->
    let small a b := FR a - FR b = 0 \/ bpow radix2 (-400) <= Rabs (FR a - FR b) <= bpow radix2 400 in
    small (fx p) (fx q) -> small (fy p) (fy q) -> small (fz p) (fz q) ->
    ordinary (dist_bet_points_f dot p q) /\ within 6 (FR (dist_bet_points_f dot p q)) (sqrt (dist2 p q)).
  Proof.
    intros DA (P1 & P2 & P3) (Q1 & Q2 & Q3) small S1 S2 S3. unfold dist_bet_points_f, norm_f. set (v := vmap2 fsub q p).
    destruct (sub_square _ _ P1 Q1 S1) as (O1 & T1 & R1 & B1). destruct (sub_square _ _ P2 Q2 S2) as (O2 & T2 & R2 & B2). destruct (sub_square _ _ P3 Q3 S3) as (O3 & T3 & R3 & B3).
    destruct (DA v v (conj O1 (conj O2 O3)) (conj O1 (conj O2 O3)) (conj T1 (conj T2 T3))) as [O E].
    assert (Q : inner_abs v v = inner_f v v) by (unfold inner_abs, inner_f; rewrite !Rabs_pos_eq by nra; reflexivity).
    assert (R : rel 2 (inner_f v v) (dist2 p q)).
    { unfold inner_f, dist2, v, vmap2. cbn [fx fy fz].
      replace ((FR (fx p) - FR (fx q)) ^ 2) with ((FR (fx q) - FR (fx p)) ^ 2) by ring. replace ((FR (fy p) - FR (fy q)) ^ 2) with ((FR (fy q) - FR (fy p)) ^ 2) by ring.
      replace ((FR (fz p) - FR (fz q)) ^ 2) with ((FR (fz q) - FR (fz p)) ^ 2) by ring. now repeat apply rel_add. }
    rewrite Q in E. assert (I0 : 0 <= inner_f v v) by (unfold inner_f; nra).
    pose proof (within4_rel _ _ I0 E) as R5. pose proof (rel_trans _ _ _ _ _ R5 R) as R7. cbn [Nat.add] in R7.
    apply (rel_weaken _ (4 + 4)) in R7; [|lia]. pose proof (rel_nonneg _ _ _ R7) as N. apply rel_sqrt in R7.
    destruct O as [V F]. destruct (fsqrt_R _ V F N) as (V' & S & F'). split; [now split|]. rewrite S.
    destruct (Req_dec (FR (dot v v)) 0) as [Z|Z].
    - rewrite Z, sqrt_0 in *. rewrite rnd_0. change 6%Z with (Z.of_nat 5 + 1)%Z. apply rel_within; [lia|]. apply (rel_weaken 4); [lia|exact R7].
    - change 6%Z with (Z.of_nat 5 + 1)%Z. apply rel_within; [lia|]. change 5%nat with (1 + 4)%nat. apply rel_trans with (2 := R7).
      destruct T1 as [T1|T1], T2 as [T2|T2], T3 as [T3|T3]; fold v in T1, T2, T3; 
      try (exfalso; apply Z; assert (Y : inner_f v v = 0) by (unfold inner_f; change (fx v) with (fsub (fx q) (fx p)); change (fy v) with (fsub (fy q) (fy p)); change (fz v) with (fsub (fz q) (fz p)); lra); rewrite Y in E; rewrite Rmult_0_r in E; apply Rabs_le_inv in E; lra).
      all: assert (L : bpow radix2 (-1000) <= inner_f v v) by
        (unfold inner_f; change (fx v) with (fsub (fx q) (fx p)); change (fy v) with (fsub (fy q) (fy p)); change (fz v) with (fsub (fz q) (fz p));
         repeat match goal with T : _ <= Rabs _ <= _ |- _ => rewrite Rabs_pos_eq in T by nra end; nra).
      all: assert (H : inner_f v v <= bpow radix2 802) by
        (change 802%Z with (800 + 2)%Z; rewrite bpow_plus; change (bpow radix2 2) with 4; unfold inner_f; change (fx v) with (fsub (fx q) (fx p)); change (fy v) with (fsub (fy q) (fy p)); change (fz v) with (fsub (fz q) (fz p)); pose proof (bpow_gt_0 radix2 800); lra).
      all: unfold within in E; fold u53 in E; apply Rabs_le_inv in E; pose proof u_pos; pose proof u_small; pose proof (bpow_gt_0 radix2 (-1000)).
      all: assert (LL : bpow radix2 (-1002) <= FR (dot v v)) by (change (-1002)%Z with (-1000 + -2)%Z; rewrite bpow_plus; change (bpow radix2 (-2)) with (/ 4); nra).
      all: assert (HH : FR (dot v v) <= bpow radix2 804) by (change 804%Z with (802 + 2)%Z; rewrite bpow_plus; change (bpow radix2 2) with 4; nra).
      all: assert (LS : bpow radix2 (-501) <= sqrt (FR (dot v v))) by (rewrite <- (sqrt_square (bpow radix2 (-501))) by apply bpow_ge_0; rewrite <- bpow_plus; now apply sqrt_le_1_alt).
      all: assert (HS : sqrt (FR (dot v v)) <= bpow radix2 402) by (rewrite <- (sqrt_square (bpow radix2 402)) by apply bpow_ge_0; rewrite <- bpow_plus; now apply sqrt_le_1_alt).
      all: exact (proj2 (proj2 (rnd_range _ (-501) 402 ltac:(lia) ltac:(lia) (conj LS HS)))).
  Qed.
End Points.

(** * Midpoints *)
Lemma format_double x : ordinary x -> generic_format radix2 (FLT_exp (-1074) 53) (2 * FR x).
Proof. intros [V _]. rewrite Rmult_comm. change 2 with (bpow radix2 1). apply mult_bpow_pos_exact_FLT; [now apply FR_format|lia]. Qed.
Lemma half_rounded s : ordinary s -> ordinary (fdiv s two_f) /\ FR (fdiv s two_f) = rnd (FR s / 2).
Proof.
  intros [V F]. assert (T : FR two_f = 2) by (unfold two_f; exact (proj2 (int_of_Z 2 ltac:(lia)))).
  destruct (fdiv_R s two_f V ltac:(reflexivity) F ltac:(reflexivity) ltac:(lra)) as (V' & G & _). rewrite T in G.
  assert (B : Rabs (rnd (FR s / 2)) < fmax_bound).
  { apply Rle_lt_trans with (Rabs (FR s)); [|now apply FR_lt_max]. rewrite <- rnd_abs. rewrite <- (rnd_FR s V) at 2. rewrite <- rnd_abs. apply rnd_le.
    unfold Rdiv. rewrite Rabs_mult, (Rabs_pos_eq (/ 2)) by lra. pose proof (Rabs_pos (FR s)). lra. }
  destruct (G B) as [E1 E2]. repeat split; assumption.
Qed.
Lemma mid_sum a b : ordinary a -> ordinary b -> Rabs (FR a + FR b) <= bpow radix2 1023 -> ordinary (fadd a b) /\ FR (fadd a b) = rnd (FR a + FR b).
Proof.
  intros [Va Fa] [Vb Fb] B. destruct (add64_R a b Va Vb Fa Fb) as (V & F & _).
  assert (L : Rabs (rnd (FR a + FR b)) < fmax_bound).
  { rewrite <- rnd_abs. apply Rle_lt_trans with (bpow radix2 1023); [|apply bpow_lt; lia]. rewrite <- (rnd_bpow 1023) by lia. now apply rnd_le. }
  destruct (F L) as [E1 E2]. repeat split; assumption.
Qed.
Lemma mid_between a b : ordinary a -> ordinary b -> Rabs (FR a + FR b) <= bpow radix2 1023 -> FR a <= FR b ->
  let m := fdiv (fadd a b) two_f in ordinary m /\ FR a <= FR m <= FR b.
Proof.
  intros Oa Ob B L m. subst m. destruct (mid_sum a b Oa Ob B) as [Os Es]. destruct (half_rounded _ Os) as [Om Em]. split; [exact Om|]. rewrite Em, Es.
  assert (A : 2 * FR a <= rnd (FR a + FR b)) by (rewrite <- (round_generic radix2 (FLT_exp (-1074) 53) ZnearestE (2 * FR a)) by (now apply format_double); apply rnd_le; lra).
  assert (C : rnd (FR a + FR b) <= 2 * FR b) by (rewrite <- (round_generic radix2 (FLT_exp (-1074) 53) ZnearestE (2 * FR b)) by (now apply format_double); apply rnd_le; lra).
  split; [rewrite <- (rnd_FR a) at 1 by apply Oa|rewrite <- (rnd_FR b) at 2 by apply Ob]; apply rnd_le; lra.
Qed.
Lemma mid_near a b : ordinary a -> ordinary b -> Rabs (FR a + FR b) <= bpow radix2 1023 ->
  Rabs (FR (fdiv (fadd a b) two_f) - (FR a + FR b) / 2) <= bpow radix2 (-53) * Rabs ((FR a + FR b) / 2) + bpow radix2 (-1075).
Proof.
  intros Oa Ob B. destruct (mid_sum a b Oa Ob B) as [Os Es]. destruct (half_rounded _ Os) as [Om Em]. rewrite Em, Es. set (r := FR a + FR b).
  destruct (Rle_or_lt (Rabs r) (bpow radix2 (53 + -1074))) as [S|S].
  - assert (G : generic_format radix2 (FLT_exp (-1074) 53) r) by (apply FLT_format_plus_small; [reflexivity|apply FR_format, Oa|apply FR_format, Ob|exact S]).
    assert (Er : rnd r = r) by (now apply round_generic; [apply valid_rnd_N|]). rewrite Er.
    destruct (Rle_or_lt (bpow radix2 (-1022)) (Rabs (r / 2))) as [W|W].
    + pose proof (relative_error_N_FLT radix2 (-1074) 53 eq_refl (fun x => negb (Z.even x)) (r / 2)) as Q.
      assert (Q' : Rabs (rnd (r / 2) - r / 2) <= / 2 * bpow radix2 (-53 + 1) * Rabs (r / 2)) by (apply Q; exact W).
      rewrite bpow_plus in Q'. change (bpow radix2 1) with 2 in Q'. pose proof (bpow_gt_0 radix2 (-1075)). lra.
    + pose proof (error_le_half_ulp radix2 (FLT_exp (-1074) 53) (fun x => negb (Z.even x)) (r / 2)) as Q.
      assert (U : ulp radix2 (FLT_exp (-1074) 53) (r / 2) = bpow radix2 (-1074)) by (apply ulp_FLT_small; [reflexivity|]; apply Rlt_trans with (1 := W); apply bpow_lt; lia).
      rewrite U in Q. change (rnd (r / 2)) with (round radix2 (FLT_exp (-1074) 53) ZnearestE (r / 2)).
      apply Rle_trans with (1 := Q). change (-1074)%Z with (1 + -1075)%Z. rewrite bpow_plus. change (bpow radix2 1) with 2.
      pose proof (bpow_ge_0 radix2 (-53)). pose proof (Rabs_pos (r / 2)). nra.
  - assert (A : bpow radix2 (53 + -1074) <= Rabs (rnd r)) by (rewrite <- rnd_abs; rewrite <- (rnd_bpow (53 + -1074)) by lia; apply rnd_le; lra).
    destruct (rnd_rel r A) as (e & He & Er).
    assert (H : rnd (rnd r / 2) = rnd r / 2).
    { apply round_generic; [apply valid_rnd_N|]. unfold Rdiv. change (/ 2) with (bpow radix2 (-1)). apply mult_bpow_exact_FLT; [apply generic_format_round; [apply FLT_exp_valid; reflexivity|apply valid_rnd_N]|].
      assert (M : (53 + -1074 < mag radix2 (rnd r))%Z) by (apply mag_gt_bpow; exact A). lia. }
    rewrite H, Er. replace (r * (1 + e) / 2 - r / 2) with (e * (r / 2)) by field. rewrite Rabs_mult. fold u53 in *. pose proof (bpow_gt_0 radix2 (-1075)). pose proof (Rabs_pos (r / 2)). change (bpow radix2 (-53)) with u53. nra.
Qed.
