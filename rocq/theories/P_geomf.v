(** Lemmas about areas and volumes in binary64. *)
From Coq Require Import Reals Lra Lia Floats.SpecFloat.
From Flocq Require Import Core.
From Verif Require Import PyBase PyFacts PyFloat FloatFacts FloatR FloatZ PyFrame Float32 PyArith PyArithR M_const SpecConst P_const PiBound M_geomf SpecGeomf.
Local Open Scope R_scope.

Lemma u_pos : 0 < u53.
Proof. rewrite u53_val. lra. Qed.
Lemma u_small : u53 <= / 1000000.
Proof. rewrite u53_val. lra. Qed.
(** [x] is [X] up to [n] factors within 1 - u and 1 + u. *)
Definition rel (n : nat) (x X : R) : Prop := 0 <= X /\ X * (1 - u53) ^ n <= x <= X * (1 + u53) ^ n.
Lemma dn_pos n : 0 < (1 - u53) ^ n.
Proof. apply pow_lt. pose proof u_small. lra. Qed.
Lemma up_pos n : 0 < (1 + u53) ^ n.
Proof. apply pow_lt. pose proof u_pos. lra. Qed.
Lemma dn_le n m : (n <= m)%nat -> (1 - u53) ^ m <= (1 - u53) ^ n.
Proof.
  intros H. replace m with (n + (m - n))%nat by lia. rewrite pow_add. pose proof (dn_pos n).
  assert (Q : (1 - u53) ^ (m - n) <= 1 ^ (m - n)) by (apply pow_incr; pose proof u_pos; pose proof u_small; split; lra). rewrite pow1 in Q.
  rewrite <- (Rmult_1_r ((1 - u53) ^ n)) at 2. apply Rmult_le_compat_l; lra.
Qed.
Lemma up_le n m : (n <= m)%nat -> (1 + u53) ^ n <= (1 + u53) ^ m.
Proof. intros H. apply Rle_pow; [pose proof u_pos; lra|exact H]. Qed.
Lemma rel_nonneg n x X : rel n x X -> 0 <= x.
Proof. intros (P & A & _). eapply Rle_trans; [|exact A]. apply Rmult_le_pos; [exact P|apply Rlt_le, dn_pos]. Qed.
Lemma rel_refl x : 0 <= x -> rel 0 x x.
Proof. intros H. split; [exact H|]. rewrite !pow_O. lra. Qed.
Lemma rel_weaken n m x X : (n <= m)%nat -> rel n x X -> rel m x X.
Proof.
  intros H (P & A & B). split; [exact P|]. split.
  - eapply Rle_trans; [|exact A]. apply Rmult_le_compat_l; [exact P|now apply dn_le].
  - eapply Rle_trans; [exact B|]. apply Rmult_le_compat_l; [exact P|now apply up_le].
Qed.
Lemma rel_mul n m x X y Y : rel n x X -> rel m y Y -> rel (n + m) (x * y) (X * Y).
Proof.
  intros Hx Hy. pose proof (rel_nonneg _ _ _ Hx). pose proof (rel_nonneg _ _ _ Hy). destruct Hx as (P & A & B), Hy as (Q & C & D).
  split; [now apply Rmult_le_pos|]. rewrite !pow_add. split.
  - replace (X * Y * ((1 - u53) ^ n * (1 - u53) ^ m)) with ((X * (1 - u53) ^ n) * (Y * (1 - u53) ^ m)) by ring.
    apply Rmult_le_compat; try assumption; apply Rmult_le_pos; try assumption; apply Rlt_le, dn_pos.
  - replace (X * Y * ((1 + u53) ^ n * (1 + u53) ^ m)) with ((X * (1 + u53) ^ n) * (Y * (1 + u53) ^ m)) by ring.
    apply Rmult_le_compat; assumption.
Qed.
Lemma rel_add n x X y Y : rel n x X -> rel n y Y -> rel n (x + y) (X + Y).
Proof. intros (P & A & B) (Q & C & D). split; [lra|]. rewrite !Rmult_plus_distr_r. lra. Qed.
Lemma rel_sqrt n x X : rel (n + n) x X -> rel n (sqrt x) (sqrt X).
Proof.
  intros (P & A & B). split; [apply sqrt_pos|]. rewrite pow_add in A, B. pose proof (dn_pos n). pose proof (up_pos n). split.
  - rewrite <- (sqrt_square ((1 - u53) ^ n)) by lra. rewrite <- sqrt_mult; [|exact P|apply Rmult_le_pos; lra]. now apply sqrt_le_1_alt.
  - rewrite <- (sqrt_square ((1 + u53) ^ n)) by lra. rewrite <- sqrt_mult; [|exact P|apply Rmult_le_pos; lra]. now apply sqrt_le_1_alt.
Qed.
Lemma rel_scale x X e : 0 <= X -> Rabs e <= u53 -> x = X * (1 + e) -> rel 1 x X.
Proof.
  intros P H ->. apply Rabs_le_inv in H. split; [exact P|]. rewrite !pow_1. split; apply Rmult_le_compat_l; lra.
Qed.
Lemma rel_trans n m x y z : rel n x y -> rel m y z -> rel (n + m) x z.
Proof.
  intros (P & A & B) (Q & C & D). split; [exact Q|]. rewrite !pow_add. split.
  - eapply Rle_trans; [|exact A]. replace (z * ((1 - u53) ^ n * (1 - u53) ^ m)) with ((z * (1 - u53) ^ m) * (1 - u53) ^ n) by ring.
    apply Rmult_le_compat_r; [apply Rlt_le, dn_pos|exact C].
  - eapply Rle_trans; [exact B|]. replace (z * ((1 + u53) ^ n * (1 + u53) ^ m)) with ((z * (1 + u53) ^ m) * (1 + u53) ^ n) by ring.
    apply Rmult_le_compat_r; [apply Rlt_le, up_pos|exact D].
Qed.
Lemma pow_up n : (n <= 20)%nat -> (1 + u53) ^ n <= 1 + (INR n + 1) * u53.
Proof.
  intros L. assert (H : (1 + u53) ^ n <= 1 + INR n * u53 * (1 + 1000 * INR n * u53)).
  { induction n as [|n IH]; [cbn; lra|]. specialize (IH ltac:(lia)). cbn [pow].
    eapply Rle_trans; [apply Rmult_le_compat_l; [pose proof u_pos; lra|exact IH]|]. rewrite S_INR.
    assert (0 <= INR n <= 20) by (split; [apply pos_INR|replace 20 with (INR 20) by (cbn; lra); apply le_INR; lia]).
    revert H. generalize (INR n). intros k K. rewrite u53_val. nra. }
  eapply Rle_trans; [exact H|]. assert (0 <= INR n <= 20) by (split; [apply pos_INR|replace 20 with (INR 20) by (cbn; lra); apply le_INR; lia]).
  revert H0. generalize (INR n). intros k K. rewrite u53_val. nra.
Qed.
Lemma pow_dn n : 1 - INR n * u53 <= (1 - u53) ^ n.
Proof.
  induction n as [|n IH]; [cbn; lra|]. cbn [pow]. rewrite S_INR. pose proof (pos_INR n). pose proof u_pos. pose proof u_small. pose proof (dn_pos n).
  destruct (Rle_or_lt 0 (1 - INR n * u53)) as [Q|Q]; [|nra].
  assert ((1 - u53) * (1 - INR n * u53) <= (1 - u53) * (1 - u53) ^ n) by (apply Rmult_le_compat_l; lra). nra.
Qed.
Lemma rel_within n x X : (n <= 20)%nat -> rel n x X -> within (Z.of_nat n + 1) x X.
Proof.
  intros L (P & A & B). unfold within. fold u53. rewrite plus_IZR, <- INR_IZR_INZ. pose proof (pow_up n L). pose proof (pow_dn n). pose proof u_pos.
  assert (X * (1 + u53) ^ n <= X * (1 + (INR n + 1) * u53)) by (apply Rmult_le_compat_l; assumption).
  assert (X * (1 - INR n * u53) <= X * (1 - u53) ^ n) by (apply Rmult_le_compat_l; assumption).
  assert (0 <= X * u53) by (apply Rmult_le_pos; lra). apply Rabs_le. split; nra.
Qed.
Lemma within_rel x X : 0 <= X -> within 3 x X -> rel 4 x X.
Proof.
  intros P H. unfold within in H. fold u53 in H. apply Rabs_le_inv in H. split; [exact P|]. pose proof u_pos. pose proof u_small.
  assert (A : (1 - u53) ^ 4 <= 1 - 3 * u53) by (cbn; nra). assert (B : 1 + 3 * u53 <= (1 + u53) ^ 4) by (cbn; nra).
  split.
  - eapply Rle_trans; [apply Rmult_le_compat_l; [exact P|exact A]|]. lra.
  - eapply Rle_trans; [|apply Rmult_le_compat_l; [exact P|exact B]]. lra.
Qed.

(** A float with its exact value and its range. *)
Definition approx (x : float) (n : nat) (X : R) (a b : Z) : Prop := ordinary x /\ rel n (FR x) X /\ bpow radix2 a <= FR x <= bpow radix2 b.
Lemma rnd_bpow e : (-1074 <= e)%Z -> rnd (bpow radix2 e) = bpow radix2 e.
Proof. intros H. apply round_generic; [apply valid_rnd_N|]. apply generic_format_bpow. unfold FLT_exp. lia. Qed.
Lemma rnd_range r a b : (-1020 <= a)%Z -> (b <= 1023)%Z -> bpow radix2 a <= r <= bpow radix2 b ->
  bpow radix2 a <= rnd r <= bpow radix2 b /\ Rabs (rnd r) < fmax_bound /\ rel 1 (rnd r) r.
Proof.
  intros Ha Hb [A B]. pose proof (bpow_gt_0 radix2 a) as P.
  assert (Q : bpow radix2 a <= rnd r) by (rewrite <- (rnd_bpow a) by lia; now apply rnd_le).
  assert (W : rnd r <= bpow radix2 b).
  { assert (a <= b)%Z by (apply (le_bpow radix2); lra). rewrite <- (rnd_bpow b) by lia. now apply rnd_le. }
  split; [now split|]. split.
  - rewrite Rabs_pos_eq by lra. eapply Rle_lt_trans; [exact W|]. apply bpow_lt. lia.
  - destruct (rnd_rel r) as (e & He & E).
    { rewrite Rabs_pos_eq by lra. eapply Rle_trans; [|exact Q]. apply bpow_le. lia. }
    eapply rel_scale; [lra|exact He|exact E].
Qed.
Lemma approx_round z r n X a b : rounded64 r z -> (-1020 <= a)%Z -> (b <= 1023)%Z -> bpow radix2 a <= r <= bpow radix2 b -> rel n r X -> approx z (S n) X a b.
Proof.
  intros (V & F & _) Ha Hb R L. destruct (rnd_range r a b Ha Hb R) as (Q & M & E). destruct (F M) as [E1 E2]. rewrite <- E1 in Q, E.
  split; [now split|]. split; [|exact Q]. exact (rel_trans 1 n _ _ _ E L).
Qed.
Lemma approx_mul x y n m X Y a b c d : approx x n X a b -> approx y m Y c d -> (-1020 <= a + c)%Z -> (b + d <= 1023)%Z ->
  approx (fmul x y) (S (n + m)) (X * Y) (a + c) (b + d).
Proof.
  intros ((Vx & Fx) & Rx & Bx) ((Vy & Fy) & Ry & By) H1 H2. apply (approx_round _ (FR x * FR y)); [now apply mul64_R|exact H1|exact H2| |now apply rel_mul].
  rewrite !bpow_plus. pose proof (bpow_gt_0 radix2 a). pose proof (bpow_gt_0 radix2 c). split; apply Rmult_le_compat; lra.
Qed.
Lemma approx_add x y n X Y a b : approx x n X a b -> approx y n Y a b -> (-1020 <= a)%Z -> (b + 1 <= 1023)%Z ->
  approx (fadd x y) (S n) (X + Y) a (b + 1).
Proof.
  intros ((Vx & Fx) & Rx & Bx) ((Vy & Fy) & Ry & By) H1 H2. apply (approx_round _ (FR x + FR y)); [now apply add64_R|exact H1|exact H2| |now apply rel_add].
  rewrite bpow_plus_1. pose proof (bpow_gt_0 radix2 a). split; [lra|]. change (IZR radix2) with 2. lra.
Qed.
Lemma approx_sqrt x n X a b : approx x (n + n) X (a + a) (b + b) -> (-1020 <= a)%Z -> (b <= 1023)%Z -> approx (fsqrt x) (S n) (sqrt X) a b.
Proof.
  intros ((Vx & Fx) & Rx & Bx) H1 H2. destruct (fsqrt_R x Vx Fx (rel_nonneg _ _ _ Rx)) as (V & E & F).
  assert (B : bpow radix2 a <= sqrt (FR x) <= bpow radix2 b).
  { rewrite !bpow_plus in Bx. pose proof (bpow_gt_0 radix2 a). pose proof (bpow_gt_0 radix2 b).
    rewrite <- (sqrt_square (bpow radix2 a)), <- (sqrt_square (bpow radix2 b)) by lra. split; apply sqrt_le_1_alt; lra. }
  destruct (rnd_range _ a b H1 H2 B) as (Q & _ & L). rewrite <- E in Q, L. split; [now split|]. split; [|exact Q].
  exact (rel_trans 1 n _ _ _ L (rel_sqrt n _ _ Rx)).
Qed.
Lemma approx_weaken x n X a b n' a' b' : approx x n X a b -> (n <= n')%nat -> (a' <= a)%Z -> (b <= b')%Z -> approx x n' X a' b'.
Proof.
  intros (O & L & B) Hn Ha Hb. split; [exact O|]. split; [now apply (rel_weaken n)|]. pose proof (bpow_le radix2 _ _ Ha). pose proof (bpow_le radix2 _ _ Hb). lra.
Qed.
Lemma moderate_approx x : moderate x -> approx x 0 (FR x) (-300) 300.
Proof. intros [O B]. split; [exact O|]. split; [|exact B]. apply rel_refl. pose proof (bpow_gt_0 radix2 (-300)). lra. Qed.
Lemma approx_const x X n a b : ordinary x -> X * (1 - u53) ^ n <= FR x <= X * (1 + u53) ^ n -> 0 <= X -> bpow radix2 a <= FR x <= bpow radix2 b -> approx x n X a b.
Proof. intros O L P B. repeat split; try apply O; try apply L; try apply B; exact P. Qed.
Ltac const_approx k :=
  match goal with |- approx ?q _ _ _ _ =>
    let c := fresh "c" in let Hq := fresh "Hq" in let E := fresh "E" in let E' := fresh "E'" in
    remember q as c eqn:Hq; vm_compute in Hq;
    match type of Hq with _ = S754_finite false ?m ?e =>
      assert (E : FR c = IZR (Zpos m) * bpow radix2 e) by (rewrite Hq; reflexivity);
      assert (E' : bpow radix2 e = / IZR (2 ^ k)) by reflexivity; rewrite E' in E; cbn [Z.pow Z.pow_pos Pos.iter Z.mul Pos.mul] in E
    end;
    apply approx_const; [rewrite Hq; split; reflexivity|rewrite E, u53_val; cbn [pow]; pose proof PI_near as P; cbn [pow] in P; lra
                        |pose proof PI_RGT_0; lra|rewrite E; cbn; lra]
  end.
Lemma pi_approx : approx pi_f 1 PI 1 2.
Proof. const_approx 51%Z. Qed.
Lemma two_pi_approx : approx (fmul two_f pi_f) 1 (2 * PI) 2 3.
Proof. const_approx 50%Z. Qed.
Lemma four_pi_approx : approx (fmul (f_of_Z 4) pi_f) 1 (4 * PI) 3 4.
Proof. const_approx 49%Z. Qed.
Lemma third_approx : approx (fdiv (f_of_Z 1) (f_of_Z 3)) 1 (1 / 3) (-2) (-1).
Proof. const_approx 54%Z. Qed.
Lemma four_thirds_pi_approx : approx (fmul (fdiv (f_of_Z 4) (f_of_Z 3)) pi_f) 2 (4 / 3 * PI) 2 3.
Proof. const_approx 50%Z. Qed.

Lemma length_ok x : length_f x -> check_positive_f x = Ok tt.
Proof.
  intros [[V F] P]. unfold check_positive_f. destruct (flt x fzero) eqn:E; [|reflexivity]. apply flt_R in E; try assumption; try reflexivity.
  change (FR fzero) with 0 in E. lra.
Qed.
Lemma moderate_length x : moderate x -> length_f x.
Proof. intros [O B]. split; [exact O|]. pose proof (bpow_gt_0 radix2 (-300)). lra. Qed.
Lemma approx_out x n X a b : approx x n X a b -> (n <= 20)%nat -> ordinary x /\ within (Z.of_nat n + 1) (FR x) X.
Proof. intros (O & L & _) H. split; [exact O|now apply rel_within]. Qed.
Lemma approx_to x n X Y a b : approx x n X a b -> X = Y -> approx x n Y a b.
Proof. now intros H <-. Qed.
Lemma circle_approx r : moderate r -> approx (fmul (fmul pi_f r) r) 3 (PI * FR r ^ 2) (-599) 602.
Proof.
  intros M. pose proof (moderate_approx r M) as A.
  pose proof (approx_mul _ _ _ _ _ _ _ _ _ _ (approx_mul _ _ _ _ _ _ _ _ _ _ pi_approx A ltac:(lia) ltac:(lia)) A ltac:(lia) ltac:(lia)) as B.
  eapply approx_to; [exact B|cbn [pow]; ring].
Qed.
Section Near.
  Variable power : float -> Z -> float.
  Lemma nearly_intro k a n X lo hi o : o = Ok a -> approx a n X lo hi -> (n <= 20)%nat -> (k = Z.of_nat n + 1)%Z -> nearly k o X.
  Proof. intros -> A L ->. exists a. split; [reflexivity|]. eapply approx_out; eassumption. Qed.
  Lemma perim_near r : moderate r -> nearly 3 (perim_circle_f r) (2 * PI * FR r).
  Proof.
    intros M. unfold perim_circle_f. rewrite (length_ok r (moderate_length r M)). cbn [bind].
    eapply nearly_intro; [reflexivity|exact (approx_mul _ _ _ _ _ _ _ _ _ _ two_pi_approx (moderate_approx r M) ltac:(lia) ltac:(lia))|lia|reflexivity].
  Qed.
  Lemma circle_near r : moderate r -> nearly 4 (area_circle_f r) (PI * FR r ^ 2).
  Proof.
    intros M. unfold area_circle_f. rewrite (length_ok r (moderate_length r M)). cbn [bind].
    eapply nearly_intro; [reflexivity|exact (circle_approx r M)|lia|reflexivity].
  Qed.
  Lemma cyl_area_near r h : moderate r -> moderate h -> nearly 6 (area_cyl_f r h) (2 * (PI * FR r ^ 2) + 2 * PI * FR r * FR h).
  Proof.
    intros M N. unfold area_cyl_f, perim_circle_f, area_circle_f. rewrite !(length_ok r (moderate_length r M)), !(length_ok h (moderate_length h N)). cbn [bind].
    assert (T : approx two_f 0 2 1 1).
    { apply approx_const; [split; reflexivity| | |].
      - change (FR two_f) with (IZR 4503599627370496 * bpow radix2 (-51)). rewrite !pow_O. cbn. lra.
      - lra.
      - change (FR two_f) with (IZR 4503599627370496 * bpow radix2 (-51)). cbn. lra. }
    pose proof (approx_mul _ _ _ _ _ _ _ _ _ _ T (circle_approx r M) ltac:(lia) ltac:(lia)) as A.
    pose proof (approx_mul _ _ _ _ _ _ _ _ _ _ (approx_mul _ _ _ _ _ _ _ _ _ _ two_pi_approx (moderate_approx r M) ltac:(lia) ltac:(lia)) (moderate_approx h N) ltac:(lia) ltac:(lia)) as B.
    apply (approx_weaken _ _ _ _ _ 4 (-600) 604) in A; [|lia|lia|lia]. apply (approx_weaken _ _ _ _ _ 4 (-600) 604) in B; [|lia|lia|lia].
    eapply nearly_intro; [reflexivity|exact (approx_add _ _ _ _ _ _ _ A B ltac:(lia) ltac:(lia))|lia|reflexivity].
  Qed.
  Lemma cone_surf_near r h : moderate r -> moderate h -> nearly 6 (area_cone_surf_f r h) (PI * FR r * sqrt (FR r ^ 2 + FR h ^ 2)).
  Proof.
    intros M N. unfold area_cone_surf_f. rewrite !(length_ok r (moderate_length r M)), !(length_ok h (moderate_length h N)). cbn [bind].
    pose proof (approx_mul _ _ _ _ _ _ _ _ _ _ (moderate_approx r M) (moderate_approx r M) ltac:(lia) ltac:(lia)) as A.
    pose proof (approx_mul _ _ _ _ _ _ _ _ _ _ (moderate_approx h N) (moderate_approx h N) ltac:(lia) ltac:(lia)) as B.
    pose proof (approx_add _ _ _ _ _ _ _ A B ltac:(lia) ltac:(lia)) as C.
    apply (approx_weaken _ _ _ _ _ 2 (-301 + -301) (301 + 301)) in C; [|lia|lia|lia].
    pose proof (approx_sqrt _ 1 _ _ _ C ltac:(lia) ltac:(lia)) as D.
    pose proof (approx_mul _ _ _ _ _ _ _ _ _ _ (approx_mul _ _ _ _ _ _ _ _ _ _ pi_approx (moderate_approx r M) ltac:(lia) ltac:(lia)) D ltac:(lia) ltac:(lia)) as E.
    replace (FR r ^ 2 + FR h ^ 2) with (FR r * FR r + FR h * FR h) by ring.
    eapply nearly_intro; [reflexivity|exact E|lia|reflexivity].
  Qed.
  Lemma cyl_approx r h : moderate r -> moderate h -> approx (fmul (fmul (fmul pi_f r) r) h) 4 (PI * FR r ^ 2 * FR h) (-899) 902.
  Proof. intros M N. exact (approx_mul _ _ _ _ _ _ _ _ _ _ (circle_approx r M) (moderate_approx h N) ltac:(lia) ltac:(lia)). Qed.
  Lemma cyl_near r h : moderate r -> moderate h -> nearly 5 (volume_cyl_f r h) (PI * FR r ^ 2 * FR h).
  Proof.
    intros M N. unfold volume_cyl_f, area_circle_f. rewrite !(length_ok r (moderate_length r M)), !(length_ok h (moderate_length h N)). cbn [bind].
    eapply nearly_intro; [reflexivity|exact (cyl_approx r h M N)|lia|reflexivity].
  Qed.
  Lemma cone_near r h : moderate r -> moderate h -> nearly 7 (volume_cone_f r h) (PI * FR r ^ 2 * FR h * (1 / 3)).
  Proof.
    intros M N. unfold volume_cone_f, volume_cyl_f, area_circle_f. rewrite !(length_ok r (moderate_length r M)), !(length_ok h (moderate_length h N)). cbn [bind].
    eapply nearly_intro; [reflexivity|exact (approx_mul _ _ _ _ _ _ _ _ _ _ (cyl_approx r h M N) third_approx ltac:(lia) ltac:(lia))|lia|reflexivity].
  Qed.
  Lemma power_approx x k : power_accurate power -> (k = 2 \/ k = 3)%Z -> moderate x -> approx (power x k) 4 (powerRZ (FR x) k) (-901) 901.
  Proof.
    intros PA K M. destruct (PA x k K M) as [O W]. destruct M as [Ox [L U]]. pose proof (bpow_gt_0 radix2 (-300)) as P0.
    assert (Px : 0 < FR x) by lra. assert (B : bpow radix2 (-900) <= powerRZ (FR x) k <= bpow radix2 900).
    { assert (S2 : bpow radix2 (-600) <= FR x * FR x <= bpow radix2 600).
      { change (-600)%Z with (-300 + -300)%Z. change 600%Z with (300 + 300)%Z. rewrite !bpow_plus. split; apply Rmult_le_compat; lra. }
      destruct K as [-> | ->]; cbn [powerRZ Pos.to_nat Pos.iter_op pow Nat.add]; rewrite ?Rmult_1_r.
      - change (Pos.to_nat 2) with 2%nat. cbn [pow]. rewrite Rmult_1_r. pose proof (bpow_le radix2 (-900) (-600) ltac:(lia)). pose proof (bpow_le radix2 600 900 ltac:(lia)). lra.
      - change (Pos.to_nat 3) with 3%nat. cbn [pow]. rewrite Rmult_1_r. pose proof (bpow_gt_0 radix2 (-600)).
        change (-900)%Z with (-300 + -600)%Z. change 900%Z with (300 + 600)%Z. rewrite !bpow_plus. split; apply Rmult_le_compat; lra. }
    split; [exact O|]. assert (P : 0 <= powerRZ (FR x) k) by (pose proof (bpow_gt_0 radix2 (-900)); lra).
    pose proof (within_rel _ _ P W) as R. split; [exact R|]. destruct R as (_ & R1 & R2). pose proof u_pos. pose proof u_small. pose proof (bpow_gt_0 radix2 (-900)).
    assert (A : / 2 <= (1 - u53) ^ 4) by (pose proof (pow_dn 4) as Q; cbn [INR] in Q; lra).
    assert (A' : (1 + u53) ^ 4 <= 2) by (pose proof (pow_up 4 ltac:(lia)) as Q; cbn [INR] in Q; lra).
    assert (HA : bpow radix2 (-901) = bpow radix2 (-900) * / 2) by (change (-901)%Z with (-900 + -1)%Z; rewrite bpow_plus; reflexivity).
    assert (HB : bpow radix2 901 = bpow radix2 900 * 2) by (change 901%Z with (900 + 1)%Z; rewrite bpow_plus; reflexivity).
    rewrite HA, HB. split.
    - eapply Rle_trans; [|exact R1]. apply Rmult_le_compat; lra.
    - eapply Rle_trans; [exact R2|]. pose proof (up_pos 4). apply Rmult_le_compat; lra.
  Qed.
  Lemma sphere_area_near r : power_accurate power -> moderate r -> nearly 7 (area_sphere_f power r) (4 * PI * powerRZ (FR r) 2).
  Proof.
    intros PA M. unfold area_sphere_f. rewrite (length_ok r (moderate_length r M)). cbn [bind].
    eapply nearly_intro; [reflexivity|exact (approx_mul _ _ _ _ _ _ _ _ _ _ four_pi_approx (power_approx r 2 PA ltac:(auto) M) ltac:(lia) ltac:(lia))|lia|reflexivity].
  Qed.
  Lemma sphere_near r : power_accurate power -> moderate r -> nearly 8 (volume_sphere_f power r) (4 / 3 * PI * powerRZ (FR r) 3).
  Proof.
    intros PA M. unfold volume_sphere_f. rewrite (length_ok r (moderate_length r M)). cbn [bind].
    eapply nearly_intro; [reflexivity|exact (approx_mul _ _ _ _ _ _ _ _ _ _ four_thirds_pi_approx (power_approx r 3 PA ltac:(auto) M) ltac:(lia) ltac:(lia))|lia|reflexivity].
  Qed.
  Lemma pythag_near a b : power_accurate power -> moderate a -> moderate b -> nearly 5 (Ok (pythag_h_f power a b)) (sqrt (powerRZ (FR a) 2 + powerRZ (FR b) 2)).
  Proof.
    intros PA M N. assert (Z : forall x, moderate x -> feq x fzero = false).
    { intros x [[V F] B]. destruct (feq x fzero) eqn:E; [|reflexivity]. apply feq_R in E; try assumption; try reflexivity. change (FR fzero) with 0 in E. pose proof (bpow_gt_0 radix2 (-300)). lra. }
    unfold pythag_h_f. rewrite (Z a M), (Z b N). cbn [orb].
    pose proof (approx_add _ _ _ _ _ _ _ (power_approx a 2 PA ltac:(auto) M) (power_approx b 2 PA ltac:(auto) N) ltac:(lia) ltac:(lia)) as C.
    apply (approx_weaken _ _ _ _ _ 6 (-451 + -451) (451 + 451)) in C; [|lia|lia|lia].
    pose proof (approx_sqrt _ 3 _ _ _ C ltac:(lia) ltac:(lia)) as D.
    eapply nearly_intro; [reflexivity|exact D|lia|reflexivity].
  Qed.
End Near.
