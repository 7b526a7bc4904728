(** Lemmas about M_misc. *)
From Coq Require Import Reals Lra Lia ZArith Floats.SpecFloat.
From Flocq Require Import Core BinarySingleNaN Relative.
From Verif Require Import PyBase PyFacts PyFloat FloatFacts FloatR SpecStr SpecUtil SpecInput SpecMesh SpecFisana PyFs PyIo PyFrame M_util M_input M_mesh M_fisana M_misc P_util P_input3 P_mesh P_fisana4 P_const.
Open Scope R_scope.

Lemma half_value : valid (fdec 5 (-1)) = true /\ is_finite_f (fdec 5 (-1)) = true /\ FR (fdec 5 (-1)) = / 2.
Proof.
  assert (E : fdec 5 (-1) = S754_finite false 4503599627370496 (-53)) by (vm_compute; reflexivity).
  rewrite E. repeat split. unfold FR, SF2R, F2R. cbn. lra.
Qed.
(** rounding to nearest, absolute error below one *)
Lemma rnd_near r : exists e h, Rabs e <= u53 /\ Rabs h <= bpow radix2 (-1000) /\ rnd r = r * (1 + e) + h.
Proof.
  destruct (error_N_FLT radix2 (-1074) 53 ltac:(reflexivity) (fun x => negb (Z.even x)) r) as (e & h & He & Hh & _ & E).
  exists e, h. split; [|split; [|exact E]].
  - eapply Rle_trans; [exact He|]. rewrite u53_val. cbn. lra.
  - eapply Rle_trans; [exact Hh|]. assert (X : / 2 * bpow radix2 (-1074) <= 1 * bpow radix2 (-1000)).
    { apply Rmult_le_compat; [lra|apply bpow_ge_0|lra|apply bpow_le; lia]. } lra.
Qed.
Lemma scale_near x t k : 0 <= x <= t -> bpow radix2 (-1000) <= t <= bpow radix2 1000 -> k = rnd (/ 2 / t) ->
  Rabs (rnd (x * k) - x / (2 * t)) <= bpow radix2 (-52) /\ Rabs (rnd (x * k)) < 1 /\ 0 < k /\ k <= bpow radix2 1000.
Proof.
  intros Hx Ht Ek. pose proof (bpow_gt_0 radix2 (-1000)) as B0. assert (T0 : 0 < t) by lra.
  assert (Hk : bpow radix2 (-1001) <= / 2 / t <= bpow radix2 999).
  { split.
    - assert (X : bpow radix2 (-1001) = / 2 * / bpow radix2 1000). { rewrite <- bpow_opp. change (/2) with (bpow radix2 (-1)). rewrite <- bpow_plus. reflexivity. }
      rewrite X. unfold Rdiv. apply Rmult_le_compat_l; [lra|]. apply Rinv_le; lra.
    - assert (X : bpow radix2 999 = / 2 * / bpow radix2 (-1000)). { rewrite <- bpow_opp. change (/2) with (bpow radix2 (-1)). rewrite <- bpow_plus. reflexivity. }
      rewrite X. unfold Rdiv. apply Rmult_le_compat_l; [lra|]. apply Rinv_le; lra. }
  assert (G : forall e, (-1074 <= e)%Z -> rnd (bpow radix2 e) = bpow radix2 e).
  { intros e L. apply round_generic; [apply valid_rnd_N|]. apply generic_format_bpow. unfold FLT_exp. lia. }
  assert (Kr : bpow radix2 (-1001) <= k <= bpow radix2 999).
  { subst k. split; [rewrite <- (G (-1001)%Z) by lia|rewrite <- (G 999%Z) by lia]; apply rnd_le; tauto. }
  pose proof (bpow_gt_0 radix2 (-1001)) as B1.
  assert (N : exists e1, Rabs e1 <= u53 /\ k = / 2 / t * (1 + e1)).
  { subst k. apply rnd_rel. rewrite Rabs_pos_eq by lra. eapply Rle_trans; [|apply Kr]. apply bpow_le. lia. }
  destruct N as (e1 & E1 & Kv). destruct (rnd_near (x * k)) as (e2 & h & E2 & H & R).
  assert (Hh : bpow radix2 (-1000) <= bpow radix2 (-60)) by (apply bpow_le; lia).
  set (q := x / (2 * t)). assert (Q : 0 <= q <= / 2).
  { unfold q. split; [apply Rmult_le_pos; [lra|left; apply Rinv_0_lt_compat; lra]|].
    apply (Rmult_le_reg_r (2 * t)); [lra|]. unfold Rdiv. rewrite Rmult_assoc, Rinv_l by lra. lra. }
  assert (XK : x * k = q * (1 + e1)) by (rewrite Kv; unfold q; field; lra).
  rewrite R, XK.
  assert (V : u53 = / 9007199254740992) by apply u53_val.
  assert (V2 : bpow radix2 (-52) = / 4503599627370496) by (cbn; lra).
  assert (V3 : bpow radix2 (-60) = / 1152921504606846976) by (cbn; lra).
  assert (V4 : bpow radix2 999 <= bpow radix2 1000) by (apply bpow_le; lia).
  apply Rabs_le_inv in E1. apply Rabs_le_inv in E2. rewrite V in E1, E2. rewrite V3 in Hh. pose proof H as H'. apply Rabs_le_inv in H'.
  assert (P : Rabs (e1 + e2 + e1 * e2) <= 3 * u53 * (2/3 + / 1000)).
  { rewrite V. apply Rabs_le. assert (Rabs (e1 * e2) <= / 9007199254740992 * / 9007199254740992).
    { rewrite Rabs_mult. apply Rmult_le_compat; try apply Rabs_pos; apply Rabs_le; lra. }
    apply Rabs_le_inv in H0. lra. }
  rewrite V in P. apply Rabs_le_inv in P.
  assert (D : q * (1 + e1) * (1 + e2) + h - q = q * (e1 + e2 + e1 * e2) + h) by ring.
  set (z := e1 + e2 + e1 * e2) in *.
  assert (QZ : - (/ 2 * (3 * / 9007199254740992 * (2 / 3 + / 1000))) <= q * z <= / 2 * (3 * / 9007199254740992 * (2 / 3 + / 1000))).
  { apply Rabs_le_inv. rewrite Rabs_mult. apply Rmult_le_compat; try apply Rabs_pos; apply Rabs_le; lra. }
  rewrite V2, D. split; [apply Rabs_le; lra|]. split; [|split; lra].
  apply Rabs_def1; lra.
Qed.

Lemma norm_entry x top : valid x = true -> is_finite_f x = true -> valid top = true -> is_finite_f top = true ->
  0 <= FR x <= FR top -> bpow radix2 (-1000) <= FR top <= bpow radix2 1000 ->
  let k := fdiv (fdec 5 (-1)) top in
  FR (fmul x k) = rnd (FR x * rnd (/ 2 / FR top)) /\ is_finite_f (fmul x k) = true /\ valid (fmul x k) = true.
Proof.
  intros Vx Fx Vt Ft Hx Ht k. destruct half_value as (Vh & Fh & Eh).
  destruct (scale_near (FR x) (FR top) _ Hx Ht eq_refl) as (_ & B & K0 & K1).
  pose proof (bpow_gt_0 radix2 (-1000)) as B0.
  assert (MB : forall r, Rabs r <= bpow radix2 1000 -> Rabs r < fmax_bound).
  { intros r L. eapply Rle_lt_trans; [exact L|]. unfold fmax_bound. apply bpow_lt. reflexivity. }
  assert (D : rounded_to (/ 2 / FR top) k) by (rewrite <- Eh; apply fdiv_R; try assumption; lra).
  destruct D as (Vk & D & _). destruct D as (Ek & Fk); [apply MB; rewrite Rabs_pos_eq; lra|].
  destruct (fmul_R x k Vx Vk Fx Fk) as (Vm & M & _). rewrite Ek in M. destruct M as (Em & Fm); [|auto].
  apply MB. assert (1 <= bpow radix2 1000) by (change 1 with (bpow radix2 0); apply bpow_le; lia). lra.
Qed.
Close Scope R_scope.

Lemma FR_zero x : valid x = true -> is_finite_f x = true -> FR x <> 0%R -> is_zero_f x = false.
Proof. intros V F N. destruct x as [s|s| |s m e]; try reflexivity. elim N. reflexivity. Qed.
Lemma largest_unique l m top : largest l m -> largest l top -> (forall x, In x l -> is_nan_f x = false) -> (forall x, In x l -> valid x = true /\ is_finite_f x = true) -> FR m = FR top.
Proof.
  intros (I1 & L1) (I2 & L2) _ V. destruct (V _ I1) as (A & B), (V _ I2) as (C & D).
  apply Rle_antisym.
  - apply Rnot_lt_le. intros X. apply (flt_R top m C A D B) in X. rewrite (L2 _ I1) in X. discriminate.
  - apply Rnot_lt_le. intros X. apply (flt_R m top A C B D) in X. rewrite (L1 _ I2) in X. discriminate.
Qed.
Lemma finite_not_nan x : is_finite_f x = true -> is_nan_f x = false.
Proof. now destruct x. Qed.

Section Magic.
Variables (m : mesh) (d : frame) (c : col).
Hypothesis (Hd : data m = Df d) (Hc : has d "value" c).
Lemma norm_unfold b : normalise_mesh b m = if b then
    do top <- py_max (c_vals c);
    if is_zero_f top then Err ZeroDivisionError else Ok (map (fun x => fmul x (fdiv (fdec 5 (-1)) top)) (c_vals c))
  else Err AttributeError.
Proof. unfold normalise_mesh, data_frame. rewrite Hd. cbn [as_frame bind]. assert (H : frame_col d (lit "value") = Ok c) by (apply has_col; exact Hc). rewrite H. reflexivity. Qed.

Lemma norm_scaled top : Forall (fun x => valid x = true /\ is_finite_f x = true /\ (0 <= FR x)%R) (c_vals c) -> largest (c_vals c) top ->
  (bpow radix2 (-1000) <= FR top <= bpow radix2 1000)%R ->
  exists rs, normalise_mesh true m = Ok rs /\
    Forall2 (fun x r => is_finite_f r = true /\ (Rabs (FR r - FR x / (2 * FR top)) <= bpow radix2 (-52))%R) (c_vals c) rs /\
    (forall i j x y r s, nth_error (c_vals c) i = Some x -> nth_error (c_vals c) j = Some y -> nth_error rs i = Some r -> nth_error rs j = Some s ->
       (FR x <= FR y)%R -> (FR r <= FR s)%R).
Proof.
  intros F L T. rewrite Forall_forall in F.
  assert (V : forall x, In x (c_vals c) -> valid x = true /\ is_finite_f x = true) by (intros x I; apply F in I; tauto).
  assert (N : forall x, In x (c_vals c) -> is_nan_f x = false) by (intros x I; apply finite_not_nan; apply V; exact I).
  assert (NE : c_vals c <> []) by (destruct L as (I & _); intros E; rewrite E in I; destruct I).
  destruct (py_max_spec (c_vals c) NE N) as (t & P & Lt). assert (Et : FR t = FR top) by (eapply largest_unique; eassumption).
  destruct (V t (proj1 Lt)) as (Vt & Ft). pose proof (bpow_gt_0 radix2 (-1000)) as B0.
  assert (Z : is_zero_f t = false) by (apply FR_zero; [exact Vt|exact Ft|lra]).
  rewrite <- Et in *. clear Et L top. rewrite norm_unfold, P. cbn [bind]. rewrite Z.
  assert (G : forall x, In x (c_vals c) -> (0 <= FR x <= FR t)%R).
  { intros x I. destruct (F x I) as (A & B & C). split; [exact C|]. apply Rnot_lt_le. intros X. apply (flt_R t x Vt A Ft B) in X. rewrite (proj2 Lt x I) in X. discriminate. }
  eexists. split; [reflexivity|]. split.
  - assert (H : forall x, In x (c_vals c) -> is_finite_f (fmul x (fdiv (fdec 5 (-1)) t)) = true /\ (Rabs (FR (fmul x (fdiv (fdec 5 (-1)) t)) - FR x / (2 * FR t)) <= bpow radix2 (-52))%R).
    { intros x I. destruct (V x I) as (A & B). destruct (norm_entry x t A B Vt Ft (G x I) T) as (E & Fi & _). split; [exact Fi|].
      rewrite E.
      apply (scale_near _ _ _ (G x I) T eq_refl). }
    revert H. generalize (c_vals c). induction l as [|x l IH]; intros H; cbn [map]; constructor; [apply H; now left|apply IH; intros y I; apply H; now right].
  - intros i j x y r s Hx Hy Hr Hs Lxy. rewrite nth_error_map in Hr, Hs. rewrite Hx in Hr. rewrite Hy in Hs. cbn [option_map] in Hr, Hs. assert (Er : r = fmul x (fdiv (fdec 5 (-1)) t)) by congruence. assert (Es : s = fmul y (fdiv (fdec 5 (-1)) t)) by congruence. subst r s. clear Hr Hs.
    apply nth_error_In in Hx, Hy. destruct (V x Hx) as (A & B), (V y Hy) as (C & D).
    destruct (norm_entry x t A B Vt Ft (G x Hx) T) as (E1 & _). destruct (norm_entry y t C D Vt Ft (G y Hy) T) as (E2 & _). rewrite E1, E2.
    apply rnd_le. apply Rmult_le_compat_r; [|exact Lxy]. destruct (scale_near _ _ _ (G x Hx) T eq_refl) as (_ & _ & K & _). lra.
Qed.
Lemma norm_zero : c_vals c <> [] -> Forall (fun x => is_zero_f x = true) (c_vals c) -> normalise_mesh true m = Err ZeroDivisionError.
Proof.
  intros NE F. rewrite norm_unfold. destruct (c_vals c) as [|x l]; [now elim NE|]. cbn [py_max bind].
  assert (Z : is_zero_f (fold_left (fun m y => if flt m y then y else m) l x) = true); [|now rewrite Z].
  inversion F as [|? ? Zx F']; subst. clear F NE Hc. revert x Zx. induction F' as [|y l Zy F' IH]; intros x Zx; [exact Zx|]. cbn [fold_left]. destruct (flt x y); auto.
Qed.
Lemma norm_removed : normalise_mesh false m = Err AttributeError.
Proof. apply norm_unfold. Qed.
End Magic.

(** * The kind of calculation *)
Lemma kind_of_calculation block d : process_data_block block = Ok d ->
  let has_card k := exists l q r, In l block /\ l = q ++ r /\ same_case q (lit k) in
  (calculation_line d = lit "Fixed source calculation" <-> has_card "sdef"%string) /\
  (calculation_line d = lit "Kcode calculation" <-> has_card "kcode"%string /\ ~ has_card "sdef"%string) /\
  (calculation_line d = lit "Unknown calculation type" <-> ~ has_card "kcode"%string /\ ~ has_card "sdef"%string).
Proof.
  intros H has_card.
  assert (E : d_is_kcode d = is_card_present block (lit "kcode") /\ d_is_sdef d = is_card_present block (lit "sdef")).
  { revert H. unfold process_data_block.
    destruct (get_tally_numbers block); cbn [bind]; [|discriminate]. destruct (get_material_numbers block); cbn [bind]; [|discriminate].
    destruct (foldM _ _ _); cbn [bind]; [|discriminate]. intros H. injection H as <-. split; reflexivity. }
  destruct E as (E1 & E2). unfold calculation_line. rewrite E1, E2.
  assert (S : forall k, is_card_present block (lit k) = true <-> has_card k) by (intros k; apply card_present_spec).
  rewrite <- !S. destruct (is_card_present block (lit "sdef")), (is_card_present block (lit "kcode")); cbv; intuition (try discriminate; try congruence).
Qed.

(** * The debug copy of a tally section *)
Lemma debug_copy_on cwd lines fname tnum f f' r : print_tally_lines_to_file true cwd lines fname tnum f = (f', r) ->
  let p := cwd ++ [fname ++ str_of_Z tnum ++ lit ".txt"] in
  (r = Ok tt <-> openable f p) /\ (r = Ok tt -> (get_lines f' p = Ok lines <-> Forall no_break lines) /\ forall q, q <> p -> f' q = f q) /\
  (r <> Ok tt -> f' = f).
Proof.
  cbv zeta. unfold print_tally_lines_to_file, io_write. set (p := cwd ++ _).
  destruct (write_lines f p lines) as [g|e] eqn:W; intros H; injection H as <- <-.
  - split; [rewrite <- (write_lines_ok_iff f p lines); split; [intros _; exists g; exact W|reflexivity]|].
    split; [intros _; apply write_get_iff; exact W|intros X; now elim X].
  - split; [rewrite <- (write_lines_ok_iff f p lines); split; [discriminate|intros (g & X); congruence]|]. split; [discriminate|reflexivity].
Qed.
Lemma debug_copy_off cwd lines fname tnum f : print_tally_lines_to_file false cwd lines fname tnum f = (f, Ok tt).
Proof. reflexivity. Qed.
Lemma kcode_with_sdef block d : process_data_block block = Ok d ->
  (exists l q r, In l block /\ l = q ++ r /\ same_case q (lit "kcode")) -> (exists l q r, In l block /\ l = q ++ r /\ same_case q (lit "sdef")) ->
  calculation_line d = lit "Fixed source calculation".
Proof. intros H _ S. apply (kind_of_calculation block d H). exact S. Qed.
