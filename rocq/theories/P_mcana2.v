(** Lemmas about bin widths, mid points, absolute errors and distances. *)
From Coq Require Import Reals Lra Lia Sorted Floats.SpecFloat.
From Flocq Require Import Core Relative BinarySingleNaN Plus_error Mult_error.
From Verif Require Import PyBase PyFacts PyFloat FloatFacts FloatR FloatZ PyFs M_util M_fisana M_mcout M_mcana SpecFis SpecMcana P_mcana.
From Verif Require P_mesh5.
Import ListNotations.
Local Open Scope R_scope.
Local Instance Hp64 : Prec_gt_0 prec := eq_refl _.
Local Instance He64 : Prec_lt_emax prec emax := eq_refl _.

Lemma u53_val : u53 = / IZR (2 ^ 53).
Proof. unfold u53. change (-53)%Z with (- (53))%Z. rewrite bpow_opp. f_equal. Qed.
Lemma u53_pos : 0 < u53 < / 1000.
Proof. rewrite u53_val. split; [apply Rinv_0_lt_compat, IZR_lt; reflexivity|]. apply Rinv_lt_contravar; [|apply IZR_lt; reflexivity].
  apply Rmult_lt_0_compat; [lra|apply IZR_lt; reflexivity]. Qed.

(** The rounded sum of two floats has a relative error of at most 2^-53. *)
Lemma rnd_plus x y : generic_format radix2 (FLT_exp (-1074) 53) x -> generic_format radix2 (FLT_exp (-1074) 53) y ->
  exists eps, Rabs eps <= u53 /\ rnd (x + y) = (x + y) * (1 + eps).
Proof.
  intros Fx Fy. destruct (FLT_plus_error_N_ex radix2 (-1074) 53 (fun x => negb (Z.even x)) x y Fx Fy) as (eps & He & E).
  exists eps. split; [|exact E]. apply Rle_trans with (1 := He).
  assert (U : u_ro radix2 53 = u53).
  { unfold u_ro, u53. replace (/ 2) with (bpow radix2 (-1)) by reflexivity. rewrite <- bpow_plus. reflexivity. }
  rewrite U. pose proof u53_pos as P. apply Rle_trans with (u53 / 1); [|lra].
  unfold Rdiv. apply Rmult_le_compat_l; [lra|]. apply Rinv_le_contravar; lra.
Qed.
Lemma rnd_minus x y : generic_format radix2 (FLT_exp (-1074) 53) x -> generic_format radix2 (FLT_exp (-1074) 53) y ->
  exists eps, Rabs eps <= u53 /\ rnd (x - y) = (x - y) * (1 + eps).
Proof. intros Fx Fy. apply rnd_plus; [exact Fx|]. now apply generic_format_opp. Qed.

(** * Differences of edges *)
Lemma fsub_edges a b : nonneg a -> nonneg b -> FR a <= FR b ->
  nonneg (fsub b a) /\ Rabs (FR (fsub b a) - (FR b - FR a)) <= u53 * (FR b - FR a) /\ (FR a < FR b -> 0 < FR (fsub b a)).
Proof.
  intros [[Va Fa] Pa] [[Vb Fb] Pb] H. pose proof u53_pos as U.
  destruct (fsub_R b a Vb Va Fb Fa) as (V & O & _).
  destruct (rnd_minus (FR b) (FR a) (FR_format b Vb) (FR_format a Va)) as (eps & He & E).
  assert (B : Rabs (rnd (FR b - FR a)) < fmax_bound).
  { assert (L : 0 <= rnd (FR b - FR a)) by (rewrite <- rnd_0; apply rnd_le; lra).
    rewrite Rabs_pos_eq by exact L. apply Rle_lt_trans with (FR b).
    - rewrite <- (rnd_FR b Vb) at 2. apply rnd_le. lra.
    - pose proof (FR_lt_max b Vb) as M. rewrite Rabs_pos_eq in M by exact Pb. exact M. }
  destruct (O B) as [E1 F1]. rewrite E1, E. apply Rabs_le_inv in He. set (d := FR b - FR a) in *.
  assert (D : 0 <= d) by (unfold d; lra).
  split; [|split].
  - split; [now split|]. rewrite E1, E. apply Rmult_le_pos; lra.
  - replace (d * (1 + eps) - d) with (eps * d) by ring. rewrite Rabs_mult, (Rabs_pos_eq d) by exact D.
    apply Rmult_le_compat_r; [exact D|]. now apply Rabs_le.
  - intros L. apply Rmult_lt_0_compat; [unfold d; lra|lra].
Qed.

Lemma diffs_length bins : forall prev, length (diffs prev bins) = length bins.
Proof. induction bins as [|b bins IH]; intros prev; [reflexivity|]. cbn. now rewrite IH. Qed.
Lemma diffs_nth bins : forall prev i b, nth_error bins i = Some b ->
  nth_error (diffs prev bins) i = Some (fsub b (match i with O => prev | S k => nth k bins fzero end)).
Proof.
  induction bins as [|x bins IH]; intros prev [|i] b H; try discriminate.
  - injection H as <-. reflexivity.
  - cbn [diffs nth_error] in *. rewrite (IH x i b H). destruct i; reflexivity.
Qed.
Lemma diffs_sum bins : forall prev, nonneg prev -> Forall nonneg bins -> StronglySorted (fun a b => FR a < FR b) bins ->
  match bins with [] => True | b :: _ => FR prev <= FR b end ->
  Rabs (Rsum (map FR (diffs prev bins)) - (FR (last bins prev) - FR prev)) <= u53 * (FR (last bins prev) - FR prev).
Proof.
  pose proof u53_pos as U.
  induction bins as [|b bins IH]; intros prev Np N S H.
  - cbn. replace (0 - (FR prev - FR prev)) with 0 by ring. rewrite Rabs_R0. lra.
  - inversion N as [|? ? Nb N']; subst. inversion S as [|? ? S' L]; subst.
    assert (H' : match bins with [] => True | c :: _ => FR b <= FR c end).
    { destruct bins as [|c bins]; [exact I|]. inversion L; subst. lra. }
    specialize (IH b Nb N' S' H'). destruct (fsub_edges prev b Np Nb H) as (_ & E & _).
    replace (last (b :: bins) prev) with (last bins b) by (destruct bins as [|c bins]; [reflexivity|clear; revert b c; induction bins as [|d bins IH]; intros b c; [reflexivity|exact (IH b d)]]).
    cbn [diffs map Rsum fold_right]. fold (Rsum (map FR (diffs b bins))).
    set (s := Rsum (map FR (diffs b bins))) in *. set (z := FR (last bins b)) in *. set (w := FR (fsub b prev)) in *.
    replace (w + s - (z - FR prev)) with ((w - (FR b - FR prev)) + (s - (z - FR b))) by ring.
    apply Rle_trans with (1 := Rabs_triang _ _). replace (u53 * (z - FR prev)) with (u53 * (FR b - FR prev) + u53 * (z - FR b)) by ring.
    now apply Rplus_le_compat.
Qed.
Lemma nonneg_zero : nonneg fzero.
Proof. repeat split; cbn; unfold FR, SF2R; lra. Qed.
Lemma sorted_nth (l : list float) : StronglySorted (fun a b => FR a < FR b) l -> forall i a b,
  nth_error l i = Some a -> nth_error l (S i) = Some b -> FR a < FR b.
Proof.
  induction 1 as [|x l S IH L]; intros [|i] a b Ha Hb; try discriminate.
  - injection Ha as <-. eapply (proj1 (Forall_forall _ _) L). apply (nth_error_In l 0). exact Hb.
  - cbn in Ha. eapply IH; eassumption.
Qed.
Lemma bin_widths_spec bins : edges bins -> (2 <= length bins)%nat ->
  exists ws, calc_bin_width bins = Ok ws /\ length ws = length bins /\
    (forall i b w, nth_error bins i = Some b -> nth_error ws i = Some w ->
       Rabs (FR w - (FR b - FR (lower_edge bins i))) <= u53 * (FR b - FR (lower_edge bins i)) /\
       (0 < FR b -> 0 < FR w)) /\
    Rabs (Rsum (map FR ws) - FR (last bins fzero)) <= u53 * FR (last bins fzero).
Proof.
  intros [N S] L. unfold calc_bin_width. destruct (Z.ltb_spec (zlen bins) 2) as [Q|Q]; [unfold zlen in Q; lia|].
  eexists. split; [reflexivity|]. split; [apply diffs_length|]. split.
  - intros i b w Hb Hw. rewrite (diffs_nth bins fzero i b Hb) in Hw. injection Hw as <-. fold (lower_edge bins i).
    assert (Nb : nonneg b) by (apply (proj1 (Forall_forall _ _) N); eapply nth_error_In; eassumption).
    assert (A : nonneg (lower_edge bins i) /\ FR (lower_edge bins i) <= FR b /\ (0 < FR b -> FR (lower_edge bins i) < FR b)).
    { destruct i as [|i]; cbn [lower_edge].
      - split; [apply nonneg_zero|]. destruct Nb as [_ Pb]. change (FR fzero) with 0. auto.
      - assert (K : (i < length bins)%nat) by (assert (nth_error bins (Datatypes.S i) <> None) as Q2 by congruence; apply nth_error_Some in Q2; lia).
        assert (E : nth_error bins i = Some (nth i bins fzero)) by (apply nth_error_nth'; exact K).
        pose proof (sorted_nth bins S i _ b E Hb) as Lt.
        split; [apply (proj1 (Forall_forall _ _) N); eapply nth_error_In; eassumption|]. split; [lra|auto]. }
    destruct A as (A1 & A2 & A3). destruct (fsub_edges _ _ A1 Nb A2) as (_ & E & P). split; [exact E|auto].
  - pose proof (diffs_sum bins fzero nonneg_zero N S) as D. change (FR fzero) with 0 in D. rewrite !Rminus_0_r in D.
    apply D. destruct bins as [|b bins]; [exact I|]. inversion N as [|? ? [_ Nb] ?]. exact Nb.
Qed.
Lemma bin_width_error bins : calc_bin_width bins = Err ValueError <-> (length bins < 2)%nat.
Proof. unfold calc_bin_width, zlen. destruct (Z.ltb_spec (Z.of_nat (length bins)) 2); split; intros; try discriminate; auto; lia. Qed.

(** * Mid points *)
Lemma format_double x : generic_format radix2 (FLT_exp (-1074) 53) x -> generic_format radix2 (FLT_exp (-1074) 53) (2 * x).
Proof.
  intros F. destruct (FLT_format_generic radix2 (-1074) 53 x F) as [f E M X].
  apply generic_format_FLT. exists (Float radix2 (Fnum f) (Fexp f + 1)); [|exact M|cbn; lia].
  rewrite E. unfold F2R. cbn [Fnum Fexp]. rewrite bpow_plus. cbn [bpow Z.pow_pos]. change (IZR (Z.pow_pos radix2 1)) with 2. ring.
Qed.
Lemma big_half : bpow radix2 1022 * 2 < fmax_bound.
Proof. unfold fmax_bound. change 2 with (bpow radix2 1). rewrite <- bpow_plus. apply bpow_lt. reflexivity. Qed.
Lemma two_R : finite (f_of_Z 2) /\ FR (f_of_Z 2) = 2.
Proof. destruct (f_of_Z_R 2 eq_refl) as (V & F & E). repeat split; auto. Qed.
Lemma mid_R a b : moderate a -> moderate b -> FR a <= FR b ->
  finite (fdiv (fadd a b) (f_of_Z 2)) /\ FR a <= FR (fdiv (fadd a b) (f_of_Z 2)) <= FR b /\
  Rabs (FR (fdiv (fadd a b) (f_of_Z 2)) - (FR a + FR b) / 2) <= 2 * u53 * Rabs (FR a + FR b) + bpow radix2 (-1075).
Proof.
  intros (Va & Fa & Ba) (Vb & Fb & Bb) H. apply Rabs_le_inv in Ba, Bb.
  destruct (fadd_R a b Va Vb Fa Fb) as (V1 & O1 & _).
  assert (L : 2 * FR a <= rnd (FR a + FR b)).
  { rewrite <- (round_generic radix2 (FLT_exp (-1074) 53) ZnearestE (2 * FR a)) by (apply format_double, FR_format; exact Va).
    apply rnd_le. lra. }
  assert (U : rnd (FR a + FR b) <= 2 * FR b).
  { rewrite <- (round_generic radix2 (FLT_exp (-1074) 53) ZnearestE (2 * FR b)) by (apply format_double, FR_format; exact Vb).
    apply rnd_le. lra. }
  pose proof big_half as BH.
  assert (B1 : Rabs (rnd (FR a + FR b)) < fmax_bound) by (apply Rabs_def1; lra).
  destruct (O1 B1) as [E1 F1]. destruct two_R as ((V2 & F2) & E2).
  assert (N2 : FR (f_of_Z 2) <> 0) by (rewrite E2; lra).
  destruct (fdiv_R (fadd a b) (f_of_Z 2) V1 V2 F1 F2 N2) as (V3 & O3 & _). rewrite E1, E2 in O3.
  set (r := rnd (FR a + FR b)) in *.
  assert (L2 : FR a <= rnd (r / 2)) by (rewrite <- (rnd_FR a Va) at 1; apply rnd_le; lra).
  assert (U2 : rnd (r / 2) <= FR b) by (rewrite <- (rnd_FR b Vb); apply rnd_le; lra).
  assert (B2 : Rabs (rnd (r / 2)) < fmax_bound) by (apply Rabs_def1; lra).
  destruct (O3 B2) as [E3 F3]. rewrite E3. split; [now split|]. split; [now split|].
  destruct (rnd_plus (FR a) (FR b) (FR_format a Va) (FR_format b Vb)) as (eps & He & Er). fold r in Er.
  pose proof (P_mesh5.rnd_error (r / 2)) as Q. fold u53 in Q.
  set (s := FR a + FR b) in *. set (eta := bpow radix2 (-1075)) in *. pose proof u53_pos as P53.
  replace (rnd (r / 2) - s / 2) with ((rnd (r / 2) - r / 2) + s * eps / 2) by (rewrite Er; field).
  apply Rle_trans with (1 := Rabs_triang _ _).
  assert (A1 : Rabs (s * eps / 2) <= u53 / 2 * Rabs s).
  { unfold Rdiv. rewrite !Rabs_mult, (Rabs_pos_eq (/ 2)) by lra. pose proof (Rabs_pos s).
    replace (u53 * / 2 * Rabs s) with (Rabs s * u53 * / 2) by ring. apply Rmult_le_compat_r; [lra|]. now apply Rmult_le_compat_l. }
  assert (A2 : Rabs (r / 2) <= Rabs s).
  { unfold Rdiv. rewrite Er, !Rabs_mult, (Rabs_pos_eq (/ 2)) by lra. pose proof (Rabs_pos s).
    assert (Rabs (1 + eps) <= 2) by (apply Rle_trans with (1 := Rabs_triang _ _); rewrite Rabs_R1; lra).
    replace (Rabs s) with (Rabs s * 2 * / 2) at 2 by field. apply Rmult_le_compat_r; [lra|]. now apply Rmult_le_compat_l. }
  assert (A3 : u53 * Rabs (r / 2) <= u53 * Rabs s) by (apply Rmult_le_compat_l; lra).
  pose proof (Rabs_pos s). assert (0 <= u53 * Rabs s) by (apply Rmult_le_pos; lra). lra.
Qed.
Lemma mids_length l : length (calc_mid_points l) = (length l - 1)%nat.
Proof. induction l as [|a [|b l] IH]; [reflexivity..|]. cbn [calc_mid_points length] in *. rewrite IH. cbn. lia. Qed.
Lemma mids_nth l : forall i a b, nth_error l i = Some a -> nth_error l (S i) = Some b ->
  nth_error (calc_mid_points l) i = Some (fdiv (fadd a b) (f_of_Z 2)).
Proof.
  induction l as [|x [|y l] IH]; intros [|i] a b Ha Hb; try discriminate; try (destruct i; discriminate).
  - injection Ha as <-. injection Hb as <-. reflexivity.
  - cbn [calc_mid_points nth_error]. apply IH; [exact Ha|exact Hb].
Qed.
Lemma mids_between l : Forall moderate l -> length (calc_mid_points l) = (length l - 1)%nat /\
  forall i a b m, nth_error l i = Some a -> nth_error l (S i) = Some b -> nth_error (calc_mid_points l) i = Some m ->
    FR a <= FR b -> finite m /\ FR a <= FR m <= FR b /\
    Rabs (FR m - (FR a + FR b) / 2) <= 2 * u53 * Rabs (FR a + FR b) + bpow radix2 (-1075) /\
    (4 * u53 * Rabs (FR a + FR b) + bpow radix2 (-1074) < FR b - FR a -> FR a < FR m < FR b).
Proof.
  intros N. split; [apply mids_length|]. intros i a b m Ha Hb Hm H. rewrite (mids_nth l i a b Ha Hb) in Hm. injection Hm as <-.
  destruct (mid_R a b) as (A & B & C); auto; [eapply (proj1 (Forall_forall _ _) N), nth_error_In; eassumption..|].
  repeat split; try apply A; try apply B; auto; apply Rabs_le_inv in C;
    (assert (T : bpow radix2 (-1074) = 2 * bpow radix2 (-1075)) by (change 2 with (bpow radix2 1); rewrite <- bpow_plus; reflexivity));
    rewrite T in *; lra.
Qed.

(** * Normalisation and absolute errors *)
Lemma normalise_spec data n : length (normalise data n) = length data /\
  forall i x, nth_error data i = Some x -> exists y, nth_error (normalise data n) i = Some y /\
    (finite x -> finite n -> rounded_to (FR x * FR n) y).
Proof.
  split; [apply map_length|]. intros i x H. exists (fmul x n). split; [exact (map_nth_error (fun x => fmul x n) i data H)|].
  intros [Vx Fx] [Vn Fn]. now apply fmul_R.
Qed.
Lemma err_abs_spec rs es :
  (length rs <> length es -> calc_err_abs rs es = Err ValueError) /\
  (length rs = length es -> forall out, calc_err_abs rs es = Ok out <->
     length out = length rs /\ forall i r e, nth_error rs i = Some r -> nth_error es i = Some e ->
       exists x, to_float e = Ok x /\ nth_error out i = Some (fmul r x)).
Proof.
  unfold calc_err_abs. destruct (Nat.eqb_spec (length rs) (length es)) as [E|E]; cbn [negb]; (split; [|]); intros H; try congruence.
  clear H. revert es E. induction rs as [|r rs IH]; intros [|e es] E out; try discriminate.
  - cbn. split; [intros [= <-]; split; [reflexivity|intros [|i]; discriminate]|]. intros [L _]. destruct out; [reflexivity|discriminate].
  - cbn [combine mapM fst snd]. destruct (to_float e) as [x|k] eqn:X; cbn [bind].
    + injection E as E. specialize (IH es E). destruct (mapM _ (combine rs es)) as [o|k] eqn:M; cbn [bind].
      * split.
        -- intros [= <-]. destruct (proj1 (IH o) eq_refl) as [L H]. split; [cbn; now rewrite L|].
           intros [|i] r' e' Hr He; cbn in Hr, He; [injection Hr as <-; injection He as <-; exists x; now split|]. now apply H.
        -- intros [L H]. destruct out as [|y out]; [discriminate|]. injection L as L.
           destruct (H 0%nat r e eq_refl eq_refl) as (x' & X' & Y). rewrite X in X'. injection X' as <-. injection Y as ->.
           f_equal. f_equal. assert (Q : Ok o = Ok out) by (apply IH; split; [exact L|]; intros i r' e' Hr He; exact (H (S i) r' e' Hr He)).
           now injection Q.
      * split; [discriminate|]. intros [L H]. destruct out as [|y out]; [discriminate|]. injection L as L.
        assert (Q : Err k = Ok out) by (apply IH; split; [exact L|]; intros i r' e' Hr He; exact (H (S i) r' e' Hr He)). discriminate.
    + split; [discriminate|]. intros [_ H]. destruct (H 0%nat r e eq_refl eq_refl) as (x' & X' & _). congruence.
Qed.
Lemma err_abs_total rs xs : length rs = length xs -> exists out, calc_err_abs rs (map NNum xs) = Ok out /\ length out = length rs /\
  forall i r x, nth_error rs i = Some r -> nth_error xs i = Some x -> nth_error out i = Some (fmul r x).
Proof.
  intros E. unfold calc_err_abs. rewrite map_length. apply Nat.eqb_eq in E as E'. rewrite E'. cbn [negb]. clear E'.
  revert xs E. induction rs as [|r rs IH]; intros [|x xs] E; try discriminate.
  - exists []. split; [reflexivity|]. split; [reflexivity|]. intros [|i]; discriminate.
  - injection E as E. destruct (IH xs E) as (out & M & L & H). exists (fmul r x :: out).
    cbn [map combine mapM fst snd to_float bind]. rewrite M. split; [reflexivity|]. split; [cbn; now rewrite L|].
    intros [|i] r' x' Hr Hx; cbn in Hr, Hx; [injection Hr as <-; injection Hx as <-; reflexivity|]. now apply H.
Qed.

(** * Distances *)
Lemma dist_R a b : moderate a -> moderate b ->
  finite (dist a b) /\ exists eps, Rabs eps <= u53 /\ FR (dist a b) = Rabs (FR a - FR b) * (1 + eps).
Proof.
  intros (Va & Fa & Ba) (Vb & Fb & Bb). apply Rabs_le_inv in Ba, Bb. pose proof big_half as BH. pose proof u53_pos as U.
  destruct (fsub_R a b Va Vb Fa Fb) as (V & O & _).
  destruct (rnd_minus (FR a) (FR b) (FR_format a Va) (FR_format b Vb)) as (eps & He & E).
  assert (G : generic_format radix2 (FLT_exp (-1074) 53) (bpow radix2 1023)).
  { apply generic_format_bpow. unfold FLT_exp. lia. }
  assert (T : bpow radix2 1022 * 2 = bpow radix2 1023) by (change 2 with (bpow radix2 1); rewrite <- bpow_plus; reflexivity).
  assert (B : Rabs (rnd (FR a - FR b)) < fmax_bound).
  { rewrite <- rnd_abs. apply Rle_lt_trans with (bpow radix2 1023); [|lra].
    rewrite <- (round_generic radix2 (FLT_exp (-1074) 53) ZnearestE (bpow radix2 1023)) by exact G.
    apply rnd_le. apply Rabs_le. lra. }
  destruct (O B) as [E1 F1]. split.
  - unfold dist. split; destruct (fsub a b); auto.
  - exists eps. split; [exact He|]. unfold dist. rewrite fabs_R, E1, E, Rabs_mult. f_equal. apply Rabs_le_inv in He. apply Rabs_pos_eq. lra.
Qed.
Lemma finite_not_nan x : is_finite_f x = true -> is_nan_f x = false.
Proof. now destruct x. Qed.
(** The entry found is nearest up to rounding. *)
Lemma nearest_R arr t : moderate t -> Forall moderate arr -> arr <> [] ->
  exists i e, nearest arr t = Ok i /\ nth_error arr i = Some e /\
    forall j e', nth_error arr j = Some e' -> Rabs (FR e - FR t) <= Rabs (FR e' - FR t) * (1 + 4 * u53).
Proof.
  intros Mt M Ne.
  assert (N : no_nan (map (fun e => dist e t) arr)).
  { apply Forall_forall. intros x Hx. apply in_map_iff in Hx. destruct Hx as (e & <- & He).
    apply (proj1 (Forall_forall _ _) M) in He. destruct (dist_R e t He Mt) as [[_ F] _]. now apply finite_not_nan. }
  destruct (argmin_ok (map (fun e => dist e t) arr)) as [i Hi]; [destruct arr; [congruence|discriminate]|].
  pose proof (argmin_bound _ _ Hi) as B. rewrite map_length in B.
  destruct (nth_error arr i) as [e|] eqn:E; [|apply nth_error_None in E; lia].
  exists i, e. split; [exact Hi|]. split; [exact E|]. intros j e' Hj.
  apply argmin_iff in Hi; [|exact N]. destruct Hi as (d & Hd & H). rewrite (map_nth_error _ _ _ E) in Hd. injection Hd as <-.
  destruct (H j (dist e' t)) as [L _]; [now rewrite (map_nth_error _ _ _ Hj)|].
  apply nth_error_In in E, Hj. apply (proj1 (Forall_forall _ _) M) in E. apply (proj1 (Forall_forall _ _) M) in Hj.
  destruct (dist_R e t E Mt) as ((V1 & F1) & eps1 & B1 & E1). destruct (dist_R e' t Hj Mt) as ((V2 & F2) & eps2 & B2 & E2).
  apply fle_R in L; auto. rewrite E1, E2 in L. apply Rabs_le_inv in B1, B2. pose proof u53_pos as U.
  set (x := Rabs (FR e - FR t)) in *. set (y := Rabs (FR e' - FR t)) in *.
  assert (Px : 0 <= x) by apply Rabs_pos. assert (Py : 0 <= y) by apply Rabs_pos.
  apply Rmult_le_reg_r with (1 - u53); [lra|].
  apply Rle_trans with (x * (1 + eps1)); [apply Rmult_le_compat_l; lra|]. apply Rle_trans with (1 := L).
  rewrite Rmult_assoc. apply Rmult_le_compat_l; [exact Py|]. assert (4 * u53 * u53 <= u53) by nra. nra.
Qed.
