(** Lemmas about the numeric helpers of mcnp_analysis. *)
From Coq Require Import Reals Lra Lia Sorted Floats.SpecFloat.
From Flocq Require Import Core Relative BinarySingleNaN Plus_error Mult_error.
From Verif Require Import PyBase PyFacts PyFloat FloatFacts FloatR FloatZ PyFs M_util M_fisana M_mcout M_mcana SpecFis SpecMcana.
Import ListNotations.

(** * argmin and argmax *)
Section Best.
  Variable le : float -> float -> bool.
  Hypothesis le_refl : forall x, is_nan_f x = false -> le x x = true.
  Hypothesis le_trans : forall x y z, le x y = true -> le y z = true -> le x z = true.
  Hypothesis le_total : forall x y, is_nan_f x = false -> is_nan_f y = false -> le x y = true \/ le y x = true.
  Definition first_best (xs : list float) (i : nat) : Prop := exists x, nth_error xs i = Some x /\
    forall j y, nth_error xs j = Some y -> le x y = true /\ (j < i -> le y x = false).

  Lemma arg_best_spec l : forall pre bi b, no_nan (pre ++ l) -> nth_error pre bi = Some b ->
    (forall j y, nth_error pre j = Some y -> le b y = true /\ (j < bi -> le y b = false)) ->
    first_best (pre ++ l) (arg_best (fun y b => negb (le b y)) bi b (length pre) l).
  Proof.
    induction l as [|x l IH]; intros pre bi b N Hb H.
    - rewrite app_nil_r in *. exists b. now split.
    - cbn [arg_best]. unfold no_nan in N.
      assert (Nb : is_nan_f b = false).
      { eapply (proj1 (Forall_forall _ _) N). apply in_or_app. left. eapply nth_error_In; eassumption. }
      assert (Nx : is_nan_f x = false).
      { eapply (proj1 (Forall_forall _ _) N). apply in_or_app. right. now left. }
      rewrite Nb. replace (pre ++ x :: l) with ((pre ++ [x]) ++ l) in * by now rewrite <- app_assoc.
      assert (Len : S (length pre) = length (pre ++ [x])) by (rewrite app_length; cbn; lia).
      assert (Bi : bi < length pre) by (apply nth_error_Some; congruence).
      destruct (le b x) eqn:E; cbn [negb]; rewrite Len; apply IH; auto.
      + now rewrite nth_error_app1.
      + intros j y Hj. destruct (Nat.lt_ge_cases j (length pre)) as [L|L].
        * rewrite nth_error_app1 in Hj by exact L. now apply H.
        * rewrite nth_error_app2 in Hj by exact L. destruct (j - length pre) as [|k] eqn:Ej; [|destruct k; discriminate].
          injection Hj as <-. split; [exact E|lia].
      + rewrite nth_error_app2, Nat.sub_diag by lia. reflexivity.
      + assert (Xb : le x b = true) by (destruct (le_total x b Nx Nb); congruence).
        intros j y Hj. destruct (Nat.lt_ge_cases j (length pre)) as [L|L].
        * rewrite nth_error_app1 in Hj by exact L. destruct (H j y Hj) as [H1 H2]. split; [eapply le_trans; eassumption|].
          intros _. destruct (le y x) eqn:F; [|reflexivity]. rewrite (le_trans _ _ _ H1 F) in E. discriminate.
        * rewrite nth_error_app2 in Hj by exact L. destruct (j - length pre) as [|k] eqn:Ej; [|destruct k; discriminate].
          injection Hj as <-. split; [now apply le_refl|lia].
  Qed.
  Lemma first_best_unique xs i j : first_best xs i -> first_best xs j -> i = j.
  Proof.
    intros (x & Hx & Mx) (y & Hy & My).
    destruct (Mx _ _ Hy) as [A B]. destruct (My _ _ Hx) as [C D].
    destruct (Nat.lt_total i j) as [L|[L|L]]; [|exact L|].
    - rewrite D in A by exact L. discriminate.
    - rewrite B in C by exact L. discriminate.
  Qed.
End Best.

Lemma fle_or_flt x y : is_nan_f x = false -> is_nan_f y = false -> fle x y = false <-> flt y x = true.
Proof.
  intros Nx Ny. destruct (fle x y) eqn:E.
  - apply fle_key in E. rewrite flt_key. split; [discriminate|]. intros (_ & _ & H). tauto.
  - split; [intros _|reflexivity]. apply flt_key. repeat split; auto.
    destruct (klt_total (fkey y) (fkey x)) as [H|H]; [exact H|exfalso].
    assert (F : fle x y = true); [|congruence]. apply fle_key. repeat split; auto. intros K.
    destruct H as [H|H]; [rewrite H in K; now apply klt_irrefl in K|].
    eapply klt_irrefl, klt_trans; eassumption.
Qed.
Lemma fle_total x y : is_nan_f x = false -> is_nan_f y = false -> fle x y = true \/ fle y x = true.
Proof.
  intros Nx Ny. destruct (fle x y) eqn:E; [now left|right]. apply fle_or_flt in E; auto. now apply flt_fle.
Qed.
Lemma nth_not_nan xs i x : no_nan xs -> nth_error xs i = Some x -> is_nan_f x = false.
Proof. intros N H. eapply (proj1 (Forall_forall _ _) N). eapply nth_error_In; eassumption. Qed.
Lemma first_least_best xs i : no_nan xs -> first_least xs i <-> first_best fle xs i.
Proof.
  intros N. split; intros (x & Hx & H); exists x; split; auto; intros j y Hj; destruct (H j y Hj) as [H1 H2]; (split; [exact H1|]);
    intros L; specialize (H2 L); apply fle_or_flt; eauto using nth_not_nan.
Qed.
Lemma first_greatest_best xs i : no_nan xs -> first_greatest xs i <-> first_best (fun a b => fle b a) xs i.
Proof.
  intros N. split; intros (x & Hx & H); exists x; split; auto; intros j y Hj; destruct (H j y Hj) as [H1 H2]; (split; [exact H1|]);
    intros L; specialize (H2 L); apply fle_or_flt; eauto using nth_not_nan.
Qed.
Lemma argmin_iff xs i : no_nan xs -> np_argmin xs = Ok i <-> first_least xs i.
Proof.
  intros N. rewrite first_least_best by exact N. destruct xs as [|x xs].
  - split; [discriminate|]. intros (x & Hx & _). destruct i; discriminate.
  - assert (B : first_best fle (x :: xs) (arg_best (fun y b => negb (fle b y)) 0 x 1 xs)).
    { apply (arg_best_spec fle fle_refl fle_trans fle_total xs [x] 0 x N eq_refl).
      intros [|[|j]] y Hj; try discriminate. injection Hj as <-. split; [|lia]. apply fle_refl. now inversion N. }
    cbn [np_argmin]. split; [intros [= <-]; exact B|]. intros H. f_equal. eapply first_best_unique; eassumption.
Qed.
Lemma argmax_iff xs i : no_nan xs -> np_argmax xs = Ok i <-> first_greatest xs i.
Proof.
  intros N. rewrite first_greatest_best by exact N. destruct xs as [|x xs].
  - split; [discriminate|]. intros (x & Hx & _). destruct i; discriminate.
  - assert (B : first_best (fun a b => fle b a) (x :: xs) (arg_best (fun y b => negb (fle y b)) 0 x 1 xs)).
    { apply (arg_best_spec (fun a b => fle b a)) with (pre := [x]); auto using fle_refl.
      - intros a b c H1 H2. eapply fle_trans; eassumption.
      - intros a b Na Nb. destruct (fle_total a b Na Nb); auto.
      - intros [|[|j]] y Hj; try discriminate. injection Hj as <-. split; [|lia]. apply fle_refl. now inversion N. }
    cbn [np_argmax]. split; [intros [= <-]; exact B|]. intros H. f_equal. eapply first_best_unique; eassumption.
Qed.
Lemma argmin_ok xs : xs <> [] -> exists i, np_argmin xs = Ok i.
Proof. destruct xs; [congruence|]. intros _. now eexists. Qed.
Lemma argmax_ok xs : xs <> [] -> exists i, np_argmax xs = Ok i.
Proof. destruct xs; [congruence|]. intros _. now eexists. Qed.
Lemma nearest_iff arr t i : no_nan (map (fun e => dist e t) arr) -> nearest arr t = Ok i <-> first_least (map (fun e => dist e t) arr) i.
Proof. apply argmin_iff. Qed.
(** The index is always one of the list. *)
Lemma arg_best_bound better l : forall bi b i, bi < i -> arg_best better bi b i l < i + length l.
Proof.
  induction l as [|x l IH]; intros bi b i H; cbn [arg_best length]; [lia|].
  destruct (is_nan_f b); [lia|]. destruct (better x b); eapply Nat.lt_le_trans; [apply IH; lia|lia|apply IH; lia|lia].
Qed.
Lemma argmin_bound xs i : np_argmin xs = Ok i -> i < length xs.
Proof. destruct xs; [discriminate|]. intros [= <-]. cbn [length]. apply (arg_best_bound _ xs 0 f 1). lia. Qed.
Lemma argmax_bound xs i : np_argmax xs = Ok i -> i < length xs.
Proof. destruct xs; [discriminate|]. intros [= <-]. cbn [length]. apply (arg_best_bound _ xs 0 f 1). lia. Qed.

(** * The peak time *)
Lemma peak_time_iff te es ts m t :
  no_nan (map (fun e => dist e te) es) -> Forall no_nan m ->
  find_peak_time te es ts m = Ok t <->
  exists i row j, first_least (map (fun e => dist e te) es) i /\ nth_error m i = Some row /\
    first_greatest (firstn (length ts) row) j /\ nth_error ts j = Some t.
Proof.
  intros N M. unfold find_peak_time. split.
  - intros H. destruct (nearest es te) as [i|] eqn:E; [|discriminate]. cbn [bind] in H.
    rewrite py_nth_nat in H. destruct (nth_error m i) as [row|] eqn:R; [|discriminate]. cbn [bind] in H.
    unfold zlen in H. rewrite slice_to_nat in H.
    destruct (np_argmax (firstn (length ts) row)) as [j|] eqn:J; [|discriminate]. cbn [bind] in H. rewrite py_nth_nat in H.
    destruct (nth_error ts j) as [t'|] eqn:T; [|discriminate]. injection H as <-.
    exists i, row, j. repeat split; auto; [now apply nearest_iff|]. apply argmax_iff; auto.
    apply Forall_forall. intros x Hx. apply (nth_error_In m) in R. apply (proj1 (Forall_forall _ _) M) in R.
    apply (proj1 (Forall_forall _ _) R). rewrite <- (firstn_skipn (length ts) row). apply in_or_app. now left.
  - intros (i & row & j & Hi & R & Hj & T). apply nearest_iff in Hi; auto. rewrite Hi. cbn [bind]. rewrite py_nth_nat, R. cbn [bind].
    unfold zlen. rewrite slice_to_nat. apply argmax_iff in Hj.
    + rewrite Hj. cbn [bind]. rewrite py_nth_nat, T. reflexivity.
    + apply Forall_forall. intros x Hx. apply (nth_error_In m) in R. apply (proj1 (Forall_forall _ _) M) in R.
      apply (proj1 (Forall_forall _ _) R). rewrite <- (firstn_skipn (length ts) row). apply in_or_app. now left.
Qed.
Lemma peak_time_total te es ts m : es <> [] -> ts <> [] -> length m = length es -> Forall (fun r => r <> []) m ->
  exists t, find_peak_time te es ts m = Ok t.
Proof.
  intros He Ht L M. unfold find_peak_time. destruct (argmin_ok (map (fun e => dist e te) es)) as [i Hi]; [destruct es; [congruence|discriminate]|].
  change (nearest es te = Ok i) in Hi. rewrite Hi. cbn [bind]. rewrite py_nth_nat.
  apply argmin_bound in Hi. rewrite map_length in Hi.
  destruct (nth_error m i) as [row|] eqn:R; [|apply nth_error_None in R; lia]. cbn [bind].
  unfold zlen. rewrite slice_to_nat.
  assert (Rn : row <> []) by (apply nth_error_In in R; now apply (proj1 (Forall_forall _ _) M) in R).
  destruct (argmax_ok (firstn (length ts) row)) as [j Hj]; [destruct ts, row; cbn; congruence || discriminate|].
  rewrite Hj. cbn [bind]. rewrite py_nth_nat. apply argmax_bound in Hj. rewrite firstn_length in Hj.
  destruct (nth_error ts j) as [t|] eqn:T; [now eexists|apply nth_error_None in T; lia].
Qed.
Lemma peak_time_empty te es ts m : (es = [] -> find_peak_time te es ts m = Err ValueError) /\
  (es <> [] -> length m >= length es -> ts = [] -> find_peak_time te es ts m = Err ValueError) /\
  (m = [] -> es <> [] -> find_peak_time te es ts m = Err IndexError).
Proof.
  split; [|split].
  - intros ->. reflexivity.
  - intros He L ->. unfold find_peak_time. destruct (argmin_ok (map (fun e => dist e te) es)) as [i Hi]; [destruct es; [congruence|discriminate]|].
    change (nearest es te = Ok i) in Hi. rewrite Hi. cbn [bind]. rewrite py_nth_nat.
    apply argmin_bound in Hi. rewrite map_length in Hi.
    destruct (nth_error m i) as [row|] eqn:R; [|apply nth_error_None in R; lia]. cbn [bind]. change (zlen []) with (Z.of_nat 0). now rewrite slice_to_nat.
  - intros -> He. unfold find_peak_time. destruct (argmin_ok (map (fun e => dist e te) es)) as [i Hi]; [destruct es; [congruence|discriminate]|].
    change (nearest es te = Ok i) in Hi. rewrite Hi. cbn [bind]. rewrite py_nth_nat. now destruct i.
Qed.
