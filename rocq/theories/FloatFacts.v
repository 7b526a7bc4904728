(** Order facts about binary64 comparison, without axioms. *)
From Coq Require Import Lia ZifyBool Floats.SpecFloat.
From Verif Require Import PyBase PyFloat.

(** A key whose lexicographic order is the order of [SFcompare]. *)
Definition fkey (x : float) : Z * Z * Z :=
  match x with
  | S754_nan => (3, 0, 0)
  | S754_infinity true => (-2, 0, 0)
  | S754_infinity false => (2, 0, 0)
  | S754_zero _ => (0, 0, 0)
  | S754_finite true m e => (-1, - e, - Zpos m)
  | S754_finite false m e => (1, e, Zpos m)
  end%Z.
Definition klt (a b : Z * Z * Z) : Prop :=
  let '(a1, a2, a3) := a in let '(b1, b2, b3) := b in
  (a1 < b1 \/ a1 = b1 /\ (a2 < b2 \/ a2 = b2 /\ a3 < b3))%Z.

Ltac fcases :=
  repeat match goal with
  | x : float |- _ => destruct x as [[|]|[|]| |[|] ? ?]
  | x : spec_float |- _ => destruct x as [[|]|[|]| |[|] ? ?]
  end.

Lemma SFcompare_key x y : is_nan_f x = false -> is_nan_f y = false ->
  match SFcompare x y with
  | Some Lt => klt (fkey x) (fkey y)
  | Some Eq => fkey x = fkey y
  | Some Gt => klt (fkey y) (fkey x)
  | None => False
  end.
Proof.
  intros Hx Hy.
  destruct x as [[|]|[|]| |[|] m e], y as [[|]|[|]| |[|] m' e']; try discriminate;
    unfold SFcompare, fkey, klt; try lia; try reflexivity.
  - destruct (Z.compare_spec e e') as [->|H|H]; try lia.
    change (Pcompare m m' Eq) with (Pos.compare m m').
    destruct (Pos.compare_spec m m') as [->|H|H]; cbn; try lia. reflexivity.
  - destruct (Z.compare_spec e e') as [->|H|H]; try lia.
    change (Pcompare m m' Eq) with (Pos.compare m m').
    destruct (Pos.compare_spec m m') as [->|H|H]; cbn; try lia. reflexivity.
Qed.
Lemma SFcompare_nan_l x y : is_nan_f x = true -> SFcompare x y = None.
Proof. destruct x; try discriminate. reflexivity. Qed.
Lemma SFcompare_nan_r x y : is_nan_f y = true -> SFcompare x y = None.
Proof. destruct y; try discriminate. now destruct x. Qed.

Lemma klt_irrefl a : ~ klt a a.
Proof. destruct a as [[a1 a2] a3]. cbn. lia. Qed.
Lemma klt_trans a b c : klt a b -> klt b c -> klt a c.
Proof. destruct a as [[a1 a2] a3], b as [[b1 b2] b3], c as [[c1 c2] c3]. cbn. lia. Qed.
Lemma klt_total a b : klt a b \/ a = b \/ klt b a.
Proof.
  destruct a as [[a1 a2] a3], b as [[b1 b2] b3]. cbn.
  assert (H : (a1 = b1 /\ a2 = b2 /\ a3 = b3) \/ ~ (a1 = b1 /\ a2 = b2 /\ a3 = b3)) by lia.
  destruct H as [(-> & -> & ->)|H]; [auto|lia].
Qed.

Lemma flt_key x y : flt x y = true <->
  is_nan_f x = false /\ is_nan_f y = false /\ klt (fkey x) (fkey y).
Proof.
  unfold flt, SFltb. destruct (is_nan_f x) eqn:Hx; [rewrite SFcompare_nan_l by assumption; split; [discriminate|intros [H _]; discriminate]|].
  destruct (is_nan_f y) eqn:Hy; [rewrite SFcompare_nan_r by assumption; split; [discriminate|intros (_ & H & _); discriminate]|].
  pose proof (SFcompare_key x y Hx Hy) as H. destruct (SFcompare x y) as [[| |]|]; [| | |contradiction].
  - split; [discriminate|]. intros (_ & _ & Hk). rewrite H in Hk. now apply klt_irrefl in Hk.
  - tauto.
  - split; [discriminate|]. intros (_ & _ & Hk). exfalso. eapply klt_irrefl, klt_trans; eassumption.
Qed.
Lemma feq_key x y : feq x y = true <->
  is_nan_f x = false /\ is_nan_f y = false /\ fkey x = fkey y.
Proof.
  unfold feq, SFeqb. destruct (is_nan_f x) eqn:Hx; [rewrite SFcompare_nan_l by assumption; split; [discriminate|intros [H _]; discriminate]|].
  destruct (is_nan_f y) eqn:Hy; [rewrite SFcompare_nan_r by assumption; split; [discriminate|intros (_ & H & _); discriminate]|].
  pose proof (SFcompare_key x y Hx Hy) as H. destruct (SFcompare x y) as [[| |]|]; [| | |contradiction].
  - tauto.
  - split; [discriminate|]. intros (_ & _ & Hk). rewrite Hk in H. now apply klt_irrefl in H.
  - split; [discriminate|]. intros (_ & _ & Hk). rewrite Hk in H. now apply klt_irrefl in H.
Qed.
Lemma fle_key x y : fle x y = true <->
  is_nan_f x = false /\ is_nan_f y = false /\ ~ klt (fkey y) (fkey x).
Proof.
  unfold fle, SFleb. destruct (is_nan_f x) eqn:Hx; [rewrite SFcompare_nan_l by assumption; split; [discriminate|intros [H _]; discriminate]|].
  destruct (is_nan_f y) eqn:Hy; [rewrite SFcompare_nan_r by assumption; split; [discriminate|intros (_ & H & _); discriminate]|].
  pose proof (SFcompare_key x y Hx Hy) as H. destruct (SFcompare x y) as [[| |]|]; [| | |contradiction].
  - split; [|reflexivity]. intros _. repeat split. rewrite H. apply klt_irrefl.
  - split; [|reflexivity]. intros _. repeat split. intros H'. eapply klt_irrefl, klt_trans; eassumption.
  - split; [discriminate|]. intros (_ & _ & Hk). contradiction.
Qed.

Lemma flt_trans x y z : flt x y = true -> flt y z = true -> flt x z = true.
Proof. rewrite !flt_key. intros (H1 & H2 & H3) (H4 & H5 & H6). repeat split; auto. eapply klt_trans; eassumption. Qed.
Lemma flt_irrefl x : flt x x = false.
Proof. destruct (flt x x) eqn:E; [|reflexivity]. apply flt_key in E. destruct E as (_ & _ & E). now apply klt_irrefl in E. Qed.
Lemma fle_refl x : is_nan_f x = false -> fle x x = true.
Proof. intros H. apply fle_key. repeat split; auto. apply klt_irrefl. Qed.
Lemma fle_trans x y z : fle x y = true -> fle y z = true -> fle x z = true.
Proof.
  rewrite !fle_key. intros (H1 & H2 & H3) (H4 & H5 & H6). repeat split; auto.
  intros H. destruct (klt_total (fkey y) (fkey z)) as [Hk|[Hk|Hk]]; [|rewrite Hk in *; contradiction|contradiction].
  apply H3. eapply klt_trans; eassumption.
Qed.
Lemma flt_fle_trans x y z : flt x y = true -> fle y z = true -> flt x z = true.
Proof.
  rewrite flt_key, fle_key, flt_key. intros (H1 & H2 & H3) (H4 & H5 & H6). repeat split; auto.
  destruct (klt_total (fkey y) (fkey z)) as [Hk|[Hk|Hk]]; [eapply klt_trans; eassumption|now rewrite <- Hk|contradiction].
Qed.
Lemma fle_flt_trans x y z : fle x y = true -> flt y z = true -> flt x z = true.
Proof.
  rewrite flt_key, fle_key, flt_key. intros (H1 & H2 & H3) (H4 & H5 & H6). repeat split; auto.
  destruct (klt_total (fkey x) (fkey y)) as [Hk|[Hk|Hk]]; [eapply klt_trans; eassumption|now rewrite Hk|contradiction].
Qed.
Lemma flt_fle x y : flt x y = true -> fle x y = true.
Proof.
  rewrite flt_key, fle_key. intros (H1 & H2 & H3). repeat split; auto. intros H.
  eapply klt_irrefl, klt_trans; eassumption.
Qed.
Lemma fle_not_flt x y : is_nan_f x = false -> is_nan_f y = false ->
  fle x y = negb (flt y x).
Proof.
  intros Hx Hy. destruct (flt y x) eqn:E; cbn.
  - apply flt_key in E. destruct E as (_ & _ & E). destruct (fle x y) eqn:E'; [|reflexivity].
    apply fle_key in E'. tauto.
  - apply fle_key. repeat split; auto. intros H. assert (flt y x = true) by (apply flt_key; auto). congruence.
Qed.
Lemma flt_nan_l x y : flt x y = true -> is_nan_f x = false.
Proof. rewrite flt_key. tauto. Qed.
Lemma flt_nan_r x y : flt x y = true -> is_nan_f y = false.
Proof. rewrite flt_key. tauto. Qed.
Lemma fle_nan_l x y : fle x y = true -> is_nan_f x = false.
Proof. rewrite fle_key. tauto. Qed.
Lemma fle_nan_r x y : fle x y = true -> is_nan_f y = false.
Proof. rewrite fle_key. tauto. Qed.

(** * Sign symmetry of rounding *)
Lemma abs_round_aux s s' m e l :
  SFabs (binary_round_aux prec emax s m e l) = SFabs (binary_round_aux prec emax s' m e l).
Proof.
  unfold binary_round_aux. destruct (shr_fexp prec emax m e l) as [r1 e1].
  destruct (shr_fexp prec emax _ e1 loc_Exact) as [r2 e2].
  destruct (shr_m r2); try reflexivity. destruct (Zle_bool e2 _); reflexivity.
Qed.
Lemma abs_normalize_opp m e s s' :
  SFabs (binary_normalize prec emax (- m) e s) = SFabs (binary_normalize prec emax m e s').
Proof.
  destruct m as [|m|m]; cbn [Z.opp binary_normalize]; [reflexivity| |];
    unfold binary_round; destruct (shl_align _ _ _); apply abs_round_aux.
Qed.
Lemma fabs_sub_comm x y : fabs (fsub x y) = fabs (fsub y x).
Proof.
  unfold fabs, fsub. destruct x as [[|]|[|]| |sx m e], y as [[|]|[|]| |sy m' e']; try reflexivity.
  unfold SFsub. rewrite (Z.min_comm e' e). rewrite <- abs_normalize_opp with (s := false).
  f_equal. f_equal. lia.
Qed.
Lemma fsub_self x : is_finite_f x = true -> fabs (fsub x x) = fzero.
Proof.
  destruct x as [[|]|[|]| |s m e]; try discriminate; intros _; try reflexivity.
  unfold fabs, fsub, SFsub. rewrite Z.sub_diag. reflexivity.
Qed.
Lemma fabs_not_neg x : flt (fabs x) fzero = false.
Proof. destruct x as [[|]|[|]| |[|] m e]; reflexivity. Qed.
