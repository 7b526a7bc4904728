(** Lemmas about the plotted spectra. *)
From Coq Require Import Reals Lra Lia Sorted Floats.SpecFloat.
From Flocq Require Import Core Relative BinarySingleNaN.
From Verif Require Import PyBase PyFacts PyFloat FloatFacts FloatR FloatZ PyFs SpecStr M_util SpecUtil P_util M_fisana M_mcout M_mcana SpecFis SpecMcana P_mcana P_mcana2.
From Verif Require P_mesh5.
Import ListNotations.

Lemma foldM_app {A B} (f : B -> A -> res B) l1 l2 : forall b, foldM f (l1 ++ l2) b = do x <- foldM f l1 b; foldM f l2 x.
Proof. induction l1 as [|x l1 IH]; intros b; [reflexivity|]. cbn. destruct (f b x); [apply IH|reflexivity]. Qed.

Lemma combine_nth_error {A B} (xs : list A) (zs : list B) : forall i x z, nth_error xs i = Some x -> nth_error zs i = Some z ->
  nth_error (combine xs zs) i = Some (x, z).
Proof.
  revert zs. induction xs as [|a xs IH]; intros [|b zs] [|i] x z H1 H2; try discriminate.
  - injection H1 as ->. injection H2 as ->. reflexivity.
  - cbn in *. now apply IH.
Qed.

Lemma nth_error_firstn_lt {A} (l : list A) : forall n i, i < n -> nth_error (firstn n l) i = nth_error l i.
Proof. induction l as [|x l IH]; intros [|n] [|i] H; try lia; try reflexivity. cbn. apply IH. lia. Qed.

(** * Tables *)
Definition table_curve (eng : list float) (kv : Z * list (float * float * float)) : draw :=
  DCurve (Some (fst kv)) eng (map (fun p => fdiv (fst p) (snd p)) (combine (result_column (snd kv)) (diffs fzero eng))).
Definition table_y (eng : list float) (d : etable) (y0 : option (list float)) : option (list float) :=
  fold_left (fun _ kv => Some (map (fun p => fdiv (fst p) (snd p)) (combine (result_column (snd kv)) (diffs fzero eng)))) d y0.
Lemma object_curves_ok eng d : Forall (fun kv => length (snd kv) = length eng) d -> forall y0,
  object_curves eng (diffs fzero eng) (TTable d) y0 = Ok (map (table_curve eng) d, table_y eng d y0).
Proof.
  intros H y0. unfold object_curves.
  assert (G : forall acc y, foldM (fun (st : list draw * option (list float)) kv =>
      do y <- series_div (result_column (snd kv)) (diffs fzero eng); do c <- mpl_curve (Some (fst kv)) eng y; Ok (fst st ++ [c], Some y)) d (acc, y)
      = Ok (acc ++ map (table_curve eng) d, table_y eng d y)).
  { induction H as [|kv d L H IH]; intros acc y; [cbn; now rewrite app_nil_r|].
    cbn [foldM]. unfold series_div at 1. unfold result_column at 1. rewrite map_length, diffs_length, L, Nat.eqb_refl. cbn [bind].
    unfold mpl_curve at 1. rewrite map_length, combine_length. unfold result_column at 1. rewrite map_length, diffs_length, L, Nat.min_id, Nat.eqb_refl.
    cbn [bind fst]. rewrite IH. rewrite <- app_assoc. reflexivity. }
  exact (G [] y0).
Qed.
Lemma table_curve_spec eng kv : length (snd kv) = length eng ->
  exists y, table_curve eng kv = DCurve (Some (fst kv)) eng y /\ per_width eng (snd kv) y.
Proof.
  intros L. eexists. split; [reflexivity|]. split.
  - rewrite map_length, combine_length. unfold result_column. rewrite map_length, diffs_length. lia.
  - intros i b e r u Hb Hr.
    assert (C : nth_error (combine (result_column (snd kv)) (diffs fzero eng)) i = Some (r, fsub b (lower_edge eng i))).
    { pose proof (diffs_nth eng fzero i b Hb) as D. fold (lower_edge eng i) in D.
      pose proof (map_nth_error (fun r => snd (fst r)) i (snd kv) Hr) as R. cbn [fst snd] in R. fold (result_column (snd kv)) in R.
      now apply combine_nth_error. }
    exact (map_nth_error (fun p => fdiv (fst p) (snd p)) i _ C).
Qed.
Lemma table_curves_spec eng d : Forall (fun kv : Z * list (float * float * float) => length (snd kv) = length eng) d ->
  Forall2 (fun kv c => exists y, c = DCurve (Some (fst kv)) eng y /\ per_width eng (snd kv) y) d (map (table_curve eng) d).
Proof. induction 1 as [|kv d L A IH]; constructor; auto. now apply table_curve_spec. Qed.
Section S.
  Variable oc : tally -> res (list draw * list float).
  Variable ob : tally -> res (list draw).

Lemma tally_curves_binned t eng d y0 : binned t eng d ->
  tally_curves oc t y0 = Ok (eng, (map (table_curve eng) d, table_y eng d y0)).
Proof.
  intros (T & E & R & L & A). unfold tally_curves. rewrite E. unfold calc_bin_width, zlen.
  destruct (Z.ltb_spec (Z.of_nat (length eng)) 2); [lia|]. cbn [bind].
  assert (X : Ascii.eqb (t_type t) (chr 49) = false /\ (Ascii.eqb (t_type t) (chr 50) || Ascii.eqb (t_type t) (chr 52) = true)%bool)
    by (destruct T as [-> | ->]; split; reflexivity).
  destruct X as [-> ->]. rewrite R, object_curves_ok by exact A. reflexivity.
Qed.
Lemma fold_binned data : Forall2 (fun t ed => binned t (fst ed) (snd ed)) (map fst data) (map snd data) ->
  forall acc y e0, exists y', foldM (spectra_step oc ob false) (map fst data) (acc, y, e0) =
    Ok (acc ++ concat (map (fun p => map (table_curve (fst (snd p))) (snd (snd p))) data), y', last (map (fun p => fst (snd p)) data) e0).
Proof.
  induction data as [|[t [eng d]] data IH]; intros H acc y e0.
  - exists y. cbn. now rewrite app_nil_r.
  - cbn [map fst snd] in *. inversion H as [|? ? ? ? B H']; subst. cbn [fst snd] in B.
    cbn [foldM]. assert (Q : spectra_step oc ob false (acc, y, e0) t = Ok (acc ++ map (table_curve eng) d ++ [], table_y eng d y, eng)) by (unfold spectra_step; rewrite (tally_curves_binned t eng d y B); reflexivity). rewrite Q. cbn [bind]. clear Q.
    destruct (IH H' (acc ++ map (table_curve eng) d ++ []) (table_y eng d y) eng) as [y' ->]. exists y'. do 2 f_equal.
    + f_equal. cbn [concat map fst snd]. now rewrite app_nil_r, <- app_assoc.
    + cbn [last]. destruct data as [|[t' [e' d']] data]; [reflexivity|]. cbn [map fst snd].
      clear. set (l := map _ data). revert e'. induction l as [|x l IH]; intros e'; [reflexivity|exact (IH x)].
Qed.
Lemma curves_of_curves (l : list draw) : Forall (fun d => is_curve d = true) l -> curves_of l = l.
Proof. induction 1 as [|d l H _ IH]; [reflexivity|]. cbn. unfold curves_of in *. cbn. now rewrite H, IH. Qed.

(** One curve per object, tally after tally; with [xlow] the energy axis starts there. *)
Lemma spectra_curves data x : Forall (fun p => binned (fst p) (fst (snd p)) (snd (snd p))) data -> is_finite_f x = true ->
  exists ds, plot_spectra oc ob (map fst data) false (Some x) = Ok ds /\ In (DXmin x) ds /\
    exists css, curves_of ds = concat css /\
    Forall2 (fun p cs => Forall2 (fun kv c => exists y, c = DCurve (Some (fst kv)) (fst (snd p)) y /\ per_width (fst (snd p)) (snd kv) y) (snd (snd p)) cs)
      data css.
Proof.
  intros H Fx.
  assert (H2 : Forall2 (fun t ed => binned t (fst ed) (snd ed)) (map fst data) (map snd data)).
  { clear Fx. induction H as [|p data B H IH]; constructor; auto. }
  unfold plot_spectra. destruct (fold_binned data H2 [] None []) as [y' ->]. cbn [bind app].
  unfold mpl_lim. rewrite Fx. cbn [bind]. eexists. split; [reflexivity|]. split; [apply in_or_app; right; now left|].
  exists (map (fun p => map (table_curve (fst (snd p))) (snd (snd p))) data). split; cycle 1.
  - clear H2 y'. induction H as [|p data (_ & _ & _ & _ & A) H IH]; constructor; auto. 
    now apply table_curves_spec.
  - unfold curves_of. rewrite filter_app. cbn. rewrite app_nil_r. apply curves_of_curves.
    clear. apply Forall_concat. apply Forall_map. apply Forall_forall. intros p _. apply Forall_map. apply Forall_forall. intros; reflexivity.
Qed.

(** Without [xlow] the axis starts at the first bin of the last curve that is not zero, unless
    that is the first bin or there is none. *)
Lemma spectra_auto t eng d kv : binned t eng (d ++ [kv]) -> Forall (fun e => is_finite_f e = true) eng ->
  exists cs y, Forall2 (fun kv c => exists y, c = DCurve (Some (fst kv)) eng y /\ per_width eng (snd kv) y) (d ++ [kv]) cs /\
    per_width eng (snd kv) y /\
    (forall i e, first_index (fun v => ~ fp_zero v) y (S i) -> nth_error eng (S i) = Some e ->
       plot_spectra oc ob [t] false None = Ok (cs ++ [DXmin e])) /\
    (first_index (fun v => ~ fp_zero v) y 0 \/ (forall v, In v y -> fp_zero v) -> plot_spectra oc ob [t] false None = Ok cs).
Proof.
  intros B F. pose proof B as (_ & _ & _ & _ & A).
  set (y := map (fun p => fdiv (fst p) (snd p)) (combine (result_column (snd kv)) (diffs fzero eng))).
  assert (L : length (snd kv) = length eng) by (apply Forall_app in A; destruct A as [_ A]; now inversion A).
  exists (map (table_curve eng) (d ++ [kv])), y. split; [now apply table_curves_spec|].
  destruct (table_curve_spec eng kv L) as (y1 & E1 & P1). injection E1 as <-. split; [exact P1|].
  assert (Q : foldM (spectra_step oc ob false) [t] ([], None, []) = Ok (map (table_curve eng) (d ++ [kv]), Some y, eng)).
  { cbn [foldM]. unfold spectra_step. rewrite (tally_curves_binned t eng (d ++ [kv]) None B). cbn [bind app]. rewrite app_nil_r.
    unfold table_y. rewrite fold_left_app. reflexivity. }
  unfold plot_spectra. rewrite Q. cbn [bind]. split.
  - intros i e Hi He. apply find_first_non_zero_Some in Hi. rewrite Hi. rewrite py_nth_nat, He. cbn [bind]. unfold mpl_lim.
    assert (Fe : is_finite_f e = true) by (apply (proj1 (Forall_forall _ _) F); eapply nth_error_In; eassumption). rewrite Fe. reflexivity.
  - intros [H|H]; [apply find_first_non_zero_Some in H|apply find_first_non_zero_None in H]; now rewrite H.
Qed.

(** * Error bars *)
Lemma flat_floats xs : flat (TList (map EFloat xs)) = Some xs.
Proof. induction xs as [|x xs IH]; [reflexivity|]. cbn in *. now rewrite IH. Qed.
Definition flat_y (eng rs : list float) : list float := map (fun p => fdiv (fst p) (snd p)) (combine rs (diffs fzero eng)).
Lemma array_div_same y z : length y = length z -> 2 <= length z -> array_div y z = Ok (map (fun p => fdiv (fst p) (snd p)) (combine y z)).
Proof.
  intros L H. destruct y as [|a [|a' y]], z as [|b [|b' z]]; cbn in L, H; try lia. unfold array_div, series_div.
  cbn [length]. injection L as L. cbn [length] in *. assert (E : length y = length z) by lia. rewrite E, Nat.eqb_refl. reflexivity.
Qed.
Lemma tally_curves_point t eng rs us y0 : point_like t eng rs us ->
  tally_curves oc t y0 = Ok (eng, ([DCurve None eng (flat_y eng rs)], Some (flat_y eng rs))).
Proof.
  intros (T1 & T2 & T4 & E & R & U & Lr & Lu & L). unfold tally_curves. rewrite E. unfold calc_bin_width, zlen.
  destruct (Z.ltb_spec (Z.of_nat (length eng)) 2); [lia|]. cbn [bind].
  assert (X1 : Ascii.eqb (t_type t) (chr 49) = false) by (apply Ascii.eqb_neq; exact T1).
  assert (X2 : Ascii.eqb (t_type t) (chr 50) = false) by (apply Ascii.eqb_neq; exact T2).
  assert (X4 : Ascii.eqb (t_type t) (chr 52) = false) by (apply Ascii.eqb_neq; exact T4).
  rewrite X1, X2, X4. cbn [orb]. rewrite R, flat_floats. rewrite array_div_same by (rewrite diffs_length; lia). cbn [bind].
  fold (flat_y eng rs). unfold mpl_curve. unfold flat_y at 1. rewrite map_length, combine_length, diffs_length, Lr, Nat.min_id, Nat.eqb_refl. reflexivity.
Qed.
Lemma slice_to_neg {A} (l : list A) (n : nat) : slice_to (- Z.of_nat (S n)) l = firstn (length l - S n) l.
Proof.
  unfold slice_to, slice, clamp_ix. destruct (Z.ltb_spec (- Z.of_nat (S n)) 0); [|lia]. cbn [skipn].
  f_equal. unfold zlen. lia.
Qed.
Lemma bars_drawn t eng rs us ds xlow : point_like t eng rs us -> plot_spectra oc ob [t] true xlow = Ok ds ->
  exists y ms vs es, In (DCurve None eng y) ds /\ In (DBars ms vs es) ds /\
    (forall i b r, nth_error eng i = Some b -> nth_error rs i = Some r -> nth_error y i = Some (fdiv r (fsub b (lower_edge eng i)))) /\
    length ms = length eng - 1 /\
    forall i a b v0 v1 u, nth_error eng i = Some a -> nth_error eng (S i) = Some b ->
      nth_error y i = Some v0 -> nth_error y (S i) = Some v1 -> nth_error us i = Some u ->
      nth_error ms i = Some (fdiv (fadd a b) (f_of_Z 2)) /\ nth_error vs i = Some v1 /\ nth_error es i = Some (fmul v0 u).
Proof.
  intros P H. pose proof P as (_ & _ & _ & _ & _ & U & Lr & Lu & L).
  assert (Ly : length (flat_y eng rs) = length eng) by (unfold flat_y; rewrite map_length, combine_length, diffs_length; lia).
  destruct (err_abs_total (flat_y eng rs) us) as (abs & Ea & La & Na); [lia|].
  unfold plot_spectra in H. cbn [foldM] in H. unfold spectra_step in H. rewrite (tally_curves_point t eng rs us None P) in H. cbn [bind] in H.
  unfold tally_bars in H. rewrite U, flat_floats, Ea in H. cbn [bind] in H.
  destruct (mpl_bars (calc_mid_points eng) (slice_from 1 (flat_y eng rs)) (slice_to (-1) abs)) as [d|] eqn:D; [|discriminate]. cbn [bind app] in H.
  unfold mpl_bars in D. destruct (negb _) in D; [discriminate|]. destruct (existsb _ _) in D; [discriminate|]. injection D as <-.
  assert (I : exists tl, ds = [DCurve None eng (flat_y eng rs); DBars (calc_mid_points eng) (slice_from 1 (flat_y eng rs)) (slice_to (-1) abs)] ++ tl).
  { destruct xlow as [x|].
    - destruct (mpl_lim x); [|discriminate]. injection H as <-. now eexists.
    - destruct (find_first_non_zero _) as [[|i]|].
      + injection H as <-. now exists [].
      + destruct (py_nth eng _) as [e|]; [|discriminate]. cbn [bind] in H. destruct (mpl_lim e); [|discriminate]. injection H as <-. now eexists.
      + injection H as <-. now exists []. }
  destruct I as [tl ->].
  exists (flat_y eng rs), (calc_mid_points eng), (slice_from 1 (flat_y eng rs)), (slice_to (-1) abs).
  split; [now left|]. split; [right; now left|]. split.
  - intros i b r Hb Hr. unfold flat_y. pose proof (diffs_nth eng fzero i b Hb) as D.
    exact (map_nth_error (fun p => fdiv (fst p) (snd p)) i _ (combine_nth_error _ _ i _ _ Hr D)).
  - split; [apply mids_length|]. intros i a b v0 v1 u Ha Hb H0 H1 Hu. split; [now apply mids_nth|].
    change 1%Z with (Z.of_nat 1). rewrite slice_from_nat. change (-1)%Z with (- Z.of_nat 1)%Z. rewrite slice_to_neg.
    assert (Si : (S i < length eng)%nat) by (apply nth_error_Some; congruence).
    split.
    + destruct (flat_y eng rs); [discriminate|]. exact H1.
    + rewrite nth_error_firstn_lt by lia. now apply Na.
Qed.
(** Error bars on a table of objects: the reader leaves the list of errors empty. *)
Lemma bars_table t eng d kv xlow : binned t eng (d ++ [kv]) -> b_err (t_body t) = TList [] ->
  plot_spectra oc ob [t] true xlow = Err ValueError.
Proof.
  intros B U. pose proof B as (_ & _ & _ & L & A). apply Forall_app in A. destruct A as [_ A]. inversion A as [|? ? Lk _]; subst.
  unfold plot_spectra. cbn [foldM]. unfold spectra_step. rewrite (tally_curves_binned t eng (d ++ [kv]) None B). cbn [bind].
  unfold tally_bars, table_y. rewrite fold_left_app. cbn [fold_left]. rewrite U. change (flat (TList [])) with (Some (@nil float)). cbn [map].
  unfold calc_err_abs. rewrite map_length, combine_length. unfold result_column. rewrite map_length, diffs_length, Lk, Nat.min_id.
  destruct eng; [cbn in L; lia|]. reflexivity.
Qed.
(** A current tally with energy bins only. *)
Lemma current_error t data err xlow : t_type t = "1"%char -> b_ang (t_body t) = None ->
  (exists eng, b_eng (t_body t) = Some eng /\ 2 <= length eng) ->
  plot_spectra oc ob (t :: data) err xlow = Err TypeError.
Proof.
  intros T A (eng & E & L). unfold plot_spectra. cbn [foldM]. unfold spectra_step, tally_curves. rewrite E. unfold calc_bin_width, zlen.
  destruct (Z.ltb_spec (Z.of_nat (length eng)) 2); [lia|]. cbn [bind]. rewrite T, A. cbn. destruct (b_surfaces (t_body t)); reflexivity.
Qed.
(** Nothing to take the limit or the error bars from. *)
Lemma no_objects t eng (err : bool) y0 : binned t eng [] -> tally_curves oc t y0 = Ok (eng, ([], y0)).
Proof.
  intros (T & E & R & L & _). unfold tally_curves. rewrite E. unfold calc_bin_width, zlen.
  destruct (Z.ltb_spec (Z.of_nat (length eng)) 2); [lia|]. cbn [bind].
  destruct T as [T|T]; rewrite T, R; cbn; reflexivity.
Qed.
Lemma nothing_drawn data err xlow : Forall (fun t => exists eng, binned t eng []) data -> xlow = None \/ err = true /\ data <> [] ->
  plot_spectra oc ob data err xlow = Err UnboundLocalError.
Proof.
  intros D C. unfold plot_spectra. destruct err.
  - destruct D as [|t data (eng & B) D]; [destruct C as [->|(_ & C)]; [reflexivity|congruence]|]. cbn [foldM]. unfold spectra_step at 1.
    rewrite (no_objects t eng true None B). reflexivity.
  - destruct C as [->|(C & _)]; [|discriminate].
    enough (G : forall ds e, exists e', foldM (spectra_step oc ob false) data (ds, None, e) = Ok (ds, None, e')).
    { destruct (G [] []) as (e' & ->). reflexivity. }
    induction D as [|t data (eng & B) D IH]; intros ds e; [now exists e|]. cbn [foldM]. unfold spectra_step at 1.
    rewrite (no_objects t eng false None B). cbn [bind]. rewrite !app_nil_r. apply IH.
Qed.
(** Results that are not given per object. *)
Lemma listed_error t data err xlow l eng : t_type t = "2"%char \/ t_type t = "4"%char -> b_eng (t_body t) = Some eng -> 2 <= length eng ->
  b_result (t_body t) = TList l -> plot_spectra oc ob (t :: data) err xlow = Err AttributeError.
Proof.
  intros T E L R. unfold plot_spectra. cbn [foldM]. unfold spectra_step at 1, tally_curves. rewrite E. unfold calc_bin_width, zlen.
  destruct (Z.ltb_spec (Z.of_nat (length eng)) 2); [lia|]. cbn [bind].
  destruct T as [T|T]; rewrite T, R; cbn; reflexivity.
Qed.
End S.
