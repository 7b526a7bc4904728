(** Lemmas about rel_err_hist. *)
From Coq Require Import Sorted Lia.
From Verif Require Import PyBase PyFacts PyFloat FloatFacts PyFrame M_mesh SpecMesh P_mesh P_mcana M_hist SpecHist.
Import ListNotations.

Lemma how_many_filter {A} (P : A -> Prop) (f : A -> bool) l : (forall x, f x = true <-> P x) -> how_many P l (length (filter f l)).
Proof.
  intros H. induction l as [|x l IH]; cbn [filter]; [constructor|]. destruct (f x) eqn:E; cbn [length]; constructor; auto; [now apply H|].
  intros Q. apply H in Q. congruence.
Qed.
Lemma lowest_from r : forall x, is_nan_f x = false -> Forall a_number r -> let m := fold_left (fun a y => if flt y a then y else a) r x in
  fle m x = true /\ Forall (fun v => fle m v = true) r /\ (m = x \/ In m r).
Proof.
  induction r as [|y r IH]; intros x Nx F; cbn [fold_left]; [split; [now apply fle_refl|split; [constructor|now left]]|].
  pose proof (Forall_inv F) as Ny. apply Forall_inv_tail in F. red in Ny. destruct (flt y x) eqn:E.
  - destruct (IH y Ny F) as (A & B & C). split; [|split].
    + apply (fle_trans _ y); [exact A|now apply flt_fle].
    + constructor; auto.
    + right. destruct C as [C|C]; [left; now symmetry|now right].
  - destruct (IH x Nx F) as (A & B & C). split; [exact A|]. split.
    + constructor; [|exact B]. apply (fle_trans _ x); [exact A|]. rewrite fle_not_flt, E by assumption. reflexivity.
    + destruct C as [C|C]; [now left|right; now right].
Qed.
Lemma highest_from r : forall x, is_nan_f x = false -> Forall a_number r -> let m := fold_left (fun a y => if flt a y then y else a) r x in
  fle x m = true /\ Forall (fun v => fle v m = true) r /\ (m = x \/ In m r).
Proof.
  induction r as [|y r IH]; intros x Nx F; cbn [fold_left]; [split; [now apply fle_refl|split; [constructor|now left]]|].
  pose proof (Forall_inv F) as Ny. apply Forall_inv_tail in F. red in Ny. destruct (flt x y) eqn:E.
  - destruct (IH y Ny F) as (A & B & C). split; [|split].
    + apply (fle_trans _ y); [now apply flt_fle|exact A].
    + constructor; auto.
    + right. destruct C as [C|C]; [left; now symmetry|now right].
  - destruct (IH x Nx F) as (A & B & C). split; [exact A|]. split.
    + constructor; [|exact B]. apply (fle_trans _ x); [|exact A]. rewrite fle_not_flt, E by assumption. reflexivity.
    + destruct C as [C|C]; [now left|right; now right].
Qed.
Lemma range_spec l : Forall a_number l -> fle (lowest l) (highest l) = true /\ Forall (fun v => fle (lowest l) v = true /\ fle v (highest l) = true) l /\
  (l = [] \/ In (lowest l) l /\ In (highest l) l).
Proof.
  intros F. destruct l as [|x r]; [split; [reflexivity|split; [constructor|now left]]|]. pose proof (Forall_inv F) as Nx. pose proof (Forall_inv_tail F) as Fr.
  destruct (lowest_from r x Nx Fr) as (A & B & C). destruct (highest_from r x Nx Fr) as (A' & B' & C'). cbn [lowest highest].
  split; [eapply fle_trans; eassumption|]. split.
  - constructor; [now split|]. apply Forall_forall. intros v Hv. rewrite Forall_forall in B, B'. split; auto.
  - right. split; [clear - C; destruct C as [C|C]; [left; symmetry; exact C|right; exact C]|clear - C'; destruct C' as [C|C]; [left; symmetry; exact C|right; exact C]].
Qed.

Lemma counts_cons edges v vals : list_sum (bin_counts edges (v :: vals)) = list_sum (bin_counts edges [v]) + list_sum (bin_counts edges vals).
Proof.
  induction edges as [|lo [|hi more] IH]; [reflexivity|reflexivity|].
  change (list_sum (bin_counts (lo :: hi :: more) (v :: vals))) with (length (filter (fun v => fle lo v && match more with [] => fle v hi | _ :: _ => flt v hi end) (v :: vals)) + list_sum (bin_counts (hi :: more) (v :: vals))).
  change (list_sum (bin_counts (lo :: hi :: more) [v])) with (length (filter (fun v => fle lo v && match more with [] => fle v hi | _ :: _ => flt v hi end) [v]) + list_sum (bin_counts (hi :: more) [v])).
  change (list_sum (bin_counts (lo :: hi :: more) vals)) with (length (filter (fun v => fle lo v && match more with [] => fle v hi | _ :: _ => flt v hi end) vals) + list_sum (bin_counts (hi :: more) vals)).
  rewrite IH. cbn [filter]. destruct (fle lo v && match more with [] => fle v hi | _ :: _ => flt v hi end)%bool; cbn [length]; lia.
Qed.
Lemma counts_below edges v : forall e, StronglySorted (fun a b => fle a b = true) (e :: edges) -> flt v e = true -> list_sum (bin_counts (e :: edges) [v]) = 0.
Proof.
  induction edges as [|hi more IH]; intros e S L; [reflexivity|].
  change (list_sum (bin_counts (e :: hi :: more) [v])) with (length (filter (fun v => fle e v && match more with [] => fle v hi | _ :: _ => flt v hi end) [v]) + list_sum (bin_counts (hi :: more) [v])).
  apply StronglySorted_inv in S. destruct S as [S F]. rewrite IH; [|exact S|exact (flt_fle_trans _ _ _ L (Forall_inv F))].
  cbn [filter]. assert (Q : fle e v = false) by (apply fle_or_flt; [exact (flt_nan_r _ _ L)|exact (flt_nan_l _ _ L)|exact L]). rewrite Q. reflexivity.
Qed.
Lemma counts_one mid v last : forall e, StronglySorted (fun a b => fle a b = true) (e :: mid ++ [last]) -> fle e v = true -> fle v last = true ->
  list_sum (bin_counts (e :: mid ++ [last]) [v]) = 1.
Proof.
  induction mid as [|hi more IH]; intros e S L U.
  - cbn. now rewrite L, U.
  - cbn [app] in *. destruct (more ++ [last]) as [|h2 rest] eqn:Q; [destruct more; discriminate|].
    change (list_sum (bin_counts (e :: hi :: h2 :: rest) [v])) with (length (filter (fun v => fle e v && flt v hi) [v]) + list_sum (bin_counts (hi :: h2 :: rest) [v])).
    apply StronglySorted_inv in S. destruct S as [S F]. cbn [filter]. rewrite L. cbn [andb]. destruct (flt v hi) eqn:E; cbn [length].
    + rewrite counts_below; [reflexivity|exact S|exact E].
    + rewrite IH; [reflexivity|exact S| |exact U]. rewrite fle_not_flt, E; [reflexivity|exact (fle_nan_r _ _ (Forall_inv F))|exact (fle_nan_r _ _ L)].
Qed.
Lemma counts_all mid last e vals : StronglySorted (fun a b => fle a b = true) (e :: mid ++ [last]) -> Forall (fun v => fle e v = true /\ fle v last = true) vals ->
  list_sum (bin_counts (e :: mid ++ [last]) vals) = length vals.
Proof.
  intros S. induction 1 as [|v vals [L U] F IH].
  - clear. set (edges := e :: mid ++ [last]). induction edges as [|lo [|hi more] IH]; [reflexivity|reflexivity|exact IH].
  - rewrite counts_cons, IH, counts_one by assumption. reflexivity.
Qed.
Lemma counts_length edges vals : length (bin_counts edges vals) = length edges - 1.
Proof. induction edges as [|lo [|hi more] IH]; [reflexivity|reflexivity|]. cbn [bin_counts length] in *. rewrite IH. cbn [length]. lia. Qed.
Lemma counts_nth edges vals : forall i lo hi n, nth_error edges i = Some lo -> nth_error edges (S i) = Some hi -> nth_error (bin_counts edges vals) i = Some n ->
  how_many (in_bin lo hi (Nat.eqb (S (S i)) (length edges))) vals n.
Proof.
  induction edges as [|e [|h more] IH]; intros i lo hi n A B C; [destruct i; discriminate|destruct i as [|[|i]]; discriminate|].
  destruct i as [|i].
  - injection A as ->. injection B as ->. cbn [bin_counts nth_error] in C. injection C as <-. apply how_many_filter. intros v. unfold in_bin.
    destruct more; cbn [length Nat.eqb]; rewrite Bool.andb_true_iff; reflexivity.
  - exact (IH i lo hi n A B C).
Qed.
Section S.
  Variable bin_edges : bool -> float -> float -> list float.
  Lemma hist_spec d c : covers bin_edges -> has d "rel_err" c -> Forall (fun v => is_nan_f v = true \/ is_finite_f v = true) (c_vals c) ->
    exists edges counts, rel_err_hist bin_edges d = Ok (edges, counts) /\ length edges = 16 /\ length counts = 15 /\
      how_many a_number (c_vals c) (list_sum counts) /\
      (forall i lo hi n, nth_error edges i = Some lo -> nth_error edges (S i) = Some hi -> nth_error counts i = Some n ->
         how_many (in_bin lo hi (Nat.eqb i 14)) (filter (fun v => negb (is_nan_f v)) (c_vals c)) n).
  Proof.
    intros Cv H F. unfold rel_err_hist. apply has_col in H. rewrite H. cbn [bind]. set (vals := filter (fun v => negb (is_nan_f v)) (c_vals c)).
    assert (Nv : Forall a_number vals).
    { apply Forall_forall. intros v Hv. apply filter_In in Hv. destruct Hv as [_ Hv]. now apply Bool.negb_true_iff in Hv. }
    assert (Fv : Forall (fun v => is_finite_f v = true) vals).
    { apply Forall_forall. intros v Hv. apply filter_In in Hv. destruct Hv as [I Hv]. apply Bool.negb_true_iff in Hv. rewrite Forall_forall in F. destruct (F v I); [congruence|assumption]. }
    destruct (range_spec vals Nv) as (L & B & E).
    assert (is_finite_f (lowest vals) = true /\ is_finite_f (highest vals) = true) as [Fl Fh].
    { rewrite Forall_forall in Fv. destruct E as [->|[E1 E2]]; [split; reflexivity|split; auto]. }
    rewrite Fl, Fh. cbn [negb andb].
    destruct (Cv (c_single c) _ _ Fl Fh L) as (first & mid & last & Q & Lm & S & Lo & Hi). eexists _, _. split; [reflexivity|]. rewrite Q in S |- *.
    assert (Le : length (first :: mid ++ [last]) = 16) by (cbn; rewrite app_length, Lm; reflexivity).
    split; [exact Le|]. split; [rewrite counts_length, Le; reflexivity|]. split.
    - rewrite counts_all; [|exact S|]; cycle 1.
      { revert B. apply Forall_impl. intros v [A1 A2]. split; eapply fle_trans; eassumption. }
      unfold vals. apply how_many_filter. intros v. unfold a_number. apply Bool.negb_true_iff.
    - intros i lo hi n A1 A2 A3. pose proof (counts_nth _ vals i lo hi n A1 A2 A3) as X. rewrite Le in X. exact X.
  Qed.
  Lemma hist_no_column d : (forall c, ~ has d "rel_err" c) -> rel_err_hist bin_edges d = Err KeyError.
  Proof.
    intros H. unfold rel_err_hist. destruct (frame_col d (lit "rel_err")) as [c|e] eqn:E; [exfalso; apply (H c); now apply has_col|].
    unfold frame_col, dict_index in E. destruct (dict_get str_eqb _ _); [discriminate|]. now injection E as <-.
  Qed.
End S.
(** Edges that cover the numbers. *)
Lemma covers_ex : covers (fun _ lo hi => lo :: repeat hi 15).
Proof.
  intros b lo hi Fl Fh L. exists lo, (repeat hi 14), hi. split; [reflexivity|]. split; [reflexivity|].
  assert (Nl : is_nan_f lo = false) by exact (fle_nan_l _ _ L). assert (Nh : is_nan_f hi = false) by exact (fle_nan_r _ _ L).
  assert (Lh : fle hi hi = true) by now apply fle_refl. assert (Ll : fle lo lo = true) by now apply fle_refl.
  split; [|split; assumption]. cbn [repeat]. repeat (constructor; [|repeat (constructor; [assumption|]); constructor]). constructor.
Qed.
