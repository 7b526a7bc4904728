(** Lemmas about the FISPACT fluxes writer. *)
From Coq Require Import Floats.SpecFloat Reals Lra Lia ZArith NArith.
From Verif Require Import PyBase PyFloat PyFs SpecStr PyFacts M_util SpecUtil P_util FloatFacts FloatR FloatZ PyIo M_fluxes M_ptrac SpecFluxes.

Lemma last_nth {A} (l : list A) d : l <> [] -> nth_error l (length l - 1) = Some (last l d).
Proof.
  induction l as [|a l IH]; [easy|]. intros _. destruct l as [|b l]; [reflexivity|].
  cbn [length last]. replace (S (S (length l)) - 1) with (S (length l)) by lia. cbn [nth_error].
  specialize (IH ltac:(discriminate)). cbn [length] in IH. replace (S (length l) - 1) with (length l) in IH by lia. exact IH.
Qed.

Lemma bins_from_In n gs e i :
  In i (bins_from n gs e) <-> exists k hi lo, i = n + k /\ nth_error gs k = Some hi /\ nth_error gs (S k) = Some lo /\
    fle e hi = true /\ flt lo e = true.
Proof.
  revert n. induction gs as [|a gs IH]; intros n; cbn [bins_from].
  - split; [easy|]. intros (k & hi & lo & _ & H & _). now destruct k.
  - destruct gs as [|b gs].
    { split; [easy|]. intros (k & hi & lo & _ & _ & H & _). now destruct k. }
    assert (Hr : (exists k hi lo, i = S n + k /\ nth_error (b :: gs) k = Some hi /\ nth_error (b :: gs) (S k) = Some lo /\ fle e hi = true /\ flt lo e = true)
      \/ (i = n /\ fle e a && flt b e = true) <-> (exists k hi lo, i = n + k /\ nth_error (a :: b :: gs) k = Some hi /\ nth_error (a :: b :: gs) (S k) = Some lo /\
    fle e hi = true /\ flt lo e = true)).
    { split.
      - intros [(k & hi & lo & -> & H1 & H2 & H3 & H4)|(-> & H)].
        + exists (S k), hi, lo. repeat split; try assumption. lia.
        + apply andb_prop in H as [H1 H2]. exists 0, a, b. repeat split; try assumption. lia.
      - intros (k & hi & lo & -> & H1 & H2 & H3 & H4). destruct k as [|k].
        + right. cbn in H1, H2. injection H1 as <-. injection H2 as <-. rewrite H3, H4. split; [lia|reflexivity].
        + left. exists k, hi, lo. repeat split; try assumption. lia. }
    rewrite <- Hr. specialize (IH (S n)). rewrite <- IH. destruct (fle e a && flt b e); cbn [In]; intuition (try discriminate; auto).
Qed.
Lemma bins_in gs e i : In i (bins_from 0 gs e) <-> exists hi lo, nth_error gs i = Some hi /\ nth_error gs (S i) = Some lo /\
    fle e hi = true /\ flt lo e = true.
Proof.
  rewrite bins_from_In. split.
  - intros (k & hi & lo & -> & H). now exists hi, lo.
  - intros (hi & lo & H). exists i, hi, lo. now split.
Qed.

Lemma nth_lt {A} (l : list A) i x : nth_error l i = Some x -> i < length l.
Proof. intros H. apply nth_error_Some. congruence. Qed.

(** Descending boundaries: an energy between the ends is in some bin. *)
Lemma some_bin gs e : is_nan_f e = false -> Forall (fun g => is_nan_f g = false) gs ->
  forall g0, nth_error gs 0 = Some g0 -> fle e g0 = true ->
  forall gl, nth_error gs (length gs - 1) = Some gl -> flt gl e = true ->
  bins_from 0 gs e <> [].
Proof.
  intros He Hn.
  assert (G : forall n g0, nth_error gs 0 = Some g0 -> fle e g0 = true -> forall gl, nth_error gs (length gs - 1) = Some gl -> flt gl e = true ->
     bins_from n gs e <> []).
  { induction Hn as [|a gs Ha Hn IH]; intros n g0 H0 H1 gl H2 H3; [discriminate|].
    cbn in H0. injection H0 as <-. destruct gs as [|b gs].
    - cbn in H2. injection H2 as <-. apply fle_key in H1 as (_ & _ & H1). apply flt_key in H3 as (_ & _ & H3). contradiction.
    - cbn [bins_from]. rewrite H1. destruct (flt b e) eqn:E; cbn [andb]; [discriminate|].
      apply (IH (S n) b) with gl.
      + reflexivity.
      + inversion Hn; subst. rewrite fle_not_flt by assumption. now rewrite E.
      + rewrite <- H2. cbn [length]. replace (S (S (length gs)) - 1) with (S (S (length gs) - 1)) by lia. reflexivity.
      + assumption. }
  intros g0 H0 H1 gl H2 H3. now apply (G 0 g0 H0 H1 gl).
Qed.

Lemma descending_nan gs : descending gs -> 2 <= length gs -> Forall (fun g => is_nan_f g = false) gs.
Proof.
  intros Hd Hl. apply Forall_forall. intros g Hg. apply In_nth_error in Hg as [i Hi].
  pose proof (nth_lt _ _ _ Hi) as Hlt. destruct (Nat.eq_dec i 0) as [->|Hi0].
  - destruct (nth_error gs 1) as [b|] eqn:E1; [|apply nth_error_None in E1; lia].
    eapply flt_nan_r. apply (Hd 0 1 g b); [lia|assumption|assumption].
  - destruct (nth_error gs 0) as [b|] eqn:E1; [|apply nth_error_None in E1; lia].
    eapply flt_nan_l. apply (Hd 0 i b g); [lia|assumption|assumption].
Qed.

Lemma flt_fle_contra a b : flt a b = true -> fle b a = true -> False.
Proof. intros H1 H2. apply flt_key in H1 as (_ & _ & H1). apply fle_key in H2 as (_ & _ & H2). contradiction. Qed.

Lemma group_of_fun gs e i j : descending gs -> 2 <= length gs -> group_of gs e i -> group_of gs e j -> i = j.
Proof.
  intros Hd Hl.
  (* boundary comparison *)
  assert (Hle : forall k m a b, k <= m -> nth_error gs k = Some a -> nth_error gs m = Some b -> fle b a = true).
  { intros k m a b Hkm Ha Hb. destruct (Nat.eq_dec k m) as [->|].
    - rewrite Ha in Hb. injection Hb as <-. apply fle_refl.
      pose proof (descending_nan gs Hd Hl) as Hn. rewrite Forall_forall in Hn. apply Hn. eapply nth_error_In; eassumption.
    - apply flt_fle. apply (Hd k m a b); [lia|assumption|assumption]. }
  assert (W : forall i j, group_of gs e i -> group_of gs e j -> i < j -> False).
  { intros i' j' Hi Hj Hij.
    assert (B1 : exists lo, nth_error gs (S i') = Some lo /\ flt lo e = true).
    { destruct Hi as [g H1 H2|g H1 H2|i' hi lo H1 H2 H3 H4].
      - destruct (nth_error gs 1) as [b|] eqn:E; [|apply nth_error_None in E; lia]. exists b. split; [reflexivity|].
        eapply flt_trans; [|exact H2]. apply (Hd 0 1 g b); [lia|assumption|assumption].
      - exfalso. destruct Hj as [g' H1' H2'|g' H1' H2'|j' hi lo H1' H2' H3 H4]; [lia|lia|].
        pose proof (nth_lt _ _ _ H2'). lia.
      - now exists lo. }
    assert (B2 : exists hi, nth_error gs j' = Some hi /\ fle e hi = true).
    { destruct Hj as [g H1 H2|g H1 H2|j' hi lo H1 H2 H3 H4].
      - lia.
      - destruct (nth_error gs (length gs - 2)) as [b|] eqn:E; [|apply nth_error_None in E; lia]. exists b. split; [reflexivity|].
        eapply fle_trans; [exact H2|]. apply (Hle (length gs - 2) (length gs - 1)); [lia|assumption|assumption].
      - now exists hi. }
    destruct B1 as (lo & L1 & L2), B2 as (hi & M1 & M2).
    apply (flt_fle_contra lo e L2). eapply fle_trans; [exact M2|]. apply (Hle (S i') j'); [lia|assumption|assumption]. }
  intros Hi Hj. destruct (Nat.lt_total i j) as [H|[H|H]]; [destruct (W i j Hi Hj H)|assumption|destruct (W j i Hj Hi H)].
Qed.

Lemma energy_value_is a e : energy_value a = Ok e <-> energy_is a e.
Proof.
  unfold energy_value, energy_is. split.
  - destruct a as [x|s|]; [intros [= ->]; now left| |discriminate]. destruct (py_float s) as [x|] eqn:E; [|discriminate].
    intros [= ->]. right. now exists s.
  - intros [->|(s & -> & H)]; [reflexivity|]. now rewrite H.
Qed.
Lemma energy_value_err a x : energy_value a = Err x -> x = ValueError /\ forall e, ~ energy_is a e.
Proof.
  intros H. split.
  - destruct a as [y|s|]; cbn in H; [discriminate| |now injection H as <-]. destruct (py_float s); [discriminate|now injection H as <-].
  - intros e He. apply energy_value_is in He. congruence.
Qed.

Lemma group_pos_eq gs a e g0 : nth_error gs 0 = Some g0 -> energy_is a e ->
  get_group_pos (Some gs) a = if flt g0 e then Ok 0%Z else if fle e (last gs g0) then Ok (zlen gs - 2)%Z
     else match bins_from 0 gs e with i :: _ => Ok (Z.of_nat i) | [] => Ok (-1)%Z end.
Proof.
  intros H0 He. destruct gs as [|g gs]; [discriminate|]. cbn in H0. injection H0 as ->.
  apply energy_value_is in He. unfold get_group_pos. rewrite He. reflexivity.
Qed.

Lemma group_pos_spec gs a e : descending gs -> 2 <= length gs -> energy_is a e -> is_nan_f e = false ->
  exists i, get_group_pos (Some gs) a = Ok (Z.of_nat i) /\ S i < length gs /\ group_of gs e i /\
    forall j, group_of gs e j -> j = i.
Proof.
  intros Hd Hl He Hn.
  assert (G : exists i, get_group_pos (Some gs) a = Ok (Z.of_nat i) /\ S i < length gs /\ group_of gs e i).
  { destruct (nth_error gs 0) as [g0|] eqn:E0; [|apply nth_error_None in E0; lia].
    rewrite (group_pos_eq gs a e g0 E0 He).
    pose proof (descending_nan gs Hd Hl) as Hnn.
    assert (Hl0 : nth_error gs (length gs - 1) = Some (last gs g0)) by (apply last_nth; intros ->; cbn in Hl; lia).
    destruct (flt g0 e) eqn:E1.
    { exists 0. split; [reflexivity|]. split; [lia|]. now apply go_above with g0. }
    destruct (fle e (last gs g0)) eqn:E2.
    { exists (length gs - 2). split; [unfold zlen; f_equal; lia|]. split; [lia|]. now apply go_below with (last gs g0). }
    assert (Hg : forall i g, nth_error gs i = Some g -> is_nan_f g = false).
    { intros i g Hi. rewrite Forall_forall in Hnn. apply Hnn. eapply nth_error_In; eassumption. }
    assert (E1' : fle e g0 = true) by (rewrite fle_not_flt; [now rewrite E1|assumption|now apply (Hg 0)]).
    assert (E2' : flt (last gs g0) e = true).
    { rewrite fle_not_flt in E2; [|assumption|now apply (Hg (length gs - 1))]. now apply negb_false_iff in E2. }
    destruct (bins_from 0 gs e) as [|i l] eqn:Eb.
    { exfalso. now apply (some_bin gs e Hn Hnn g0 E0 E1' _ Hl0 E2'). }
    exists i. split; [reflexivity|].
    assert (Hi : In i (bins_from 0 gs e)) by (rewrite Eb; now left).
    apply bins_in in Hi as (hi & lo & H1 & H2 & H3 & H4). split; [apply (nth_lt _ _ _ H2)|]. now apply go_bin with hi lo. }
  destruct G as (i & H1 & H2 & H3). exists i. repeat split; try assumption.
  intros j Hj. now apply (group_of_fun gs e).
Qed.

Lemma group_pos_err gs a x : get_group_pos gs a = Err x <->
  x = ValueError /\ (gs = None \/ gs = Some [] \/ forall e, ~ energy_is a e).
Proof.
  split.
  - destruct gs as [[|g gs]|]; cbn [get_group_pos]; try (intros [= <-]; split; [reflexivity|tauto]).
    destruct (energy_value a) as [e|y] eqn:E; cbn [bind].
    + destruct (flt g e); [discriminate|]. destruct (fle e _); [discriminate|]. destruct (bins_from 0 _ e); discriminate.
    + intros [= <-]. apply energy_value_err in E as [E1 E2]. split; [exact E1|]. right. right. exact E2.
  - intros (-> & [->|[->|H]]); [reflexivity|reflexivity|]. destruct gs as [[|g gs]|]; [reflexivity| |reflexivity].
    cbn [get_group_pos]. destruct (energy_value a) as [e|y] eqn:E; cbn [bind].
    + apply energy_value_is in E. now apply H in E.
    + apply energy_value_err in E as [-> _]. reflexivity.
Qed.

Lemma bins_nan n gs e : is_nan_f e = true -> bins_from n gs e = [].
Proof.
  intros H. revert n. induction gs as [|a gs IH]; intros n; [reflexivity|]. destruct gs as [|b gs]; [reflexivity|].
  cbn [bins_from]. replace (fle e a) with false; [apply IH|]. symmetry. unfold fle, SFleb. now rewrite SFcompare_nan_l.
Qed.
Lemma group_pos_nan gs a e : gs <> [] -> energy_is a e -> is_nan_f e = true -> get_group_pos (Some gs) a = Ok (-1)%Z.
Proof.
  intros Hg He Hn. destruct (nth_error gs 0) as [g0|] eqn:E0; [|destruct gs; [easy|discriminate]].
  rewrite (group_pos_eq gs a e g0 E0 He).
  replace (flt g0 e) with false by (symmetry; unfold flt, SFltb; now rewrite SFcompare_nan_r).
  replace (fle e _) with false by (symmetry; unfold fle, SFleb; now rewrite SFcompare_nan_l).
  now rewrite bins_nan.
Qed.
Lemma group_pos_never_last gs a i : 2 <= length gs -> get_group_pos (Some gs) a = Ok i -> (i < zlen gs - 1)%Z.
Proof.
  intros Hl H. destruct gs as [|g gs]; [cbn in Hl; lia|]. cbn [get_group_pos] in H.
  destruct (energy_value a) as [e|y] eqn:E; cbn [bind] in H; [|discriminate].
  assert (Hz : (2 <= zlen (g :: gs))%Z) by (unfold zlen; lia).
  destruct (flt g e); [injection H as <-; lia|]. destruct (fle e _);
    [apply (f_equal (fun r => match r with Ok z => z | Err _ => 0%Z end)) in H; cbv beta iota in H; lia|].
  destruct (bins_from 0 (g :: gs) e) as [|j l] eqn:Eb; injection H as <-; [lia|].
  assert (Hi : In j (bins_from 0 (g :: gs) e)) by (rewrite Eb; now left).
  apply bins_in in Hi as (hi & lo & _ & H2 & _). apply nth_lt in H2. unfold zlen. lia.
Qed.

(** create_fluxes_data *)
Lemma removelast_skipn {A} (n : nat) (l : list A) (d : A) : n <= length l -> removelast (skipn n (l ++ [d])) = skipn n l.
Proof. intros H. rewrite skipn_app. replace (n - length l) with 0 by lia. cbn [skipn]. now rewrite removelast_app, app_nil_r by discriminate. Qed.
Lemma nth_repeat_some {A} (x : A) n i y : nth_error (repeat x n) i = Some y -> y = x.
Proof. intros H. apply nth_error_In in H. now apply repeat_spec in H. Qed.

Lemma create_eq {A} (gs : list A) (i : nat) : i < length gs ->
  create_fluxes_data (Some gs) (Z.of_nat i) = Ok (repeat fzero i ++ fone :: repeat fzero (length gs - 1 - i) ++ [fone]).
Proof.
  intros Hi. unfold create_fluxes_data.
  destruct (Z.leb_spec 0 (Z.of_nat i)); [|lia]. destruct (Z.ltb_spec (Z.of_nat i) (zlen gs)); [|unfold zlen in *; lia]. cbn [andb].
  f_equal. rewrite Nat2Z.id.
  replace (length gs + 1) with (i + (S (length gs - 1 - i) + 1)) by lia. rewrite !repeat_app.
  replace (S i) with (i + 1) by lia.
  rewrite firstn_app, firstn_all2, repeat_length, Nat.sub_diag by (rewrite repeat_length; lia). cbn [firstn]. rewrite app_nil_r.
  rewrite skipn_app, skipn_all2 by (rewrite repeat_length; lia). rewrite repeat_length. replace (i + 1 - i) with 1 by lia.
  change (skipn 1 (repeat fzero (S (length gs - 1 - i)) ++ repeat fzero 1)) with (repeat fzero (length gs - 1 - i) ++ [fzero]).
  set (r := repeat fzero (length gs - 1 - i)).
  replace (repeat fzero i ++ fone :: [] ++ r ++ [fzero]) with ((repeat fzero i ++ fone :: r) ++ [fzero]) by (rewrite <- app_assoc; reflexivity).
  rewrite removelast_last, <- app_assoc. reflexivity.
Qed.
Lemma one_hot_list n i : i < n -> one_hot n i (repeat fzero i ++ fone :: repeat fzero (n - 1 - i) ++ [fone]).
Proof.
  intros Hi. split.
  - rewrite app_length, repeat_length. cbn [length]. rewrite app_length, repeat_length. cbn [length]. lia.
  - intros j x Hj. destruct (Nat.lt_ge_cases j i) as [H1|H1].
    + rewrite nth_error_app1 in Hj by (rewrite repeat_length; lia). apply nth_repeat_some in Hj as ->.
      destruct (Nat.eqb_spec j i); [lia|]. destruct (Nat.eqb_spec j n); [lia|]. reflexivity.
    + rewrite nth_error_app2 in Hj by (rewrite repeat_length; lia). rewrite repeat_length in Hj.
      destruct (Nat.eqb_spec j i) as [->|Hji].
      { rewrite Nat.sub_diag in Hj. injection Hj as <-. reflexivity. }
      replace (j - i) with (S (j - i - 1)) in Hj by lia. cbn [nth_error] in Hj.
      destruct (Nat.lt_ge_cases j n) as [H2|H2].
      * rewrite nth_error_app1 in Hj by (rewrite repeat_length; lia). apply nth_repeat_some in Hj as ->.
        destruct (Nat.eqb_spec j n); [lia|]. reflexivity.
      * rewrite nth_error_app2 in Hj by (rewrite repeat_length; lia). rewrite repeat_length in Hj.
        destruct (Nat.eqb_spec j n) as [->|Hjn].
        -- replace (n - i - 1 - (n - 1 - i)) with 0 in Hj by lia. injection Hj as <-. reflexivity.
        -- apply nth_lt in Hj. cbn in Hj. lia.
Qed.
Lemma one_hot_fun n i l l' : one_hot n i l -> one_hot n i l' -> l = l'.
Proof.
  intros [H1 H2] [H3 H4]. apply nth_ext with fzero fzero; [congruence|]. intros k Hk.
  pose proof (nth_error_nth' l fzero Hk) as E1. rewrite H1, <- H3 in Hk. pose proof (nth_error_nth' l' fzero Hk) as E2.
  now rewrite (H2 _ _ E1), (H4 _ _ E2).
Qed.
Lemma create_spec {A} (gs : list A) (z : Z) l :
  create_fluxes_data (Some gs) z = Ok l <-> exists i, z = Z.of_nat i /\ i < length gs /\ one_hot (length gs) i l.
Proof.
  split.
  - intros H. assert (Hz : (0 <= z < zlen gs)%Z).
    { unfold create_fluxes_data in H. destruct (Z.leb_spec 0 z); [|discriminate]. destruct (Z.ltb_spec z (zlen gs)); [lia|discriminate]. }
    exists (Z.to_nat z). assert (Hi : Z.to_nat z < length gs) by (unfold zlen in Hz; lia).
    split; [lia|]. split; [assumption|]. rewrite <- (Z2Nat.id z) in H by lia. rewrite create_eq in H by assumption.
    injection H as <-. now apply one_hot_list.
  - intros (i & -> & Hi & H). rewrite create_eq by assumption. f_equal. eapply one_hot_fun; [now apply one_hot_list|assumption].
Qed.
Lemma create_err {A} (gs : option (list A)) (z : Z) x :
  create_fluxes_data gs z = Err x <-> x = ValueError /\ (gs = None \/ exists l, gs = Some l /\ ~ (0 <= z < Z.of_nat (length l))%Z).
Proof.
  unfold create_fluxes_data. destruct gs as [l|].
  - destruct (Z.leb_spec 0 z); destruct (Z.ltb_spec z (zlen l)); cbn [andb]; unfold zlen in *.
    + split; [discriminate|]. intros (_ & [|(l' & [= <-] & H')]); [discriminate|lia].
    + split; [intros [= <-]; split; [reflexivity|right; exists l; split; [reflexivity|lia]]|now intros (-> & _)].
    + split; [intros [= <-]; split; [reflexivity|right; exists l; split; [reflexivity|lia]]|now intros (-> & _)].
    + split; [intros [= <-]; split; [reflexivity|right; exists l; split; [reflexivity|lia]]|now intros (-> & _)].
  - split; [intros [= <-]; split; [reflexivity|now left]|now intros (-> & _)].
Qed.

(** Tables *)
Fixpoint desc_b (l : list float) : bool :=
  match l with a :: ((b :: _) as r) => flt b a && desc_b r | _ => true end.
Lemma desc_b_spec l : desc_b l = true -> descending l.
Proof.
  intros H. assert (G : forall i a b, nth_error l i = Some a -> nth_error l (S i) = Some b -> flt b a = true).
  { induction l as [|x l IH]; intros i a b Ha Hb; [destruct i; discriminate|]. destruct l as [|y l]; [destruct i; [discriminate|destruct i; discriminate]|].
    cbn [desc_b] in H. apply andb_prop in H as [H1 H2]. destruct i as [|i]; [cbn in Ha, Hb; congruence|]. now apply (IH H2 i). }
  intros i j a b Hij Ha Hb. revert b Hb. induction Hij as [|j Hij IH]; intros b Hb; [now apply (G i)|].
  destruct (nth_error l j) as [c|] eqn:E.
  - eapply flt_trans; [|apply (IH c eq_refl)]. now apply (G j).
  - apply nth_error_None in E. apply nth_lt in Hb. lia.
Qed.
Definition ladder_b (n : nat) (gs : list float) : bool :=
  (length gs =? n) && desc_b gs && forallb (fun g => flt (f_of_Z 0) g && is_finite_f g) gs.
Lemma ladder_of n top bottom gs : ladder_b n gs = true -> nth_error gs 0 = Some top -> nth_error gs (n - 1) = Some bottom -> ladder n top bottom gs.
Proof.
  unfold ladder_b. intros H H0 H1. apply andb_prop in H as [H H4]. apply andb_prop in H as [H2 H3]. apply Nat.eqb_eq in H2.
  repeat split; [assumption|now apply desc_b_spec|assumption|assumption|].
  apply Forall_forall. intros g Hg. rewrite forallb_forall in H4. apply H4 in Hg. now apply andb_prop in Hg.
Qed.
Lemma ladder_709 : ladder 709 (fdec 1 3) (fdec 105 (-13)) gs_709.
Proof. apply ladder_of; vm_compute; reflexivity. Qed.
Lemma ladder_162 : ladder 162 (fdec 1 9) (fdec 1 4) gs_162.
Proof. apply ladder_of; vm_compute; reflexivity. Qed.
Lemma struct_cases g gs : get_group_struct g = Some gs <-> (g = Some (lit "709") /\ gs = gs_709) \/ (g = Some (lit "162") /\ gs = gs_162).
Proof.
  split.
  - destruct g as [g|]; [|discriminate]. unfold get_group_struct. destruct (str_eqb g (lit "709")) eqn:E1.
    + apply str_eqb_eq in E1 as ->. intros [= <-]. now left.
    + destruct (str_eqb g (lit "162")) eqn:E2; [|discriminate]. apply str_eqb_eq in E2 as ->. intros [= <-]. now right.
  - intros [[-> ->]|[-> ->]]; reflexivity.
Qed.
Lemma struct_spec : (exists gs, get_group_struct (Some (lit "709")) = Some gs /\ ladder 709 (fdec 1 3) (fdec 105 (-13)) gs) /\
  (exists gs, get_group_struct (Some (lit "162")) = Some gs /\ ladder 162 (fdec 1 9) (fdec 1 4) gs) /\
  (forall g, g <> Some (lit "709") -> g <> Some (lit "162") -> get_group_struct g = None).
Proof.
  split; [exists gs_709; split; [reflexivity|apply ladder_709]|]. split; [exists gs_162; split; [reflexivity|apply ladder_162]|].
  intros g H1 H2. destruct (get_group_struct g) as [gs|] eqn:E; [|reflexivity]. apply struct_cases in E as [[-> _]|[-> _]]; easy.
Qed.
Lemma check_struct_spec g : check_group_struct g = true <-> exists gs, get_group_struct g = Some gs.
Proof.
  destruct g as [g|]; cbn [check_group_struct].
  - cbn [existsb]. unfold get_group_struct. destruct (str_eqb g (lit "709")); [split; [eauto|reflexivity]|].
    destruct (str_eqb g (lit "162")); [split; [eauto|reflexivity]|]. split; [discriminate|now intros (gs & H)].
  - split; [discriminate|now intros (gs & H)].
Qed.

(** convert *)
Lemma ascending_spec l : ascending_np l = true <-> nondecreasing l.
Proof.
  unfold nondecreasing. induction l as [|a l IH]; [split; [intros _ i x y H; destruct i; discriminate|reflexivity]|].
  destruct l as [|b l]; [split; [intros _ i x y _ H; destruct i; [discriminate|destruct i; discriminate]|reflexivity]|].
  cbn [ascending_np]. rewrite andb_true_iff, IH. split.
  - intros [H1 H2] i x y Hx Hy. destruct i as [|i]; [cbn in Hx, Hy; congruence|]. now apply (H2 i).
  - intros H. split; [now apply (H 0)|]. intros i x y Hx Hy. now apply (H (S i)).
Qed.
Lemma convert_ok l out : convert_mcnp_spect (Some l) = Ok out <-> l <> [] /\ nondecreasing l /\ out = rev l ++ [f_of_Z 1].
Proof.
  rewrite <- ascending_spec. destruct l as [|a l]; cbn [convert_mcnp_spect]; [split; [discriminate|now intros (H & _)]|].
  destruct (ascending_np (a :: l)); [|split; [discriminate|now intros (_ & H & _)]].
  split; [intros [= <-]; split; [discriminate|now split]|now intros (_ & _ & ->)].
Qed.
Lemma convert_err l x : convert_mcnp_spect l = Err x <-> x = ValueError /\ (l = None \/ l = Some [] \/ exists s, l = Some s /\ ~ nondecreasing s).
Proof.
  destruct l as [[|a l]|]; cbn [convert_mcnp_spect].
  - split; [intros [= <-]; tauto|now intros (-> & _)].
  - destruct (ascending_np (a :: l)) eqn:E.
    + split; [discriminate|]. intros (_ & [H|[H|(s & [= <-] & H)]]); try discriminate. now apply ascending_spec in E.
    + split; [|now intros (-> & _)]. intros [= <-]. split; [reflexivity|]. right. right. exists (a :: l). split; [reflexivity|].
      intros H. apply ascending_spec in H. congruence.
  - split; [intros [= <-]; tauto|now intros (-> & _)].
Qed.
Lemma nan_step_not_nondecreasing l i x y : nth_error l i = Some x -> nth_error l (S i) = Some y ->
  (is_nan_f x = true \/ is_nan_f y = true \/ flt y x = true) -> ~ nondecreasing l.
Proof.
  intros Hx Hy H Hn. specialize (Hn i x y Hx Hy). pose proof (fle_nan_l _ _ Hn). pose proof (fle_nan_r _ _ Hn).
  destruct H as [H|[H|H]]; [congruence|congruence|]. eapply flt_fle_contra; eassumption.
Qed.

(** check_upper_bound *)
Lemma upper_bound_spec gs a e g0 b : nth_error gs 0 = Some g0 -> energy_is a e ->
  check_upper_bound (Some gs) a = Ok b <-> b = negb (flt g0 e).
Proof.
  intros H0 He. destruct gs as [|g gs]; [discriminate|]. cbn in H0. injection H0 as ->.
  apply energy_value_is in He. unfold check_upper_bound. rewrite He. cbn [bind]. split; [intros [= <-]; reflexivity|intros ->; reflexivity].
Qed.
Lemma upper_bound_err gs a x : check_upper_bound gs a = Err x <->
  x = ValueError /\ (gs = None \/ gs = Some [] \/ forall e, ~ energy_is a e).
Proof.
  split.
  - destruct gs as [[|g gs]|]; cbn [check_upper_bound]; try (intros [= <-]; split; [reflexivity|tauto]).
    destruct (energy_value a) as [e|y] eqn:E; cbn [bind]; [discriminate|].
    intros [= <-]. apply energy_value_err in E as [E1 E2]. tauto.
  - intros (-> & [->|[->|H]]); [reflexivity|reflexivity|]. destruct gs as [[|g gs]|]; [reflexivity| |reflexivity].
    cbn [check_upper_bound]. destruct (energy_value a) as [e|y] eqn:E; cbn [bind].
    + apply energy_value_is in E. now apply H in E.
    + apply energy_value_err in E as [-> _]. reflexivity.
Qed.

(** The command *)
Lemma write_fluxes_ok show f p l : l <> [] -> openable f p ->
  exists f', write_fluxes_file show p (Some l) f = (f', Ok tt) /\
    f' p = Some (File (full_text (map show l))) /\ forall q, q <> p -> f' q = f q.
Proof.
  intros Hl Ho. unfold write_fluxes_file. destruct l as [|x l]; [easy|].
  destruct (proj2 (write_lines_ok_iff f p (map show (x :: l))) Ho) as [f' Hf]. rewrite Hf. exists f'. split; [reflexivity|].
  apply write_lines_Ok in Hf as [_ ->]. split.
  - rewrite write_lines_run. destruct (path_eqb_spec p p); [reflexivity|congruence].
  - intros q Hq. rewrite write_lines_run. destruct (path_eqb_spec q p); [contradiction|reflexivity].
Qed.
Lemma write_fluxes_closed show f p l : l <> [] -> ~ openable f p -> write_fluxes_file show p (Some l) f = (f, Err OSError).
Proof.
  intros Hl Ho. unfold write_fluxes_file. destruct l as [|x l]; [easy|].
  destruct (write_lines f p (map show (x :: l))) as [f'|] eqn:E; [|reflexivity].
  exfalso. apply Ho. apply (write_lines_ok_iff f p (map show (x :: l))). now exists f'.
Qed.
Lemma struct_facts g gs : get_group_struct g = Some gs -> descending gs /\ 2 <= length gs.
Proof.
  intros H. apply struct_cases in H as [[_ ->]|[_ ->]].
  - destruct ladder_709 as (H1 & H2 & _). split; [assumption|lia].
  - destruct ladder_162 as (H1 & H2 & _). split; [assumption|lia].
Qed.
Lemma command_ok show f out g gs s e : get_group_struct g = Some gs -> py_float s = Ok e -> is_nan_f e = false -> openable f out ->
  exists f' i data, fluxes_command show out g (Some s) f = (f', Ok tt) /\
    group_of gs e i /\ i < length gs /\ one_hot (length gs) i data /\
    f' out = Some (File (full_text (map show data))) /\ forall q, q <> out -> f' q = f q.
Proof.
  intros Hg Hs Hn Ho. destruct (struct_facts g gs Hg) as [Hd Hl].
  destruct (group_pos_spec gs (EText s) e Hd Hl) as (i & Hp & Hi & Hgo & _); [right; now exists s|assumption|].
  set (data := repeat fzero i ++ fone :: repeat fzero (length gs - 1 - i) ++ [fone]).
  assert (Hne : data <> []) by (subst data; destruct (repeat fzero i); discriminate).
  destruct (write_fluxes_ok show f out data Hne Ho) as (f' & Hw & H1 & H2).
  exists f', i, data. split.
  - unfold fluxes_command, io_bind, io_lift. rewrite Hg, Hp. cbn iota. rewrite create_eq by lia. exact Hw.
  - split; [assumption|]. split; [lia|]. split; [apply one_hot_list; lia|]. now split.
Qed.
Lemma command_bad show f out g s : (get_group_struct g = None \/ s = None \/
    exists t, s = Some t /\ forall e, py_float t = Ok e -> is_nan_f e = true) ->
  fluxes_command show out g s f = (f, Err ValueError).
Proof.
  intros H. unfold fluxes_command, io_bind, io_lift. destruct (get_group_struct g) as [gs|] eqn:Hg; [|reflexivity].
  destruct H as [H|[->|(t & -> & H)]]; [discriminate| |].
  - destruct gs; reflexivity.
  - destruct (struct_facts g gs Hg) as [Hd Hl]. destruct (py_float t) as [e|x] eqn:E.
    + rewrite (group_pos_nan gs (EText t) e); [reflexivity|intros ->; cbn in Hl; lia|right; now exists t|now apply H].
    + replace (get_group_pos (Some gs) (EText t)) with (@Err Z ValueError); [reflexivity|]. symmetry. apply group_pos_err. split; [reflexivity|].
      right. right. intros e [H'|(s' & [= <-] & H')]; [discriminate|congruence].
Qed.
Lemma command_closed show f out g gs s e : get_group_struct g = Some gs -> py_float s = Ok e -> is_nan_f e = false -> ~ openable f out ->
  fluxes_command show out g (Some s) f = (f, Err OSError).
Proof.
  intros Hg Hs Hn Ho. destruct (struct_facts g gs Hg) as [Hd Hl].
  destruct (group_pos_spec gs (EText s) e Hd Hl) as (i & Hp & Hi & Hgo & _); [right; now exists s|assumption|].
  unfold fluxes_command, io_bind, io_lift. rewrite Hg, Hp. cbn iota. rewrite create_eq by lia. apply write_fluxes_closed; [|assumption].
  destruct (repeat fzero i); discriminate.
Qed.

(** Units: the 162 boundaries are in eV. *)
Lemma py_float_valid s x : py_float s = Ok x -> valid x = true.
Proof.
  unfold py_float. destruct (drop_underscores _ _) as [t|]; [|discriminate]. destruct (take_sign t) as [neg u].
  destruct (parse_unsigned neg u) as [y|] eqn:E; [|discriminate]. intros [= <-].
  unfold parse_unsigned in E. destruct (_ || _); [injection E as <-; reflexivity|]. destruct (str_eqb _ _); [injection E as <-; reflexivity|].
  destruct (span_digits u) as [ip r]. destruct (match r with [] => _ | _ => _ end) as [fp r']. destruct (ip ++ fp) as [|c l]; [discriminate|].
  destruct (parse_exp r') as [k|]; [|discriminate]. injection E as <-. apply f_of_dec_R.
Qed.
Lemma fle_finite_between a e b : is_finite_f a = true -> is_finite_f b = true -> fle a e = true -> fle e b = true -> is_finite_f e = true.
Proof. intros Ha Hb H1 H2. destruct e as [s|[]| |s m k]; try reflexivity; [destruct a as [?|?| |[] ? ?]|destruct b as [?|?| |[] ? ?]|destruct a as [?|?| |? ? ?]]; discriminate. Qed.
Lemma mev_to_ev e : valid e = true -> fle (f_of_Z 1) e = true -> fle e (f_of_Z 1000) = true ->
  is_nan_f (fmul e (f_of_Z 1000000)) = false /\ fle (f_of_Z 1000000) (fmul e (f_of_Z 1000000)) = true.
Proof.
  intros Hv H1 H2.
  destruct (f_of_Z_R 1) as (V1 & F1 & R1); [reflexivity|]. destruct (f_of_Z_R 1000) as (V2 & F2 & R2); [reflexivity|].
  destruct (f_of_Z_R 1000000) as (V3 & F3 & R3); [reflexivity|].
  assert (Hf : is_finite_f e = true) by (eapply fle_finite_between; [| |exact H1|exact H2]; assumption).
  apply fle_R in H1; [|assumption..]. apply fle_R in H2; [|assumption..]. rewrite R1 in H1. rewrite R2 in H2.
  destruct (fmul_R e (f_of_Z 1000000)) as (Vm & Hsmall & _); [assumption..|]. rewrite R3 in Hsmall.
  assert (B1 : (IZR 1000000 <= rnd (FR e * IZR 1000000))%R) by (rewrite <- (rnd_IZR 1000000) at 1 by reflexivity; apply rnd_le; lra).
  assert (B2 : (rnd (FR e * IZR 1000000) <= IZR 1000000000)%R) by (rewrite <- (rnd_IZR 1000000000) by reflexivity; apply rnd_le; lra).
  assert (B3 : (IZR 1000000000 < fmax_bound)%R).
  { destruct (f_of_Z_R 1000000000) as (V4 & F4 & R4); [reflexivity|]. rewrite <- R4. eapply Rle_lt_trans; [apply Rle_abs|]. now apply FR_lt_max. }
  destruct Hsmall as [Hr Hfin]; [rewrite Rabs_pos_eq by lra; lra|].
  split; [now destruct (fmul e (f_of_Z 1000000))|]. apply fle_R; [assumption..|]. rewrite R3, Hr. lra.
Qed.
Lemma units_refuted show f out s e : openable f out -> py_float s = Ok e -> fle (f_of_Z 1) e = true -> fle e (f_of_Z 1000) = true ->
  exists f' data gs j, fluxes_command show out (Some (lit "162")) (Some s) f = (f', Ok tt) /\
    f' out = Some (File (full_text (map show data))) /\ one_hot 162 160 data /\
    get_group_struct (Some (lit "162")) = Some gs /\ group_of gs (fmul e (f_of_Z 1000000)) j /\ j <> 160.
Proof.
  intros Ho Hs H1 H2. pose proof (py_float_valid s e Hs) as Hv.
  destruct (mev_to_ev e Hv H1 H2) as [Hn Hm].
  destruct (command_ok show f out (Some (lit "162")) gs_162 s e) as (f' & i & data & C1 & C2 & C3 & C4 & C5 & _);
    [reflexivity|assumption|now apply fle_nan_l in H2|assumption|].
  destruct ladder_162 as (L1 & L2 & _). rewrite L1 in *.
  assert (Hb : group_of gs_162 e 160).
  { assert (E : length gs_162 - 2 = 160) by now rewrite L1. rewrite <- E. apply go_below with (fdec 1 4); [vm_compute; reflexivity|].
    eapply fle_trans; [exact H2|]. vm_compute. reflexivity. }
  assert (Ei : i = 160) by (eapply group_of_fun; [exact L2|rewrite L1; lia|eassumption|assumption]). subst i.
  destruct (group_pos_spec gs_162 (ENum (fmul e (f_of_Z 1000000))) (fmul e (f_of_Z 1000000)) L2) as (j & _ & _ & Hj & _); [rewrite L1; lia|now left|assumption|].
  exists f', data, gs_162, j. repeat split; try assumption; try apply C4.
  intros ->. inversion Hj as [g G1 G2 G3|g G1 G2 G3|k hi lo G1 G2 G3 G4 G5].
  - rewrite L1 in G1. assert (G1' : nth_error gs_162 161 = Some (fdec 1 4)) by (vm_compute; reflexivity).
    change (162 - 1) with 161 in G1. rewrite G1' in G1. injection G1 as <-.
    apply (flt_fle_contra (fdec 1 4) (f_of_Z 1000000)); [vm_compute; reflexivity|]. eapply fle_trans; eassumption.
  - assert (G1' : nth_error gs_162 160 = Some (fdec 15 3)) by (vm_compute; reflexivity). rewrite G1' in G1. injection G1 as <-.
    apply (flt_fle_contra (fdec 15 3) (f_of_Z 1000000)); [vm_compute; reflexivity|]. eapply fle_trans; eassumption.
Qed.
(** The last entry before the power line is never 1. *)
Lemma last_group_refuted show f out g gs s f' : get_group_struct g = Some gs -> fluxes_command show out g s f = (f', Ok tt) ->
  exists data i, f' out = Some (File (full_text (map show data))) /\ one_hot (length gs) i data /\ S i < length gs.
Proof.
  intros Hg H. destruct s as [s|].
  2:{ rewrite command_bad in H by (right; now left). discriminate. }
  destruct (py_float s) as [e|x] eqn:E.
  2:{ rewrite command_bad in H; [discriminate|]. right. right. exists s. split; [reflexivity|]. rewrite E. discriminate. }
  destruct (is_nan_f e) eqn:En.
  { rewrite command_bad in H; [discriminate|]. right. right. exists s. split; [reflexivity|]. rewrite E. intros e' [= <-]. assumption. }
  destruct (struct_facts g gs Hg) as [Hd Hl].
  assert (Hop : openable f out \/ ~ openable f out).
  { destruct (can_open_w f out) as [[]|] eqn:Ec; [left; now apply can_open_w_spec|right]. intros Ho. apply can_open_w_spec in Ho. congruence. }
  destruct Hop as [Ho|Ho].
  - destruct (command_ok show f out g gs s e Hg E En Ho) as (f2 & i & data & C1 & C2 & C3 & C4 & C5 & _).
    rewrite C1 in H. injection H as <-. exists data, i. split; [assumption|]. split; [assumption|].
    destruct (group_pos_spec gs (EText s) e Hd Hl) as (j & _ & Hj & _ & Hu); [right; now exists s|assumption|]. rewrite (Hu i C2). assumption.
  - rewrite (command_closed show f out g gs s e Hg E En Ho) in H. discriminate.
Qed.
