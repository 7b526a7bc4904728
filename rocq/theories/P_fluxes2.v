(** Lemmas about the boundaries of the group structures. *)
From Coq Require Import Lia.
From Verif Require Import PyBase PyFloat SpecStr M_fluxes SpecFluxes.

Lemma runs_162 : gs_162 = map (fun n => fdec n 3)
  (going_down 1000000 40000 20 ++ going_down 200000 20000 5 ++ going_down 100000 10000 4 ++ [60000; 55000; 54000]%Z ++
   going_down 50000 5000 4 ++ going_down 30000 2000 5 ++ going_down 20000 1000 10 ++ going_down 10000 200 30 ++
   going_down 4000 125 24 ++ going_down 1000 25 28 ++ going_down 300 20 10 ++ going_down 100 5 19).
Proof. vm_compute. reflexivity. Qed.
Lemma runs_709 : firstn 109 gs_709 = map (fun n => fdec n (-1))
  (going_down 10000 400 20 ++ going_down 2000 200 2 ++ going_down 1600 100 8 ++ going_down 800 50 4 ++
   going_down 600 20 15 ++ going_down 300 10 10 ++ going_down 200 2 50).
Proof. vm_compute. reflexivity. Qed.
(** The digits of the last boundaries, by position. *)
Definition digits_b (x : Z * Z) (k : nat) : bool :=
  let k := Z.of_nat k in
  ((100 <=? fst x) && (fst x <? 1000) && ((2 * fst x - 1) ^ 50 <? 200 ^ 50 * 10 ^ (k mod 50)) &&
   (200 ^ 50 * 10 ^ (k mod 50) <? (2 * fst x + 1) ^ 50) && (snd x =? k / 50 - 13))%Z.
Fixpoint all_digits (l : list (Z * Z)) (k : nat) : bool :=
  match l with [] => true | x :: l => digits_b x k && all_digits l (k - 1) end.
Lemma all_digits_nth l : forall k i x, all_digits l k = true -> nth_error l i = Some x -> digits_b x (k - i) = true.
Proof.
  induction l as [|y l IH]; intros k [|i] x H E; try discriminate; cbn [all_digits] in H; apply andb_prop in H as [H1 H2].
  - injection E as <-. now rewrite Nat.sub_0_r.
  - replace (k - S i) with (k - 1 - i) by lia. exact (IH _ _ _ H2 E).
Qed.
Lemma digits_709 : all_digits (skipn 109 gs_709_table) 600 = true.
Proof. vm_compute. reflexivity. Qed.
Lemma table_709 : List.length gs_709_table = 709.
Proof. reflexivity. Qed.
Lemma root_709 k : 1 <= k <= 600 -> exists m, nth_error gs_709 (709 - k) = Some (fdec m (Z.of_nat k / 50 - 13)) /\ three_digits (Z.of_nat k) m.
Proof.
  intros Hk. destruct (nth_error gs_709_table (709 - k)) as [x|] eqn:E; [|apply nth_error_None in E; rewrite table_709 in E; lia].
  assert (E' : nth_error (skipn 109 gs_709_table) (600 - k) = Some x).
  { rewrite <- E. replace (709 - k) with (109 + (600 - k)) by lia. rewrite <- (firstn_skipn 109 gs_709_table) at 2.
    rewrite nth_error_app2 by (rewrite firstn_length, table_709; lia). f_equal. rewrite firstn_length, table_709. lia. }
  pose proof (all_digits_nth _ _ _ _ digits_709 E') as D. replace (600 - (600 - k)) with k in D by lia.
  unfold digits_b in D. cbv zeta in D. rewrite !andb_true_iff, Z.leb_le, !Z.ltb_lt, Z.eqb_eq in D. destruct D as ((((D1 & D2) & D3) & D4) & D5).
  exists (fst x). split; [|unfold three_digits; tauto]. unfold gs_709. rewrite nth_error_map, E. cbn [option_map]. now rewrite D5.
Qed.
Lemma shape_162 : exists gs, get_group_struct (Some (lit "162")) = Some gs /\ gs = map (fun n => fdec n 3)
  (going_down 1000000 40000 20 ++ going_down 200000 20000 5 ++ going_down 100000 10000 4 ++ [60000; 55000; 54000]%Z ++
   going_down 50000 5000 4 ++ going_down 30000 2000 5 ++ going_down 20000 1000 10 ++ going_down 10000 200 30 ++
   going_down 4000 125 24 ++ going_down 1000 25 28 ++ going_down 300 20 10 ++ going_down 100 5 19).
Proof. exists gs_162. split; [reflexivity|exact runs_162]. Qed.
Lemma shape_709 : exists gs, get_group_struct (Some (lit "709")) = Some gs /\
  firstn 109 gs = map (fun n => fdec n (-1))
    (going_down 10000 400 20 ++ going_down 2000 200 2 ++ going_down 1600 100 8 ++ going_down 800 50 4 ++
     going_down 600 20 15 ++ going_down 300 10 10 ++ going_down 200 2 50) /\
  forall k, 1 <= k <= 600 -> exists m, nth_error gs (709 - k) = Some (fdec m (Z.of_nat k / 50 - 13)) /\ three_digits (Z.of_nat k) m.
Proof. exists gs_709. split; [reflexivity|]. split; [exact runs_709|exact root_709]. Qed.
