(** Lemmas about the ptrac reader and the FISPACT input reader. *)
From Coq Require Import Floats.SpecFloat Reals Lra Lia ZArith NArith.
From Verif Require Import PyBase PyFloat PyFs SpecStr PyFacts M_util SpecUtil P_util FloatFacts FloatR FloatZ PyIo M_fluxes M_ptrac SpecFluxes P_fluxes.

(** * Events *)
Lemma py_nth_k {A} (l : list A) (z : Z) : (0 <= z)%Z ->
  py_nth l z = match nth_error l (Z.to_nat z) with Some x => Ok x | None => Err IndexError end.
Proof. intros H. rewrite <- (Z2Nat.id z H) at 1. apply py_nth_nat. Qed.

Definition event_at (d : list float) (c p k : nat) : option event :=
  match nth_error d 0, nth_error d c, nth_error d p, nth_error d k, nth_error d (k+1), nth_error d (k+2), nth_error d (k+3),
        nth_error d (k+4), nth_error d (k+5), nth_error d (k+6), nth_error d (k+7), nth_error d (k+8) with
  | Some t, Some cell, Some par, Some x, Some y, Some z, Some u, Some v, Some w, Some en, Some wg, Some ti =>
      Some (Event (VNum x) (VNum y) (VNum z) (VNum t) (VNum u) (VNum v) (VNum w) (VNum wg) (VNum en) (VNum par) (VNum cell) (VNum ti))
  | _, _, _, _, _, _, _, _, _, _, _, _ => None
  end.
Lemma event_at_in d c p k : c < length d -> p < length d -> k + 8 < length d ->
  exists ev, event_at d c p k = Some ev.
Proof.
  intros Hc Hp Hk. unfold event_at.
  assert (G : forall n, n < length d -> exists x, nth_error d n = Some x).
  { intros n Hn. destruct (nth_error d n) as [x|] eqn:E; [now exists x|apply nth_error_None in E; lia]. }
  destruct (G 0) as [? ->]; [lia|]. destruct (G c) as [? ->]; [lia|]. destruct (G p) as [? ->]; [lia|].
  destruct (G k) as [? ->]; [lia|]. destruct (G (k+1)) as [? ->]; [lia|]. destruct (G (k+2)) as [? ->]; [lia|].
  destruct (G (k+3)) as [? ->]; [lia|]. destruct (G (k+4)) as [? ->]; [lia|]. destruct (G (k+5)) as [? ->]; [lia|].
  destruct (G (k+6)) as [? ->]; [lia|]. destruct (G (k+7)) as [? ->]; [lia|]. destruct (G (k+8)) as [? ->]; [lia|]. eauto.
Qed.
Lemma event_at_spec d c p k ev : layout (length d) c p k ->
  (event_at d c p k = Some ev <->
   let at_ n v := exists x, nth_error d n = Some x /\ v = VNum x in
   at_ 0 (ev_type ev) /\ at_ c (ev_cell ev) /\ at_ p (ev_par ev) /\
   at_ k (ev_x ev) /\ at_ (k + 1) (ev_y ev) /\ at_ (k + 2) (ev_z ev) /\
   at_ (k + 3) (ev_u ev) /\ at_ (k + 4) (ev_v ev) /\ at_ (k + 5) (ev_w ev) /\
   at_ (k + 6) (ev_energy ev) /\ at_ (k + 7) (ev_wgt ev) /\ at_ (k + 8) (ev_time ev)).
Proof.
  intros HL. cbv zeta. unfold event_at. split.
  - intros H. repeat match type of H with match ?t with _ => _ end = _ => destruct t eqn:?; [|discriminate] end.
    injection H as <-. cbn [ev_type ev_cell ev_par ev_x ev_y ev_z ev_u ev_v ev_w ev_energy ev_wgt ev_time]. repeat split; eauto.
  - intros ((? & -> & ?) & (? & -> & ?) & (? & -> & ?) & (? & -> & ?) & (? & -> & ?) & (? & -> & ?) & (? & -> & ?) & (? & -> & ?) & (? & -> & ?) & (? & -> & ?) & (? & -> & ?) & (? & -> & ?)).
    destruct ev. cbn in *. congruence.
Qed.
Lemma layout_fun n c p k c' p' k' : layout n c p k -> layout n c' p' k' -> c = c' /\ p = p' /\ k = k'.
Proof. intros H1 H2. inversion H1; subst; inversion H2; subst; try lia; auto. Qed.
Lemma layout_bound n c p k : layout n c p k -> c < n /\ p < n /\ k + 8 < n /\ 15 <= n.
Proof. intros H. inversion H; subst; lia. Qed.
Lemma layout_exists n : 15 <= n -> exists c p k, layout n c p k.
Proof.
  intros H. destruct (Nat.eq_dec n 15) as [->|]; [exists 2, 3, 6; constructor|]. destruct (Nat.eq_dec n 16) as [->|]; [exists 2, 3, 7; constructor|].
  exists 3, 4, 8. constructor. lia.
Qed.

Definition read_event (d : list float) : res event :=
  do type <- py_nth d 0%Z;
  let at_ (k : Z) : res pv := rmap VNum (py_nth d k) in
  if (zlen d =? 16)%Z then
    do cell <- at_ 2%Z; do x <- at_ 7%Z; do y <- at_ 8%Z; do z <- at_ 9%Z;
    do u <- at_ 10%Z; do v <- at_ 11%Z; do w <- at_ 12%Z;
    do wgt <- at_ 14%Z; do energy <- at_ 13%Z; do par <- at_ 3%Z; do time <- at_ 15%Z;
    Ok (Event x y z (VNum type) u v w wgt energy par cell time)
  else if (zlen d =? 15)%Z then
    do cell <- at_ 2%Z; do x <- at_ 6%Z; do y <- at_ 7%Z; do z <- at_ 8%Z;
    do u <- at_ 9%Z; do v <- at_ 10%Z; do w <- at_ 11%Z;
    do wgt <- at_ 13%Z; do energy <- at_ 12%Z; do par <- at_ 3%Z; do time <- at_ 14%Z;
    Ok (Event x y z (VNum type) u v w wgt energy par cell time)
  else
    do cell <- at_ 3%Z; do x <- at_ 8%Z; do y <- at_ 9%Z; do z <- at_ 10%Z;
    do u <- at_ 11%Z; do v <- at_ 12%Z; do w <- at_ 13%Z;
    do wgt <- at_ 15%Z; do energy <- at_ 14%Z; do par <- at_ 4%Z; do time <- at_ 16%Z;
    Ok (Event x y z (VNum type) u v w wgt energy par cell time).
Lemma process_event_eq toks : process_event toks = bind (mapM py_float toks) read_event.
Proof. reflexivity. Qed.

Lemma read_event_layout d c p k : layout (length d) c p k ->
  read_event d = match event_at d c p k with Some ev => Ok ev | None => Err IndexError end.
Proof.
  intros HL. pose proof (layout_bound _ _ _ _ HL) as (Hc & Hp & Hk & _).
  destruct (event_at_in d c p k Hc Hp Hk) as [ev Hev]. rewrite Hev. unfold event_at in Hev.
  repeat match type of Hev with match ?t with _ => _ end = _ => destruct t eqn:?; [|discriminate] end. injection Hev as <-.
  unfold read_event. rewrite !py_nth_k by lia.
  assert (Hz : zlen d = Z.of_nat (length d)) by reflexivity.
  inversion HL as [Hn|Hn|n Hn Hn2]; subst.
  - rewrite Hz, <- Hn. cbn [Z.of_nat Z.eqb Pos.of_succ_nat Pos.succ Pos.eqb].
    cbn [Nat.add] in *.
    change (Z.to_nat 0) with 0. change (Z.to_nat 2) with 2. change (Z.to_nat 3) with 3. change (Z.to_nat 6) with 6. change (Z.to_nat 7) with 7.
    change (Z.to_nat 8) with 8. change (Z.to_nat 9) with 9. change (Z.to_nat 10) with 10. change (Z.to_nat 11) with 11. change (Z.to_nat 12) with 12.
    change (Z.to_nat 13) with 13. change (Z.to_nat 14) with 14.
    repeat match goal with E : nth_error d _ = Some _ |- _ => rewrite E; clear E end. reflexivity.
  - rewrite Hz, <- Hn. cbn [Z.of_nat Z.eqb Pos.of_succ_nat Pos.succ Pos.eqb].
    cbn [Nat.add] in *.
    change (Z.to_nat 0) with 0. change (Z.to_nat 2) with 2. change (Z.to_nat 3) with 3. change (Z.to_nat 6) with 6. change (Z.to_nat 7) with 7.
    change (Z.to_nat 8) with 8. change (Z.to_nat 9) with 9. change (Z.to_nat 10) with 10. change (Z.to_nat 11) with 11. change (Z.to_nat 12) with 12.
    change (Z.to_nat 13) with 13. change (Z.to_nat 14) with 14. change (Z.to_nat 15) with 15.
    repeat match goal with E : nth_error d _ = Some _ |- _ => rewrite E; clear E end. reflexivity.
  - destruct (Z.eqb_spec (zlen d) 16); [lia|]. destruct (Z.eqb_spec (zlen d) 15); [lia|].
    cbn [Nat.add] in *.
    change (Z.to_nat 0) with 0. change (Z.to_nat 4) with 4. change (Z.to_nat 3) with 3.
    change (Z.to_nat 8) with 8. change (Z.to_nat 9) with 9. change (Z.to_nat 10) with 10. change (Z.to_nat 11) with 11. change (Z.to_nat 12) with 12.
    change (Z.to_nat 13) with 13. change (Z.to_nat 14) with 14. change (Z.to_nat 15) with 15. change (Z.to_nat 16) with 16.
    repeat match goal with E : nth_error d _ = Some _ |- _ => rewrite E; clear E end. reflexivity.
Qed.
Lemma read_event_short d : length d < 15 -> read_event d = Err IndexError.
Proof.
  intros H. unfold read_event. rewrite !py_nth_k by lia.
  destruct (Z.eqb_spec (zlen d) 16) as [E|_]; [unfold zlen in E; lia|]. destruct (Z.eqb_spec (zlen d) 15) as [E|_]; [unfold zlen in E; lia|].
  assert (E16 : nth_error d (Z.to_nat 16) = None) by (apply nth_error_None; change (Z.to_nat 16) with 16; lia).
  rewrite E16.
  repeat match goal with |- bind ?t _ = _ => match t with
    | (match ?u with _ => _ end) => destruct u; cbn [bind]; [|reflexivity]
    | rmap VNum (match ?u with _ => _ end) => destruct u; cbn [rmap bind]; [|reflexivity] end end; reflexivity.
Qed.
Lemma read_event_spec d ev : read_event d = Ok ev <-> event_of d ev.
Proof.
  destruct (Nat.lt_ge_cases (length d) 15) as [H|H].
  - rewrite read_event_short by assumption. split; [discriminate|]. intros (c & p & k & HL & _). apply layout_bound in HL. lia.
  - destruct (layout_exists _ H) as (c & p & k & HL). rewrite (read_event_layout d c p k HL).
    pose proof (layout_bound _ _ _ _ HL) as (Hc & Hp & Hk & _). destruct (event_at_in d c p k Hc Hp Hk) as [ev' Hev]. rewrite Hev. split.
    + intros [= <-]. exists c, p, k. split; [assumption|]. now apply event_at_spec.
    + intros (c' & p' & k' & HL' & H'). destruct (layout_fun _ _ _ _ _ _ _ HL HL') as (<- & <- & <-).
      apply (event_at_spec d c p k ev HL) in H'. congruence.
Qed.
Lemma process_event_ok toks ev : process_event toks = Ok ev <-> exists vals, numbers toks vals /\ event_of vals ev.
Proof.
  rewrite process_event_eq. unfold numbers. split.
  - intros H. destruct (mapM py_float toks) as [d|] eqn:E; [|discriminate]. cbn [bind] in H. exists d. split; [now apply mapM_Ok_iff|now apply read_event_spec].
  - intros (d & H1 & H2). apply mapM_Ok_iff in H1. rewrite H1. now apply read_event_spec.
Qed.
Lemma py_float_err s e : py_float s = Err e -> e = ValueError.
Proof.
  unfold py_float. destruct (drop_underscores _ _) as [t|]; [|now intros [= <-]]. destruct (take_sign t) as [neg u].
  destruct (parse_unsigned neg u); [discriminate|now intros [= <-]].
Qed.
Lemma process_event_err toks e : process_event toks = Err e <->
  (e = ValueError /\ exists t, In t toks /\ forall x, py_float t <> Ok x) \/
  (e = IndexError /\ length toks < 15 /\ exists vals, numbers toks vals).
Proof.
  rewrite process_event_eq. split.
  - intros H. destruct (mapM py_float toks) as [d|x] eqn:E; cbn [bind] in H.
    + right. assert (Hl : length d = length toks) by now apply mapM_length in E.
      destruct (Nat.lt_ge_cases (length d) 15) as [Hs|Hs].
      * rewrite read_event_short in H by assumption. injection H as <-. split; [reflexivity|]. split; [lia|]. exists d. now apply mapM_Ok_iff.
      * destruct (layout_exists _ Hs) as (c & p & k & HL). rewrite (read_event_layout d c p k HL) in H.
        pose proof (layout_bound _ _ _ _ HL) as (Hc & Hp & Hk & _). destruct (event_at_in d c p k Hc Hp Hk) as [ev' Hev]. rewrite Hev in H. discriminate.
    + left. injection H as <-. apply mapM_Err_iff in E as (a & t & b & -> & Ht & _). split; [now apply py_float_err in Ht|].
      exists t. split; [apply in_or_app; right; now left|]. congruence.
  - intros [(-> & t & Hi & Ht)|(-> & Hl & vals & Hv)].
    + destruct (mapM py_float toks) as [d|x] eqn:E; cbn [bind].
      * apply mapM_Ok_iff in E. exfalso. revert Hi. induction E as [|a b l l' Hab E IH]; [easy|]. intros [->|Hi]; [now apply Ht in Hab|auto].
      * apply mapM_Err_iff in E as (a & t' & b & _ & Ht' & _). apply py_float_err in Ht' as ->. reflexivity.
    + unfold numbers in Hv. apply mapM_Ok_iff in Hv. rewrite Hv. apply mapM_length in Hv. cbn [bind]. apply read_event_short. lia.
Qed.

(** * Tracks *)
Lemma clean_words l ws : words l ws -> split_on c_space (string_cleaner l) = match ws with [] => [[]] | _ => ws end.
Proof.
  intros H. change (split_on c_space (string_cleaner l)) with (string_clean_and_split l). destruct ws as [|w ws].
  - now apply clean_split_blank.
  - now apply clean_split_words.
Qed.
Lemma step_head hs cur temp l nps : head_line nps l ->
  tracks_step (hs, cur, temp) l = Ok (hs ++ match cur with Some h => [Some h] | None => [] end, Some (History nps []), temp).
Proof.
  intros (w & v & u & Hw & Hn). unfold tracks_step.
  destruct Hw as [Hw|Hw]; rewrite (clean_words _ _ Hw); cbn [zlen length Z.of_nat Z.eqb Pos.of_succ_nat Pos.succ Pos.eqb orb];
    change (py_nth (w :: _) 0%Z) with (Ok w); cbn [bind]; rewrite Hn; cbn [bind]; destruct cur; [reflexivity|now rewrite app_nil_r|reflexivity|now rewrite app_nil_r].
Qed.
Lemma step_event hs h temp ev l1 l2 : event_lines ev l1 l2 ->
  exists t, foldM tracks_step [l1; l2] (hs, Some h, temp) = Ok (hs, Some (History (h_nps h) (h_events h ++ [ev])), Some t).
Proof.
  intros (w1 & w2 & vals & H1 & H2 & Hn & H9 & Hv & He).
  assert (Hw1 : w1 <> []).
  { intros ->. unfold numbers in Hv. apply mapM_Ok_iff, mapM_length in Hv. cbn [app] in Hv. destruct He as (c & p & k & HL & _). apply layout_bound in HL. lia. }
  assert (Hw2 : w2 <> []) by (intros ->; discriminate).
  exists (w1 ++ w2). cbn [foldM]. unfold tracks_step at 1. rewrite (clean_words _ _ H1). destruct w1 as [|a w1]; [easy|]. set (W1 := a :: w1) in *.
  assert (E2 : (zlen W1 =? 2)%Z = false) by (apply Z.eqb_neq; unfold zlen; intros E; apply Hn; left; lia).
  assert (E3 : (zlen W1 =? 3)%Z = false) by (apply Z.eqb_neq; unfold zlen; intros E; apply Hn; right; left; lia).
  assert (E9 : (zlen W1 =? 9)%Z = false) by (apply Z.eqb_neq; unfold zlen; intros E; apply Hn; right; right; left; lia).
  rewrite E2, E3, E9. cbn [orb bind]. unfold tracks_step. rewrite (clean_words _ _ H2).
  assert (Hz : zlen w2 = 9%Z) by (unfold zlen; lia). destruct w2 as [|b w2]; [easy|]. set (W2 := b :: w2) in *. rewrite Hz. cbn [Z.eqb Pos.eqb orb].
  assert (Hp : process_event (W1 ++ W2) = Ok ev) by (apply process_event_ok; now exists vals). rewrite Hp. reflexivity.
Qed.
Lemma fold_events evs ls : events_text evs ls -> forall hs h temp,
  exists t, foldM tracks_step ls (hs, Some h, temp) = Ok (hs, Some (History (h_nps h) (h_events h ++ evs)), t).
Proof.
  induction 1 as [|ev evs l1 l2 ls He Hes IH]; intros hs h temp.
  - exists temp. rewrite app_nil_r. now destruct h.
  - destruct (step_event hs h temp ev l1 l2 He) as [t Ht].
    destruct (IH hs (History (h_nps h) (h_events h ++ [ev])) (Some t)) as [t' Ht'].
    exists t'. change (l1 :: l2 :: ls) with ([l1; l2] ++ ls). rewrite foldM_app, Ht. cbn [bind]. rewrite Ht'.
    cbn [h_nps h_events]. now rewrite <- app_assoc.
Qed.
Lemma fold_body hs ls : body_text hs ls -> forall done cur temp,
  exists cur' t done', foldM tracks_step ls (done, cur, temp) = Ok (done', cur', t) /\
    done' ++ match cur' with Some h => [Some h] | None => [] end
    = done ++ match cur with Some h => [Some h] | None => [] end ++ map Some hs /\ (hs <> [] -> cur' <> None).
Proof.
  induction 1 as [|h hs l ls ls' Hl He Hb IH]; intros done cur temp.
  - exists cur, temp, done. split; [reflexivity|]. split; [now rewrite app_nil_r|easy].
  - cbn [foldM]. rewrite (step_head done cur temp l _ Hl). cbn [bind]. rewrite foldM_app.
    destruct (fold_events _ _ He (done ++ match cur with Some h => [Some h] | None => [] end) (History (h_nps h) []) temp) as [t Ht].
    rewrite Ht. cbn [bind h_nps h_events app].
    destruct (IH (done ++ match cur with Some h => [Some h] | None => [] end) (Some (History (h_nps h) (h_events h))) t) as (cur' & t' & done' & H1 & H2 & H3).
    exists cur', t', done'. split; [exact H1|]. split.
    + rewrite H2. rewrite <- app_assoc. cbn [map app]. now destruct h.
    + intros _. destruct hs as [|h' hs]; [|now apply H3]. inversion Hb; subst. cbn [foldM] in H1. injection H1 as _ <- _. discriminate.
Qed.
Lemma tracks_read hs lines : hs <> [] -> body_text hs lines -> process_tracks lines = Ok (map Some hs).
Proof.
  intros Hne Hb. destruct (fold_body hs lines Hb [] None None) as (cur & t & done & H1 & H2 & H3).
  unfold process_tracks. rewrite H1. cbn [bind app] in *. destruct cur as [h|]; [|now specialize (H3 Hne)]. now rewrite H2.
Qed.
Lemma step_other hs cur temp l ws : words l ws -> ~ In (length ws) [2; 3; 9] ->
  exists t, tracks_step (hs, cur, temp) l = Ok (hs, cur, Some t).
Proof.
  intros Hw Hn. unfold tracks_step. rewrite (clean_words _ _ Hw). destruct ws as [|w ws]; [eexists; reflexivity|]. cbv zeta iota.
  match goal with |- context [(?z =? 2)%Z] => destruct (Z.eqb_spec z 2) as [E|_]; [exfalso; apply Hn; left; symmetry; apply Nat2Z.inj; exact E|] end.
  match goal with |- context [(?z =? 3)%Z] => destruct (Z.eqb_spec z 3) as [E|_]; [exfalso; apply Hn; right; left; symmetry; apply Nat2Z.inj; exact E|] end.
  match goal with |- context [(?z =? 9)%Z] => destruct (Z.eqb_spec z 9) as [E|_]; [exfalso; apply Hn; right; right; left; symmetry; apply Nat2Z.inj; exact E|] end.
  eexists. reflexivity.
Qed.
Lemma tracks_none lines : Forall (fun l => exists ws, words l ws /\ ~ In (length ws) [2; 3; 9]) lines ->
  process_tracks lines = Ok [None].
Proof.
  intros H. unfold process_tracks.
  assert (G : forall temp, exists t, foldM tracks_step lines ([], None, temp) = Ok ([], None, t)).
  { induction H as [|l lines (ws & Hw & Hn) Hl IH]; intros temp; [now exists temp|]. cbn [foldM].
    destruct (step_other [] None temp l ws Hw Hn) as [t ->]. cbn [bind]. apply IH. }
  destruct (G None) as [t Ht]. rewrite Ht. reflexivity.
Qed.

Lemma read_ptrac_ok f p header body hs : get_lines f p = Ok (header ++ body) -> length header = 9 -> hs <> [] -> body_text hs body ->
  read_ptrac f p = Ok (map Some hs).
Proof.
  intros H Hl Hne Hb. unfold read_ptrac. rewrite H. cbn [bind remove_header].
  replace (slice_from 9 (header ++ body)) with body; [now apply tracks_read|].
  rewrite slice_from_pos by lia. change (Z.to_nat 9) with 9. rewrite skipn_app, skipn_all2, Hl by lia. reflexivity.
Qed.

Lemma header_split lines head tracks : remove_header lines = (head, tracks) -> lines = head ++ tracks /\ length head <= 9 /\ (tracks <> [] -> length head = 9).
Proof.
  unfold remove_header. intros E. injection E as <- <-. rewrite slice_from_pos by lia. rewrite slice_to_pos by lia. change (Z.to_nat 9) with 9. split; [symmetry; apply firstn_skipn|]. rewrite firstn_length. split; [lia|].
  intros H. destruct (Nat.le_gt_cases 9 (length lines)) as [L|L]; [lia|]. elim H. apply skipn_all2. lia.
Qed.

(** * Equality *)
Lemma pv_eqb_spec a b : pv_eqb a b = true <-> same_value a b.
Proof.
  destruct a as [x|s|], b as [y|t|]; cbn [pv_eqb]; (split; [intros H|intros H; inversion H; subst]); try discriminate; try assumption; try reflexivity.
  - now constructor.
  - apply str_eqb_eq in H as ->. constructor.
  - now apply str_eqb_eq.
  - constructor.
Qed.
Lemma eq_holds_fields a b : eq_holds a (OpEvent b) = true <-> Forall2 same_value (fields a) (fields b).
Proof.
  assert (G : eq_holds a (OpEvent b) = forallb (fun q => pv_eqb (fst q) (snd q)) (combine (fields a) (fields b))).
  { unfold eq_holds, event_eq, fields. cbn [combine forallb fst snd].
    destruct (pv_eqb (ev_x a) _), (pv_eqb (ev_y a) _), (pv_eqb (ev_z a) _), (pv_eqb (ev_type a) _), (pv_eqb (ev_u a) _), (pv_eqb (ev_v a) _),
      (pv_eqb (ev_w a) _), (pv_eqb (ev_wgt a) _), (pv_eqb (ev_par a) _), (pv_eqb (ev_cell a) _), (pv_eqb (ev_time a) _), (pv_eqb (ev_energy a) _); reflexivity. }
  rewrite G. assert (L : length (fields a) = length (fields b)) by reflexivity. clear G. revert L.
  generalize (fields a) (fields b). induction l as [|x l IH]; intros [|y l'] L; try discriminate.
  - split; [constructor|reflexivity].
  - cbn [combine forallb fst snd]. rewrite andb_true_iff, pv_eqb_spec, IH by (now injection L). split.
    + intros [H1 H2]. now constructor.
    + intros H. inversion H. now split.
Qed.
Lemma feq_sym x y : feq x y = true -> feq y x = true.
Proof. intros H. apply feq_key in H as (H1 & H2 & H3). apply feq_key. now split. Qed.
Lemma same_value_sym a b : same_value a b -> same_value b a.
Proof. intros H. destruct H; constructor. now apply feq_sym. Qed.
Lemma eq_holds_sym a b : eq_holds a (OpEvent b) = true -> eq_holds b (OpEvent a) = true.
Proof.
  rewrite !eq_holds_fields. generalize (fields a) (fields b). intros l l' H. induction H; constructor; [now apply same_value_sym|assumption].
Qed.
Lemma eq_holds_refl a : no_nan a -> eq_holds a (OpEvent a) = true.
Proof.
  intros H. rewrite eq_holds_fields. unfold no_nan in H. revert H. generalize (fields a). induction l as [|v l IH]; intros H; constructor.
  - destruct v as [x|s|]; constructor. apply feq_key. specialize (H x (or_introl eq_refl)). auto.
  - apply IH. intros x Hx. apply H. now right.
Qed.
Lemma eq_bool a b : exists r, event_eq a (OpEvent b) = EqBool r.
Proof.
  unfold event_eq. repeat (match goal with |- exists r, (if ?c then _ else _) = _ => destruct c; [eexists; reflexivity|] end). now exists true.
Qed.
Lemma ne_holds_not a b : ne_holds a (OpEvent b) = true <-> ~ Forall2 same_value (fields a) (fields b).
Proof. unfold ne_holds. rewrite negb_true_iff, <- eq_holds_fields. now rewrite not_true_iff_false. Qed.

(** * Mean *)
Lemma mean_fold hs n : foldM (fun n h => match h with Some hist => Ok (n + zlen (h_events hist))%Z | None => Err AttributeError end) (map Some hs) n
  = Ok (n + Z.of_nat (total_events hs))%Z.
Proof.
  unfold total_events. revert n. induction hs as [|h hs IH]; intros n; cbn [map foldM]; [f_equal; cbn; lia|].
  cbn [bind]. rewrite IH. f_equal. unfold zlen, list_sum. cbn [fold_right]. lia.
Qed.
Lemma mean_ok hs : hs <> [] -> (Z.of_nat (length hs) < 2 ^ 53)%Z -> (Z.of_nat (total_events hs) < 2 ^ 53)%Z ->
  exists m, mean_num_events (map Some hs) = Ok m /\ rounded_to (INR (total_events hs) / INR (length hs)) m.
Proof.
  intros Hne H1 H2. unfold mean_num_events. rewrite mean_fold. cbn [bind]. rewrite Z.add_0_l.
  unfold zlen. rewrite map_length.
  destruct (f_of_Z_R (Z.of_nat (total_events hs))) as (V1 & F1 & R1); [lia|].
  destruct (f_of_Z_R (Z.of_nat (length hs))) as (V2 & F2 & R2); [lia|].
  assert (Hpos : (0 < IZR (Z.of_nat (length hs)))%R) by (apply IZR_lt; destruct hs; [easy|cbn [length]; lia]).
  unfold py_fdiv. destruct (is_zero_f (f_of_Z (Z.of_nat (length hs)))) eqn:Ez.
  { exfalso. destruct (f_of_Z (Z.of_nat (length hs))); try discriminate. cbn in R2. lra. }
  exists (fdiv (f_of_Z (Z.of_nat (total_events hs))) (f_of_Z (Z.of_nat (length hs)))). split; [reflexivity|].
  rewrite !INR_IZR_INZ, <- R1, <- R2. apply fdiv_R; try assumption. rewrite R2. lra.
Qed.
Lemma mean_empty : mean_num_events [] = Err ZeroDivisionError.
Proof. reflexivity. Qed.
Lemma mean_none lines : Forall (fun l => exists ws, words l ws /\ ~ In (length ws) [2; 3; 9]) lines ->
  exists hs, process_tracks lines = Ok hs /\ length hs = 1 /\ mean_num_events hs = Err AttributeError.
Proof. intros H. exists [None]. split; [now apply tracks_none|]. split; reflexivity. Qed.

(** * fispact_input_reader *)
Lemma read_fispact_ok f p ls : read_fispact_input f p = Ok ls <-> get_lines f p = Ok ls.
Proof.
  unfold read_fispact_input, get_lines, read_text, path_isfile, path_exists. destruct (walk f [] p) as [u|e] eqn:Ew; cbn [bind negb andb]; [|split; discriminate].
  destruct p as [|a p]; [cbn; split; discriminate|]. unfold is_dir. destruct (f (a :: p)) as [[c|]|]; cbn; try (split; discriminate). reflexivity.
Qed.
Lemma read_fispact_err f p e : read_fispact_input f p = Err e <->
  (e = FileNotFoundError /\ ~ path_exists f p = true) \/ (e = ValueError /\ (walk f [] p = Ok tt /\ (p = [] \/ f p = Some Dir))).
Proof.
  unfold read_fispact_input, get_lines, read_text, path_isfile, path_exists. destruct (walk f [] p) as [[]|x] eqn:Ew; cbn [bind negb andb].
  - destruct p as [|a p]; [cbn; split; [intros [= <-]; right; auto|intros [(-> & H)|(-> & _)]; [now destruct H|reflexivity]]|].
    unfold is_dir. destruct (f (a :: p)) as [[c|]|] eqn:Ef; cbn.
    + split; [discriminate|]. intros [(-> & H)|(-> & _ & [H|H])]; [now destruct H|discriminate|discriminate].
    + split; [intros [= <-]; right; auto|intros [(-> & H)|(-> & _)]; [now destruct H|reflexivity]].
    + split; [intros [= <-]; left; split; [reflexivity|discriminate]|intros [(-> & H)|(-> & _ & [H|H])]; [reflexivity|discriminate|discriminate]].
  - split; [intros [= <-]; left; split; [reflexivity|discriminate]|intros [(-> & H)|(-> & H & _)]; [reflexivity|discriminate]].
Qed.
Lemma wf_walk f p : wf_fs f -> f p <> None -> walk f [] p = Ok tt.
Proof.
  intros Hw Hp. destruct (snoc_cases p) as [->|(q & x & ->)]; [reflexivity|]. apply walk_snoc_dirs.
  destruct (Hw q x Hp) as [->|H]; [|now apply wf_prefix_dir].
  intros a b E Ha. destruct a; [easy|discriminate].
Qed.
Lemma read_fispact_missing f p : wf_fs f -> read_fispact_input f p = Err FileNotFoundError <-> p <> [] /\ f p = None.
Proof.
  intros Hw. rewrite read_fispact_err. split.
  - intros [(_ & H)|(H & _)]; [|discriminate]. unfold path_exists in H. split.
    + intros ->. cbn in H. now apply H.
    + destruct (f p) as [n|] eqn:E; [|reflexivity]. exfalso. apply H. rewrite wf_walk by (assumption || congruence). destruct p; [reflexivity|]. reflexivity.
  - intros (Hp & Hn). left. split; [reflexivity|]. unfold path_exists. destruct (walk f [] p); [|discriminate]. destruct p; [easy|]. now rewrite Hn.
Qed.
Lemma read_fispact_dir f p : wf_fs f -> read_fispact_input f p = Err ValueError <-> p = [] \/ f p = Some Dir.
Proof.
  intros Hw. rewrite read_fispact_err. split.
  - intros [(H & _)|(_ & _ & H)]; [discriminate|assumption].
  - intros H. right. split; [reflexivity|]. split; [|assumption]. destruct H as [->|H]; [reflexivity|]. apply wf_walk; [assumption|congruence].
Qed.
Lemma read_fispact_total f p e : wf_fs f -> read_fispact_input f p = Err e -> e = FileNotFoundError \/ e = ValueError.
Proof. intros _ H. apply read_fispact_err in H. tauto. Qed.
