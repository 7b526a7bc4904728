(** Proofs about M_fisout.v: time steps, cutting the file, summary table. *)
From Coq Require Import Lia.
From Verif Require Import PyBase PyFloat PyFacts TextFacts PyFs SpecStr SpecUtil SpecOutput M_util P_util P_output P_output3 M_ptrac M_fisout SpecFis P_fisout P_fisout2.
Local Open Scope nat_scope.

Lemma no_text_first lines text k a b v : number_or_text lines text k a b v -> exists i, find_ind lines text = Ok i.
Proof. intros (l & (i & Hi & _) & _). exists i. apply find_ind_Ok. exact Hi. Qed.
Lemma lab_first lines text k a b v : labelled lines text k a b v -> exists i, find_ind lines text = Ok i.
Proof. intros (l & (i & Hi & _) & _). exists i. apply find_ind_Ok. exact Hi. Qed.
Lemma lab_run lines text k a b x i : labelled lines text k a b x -> find_ind lines text = Ok i -> at_line lines i (Z.of_nat k) (Z.of_nat a) (Z.of_nat b) = Ok x.
Proof. intros H Hi. apply find_ind_Ok in Hi. apply (labelled_at lines text i k _ _ _ a b x eq_refl eq_refl eq_refl Hi). exact H. Qed.
Lemma text_run lines text k a b x i : number_or_text lines text k a b x -> find_ind lines text = Ok i -> text_at lines i (Z.of_nat k) (Z.of_nat a) (Z.of_nat b) = Ok x.
Proof. intros H Hi. apply find_ind_Ok in Hi. apply (text_at_spec lines text i k _ _ _ a b x eq_refl eq_refl eq_refl Hi). exact H. Qed.
Ltac lab := match goal with
  | |- labelled ?ls ?t ?k ?a ?b ?x =>
      match goal with E : at_line ls ?i ?zk ?za ?zb = Ok x, F : find_ind ls t = Ok ?i |- _ =>
        apply (labelled_at ls t i k zk za zb a b x eq_refl eq_refl eq_refl); [apply find_ind_Ok; exact F|exact E] end
  | |- number_or_text ?ls ?t ?k ?a ?b ?x =>
      match goal with E : text_at ls ?i ?zk ?za ?zb = Ok x, F : find_ind ls t = Ok ?i |- _ =>
        apply (text_at_spec ls t i k zk za zb a b x eq_refl eq_refl eq_refl); [apply find_ind_Ok; exact F|exact E] end
  end.
Lemma skipn_50 (l : str) : slice_from 50 l = skipn 50 l.
Proof. change 50%Z with (Z.of_nat 50). apply slice_from_nat. Qed.

Lemma read_time_step_sound np_sum lines i ts : read_time_step np_sum lines i = Ok ts -> step_holds np_sum lines i ts.
Proof.
  unfold read_time_step. destruct lines as [|l0 lines']; [discriminate|]. set (lines := l0 :: lines'). intros H.
  unbind H. match type of H with match ?v with _ => _ end = _ => destruct v as [[[ap dom] comp] gs] end. injection H as <-. unfold step_holds. cbn [step_num ts_is_cooling inventory total_act appm dom_data composition gspec].
  split; [reflexivity|]. split; [reflexivity|]. split; [|split; [assumption|]].
  - constructor; cbn; try lab.
    + exists l0. split; [reflexivity|]. apply (proj1 (as_value_error_Ok _ _)) in E. apply (fcols_field 50 60 50 60); auto.
    + apply (proj1 (as_value_error_Ok _ _)) in E1. apply bind_Ok in E1. destruct E1 as (l & Hl & Hx). rewrite py_nth_nat in Hl. destruct (nth_error lines v0) as [l'|] eqn:El; [|discriminate]. injection Hl as ->.
      exists l. split; [exists v0; rewrite Nat.add_0_r; split; [apply find_ind_Ok; assumption|exact El]|]. rewrite skipn_50 in Hx. exact Hx.
  - match goal with E : (if flt fzero ?ta then _ else _) = _ |- _ => destruct (flt fzero ta); split; try discriminate; intros _ end.
    + match goal with E : (do _ <- _; _) = Ok (ap, _, _, _) |- _ => unbind E; injection E as <- <- <- <- end.
      split; [eexists; split; [reflexivity|]; repeat split; lab|]. auto.
    + match goal with E : Ok _ = Ok (ap, _, _, _) |- _ => injection E as <- <- <- <- end. auto.
Qed.
Ltac run_ind := match goal with
  | F : find_ind ?ls ?t = Ok _ |- context [find_ind ?ls ?t] => rewrite F; cbn [bind]
  | H : labelled ?ls ?t _ _ _ _ |- context [find_ind ?ls ?t] => let i := fresh "i" in let F := fresh "F" in destruct (lab_first _ _ _ _ _ _ H) as (i & F); rewrite F; cbn [bind]
  | H : number_or_text ?ls ?t _ _ _ _ |- context [find_ind ?ls ?t] => let i := fresh "i" in let F := fresh "F" in destruct (no_text_first _ _ _ _ _ _ H) as (i & F); rewrite F; cbn [bind]
  end.
Ltac run_at := match goal with
  | |- context [bind (at_line ?ls ?i ?zk ?za ?zb) _] =>
      match goal with H : labelled ls ?t ?k ?a ?b ?x, F : find_ind ls ?t = Ok i |- _ =>
        replace (at_line ls i zk za zb) with (Ok x) by (symmetry; exact (lab_run ls t k a b x i H F)); cbn [bind] end
  | |- context [bind (text_at ?ls ?i ?zk ?za ?zb) _] =>
      match goal with H : number_or_text ls ?t ?k ?a ?b ?x, F : find_ind ls ?t = Ok i |- _ =>
        replace (text_at ls i zk za zb) with (Ok x) by (symmetry; exact (text_run ls t k a b x i H F)); cbn [bind] end
  end.
Lemma read_time_step_complete np_sum lines i ts : step_holds np_sum lines i ts -> read_time_step np_sum lines i = Ok ts.
Proof.
  intros (Hn & Hc & [SL SN S1 S2 S3 S4 S5 S6 S7 S8 S9 S10 S11 S12 S13 S14 S15 S16] & Hinv & Hon & Hoff). unfold read_time_step. destruct SL as (l0 & Hl0 & F0). destruct lines as [|l0' lines']; [discriminate|]. injection Hl0 as ->. set (lines := l0 :: lines') in *.
  rewrite (fcols_back 50 60 50 60 _ _ F0) by reflexivity. cbn [as_value_error bind]. destruct SN as (l1 & (i1 & Hi1 & El1) & F1). rewrite Nat.add_0_r in El1. apply find_ind_Ok in Hi1. rewrite Hi1. cbn [bind].
  rewrite py_nth_nat, El1. cbn [bind]. rewrite skipn_50, F1. cbn [as_value_error bind].
  repeat first [run_at | run_ind]. 
  destruct (flt fzero (total_act ts)) eqn:T.
  - destruct (Hon eq_refl) as ((g & Hg & G) & Hd & Hcm & Hs). destruct g as [[[[he4 he3] h3] h2] h1]. destruct G as (G1 & G2 & G3 & G4 & G5). repeat first [run_at | run_ind].
    rewrite Hd. cbn [bind]. rewrite Hcm. cbn [bind]. rewrite Hs. cbn [bind]. rewrite Hinv. cbn [bind]. rewrite <- Hn, <- Hg. destruct ts. cbn in *. congruence.
  - destruct (Hoff eq_refl) as (A1 & A2 & A3 & A4). cbn [bind]. rewrite Hinv. cbn [bind]. rewrite <- Hn. destruct ts. cbn in *. congruence.
Qed.
Lemma read_time_step_iff np_sum lines i ts : read_time_step np_sum lines i = Ok ts <-> step_holds np_sum lines i ts.
Proof. split; [apply read_time_step_sound|apply read_time_step_complete]. Qed.

(** * Cutting the file *)
Lemma is_step_spec l : is_step l = true <-> marker l.
Proof.
  unfold is_step, marker. change (slice_btw 0 7 l) with (cols 0 7 l). rewrite (cols_columns 0 7 0 7) by reflexivity. rewrite <- starts_with_spec, str_eqb_eq. unfold columns. cbn [Nat.sub skipn].
  change (lit "1 * * *") with [chr 49; chr 32; chr 42; chr 32; chr 42; chr 32; chr 42]. split.
  - intros H. rewrite <- (firstn_skipn 7 l). rewrite H. apply starts_with_app.
  - intros H. apply starts_with_spec in H. destruct H as (t & ->). reflexivity.
Qed.
Lemma is_step_false l : is_step l = false <-> ~ marker l.
Proof. rewrite <- is_step_spec. destruct (is_step l); split; congruence. Qed.
Fixpoint inds_from (n : nat) (lines : list str) : list nat :=
  match lines with [] => [] | l :: ls => if is_step l then n :: inds_from (S n) ls else inds_from (S n) ls end.
Lemma step_inds_from n lines : map fst (filter (fun il => is_step (snd il)) (enum_from n lines)) = inds_from n lines.
Proof. revert n. induction lines as [|l lines IH]; intros n; [reflexivity|]. cbn [enum_from filter snd inds_from]. destruct (is_step l); cbn [map fst]; rewrite IH; reflexivity. Qed.
Lemma inds_from_app n a b : inds_from n (a ++ b) = inds_from n a ++ inds_from (n + List.length a) b.
Proof.
  revert n. induction a as [|l a IH]; intros n; cbn [app inds_from List.length]; [rewrite Nat.add_0_r; reflexivity|]. rewrite IH. replace (S n + List.length a) with (n + S (List.length a)) by lia. destruct (is_step l); reflexivity.
Qed.
Lemma inds_from_none n lines : Forall (fun l => ~ marker l) lines -> inds_from n lines = [].
Proof. intros H. revert n. induction H as [|l lines Hl _ IH]; intros n; [reflexivity|]. cbn [inds_from]. apply is_step_false in Hl. rewrite Hl. apply IH. Qed.
Fixpoint offsets (n : nat) (segs : list (list str)) : list nat :=
  match segs with [] => [] | s :: segs => n :: offsets (n + List.length s) segs end.
Lemma inds_from_segs n segs : Forall segment segs -> inds_from n (concat segs) = offsets n segs.
Proof.
  intros H. revert n. induction H as [|s segs (m & body & -> & Hm & Hb) _ IH]; intros n; [reflexivity|]. cbn [concat offsets]. rewrite inds_from_app. rewrite IH. cbn [inds_from]. apply is_step_spec in Hm. rewrite Hm.
  rewrite inds_from_none by exact Hb. reflexivity.
Qed.
(** Step i is read from segment i. *)
Fixpoint steps_from (np_sum : list float -> float) (i : nat) (segs : list (list str)) : res (list time_step) :=
  match segs with
  | [] => Ok []
  | s :: segs => do t <- read_time_step np_sum s i; do ts <- steps_from np_sum (S i) segs; Ok (t :: ts)
  end.
Lemma slice_nat {A} (a : nat) (b : option nat) (l : list A) :
  slice (Some (Z.of_nat a)) (option_map Z.of_nat b) l = match b with Some b => span a b l | None => skipn a l end.
Proof. destruct b as [b|]; cbn [option_map]; [apply slice_span|apply slice_from_nat]. Qed.
Lemma span_mid {A} (p s q : list A) : span (List.length p) (List.length p + List.length s) (p ++ s ++ q) = s.
Proof.
  unfold span. rewrite skipn_app, skipn_all, Nat.sub_diag. cbn [skipn app]. replace (List.length p + List.length s - List.length p) with (List.length s) by lia.
  rewrite firstn_app, firstn_all, Nat.sub_diag. cbn [firstn]. apply app_nil_r.
Qed.
Lemma skipn_all_app {A} (p s : list A) : skipn (List.length p) (p ++ s) = s.
Proof. rewrite skipn_app, skipn_all, Nat.sub_diag. reflexivity. Qed.
Lemma read_steps_segs np_sum i pre segs : read_steps np_sum (pre ++ concat segs) i (offsets (List.length pre) segs) = steps_from np_sum i segs.
Proof.
  revert i pre. induction segs as [|s segs IH]; intros i pre; [reflexivity|]. cbn [offsets read_steps steps_from].
  assert (E : slice (Some (Z.of_nat (List.length pre))) match offsets (List.length pre + List.length s) segs with [] => None | e :: _ => Some (Z.of_nat e) end (pre ++ concat (s :: segs)) = s).
  { destruct segs as [|s' segs]; cbn [offsets concat].
    - rewrite (slice_nat _ None). rewrite skipn_all_app. apply app_nil_r.
    - rewrite (slice_nat _ (Some (List.length pre + List.length s))). apply span_mid. }
  rewrite E. destruct (read_time_step np_sum s i) as [t|e]; cbn [bind]; [|reflexivity].
  specialize (IH (S i) (pre ++ s)). rewrite app_length in IH. cbn [concat]. rewrite app_assoc, IH. reflexivity.
Qed.
Lemma steps_of_cut np_sum lines pre s0 segs : cut lines pre (s0 :: segs) ->
  read_steps np_sum lines 1 (slice_from 1 (step_inds lines)) = steps_from np_sum 1 segs.
Proof.
  intros (-> & Hp & Hs). unfold step_inds, enumerate. rewrite step_inds_from, inds_from_app, inds_from_none by exact Hp. cbn [app Nat.add]. rewrite inds_from_segs by exact Hs. cbn [offsets]. change 1%Z with (Z.of_nat 1). rewrite slice_from_nat. cbn [skipn concat].
  rewrite app_assoc. rewrite <- (app_length pre s0). apply read_steps_segs.
Qed.
Lemma steps_none np_sum lines : Forall (fun l => ~ marker l) lines -> read_steps np_sum lines 1 (slice_from 1 (step_inds lines)) = Ok [].
Proof. intros H. unfold step_inds, enumerate. rewrite step_inds_from, inds_from_none by exact H. reflexivity. Qed.
Lemma cut_exists lines : exists pre segs, cut lines pre segs.
Proof.
  induction lines as [|l lines (pre & segs & -> & Hp & Hs)].
  - exists [], []. split; [reflexivity|]. split; constructor.
  - destruct (is_step l) eqn:E.
    + apply is_step_spec in E. exists [], ((l :: pre) :: segs). split; [reflexivity|]. split; [constructor|]. constructor; [|exact Hs]. exists l, pre. auto.
    + apply is_step_false in E. exists (l :: pre), segs. split; [reflexivity|]. split; [constructor; assumption|exact Hs].
Qed.
Lemma cut_nomark_unique a b (s t : list str) : Forall (fun l => ~ marker l) a -> Forall (fun l => ~ marker l) b ->
  (s = [] \/ exists m r, s = m :: r /\ marker m) -> (t = [] \/ exists m r, t = m :: r /\ marker m) -> a ++ s = b ++ t -> a = b /\ s = t.
Proof.
  intros Ha. revert b. induction Ha as [|x a Hx _ IH]; intros b Hb Hs Ht E.
  - cbn [app] in E. destruct b as [|y b]; [auto|]. exfalso. inversion Hb as [|? ? Hy _]; subst. destruct Hs as [Hs|(m & r & Hs & Hm)]; [discriminate|]. injection Hs as -> _. contradiction.
  - destruct b as [|y b]; cbn [app] in E.
    + exfalso. destruct Ht as [->|(m & r & -> & Hm)]; [discriminate|]. injection E as -> _. contradiction.
    + injection E as -> E. inversion Hb as [|? ? _ Hb']; subst. destruct (IH b Hb' Hs Ht E) as (-> & ->). auto.
Qed.
Lemma segs_head segs : Forall segment segs -> concat segs = [] \/ exists m r, concat segs = m :: r /\ marker m.
Proof. intros H. destruct H as [|s segs (m & body & -> & Hm & _) _]; [left; reflexivity|]. right. exists m, (body ++ concat segs). auto. Qed.
Lemma segs_unique a b : Forall segment a -> Forall segment b -> concat a = concat b -> a = b.
Proof.
  intros Ha. revert b. induction Ha as [|s a (m & body & -> & Hm & Hb) Ha IH]; intros b Hbs E.
  - destruct Hbs as [|t b (m & body & -> & _) _]; [reflexivity|discriminate].
  - destruct Hbs as [|t b (m' & body' & -> & Hm' & Hb') Hbs']; [discriminate|]. cbn [concat app] in E. injection E as <- E.
    destruct (cut_nomark_unique body body' _ _ Hb Hb' (segs_head _ Ha) (segs_head _ Hbs') E) as (-> & E'). f_equal. apply IH; assumption.
Qed.
Lemma cut_unique lines pre segs pre' segs' : cut lines pre segs -> cut lines pre' segs' -> pre = pre' /\ segs = segs'.
Proof.
  intros (-> & Hp & Hs) (E & Hp' & Hs'). destruct (cut_nomark_unique pre pre' _ _ Hp Hp' (segs_head _ Hs) (segs_head _ Hs') E) as (-> & E'). split; [reflexivity|]. apply segs_unique; assumption.
Qed.
Lemma steps_from_Ok np_sum i segs ts : steps_from np_sum i segs = Ok ts <->
  List.length ts = List.length segs /\ forall j s t, nth_error segs j = Some s -> nth_error ts j = Some t -> read_time_step np_sum s (i + j) = Ok t.
Proof.
  revert i ts. induction segs as [|s segs IH]; intros i ts; cbn [steps_from].
  - split.
    + intros [= <-]. split; [reflexivity|]. intros [|j] s t H; discriminate.
    + intros (L & _). destruct ts; [reflexivity|discriminate].
  - split.
    + intros H. apply bind_Ok in H. destruct H as (t & Ht & H). apply bind_Ok in H. destruct H as (ts' & Hts & [= <-]). apply IH in Hts. destruct Hts as (L & Hj). split; [cbn; congruence|].
      intros [|j] s' t' Hs Ht'; [injection Hs as <-; injection Ht' as <-; rewrite Nat.add_0_r; exact Ht|]. replace (i + S j) with (S i + j) by lia. exact (Hj j s' t' Hs Ht').
    + intros (L & H). destruct ts as [|t ts]; [discriminate|]. pose proof (H 0 s t eq_refl eq_refl) as H0. rewrite Nat.add_0_r in H0. rewrite H0. cbn [bind].
      rewrite (proj2 (IH (S i) ts)); [reflexivity|]. split; [injection L as L; exact L|]. intros j s' t' Hs Ht. replace (S i + j) with (i + S j) by lia. exact (H (S j) s' t' Hs Ht).
Qed.

(** * Summary table *)
Lemma index_of_spec x data n i : index_of x data n = Ok i <-> n <= i /\ first_index (fun y => y = x) data (i - n).
Proof.
  revert n. induction data as [|y data IH]; intros n; cbn [index_of].
  - split; [discriminate|]. intros (_ & (z & Hz & _) & _). destruct (i - n); discriminate.
  - destruct (str_eqb_spec x y) as [->|N].
    + split.
      * intros [= <-]. split; [lia|]. rewrite Nat.sub_diag. split; [exists y; auto|]. intros j z L. lia.
      * intros (L & (z & Hz & _) & Hb). destruct (i - n) as [|d] eqn:D; [f_equal; lia|]. elim (Hb 0 y); [lia|reflexivity|reflexivity].
    + rewrite IH. split.
      * intros (L & (z & Hz & ->) & Hb). split; [lia|]. replace (i - n) with (S (i - S n)) by lia. split; [exists x; auto|]. intros [|j] w Lj Hw; [injection Hw as ->; congruence|]. apply (Hb j); [lia|exact Hw].
      * intros (L & (z & Hz & ->) & Hb). destruct (i - n) as [|d] eqn:D; [injection Hz as ->; congruence|]. split; [lia|]. replace (i - S n) with d by lia. split; [exists x; auto|]. intros j w Lj Hw. apply (Hb (S j)); [lia|exact Hw].
Qed.
Lemma index_of_Err x data n e : index_of x data n = Err e <-> e = ValueError /\ ~ In x data.
Proof.
  revert n. induction data as [|y data IH]; intros n; cbn [index_of]; [split; [intros [= <-]; auto|intros (-> & _); reflexivity]|].
  destruct (str_eqb_spec x y) as [->|N]; [split; [discriminate|intros (_ & H); elim H; left; reflexivity]|]. rewrite IH. cbn [In]. split; intros (A & B); split; auto. intros [H|H]; [congruence|auto].
Qed.
Lemma old_version_spec data : isFisII data = negb (existsb (contains (lit "FISPACT VERSION 07.0/0")) (firstn 50 data)).
Proof.
  unfold isFisII, check_fisp_version. change 50%Z with (Z.of_nat 50). rewrite slice_to_nat. induction (firstn 50 data) as [|l ls IH]; [reflexivity|]. cbn [find existsb].
  destruct (contains (lit "FISPACT VERSION 07.0/0") l) eqn:E; cbn [orb negb]; [|exact IH]. destruct l; [discriminate|reflexivity].
Qed.
Lemma isFisII_spec data : isFisII data = true <-> ~ old_version data.
Proof.
  rewrite old_version_spec, Bool.negb_true_iff. unfold old_version. split.
  - intros H (l & Hl & O). apply contains_spec in O. assert (X : existsb (contains (lit "FISPACT VERSION 07.0/0")) (firstn 50 data) = true) by (apply existsb_exists; eauto). congruence.
  - intros H. destruct (existsb _ _) eqn:E; [|reflexivity]. apply existsb_exists in E. destruct E as (l & Hl & O). elim H. exists l. split; [exact Hl|]. apply contains_spec. exact O.
Qed.
Lemma read_row l rows lines to cooling out : (exists c, nth_error l 1 = Some c /\ c <> chr 45) ->
  sum_loop (l :: lines) rows to cooling = Ok out <-> exists r, row_of to cooling l r /\ sum_loop lines (r :: rows) to cooling = Ok out.
Proof.
  intros (c & Hc & N). cbn [sum_loop]. change 1%Z with (Z.of_nat 1). rewrite py_nth_nat, Hc. cbn [bind]. destruct (Ascii.eqb_spec c (chr 45)); [contradiction|]. split.
  - intros H. unbind H. eexists. split; [|exact H]. exists v. cbn. split; [|auto].
    constructor; [exists c; auto| | | | | | |];
    match goal with E : fcols ?a ?b _ = Ok ?x |- field _ _ _ ?x => apply (fcols_field a b (Z.to_nat a) (Z.to_nat b) _ _ eq_refl eq_refl); exact E end.
  - intros (r & (t & [_ F1 F2 F3 F4 F5 F6 F7] & E & C) & H).
    rewrite (fcols_back 24 32 _ _ _ _ F1 eq_refl eq_refl), (fcols_back 35 43 _ _ _ _ F2 eq_refl eq_refl), (fcols_back 58 66 _ _ _ _ F3 eq_refl eq_refl),
      (fcols_back 81 89 _ _ _ _ F4 eq_refl eq_refl), (fcols_back 104 112 _ _ _ _ F5 eq_refl eq_refl), (fcols_back 127 135 _ _ _ _ F6 eq_refl eq_refl),
      (fcols_back 150 158 _ _ _ _ F7 eq_refl eq_refl). cbn [bind]. rewrite <- E. subst cooling. destruct r. exact H.
Qed.
Lemma row_of_fun to c l r r' : row_of to c l r -> row_of to c l r' -> r = r'.
Proof.
  intros (t & [_ F1 F2 F3 F4 F5 F6 F7] & E & C) (t' & [_ G1 G2 G3 G4 G5 G6 G7] & E' & C'). unfold field in *. destruct r, r'. cbn in *. congruence.
Qed.
Lemma sum_rows ls rs rows to cooling lines : Forall2 (row_of to cooling) ls rs -> sum_loop (ls ++ lines) rows to cooling = sum_loop lines (rev rs ++ rows) to cooling.
Proof.
  intros H. revert rows. induction H as [|l r ls rs Hr _ IH]; intros rows; [reflexivity|]. cbn [app rev]. rewrite <- app_assoc. cbn [app]. rewrite <- IH.
  assert (K : exists c, nth_error l 1 = Some c /\ c <> chr 45) by (destruct Hr as (t & [S _ _ _ _ _ _ _] & _); exact S).
  destruct (sum_loop (ls ++ lines) (r :: rows) to cooling) as [out|e] eqn:E.
  - apply (read_row l rows (ls ++ lines) to cooling out K). exists r. auto.
  - destruct Hr as (t & [_ F1 F2 F3 F4 F5 F6 F7] & E' & C). destruct K as (c & Hc & N). cbn [sum_loop]. change 1%Z with (Z.of_nat 1). rewrite py_nth_nat, Hc. cbn [bind]. destruct (Ascii.eqb_spec c (chr 45)); [contradiction|].
    rewrite (fcols_back 24 32 _ _ _ _ F1 eq_refl eq_refl), (fcols_back 35 43 _ _ _ _ F2 eq_refl eq_refl), (fcols_back 58 66 _ _ _ _ F3 eq_refl eq_refl),
      (fcols_back 81 89 _ _ _ _ F4 eq_refl eq_refl), (fcols_back 104 112 _ _ _ _ F5 eq_refl eq_refl), (fcols_back 127 135 _ _ _ _ F6 eq_refl eq_refl),
      (fcols_back 150 158 _ _ _ _ F7 eq_refl eq_refl). cbn [bind]. rewrite <- E'. rewrite <- C in *. destruct r. exact E.
Qed.
Lemma sum_separator l lines rows r to cooling : separator l -> sum_loop (l :: lines) (r :: rows) to cooling = sum_loop lines (r :: rows) (time_years r) true.
Proof. intros H. cbn [sum_loop]. change 1%Z with (Z.of_nat 1). rewrite py_nth_nat, H. cbn [bind]. reflexivity. Qed.
Lemma read_summary_lines data ls : ~ old_version data -> summary_lines data ls ->
  read_summary_data data = (do rows <- sum_loop ls [] fzero false; Ok (map add_time_columns rows)).
Proof.
  intros V (s & e & Hs & He & ->). unfold read_summary_data. apply isFisII_spec in V. rewrite V. unfold find_summary_block.
  assert (I : index_of irradiation_title data 0 = Ok s) by (apply index_of_spec; split; [lia|rewrite Nat.sub_0_r; exact Hs]). change irradiation_title with (lit " -----Irradiation Phase-----") in I. rewrite I. cbn [bind].
  apply find_ind_Ok in He. rewrite He. cbn [bind fst snd]. rewrite (slice_span' _ _ (s + 1) e) by lia. reflexivity.
Qed.
Lemma read_summary_two data irr sep cool rs last cs : ~ old_version data -> summary_lines data (irr ++ sep :: cool) -> separator sep ->
  Forall2 (row_of fzero false) irr (rs ++ [last]) -> Forall2 (row_of (time_years last) true) cool cs ->
  read_summary_data data = Ok (map add_time_columns ((rs ++ [last]) ++ cs)).
Proof.
  intros V L S F1 F2. rewrite (read_summary_lines _ _ V L). rewrite (sum_rows _ _ [] _ _ _ F1). rewrite rev_app_distr. cbn [rev app]. rewrite sum_separator by exact S.
  rewrite <- (app_nil_r cool). rewrite (sum_rows _ _ _ _ _ _ F2). cbn [sum_loop bind]. rewrite rev_app_distr, rev_involutive. cbn [rev]. rewrite app_nil_r, rev_involutive. reflexivity.
Qed.
Lemma read_summary_one data irr rs : ~ old_version data -> summary_lines data irr -> Forall2 (row_of fzero false) irr rs ->
  read_summary_data data = Ok (map add_time_columns rs).
Proof.
  intros V L F1. rewrite (read_summary_lines _ _ V L). rewrite <- (app_nil_r irr). rewrite (sum_rows _ _ [] _ _ _ F1). cbn [sum_loop bind]. rewrite app_nil_r, rev_involutive. reflexivity.
Qed.
Lemma sum_loop_table ls rows to c out : sum_loop ls rows to c = Ok out <->
  exists rs, out = rev rows ++ rs /\ table to c (match rows with [] => None | r :: _ => Some (time_years r) end) ls rs.
Proof.
  revert rows to c. induction ls as [|l ls IH]; intros rows to c.
  - cbn [sum_loop]. split; [intros [= <-]; exists []; rewrite app_nil_r; split; [reflexivity|constructor]|]. intros (rs & -> & T). inversion T; subst. rewrite app_nil_r. reflexivity.
  - destruct (nth_error l 1) as [d|] eqn:E.
    2:{ cbn [sum_loop]. change 1%Z with (Z.of_nat 1). rewrite py_nth_nat, E. cbn [bind]. split; [discriminate|]. intros (rs & _ & T). inversion T as [| ? ? ? ? ? ? ? (t & [(x & Hx & _) _ _ _ _ _ _ _] & _) |? ? ? ? ? ? Hx]; subst; [congruence|]. red in Hx. congruence. }
    destruct (Ascii.eqb_spec d (chr 45)) as [->|N].
    + destruct rows as [|r rows].
      * cbn [sum_loop]. change 1%Z with (Z.of_nat 1). rewrite py_nth_nat, E. cbn [bind]. change (Ascii.eqb (chr 45) (chr 45)) with true. cbv iota. split; [discriminate|]. intros (rs & _ & T).
        inversion T as [| ? ? ? ? ? ? ? (t & [(x & Hx & Nx) _ _ _ _ _ _ _] & _) | ]; subst. congruence.
      * rewrite sum_separator by exact E. rewrite IH. split; intros (rs & Eq & T); exists rs; (split; [exact Eq|]); [constructor; assumption|].
        inversion T as [| ? ? ? ? ? ? ? (t & [(x & Hx & Nx) _ _ _ _ _ _ _] & _) | ]; subst; [congruence|assumption].
    + assert (K : exists c, nth_error l 1 = Some c /\ c <> chr 45) by eauto. rewrite (read_row l rows ls to c out K). split.
      * intros (r & Hr & H). apply IH in H. destruct H as (rs & -> & T). exists (r :: rs). cbn [rev]. rewrite <- app_assoc. split; [reflexivity|]. constructor; assumption.
      * intros (rs & -> & T). inversion T as [| ? ? ? ? ? r rs' Hr T' | ? ? ? ? ? ? Hx]; subst; [|red in Hx; congruence]. exists r. split; [exact Hr|]. apply IH. exists rs'. cbn [rev]. rewrite <- app_assoc. auto.
Qed.
Lemma read_summary_iff data ls out : ~ old_version data -> summary_lines data ls ->
  read_summary_data data = Ok out <-> exists rows, out = map add_time_columns rows /\ table fzero false None ls rows.
Proof.
  intros V L. rewrite (read_summary_lines _ _ V L). rewrite bind_Ok. split.
  - intros (rows & H & [= <-]). apply sum_loop_table in H. destruct H as (rs & -> & T). exists rs. auto.
  - intros (rows & -> & T). exists rows. split; [|reflexivity]. apply sum_loop_table. exists rows. auto.
Qed.
Lemma enum_filter {A} (p : A -> bool) n (l : list A) : map snd (filter (fun ir => p (snd ir)) (enum_from n l)) = filter p l.
Proof. revert n. induction l as [|x l IH]; intros n; [reflexivity|]. cbn [enum_from filter snd]. destruct (p x); cbn [map snd]; rewrite IH; reflexivity. Qed.
Lemma retrieve_rows sd : map snd (retrieve_cooling_data sd) = filter (fun r => is_cooling (fst r)) sd.
Proof. apply (enum_filter (fun r => is_cooling (fst r))). Qed.
Lemma retrieve_labels sd i r : In (i, r) (retrieve_cooling_data sd) <-> nth_error sd i = Some r /\ is_cooling (fst r) = true.
Proof. unfold retrieve_cooling_data. rewrite filter_In, enumerate_In. cbn [snd]. reflexivity. Qed.
Lemma first_filter_from {A} (p : A -> bool) n (l : list A) :
  match filter (fun ir => p (snd ir)) (enum_from n l) with
  | [] => Forall (fun x => p x = false) l
  | (i, _) :: _ => n <= i /\ first_index (fun x => p x = true) l (i - n)
  end.
Proof.
  revert n. induction l as [|x l IH]; intros n; cbn [enum_from filter snd]; [constructor|]. destruct (p x) eqn:E.
  - split; [lia|]. rewrite Nat.sub_diag. split; [exists x; auto|]. intros j y L. lia.
  - specialize (IH (S n)). destruct (filter _ _) as [|[i y] rest]; [constructor; assumption|]. destruct IH as (L & (z & Hz & Pz) & Hb). split; [lia|]. replace (i - n) with (S (i - S n)) by lia. split; [exists z; auto|].
    intros [|j] w Lj Hw; [injection Hw as <-; congruence|]. apply (Hb j); [lia|exact Hw].
Qed.
Lemma first_cooling sd i : find_first_cooling_index sd = Some i <-> first_index (fun r => is_cooling (fst r) = true) sd i.
Proof.
  unfold find_first_cooling_index, retrieve_cooling_data, enumerate. pose proof (first_filter_from (fun r : sum_row * (float * float * float) => is_cooling (fst r)) 0 sd) as H.
  destruct (filter _ _) as [|[j y] rest].
  - split; [discriminate|]. intros ((x & Hx & Px) & _). rewrite Forall_forall in H. apply nth_error_In in Hx. specialize (H _ Hx). cbn in *. congruence.
  - rewrite Nat.sub_0_r in H. destruct H as (_ & H). split; [intros [= <-]; exact H|]. intros K. f_equal. destruct H as ((x & Hx & Px) & Hb). destruct K as ((x' & Hx' & Px') & Hb').
    destruct (Nat.lt_trichotomy i j) as [L|[->|L]]; [elim (Hb i x' L Hx' Px')|reflexivity|elim (Hb' j x L Hx Px)].
Qed.
Lemma no_cooling sd : find_first_cooling_index sd = None <-> Forall (fun r => is_cooling (fst r) = false) sd.
Proof.
  unfold find_first_cooling_index, retrieve_cooling_data, enumerate. pose proof (first_filter_from (fun r : sum_row * (float * float * float) => is_cooling (fst r)) 0 sd) as H.
  destruct (filter _ _) as [|[j y] rest]; [split; auto|]. split; [discriminate|]. intros K. destruct H as (_ & (x & Hx & Px) & _). rewrite Forall_forall in K. apply nth_error_In in Hx. apply K in Hx. congruence.
Qed.
