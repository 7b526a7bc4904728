(** Lemmas about mcnp_run_plot. *)
From Verif Require Import PyBase PyFacts PyNumFacts PyFloat PyFs M_util M_runplot SpecStr SpecOutput SpecInput SpecRunplot P_r2s.
From Coq Require Import Lia.

Section D.
Context {T : Type} (strptime : str -> res T).

Lemma columns_btw (a b : nat) (l : str) : slice_btw (Z.of_nat a) (Z.of_nat b) l = columns a b l.
Proof. rewrite slice_btw_nat. unfold columns. now rewrite firstn_skipn_comm_min || (rewrite skipn_firstn_comm; reflexivity). Qed.

Lemma quiet_lines q d : Forall quiet q -> foldM (line_step strptime) q d = Ok d.
Proof.
  intros H. revert d. induction H as [|l q (A & B & C) H IH]; intros d; [reflexivity|].
  cbn [foldM]. unfold line_step. apply contains_false in A, B, C. rewrite A, B, C. cbn [bind]. apply IH.
Qed.
Lemma quiet_app q r d : Forall quiet q -> foldM (line_step strptime) (q ++ r) d = foldM (line_step strptime) r d.
Proof. intros H. rewrite foldM_app, quiet_lines by assumption. reflexivity. Qed.
Lemma time_step l c n d : time_line l c n ->
  line_step strptime d l = Ok (mkRun (r_ctm d ++ [c]) (r_nrn d ++ [n]) (r_nps d) (r_coll d) (r_time d)).
Proof.
  intros (A & B & C & D & E). unfold line_step. apply contains_spec in A. apply contains_false in B, C.
  rewrite A. change 6%Z with (Z.of_nat 6). change 18%Z with (Z.of_nat 18). change 26%Z with (Z.of_nat 26). change 44%Z with (Z.of_nat 44).
  rewrite !columns_btw, D. cbn [bind]. rewrite E. cbn [bind]. rewrite B, C. reflexivity.
Qed.
Lemma dump_step l c d : dump_line l c ->
  line_step strptime d l = Ok (mkRun (r_ctm d) (r_nrn d) (r_nps d) (r_coll d ++ [c]) (r_time d)).
Proof.
  intros (A & B & C & D). unfold line_step. apply contains_spec in A. apply contains_false in B, C.
  rewrite B. cbn [bind]. rewrite A. change 61%Z with (Z.of_nat 61). change 78%Z with (Z.of_nat 78).
  rewrite !columns_btw, D. cbn [bind]. rewrite C. reflexivity.
Qed.
Lemma rendezvous_step l n t d : rendezvous_line strptime l n t ->
  line_step strptime d l = Ok (mkRun (r_ctm d) (r_nrn d) (r_nps d ++ [n]) (r_coll d) (r_time d ++ [t])).
Proof.
  intros (A & B & C & D & E). unfold line_step. apply contains_spec in A. apply contains_false in B, C.
  rewrite B, C. cbn [bind]. rewrite A. change 28%Z with (Z.of_nat 28). change 40%Z with (Z.of_nat 40). change 66%Z with (Z.of_nat 66). change 83%Z with (Z.of_nat 83).
  rewrite !columns_btw, D. cbn [bind]. rewrite E. reflexivity.
Qed.
Lemma start_fold l : start l -> exists x n y, foldM (line_step strptime) l no_data = Ok (mkRun [x] [n] [] [y] []).
Proof.
  intros (q & c & q' & d & x & n & y & -> & Q & C & Q' & D). exists x, n, y.
  rewrite quiet_app by assumption. cbn [foldM]. rewrite (time_step _ _ _ _ C). cbn [bind no_data r_ctm r_nrn r_nps r_coll r_time app].
  rewrite quiet_app by assumption. cbn [foldM]. rewrite (dump_step _ _ _ D). reflexivity.
Qed.
Lemma stages_fold l ss d : stages strptime l ss -> foldM (line_step strptime) l d =
  Ok (mkRun (r_ctm d ++ map st_ctm ss) (r_nrn d ++ map st_nrn ss) (r_nps d ++ map st_nps ss) (r_coll d ++ map st_coll ss) (r_time d ++ map st_time ss)).
Proof.
  intros H. revert d. induction H as [q Q|q r q' c q'' e rest s ss Q R Q' C Q'' D S IH]; intros d.
  - rewrite quiet_lines by assumption. cbn [map]. rewrite !app_nil_r. now destruct d.
  - rewrite quiet_app by assumption. cbn [foldM]. rewrite (rendezvous_step _ _ _ _ R). cbn [bind].
    rewrite quiet_app by assumption. cbn [foldM]. rewrite (time_step _ _ _ _ C). cbn [bind].
    rewrite quiet_app by assumption. cbn [foldM]. rewrite (dump_step _ _ _ D). cbn [bind]. rewrite IH.
    cbn [r_ctm r_nrn r_nps r_coll r_time map]. now rewrite <- !app_assoc.
Qed.
Lemma plot_map {S X Y} (g : S -> X) (h : S -> Y) ss : plot (map g ss) (map h ss) = Ok (map (fun s => (g s, h s)) ss).
Proof. unfold plot. rewrite !map_length, Nat.eqb_refl. f_equal. induction ss as [|s ss IH]; [reflexivity|]. cbn. now rewrite IH. Qed.
Lemma slice_from_1 {A} (x : A) l : slice_from 1 (x :: l) = l.
Proof. rewrite slice_from_pos by lia. reflexivity. Qed.

Lemma finished_run f p ls a b ss : get_lines f p = Ok ls -> ls = a ++ b -> start a -> stages strptime b ss ->
  plot_nps_stats strptime f p = Ok (mkGraphs (map (fun s => (st_time s, st_nps s)) ss) (map (fun s => (st_nps s, st_ctm s)) ss)
    (map (fun s => (st_nps s, st_nrn s)) ss) (map (fun s => (st_nps s, st_coll s)) ss)).
Proof.
  intros G -> A B. unfold plot_nps_stats. rewrite G. cbn [bind]. rewrite foldM_app.
  destruct (start_fold a A) as (x & n & y & ->). cbn [bind]. rewrite (stages_fold b ss _ B). cbn [bind r_ctm r_nrn r_nps r_coll r_time app].
  rewrite !slice_from_1, !plot_map. reflexivity.
Qed.
Lemma running_run f p ls a b ss q r q' n t : get_lines f p = Ok ls -> ls = a ++ b ++ q ++ r :: q' -> start a -> stages strptime b ss ->
  Forall quiet q -> rendezvous_line strptime r n t -> Forall quiet q' -> plot_nps_stats strptime f p = Err ValueError.
Proof.
  intros G -> A B Q R Q'. unfold plot_nps_stats. rewrite G. cbn [bind]. rewrite foldM_app.
  destruct (start_fold a A) as (x & m & y & ->). cbn [bind]. rewrite foldM_app, (stages_fold b ss _ B). cbn [bind r_ctm r_nrn r_nps r_coll r_time app].
  rewrite quiet_app by assumption. cbn [foldM]. rewrite (rendezvous_step _ _ _ _ R). cbn [bind]. rewrite quiet_lines by assumption.
  cbn [bind r_ctm r_nrn r_nps r_coll r_time app]. rewrite !slice_from_1. unfold plot at 1. rewrite !app_length, !map_length, Nat.eqb_refl. cbn [bind].
  unfold plot at 1. rewrite !app_length, !map_length. cbn [List.length]. destruct (Nat.eqb_spec (List.length ss + 1) (List.length ss)); [lia|reflexivity].
Qed.

(** what a graph shows in general *)
Lemma plot_Ok {X Y} (x : list X) (y : list Y) g : plot x y = Ok g <-> List.length x = List.length y /\ g = combine x y.
Proof. unfold plot. destruct (Nat.eqb_spec (List.length x) (List.length y)); split; [intros H; injection H as <-; auto|intros (_ & ->); reflexivity|discriminate|intros (A & _); contradiction]. Qed.

Definition fold_rel (ls : list str) (d d' : run_data T) : Prop :=
  exists tl dl rl tv dv rv, selects reports_time ls tl /\ selects reports_dump ls dl /\ selects reports_rendezvous ls rl /\
    Forall2 (fun l v => py_float (columns 6 18 l) = Ok (fst v) /\ py_int (columns 26 44 l) = Ok (snd v)) tl tv /\
    Forall2 (fun l v => py_int (columns 61 78 l) = Ok v) dl dv /\
    Forall2 (fun l v => py_int (columns 28 40 l) = Ok (fst v) /\ strptime (columns 66 83 l) = Ok (snd v)) rl rv /\
    d' = mkRun (r_ctm d ++ map fst tv) (r_nrn d ++ map snd tv) (r_nps d ++ map fst rv) (r_coll d ++ dv) (r_time d ++ map snd rv).
Definition if_reports (b : bool) {A} (v : A) : list A := if b then [v] else [].
Lemma step_Ok d l d' : line_step strptime d l = Ok d' ->
  exists tv dv rv, selects reports_time [l] (if_reports (contains (lit "ctm") l) l) /\
    selects reports_dump [l] (if_reports (contains (lit "dump") l) l) /\ selects reports_rendezvous [l] (if_reports (contains (lit "master set rendezvous") l) l) /\
    Forall2 (fun l v => py_float (columns 6 18 l) = Ok (fst v) /\ py_int (columns 26 44 l) = Ok (snd v)) (if_reports (contains (lit "ctm") l) l) tv /\
    Forall2 (fun l v => py_int (columns 61 78 l) = Ok v) (if_reports (contains (lit "dump") l) l) dv /\
    Forall2 (fun l v => py_int (columns 28 40 l) = Ok (fst v) /\ strptime (columns 66 83 l) = Ok (snd v)) (if_reports (contains (lit "master set rendezvous") l) l) rv /\
    d' = mkRun (r_ctm d ++ map fst tv) (r_nrn d ++ map snd tv) (r_nps d ++ map fst rv) (r_coll d ++ dv) (r_time d ++ map snd rv).
Proof.
  unfold line_step.
  change 6%Z with (Z.of_nat 6). change 18%Z with (Z.of_nat 18). change 26%Z with (Z.of_nat 26). change 44%Z with (Z.of_nat 44).
  change 28%Z with (Z.of_nat 28). change 40%Z with (Z.of_nat 40). change 66%Z with (Z.of_nat 66). change 83%Z with (Z.of_nat 83).
  change 61%Z with (Z.of_nat 61). change 78%Z with (Z.of_nat 78). rewrite !columns_btw. intros H.
  assert (S : forall w : str, selects (occurs w) [l] (if_reports (contains w l) l)).
  { intros w. unfold if_reports. destruct (contains w l) eqn:E; [apply contains_spec in E|apply contains_false in E]; repeat constructor; assumption. }
  pose proof (S (lit "ctm")) as S1. pose proof (S (lit "dump")) as S2. pose proof (S (lit "master set rendezvous")) as S3. clear S.
  assert (X : exists tv d1, (if contains (lit "ctm") l then do c <- py_float (columns 6 18 l); do n <- py_int (columns 26 44 l);
       Ok (mkRun (r_ctm d ++ [c]) (r_nrn d ++ [n]) (r_nps d) (r_coll d) (r_time d)) else Ok d) = Ok d1 /\
     d1 = mkRun (r_ctm d ++ map fst tv) (r_nrn d ++ map snd tv) (r_nps d) (r_coll d) (r_time d) /\
     Forall2 (fun l v => py_float (columns 6 18 l) = Ok (fst v) /\ py_int (columns 26 44 l) = Ok (snd v)) (if_reports (contains (lit "ctm") l) l) tv).
  { destruct (contains (lit "ctm") l) eqn:E.
    - destruct (py_float (columns 6 18 l)) as [c|] eqn:C; cbn [bind] in *; [|discriminate].
      destruct (py_int (columns 26 44 l)) as [n|] eqn:N; cbn [bind] in *; [|discriminate].
      exists [(c, n)]. eexists. split; [reflexivity|]. split; [reflexivity|]. repeat constructor; assumption.
    - exists []. eexists. split; [reflexivity|]. cbn [map]. rewrite !app_nil_r. split; [now destruct d|constructor]. }
  destruct X as (tv & d1 & E1 & D1 & F1). rewrite E1 in H. clear E1. cbn [bind] in H.
  assert (X : exists dv d2, (if contains (lit "dump") l then do c <- py_int (columns 61 78 l);
       Ok (mkRun (r_ctm d1) (r_nrn d1) (r_nps d1) (r_coll d1 ++ [c]) (r_time d1)) else Ok d1) = Ok d2 /\
     d2 = mkRun (r_ctm d1) (r_nrn d1) (r_nps d1) (r_coll d1 ++ dv) (r_time d1) /\
     Forall2 (fun l v => py_int (columns 61 78 l) = Ok v) (if_reports (contains (lit "dump") l) l) dv).
  { destruct (contains (lit "dump") l) eqn:E.
    - destruct (py_int (columns 61 78 l)) as [c|] eqn:C; cbn [bind] in *; [|discriminate].
      exists [c]. eexists. split; [reflexivity|]. split; [reflexivity|]. repeat constructor; assumption.
    - exists []. eexists. split; [reflexivity|]. rewrite !app_nil_r. split; [now destruct d1|constructor]. }
  destruct X as (dv & d2 & E2 & D2 & F2). rewrite E2 in H. clear E2. cbn [bind] in H.
  destruct (contains (lit "master set rendezvous") l) eqn:E.
  - destruct (py_int (columns 28 40 l)) as [c|] eqn:C; cbn [bind] in *; [|discriminate].
    destruct (strptime (columns 66 83 l)) as [n|] eqn:N; cbn [bind] in *; [|discriminate].
    injection H as <-. exists tv, dv, [(c, n)]. repeat (split; [assumption|]). split; [repeat constructor; assumption|].
    subst d2 d1. reflexivity.
  - injection H as <-. exists tv, dv, []. repeat (split; [assumption|]). split; [constructor|].
    subst d2 d1. cbn [map r_ctm r_nrn r_nps r_coll r_time]. now rewrite !app_nil_r.
Qed.
Lemma selects_app {A} (P : A -> Prop) l1 r1 l2 r2 : selects P l1 r1 -> selects P l2 r2 -> selects P (l1 ++ l2) (r1 ++ r2).
Proof. intros H G. induction H; cbn [app]; [assumption|constructor; assumption|constructor; assumption]. Qed.
Lemma fold_Ok ls : forall d d', foldM (line_step strptime) ls d = Ok d' -> fold_rel ls d d'.
Proof.
  induction ls as [|l ls IH]; intros d d' H; cbn [foldM] in H.
  - injection H as <-. exists [], [], [], [], [], []. repeat (split; [constructor|]). cbn [map]. rewrite !app_nil_r. now destruct d.
  - destruct (line_step strptime d l) as [d1|] eqn:E; cbn [bind] in H; [|discriminate].
    apply step_Ok in E. destruct E as (tv & dv & rv & S1 & S2 & S3 & F1 & F2 & F3 & E).
    apply IH in H. destruct H as (tl & dl & rl & tw & dw & rw & S4 & S5 & S6 & F4 & F5 & F6 & H).
    exists (if_reports (contains (lit "ctm") l) l ++ tl), (if_reports (contains (lit "dump") l) l ++ dl), (if_reports (contains (lit "master set rendezvous") l) l ++ rl), (tv ++ tw), (dv ++ dw), (rv ++ rw).
    change (l :: ls) with ([l] ++ ls). repeat (split; [first [apply selects_app|apply Forall2_app]; assumption|]).
    rewrite H, E. cbn [r_ctm r_nrn r_nps r_coll r_time]. now rewrite !map_app, !app_assoc.
Qed.
End D.

(** * The points of the graphs *)
Lemma Forall2_nth2 {A B} (R : A -> B -> Prop) l m k b : Forall2 R l m -> nth_error m k = Some b -> exists a, nth_error l k = Some a /\ R a b.
Proof. intros H. revert k. induction H as [|a b' l m R' H IH]; intros [|k] E; try discriminate; [injection E as <-; exists a; auto|apply IH; exact E]. Qed.
Lemma Forall2_nth1 {A B} (R : A -> B -> Prop) l m k a : Forall2 R l m -> nth_error l k = Some a -> exists b, nth_error m k = Some b /\ R a b.
Proof. intros H. revert k. induction H as [|a' b l m R' H IH]; intros [|k] E; try discriminate; [injection E as <-; exists b; auto|apply IH; exact E]. Qed.
Lemma nth_combine {A B} (l : list A) (m : list B) k a b : nth_error (combine l m) k = Some (a, b) <-> nth_error l k = Some a /\ nth_error m k = Some b.
Proof.
  revert m k. induction l as [|x l IH]; intros [|y m] [|k]; cbn [combine nth_error]; try (split; [discriminate|intros (? & ?); discriminate]); [|apply IH].
  split; [intros H; injection H as <- <-; auto|intros (E & F); congruence].
Qed.
Lemma nth_tail {A} (l : list A) k : nth_error (slice_from 1 l) k = nth_error l (S k).
Proof. rewrite slice_from_pos by lia. change (Z.to_nat 1) with 1. destruct l as [|x l]; cbn [skipn nth_error]; [now destruct k|reflexivity]. Qed.
Lemma nth_map_pair {A B C} (R : A -> B -> Prop) (g : B -> C) l m k c : Forall2 R l m ->
  (nth_error (map g m) k = Some c <-> exists a b, nth_error l k = Some a /\ R a b /\ nth_error m k = Some b /\ g b = c).
Proof.
  intros H. rewrite nth_error_map. split.
  - destruct (nth_error m k) as [b|] eqn:E; cbn [option_map]; [|discriminate]. intros X. injection X as <-.
    destruct (Forall2_nth2 R l m k b H E) as (a & F & G). exists a, b. auto.
  - intros (a & b & _ & _ & -> & <-). reflexivity.
Qed.
Lemma tail_length {A} (l : list A) : List.length (slice_from 1 l) = List.length l - 1.
Proof. rewrite slice_from_pos by lia. now rewrite skipn_length. Qed.

Lemma graphs_spec {T} (strptime : str -> res T) f p g : plot_nps_stats strptime f p = Ok g ->
  exists ls times dumps sets, get_lines f p = Ok ls /\
    selects reports_time ls times /\ selects reports_dump ls dumps /\ selects reports_rendezvous ls sets /\
    List.length times - 1 = List.length sets /\ List.length dumps - 1 = List.length sets /\
    List.length (g_nps g) = List.length sets /\ List.length (g_ctm g) = List.length sets /\
    List.length (g_nrn g) = List.length sets /\ List.length (g_coll g) = List.length sets /\
    (forall k t n, nth_error (g_nps g) k = Some (t, n) -> exists r, nth_error sets k = Some r /\
       strptime (columns 66 83 r) = Ok t /\ py_int (columns 28 40 r) = Ok n) /\
    (forall k n c, nth_error (g_ctm g) k = Some (n, c) -> exists r l, nth_error sets k = Some r /\ nth_error times (S k) = Some l /\
       py_int (columns 28 40 r) = Ok n /\ py_float (columns 6 18 l) = Ok c) /\
    (forall k n c, nth_error (g_nrn g) k = Some (n, c) -> exists r l, nth_error sets k = Some r /\ nth_error times (S k) = Some l /\
       py_int (columns 28 40 r) = Ok n /\ py_int (columns 26 44 l) = Ok c) /\
    (forall k n c, nth_error (g_coll g) k = Some (n, c) -> exists r l, nth_error sets k = Some r /\ nth_error dumps (S k) = Some l /\
       py_int (columns 28 40 r) = Ok n /\ py_int (columns 61 78 l) = Ok c).
Proof.
  unfold plot_nps_stats. intros H. destruct (get_lines f p) as [ls|] eqn:G; cbn [bind] in H; [|discriminate].
  destruct (foldM (line_step strptime) ls no_data) as [d|] eqn:F; cbn [bind] in H; [|discriminate].
  apply fold_Ok in F. destruct F as (tl & dl & rl & tv & dv & rv & S1 & S2 & S3 & F1 & F2 & F3 & E).
  cbn [no_data r_ctm r_nrn r_nps r_coll r_time app] in E. subst d. cbn [r_ctm r_nrn r_nps r_coll r_time] in H.
  destruct (plot (map snd rv) (map fst rv)) as [a|] eqn:A; cbn [bind] in H; [|discriminate].
  destruct (plot (map fst rv) (slice_from 1 (map fst tv))) as [b|] eqn:B; cbn [bind] in H; [|discriminate].
  destruct (plot (map fst rv) (slice_from 1 (map snd tv))) as [c|] eqn:C; cbn [bind] in H; [|discriminate].
  destruct (plot (map fst rv) (slice_from 1 dv)) as [e|] eqn:D; cbn [bind] in H; [|discriminate]. injection H as <-. cbn [g_nps g_ctm g_nrn g_coll].
  apply plot_Ok in A, B, C, D. destruct A as (LA & ->), B as (LB & ->), C as (LC & ->), D as (LD & ->).
  rewrite tail_length, ?map_length in LB. rewrite tail_length, ?map_length in LC. rewrite tail_length, ?map_length in LD.
  pose proof (F2_length _ _ _ F1) as L1. pose proof (F2_length _ _ _ F2) as L2. pose proof (F2_length _ _ _ F3) as L3.
  exists ls, tl, dl, rl. split; [reflexivity|]. repeat (split; [assumption|]). rewrite !combine_length, !tail_length, !map_length.
  repeat (split; [lia|]). split; [|split; [|split]].
  - intros k t n. rewrite nth_combine, !(nth_map_pair _ _ _ _ k _ F3). intros ((r & v & E1 & (E2 & E3) & E4 & E5) & _ & v' & _ & _ & E6 & E7).
    rewrite E4 in E6. injection E6 as <-. subst. eauto.
  - intros k n x. rewrite nth_combine, nth_tail, (nth_map_pair _ _ _ _ k _ F3), (nth_map_pair _ _ _ _ (S k) _ F1).
    intros ((r & v & E1 & (E2 & E3) & E4 & E5) & l & v' & E6 & (E7 & E8) & E9 & E10). subst. eauto 8.
  - intros k n x. rewrite nth_combine, nth_tail, (nth_map_pair _ _ _ _ k _ F3), (nth_map_pair _ _ _ _ (S k) _ F1).
    intros ((r & v & E1 & (E2 & E3) & E4 & E5) & l & v' & E6 & (E7 & E8) & E9 & E10). subst. eauto 8.
  - intros k n x. rewrite nth_combine, nth_tail, (nth_map_pair _ _ _ _ k _ F3).
    intros ((r & v & E1 & (E2 & E3) & E4 & E5) & X). destruct (Forall2_nth2 _ _ _ _ _ F2 X) as (l & E6 & E7). subst. eauto 8.
Qed.

(** * The columns of a dump *)
Lemma digits_val_app' a b : digits_val (a ++ b) = (digits_val a * 10 ^ N.of_nat (List.length b) + digits_val b)%N.
Proof.
  induction b as [|c b IH] using rev_ind; [cbn [List.length]; rewrite app_nil_r; change (digits_val []) with 0%N; rewrite N.pow_0_r; lia|].
  rewrite app_assoc, !digits_val_app, IH, app_length. cbn [List.length]. rewrite Nat2N.inj_add, N.pow_add_r. change (N.of_nat 1) with 1%N. rewrite N.pow_1_r. lia.
Qed.
Lemma digits_val_lt b : Forall (fun c => is_decimal c = true) b -> (digits_val b < 10 ^ N.of_nat (List.length b))%N.
Proof.
  induction b as [|c b IH] using rev_ind; intros H; [reflexivity|]. apply Forall_app in H. destruct H as (H & K). inversion K as [|? ? K1 _]; subst.
  rewrite digits_val_app, app_length. cbn [List.length]. rewrite Nat2N.inj_add, N.pow_add_r. change (N.of_nat 1) with 1%N. rewrite N.pow_1_r.
  specialize (IH H). unfold digit_val. unfold is_decimal in K1. apply andb_true_iff in K1. destruct K1 as (K1 & K2). apply N.leb_le in K1, K2. lia.
Qed.
Lemma digits_val_skipn ds j : Forall (fun c => is_decimal c = true) ds ->
  digits_val (skipn j ds) = (digits_val ds mod 10 ^ N.of_nat (List.length ds - j))%N.
Proof.
  intros H. rewrite <- (firstn_skipn j ds) at 2. rewrite digits_val_app', skipn_length, N.add_comm, N.mod_add by (apply N.pow_nonzero; lia).
  symmetry. apply N.mod_small. rewrite <- skipn_length. apply digits_val_lt. rewrite <- (firstn_skipn j ds) in H. apply Forall_app in H. tauto.
Qed.
Lemma lstrip_spaces k s : lstrip_by is_num_ws (repeat (chr 32) k ++ s) = lstrip_by is_num_ws s.
Proof. induction k as [|k IH]; [reflexivity|]. cbn [repeat app lstrip_by]. exact IH. Qed.
Lemma rstrip_spaces k s : rstrip_by is_num_ws (repeat (chr 32) k ++ s) =
  match rstrip_by is_num_ws s with [] => [] | t => repeat (chr 32) k ++ t end.
Proof.
  induction k as [|k IH]; [cbn; now destruct (rstrip_by is_num_ws s)|]. cbn [repeat app rstrip_by]. rewrite IH.
  destruct (rstrip_by is_num_ws s); [reflexivity|]. destruct (repeat (chr 32) k ++ a :: s0) eqn:E; [destruct k; discriminate|]. reflexivity.
Qed.
Lemma py_int_spaces k s : py_int (repeat (chr 32) k ++ s) = py_int s.
Proof. unfold py_int. rewrite rstrip_spaces. destruct (rstrip_by is_num_ws s) as [|c t]; [reflexivity|]. now rewrite lstrip_spaces. Qed.
Lemma skipn_repeat {A} (x : A) k j : skipn j (repeat x k) = repeat x (k - j).
Proof. revert k. induction j as [|j IH]; intros [|k]; cbn; auto. Qed.
Lemma py_int_field w ds n j : right_justified w ds n -> ds <> [] -> Forall (fun c => is_decimal c = true) ds -> j < w ->
  py_int (skipn j n) = Ok (Z.of_N (digits_val ds mod 10 ^ N.of_nat (w - j))).
Proof.
  intros (k & L & ->) D F J. rewrite skipn_app, repeat_length, skipn_repeat, py_int_spaces.
  destruct (Nat.le_gt_cases j k) as [H|H].
  - replace (j - k) with 0 by lia. cbn [skipn]. rewrite py_int_digits by assumption. do 2 f_equal. symmetry. apply N.mod_small.
    eapply N.lt_le_trans; [apply digits_val_lt; exact F|]. apply N.pow_le_mono_r; lia.
  - rewrite py_int_digits.
    + rewrite digits_val_skipn by assumption. do 4 f_equal. lia.
    + intros E. apply (f_equal (@List.length ascii)) in E. rewrite skipn_length in E. cbn [List.length] in E. lia.
    + rewrite <- (firstn_skipn (j - k) ds) in F. apply Forall_app in F. tauto.
Qed.
Lemma In_rstrip p c s : p c = false -> In c s -> In c (rstrip_by p s).
Proof.
  intros P. induction s as [|x s IH]; [auto|]. cbn [rstrip_by In]. intros [->|I].
  - destruct (rstrip_by p s); [rewrite P; now left|now left].
  - specialize (IH I). destruct (rstrip_by p s); [destruct IH|now right].
Qed.
Lemma In_lstrip p c s : p c = false -> In c s -> In c (lstrip_by p s).
Proof. intros P. induction s as [|x s IH]; [auto|]. cbn [lstrip_by In]. intros [->|I]; [rewrite P; now left|]. destruct (p x); [auto|now right]. Qed.
Lemma In_underscores c s : (code c =? 95)%N = false -> forall b t, drop_underscores b s = Some t -> In c s -> In c t.
Proof.
  intros P. induction s as [|x s IH]; intros b t H I; [destruct I|]. cbn [drop_underscores] in H. destruct (code x =? 95)%N eqn:X.
  - destruct s as [|d s]; [discriminate|]. destruct (b && is_decimal d); [|discriminate]. destruct I as [->|I]; [congruence|]. eapply IH; eassumption.
  - destruct (drop_underscores (is_decimal x) s) as [t'|] eqn:D; [|discriminate]. injection H as <-. destruct I as [->|I]; [now left|right]. eapply IH; eassumption.
Qed.
Lemma py_int_foreign c s : is_num_ws c = false -> (code c =? 95)%N = false -> (code c =? 45)%N = false -> (code c =? 43)%N = false -> is_decimal c = false ->
  In c s -> py_int s = Err ValueError.
Proof.
  intros A B C D E I. unfold py_int. destruct (drop_underscores false (lstrip_by is_num_ws (rstrip_by is_num_ws s))) as [t|] eqn:U; [|reflexivity].
  assert (J : In c t) by (eapply In_underscores; [exact B|exact U|]; apply In_lstrip; [exact A|]; apply In_rstrip; assumption).
  assert (K : In c (snd (take_sign t))).
  { destruct t as [|x t]; [exact J|]. cbn [take_sign]. destruct (code x =? 45)%N eqn:X; cbn [snd]; [destruct J as [->|J]; [congruence|exact J]|].
    destruct (code x =? 43)%N eqn:Y; cbn [snd]; [destruct J as [->|J]; [congruence|exact J]|exact J]. }
  destruct (take_sign t) as [neg ds]. cbn [snd] in K. destruct ds as [|y ds]; [reflexivity|].
  destruct (forallb is_decimal (y :: ds)) eqn:G; [|reflexivity]. rewrite forallb_forall in G. rewrite (G c K) in E. discriminate.
Qed.
Lemma columns_app_skip a b (x y : str) : columns (List.length x + a) (List.length x + b) (x ++ y) = columns a b y.
Proof.
  unfold columns. rewrite skipn_app. rewrite skipn_all2 by lia. cbn [app]. f_equal; [lia|]. f_equal. lia.
Qed.
Lemma rj_length w s t : right_justified w s t -> List.length t = w.
Proof. intros (k & L & ->). rewrite app_length, repeat_length. lia. Qed.
Lemma dump_column number name nps coll l : dump_text number name nps coll l ->
  (List.length name <= 13 -> py_int (columns 61 78 l) = Ok (Z.of_N (coll mod 10 ^ N.of_nat (4 + List.length name)))) /\
  (13 < List.length name <= 30 -> py_int (columns 61 78 l) = Err ValueError).
Proof.
  intros (a & b & c & A & B & C & ->). apply rj_length in A as LA. apply rj_length in B as LB. apply rj_length in C as LC.
  destruct (str_of_N_spec coll) as (V & D & N0).
  set (pre := lit " dump" ++ a ++ lit " on file " ++ name ++ lit "   nps =" ++ b ++ lit "   coll =").
  assert (LP : List.length pre = 48 + List.length name).
  { unfold pre. rewrite !app_length, LA, LB. unfold lit. cbn [List.length list_ascii_of_string]. lia. }
  assert (E : lit " dump" ++ a ++ lit " on file " ++ name ++ lit "   nps =" ++ b ++ lit "   coll =" ++ c = pre ++ c) by (unfold pre; now rewrite <- !app_assoc).
  rewrite E. split; intros H.
  - set (j := 13 - List.length name). replace 78 with (List.length pre + (j + 17)) by (unfold j; lia). replace 61 with (List.length pre + j) by (unfold j; lia).
    rewrite columns_app_skip. unfold columns. replace (j + 17 - j) with 17 by lia. rewrite firstn_all2 by (rewrite skipn_length; lia).
    rewrite (py_int_field 17 (str_of_N coll) c j C N0 D) by (unfold j; lia). rewrite V. do 4 f_equal. unfold j. lia.
  - apply (py_int_foreign (chr 61)); try reflexivity.
    assert (P : exists pre', pre = pre' ++ [chr 61]).
    { exists (lit " dump" ++ a ++ lit " on file " ++ name ++ lit "   nps =" ++ b ++ lit "   coll "). unfold pre. rewrite <- !app_assoc. reflexivity. }
    destruct P as (pre' & ->). rewrite app_length in LP. cbn [List.length] in LP. unfold columns. rewrite <- app_assoc, skipn_app.
    replace (61 - List.length pre') with 0 by lia. rewrite skipn_O, firstn_app, skipn_length.
    apply in_or_app. right. replace (78 - 61 - (List.length pre' - 61)) with (S (77 - List.length pre')) by lia. cbn [firstn]. now left.
Qed.
Lemma selects_in {A} (P : A -> Prop) l r x : selects P l r -> (In x r <-> In x l /\ P x).
Proof.
  intros S. induction S as [|y l r H S IH|y l r H S IH]; cbn [In]; [tauto| |]; rewrite IH.
  - split; [intros [<-|(A1 & B1)]; auto|intros ([<-|A1] & B1); auto].
  - split; [intros (A1 & B1); auto|intros ([<-|A1] & B1); [contradiction|auto]].
Qed.
Lemma Forall2_in1 {A B} (R : A -> B -> Prop) l m a : Forall2 R l m -> In a l -> exists b, R a b.
Proof. intros H. induction H as [|x y l m R' H IH]; intros []; subst; eauto. Qed.
Lemma long_name {T} (strptime : str -> res T) f p ls l number name nps coll : get_lines f p = Ok ls -> In l ls -> dump_text number name nps coll l ->
  13 < List.length name <= 30 -> forall g, plot_nps_stats strptime f p <> Ok g.
Proof.
  intros G I D L g H. unfold plot_nps_stats in H. rewrite G in H. cbn [bind] in H.
  destruct (foldM (line_step strptime) ls no_data) as [d|] eqn:F; cbn [bind] in H; [|discriminate].
  apply fold_Ok in F. destruct F as (tl & dl & rl & tv & dv & rv & S1 & S2 & S3 & F1 & F2 & F3 & E).
  assert (J : In l dl).
  { apply (selects_in _ _ _ _ S2). split; [exact I|]. destruct D as (a & b & c & _ & _ & _ & ->). exists [chr 32], (a ++ lit " on file " ++ name ++ lit "   nps =" ++ b ++ lit "   coll =" ++ c). reflexivity. }
  destruct (Forall2_in1 _ _ _ _ F2 J) as (v & X). apply dump_column in D. destruct D as (_ & D). rewrite (D L) in X. discriminate.
Qed.
Lemma short_name name : List.length name < 13 -> exists coll l, dump_text 1 name 0 coll l /\ py_int (columns 61 78 l) <> Ok (Z.of_N coll).
Proof.
  intros L. exists 10000000000000000%N. set (l := lit " dump" ++ lit "    1" ++ lit " on file " ++ name ++ lit "   nps =" ++ lit "           0" ++ lit "   coll =" ++ lit "10000000000000000").
  assert (D : dump_text 1 name 0 10000000000000000 l).
  { exists (lit "    1"), (lit "           0"), (lit "10000000000000000"). repeat split; [exists 4|exists 11|exists 0]; vm_compute; split; reflexivity. }
  exists l. split; [exact D|]. destruct (dump_column _ _ _ _ _ D) as (E & _). rewrite E by lia. intros X.
  assert (X' : Z.of_N (10000000000000000 mod 10 ^ N.of_nat (4 + List.length name)) = Z.of_N 10000000000000000) by congruence. clear X. apply N2Z.inj in X'.
  assert (B : (10000000000000000 mod 10 ^ N.of_nat (4 + List.length name) < 10 ^ N.of_nat (4 + List.length name))%N) by (apply N.mod_lt, N.pow_nonzero; lia).
  rewrite X' in B. assert (C : (10 ^ N.of_nat (4 + List.length name) <= 10 ^ 16)%N) by (apply N.pow_le_mono_r; lia). change (10 ^ 16)%N with 10000000000000000%N in C. lia.
Qed.
