(** Mesh tally tools: nearest mid points and selection of rows. *)
From Coq Require Import Floats.SpecFloat Lia Sorted.
From Verif Require Import PyBase PyFacts PyFloat FloatFacts SpecStr PyFrame M_mesh SpecMesh.

(** * Nearest mid point *)
Lemma nearest_from_spec v mids : forall best pre i,
  nth_error pre i = Some best -> i < length pre ->
  (forall x, In x pre -> flt (distance x v) (distance best v) = false) ->
  (forall j x, j < i -> nth_error pre j = Some x -> fle (distance x v) (distance best v) = false) ->
  nearest v (pre ++ mids) (nearest_from v best mids).
Proof.
  induction mids as [|m mids IH]; intros best pre i Hi Hlt Hmin Hfirst; cbn [nearest_from].
  - exists i. rewrite app_nil_r. auto.
  - replace (pre ++ m :: mids) with ((pre ++ [m]) ++ mids) by (rewrite <- app_assoc; reflexivity).
    change (fabs (fsub m v)) with (distance m v). change (fabs (fsub best v)) with (distance best v).
    destruct (flt (distance m v) (distance best v)) eqn:E.
    + apply (IH m (pre ++ [m]) (length pre)).
      * rewrite nth_error_app2, Nat.sub_diag by lia. reflexivity.
      * rewrite app_length. cbn. lia.
      * intros x Hx. apply in_app_or in Hx. destruct Hx as [Hx|[<-|[]]]; [|apply flt_irrefl].
        destruct (flt (distance x v) (distance m v)) eqn:E2; [|reflexivity].
        rewrite <- (Hmin x Hx). symmetry. eapply flt_trans; eassumption.
      * intros j x Hj Hx. rewrite nth_error_app1 in Hx by lia.
        destruct (fle (distance x v) (distance m v)) eqn:E2; [|reflexivity].
        apply nth_error_In in Hx. rewrite <- (Hmin x Hx). symmetry. eapply fle_flt_trans; eassumption.
    + apply (IH best (pre ++ [m]) i).
      * rewrite nth_error_app1 by lia. exact Hi.
      * rewrite app_length. lia.
      * intros x Hx. apply in_app_or in Hx. destruct Hx as [Hx|[<-|[]]]; [apply Hmin, Hx|exact E].
      * intros j x Hj Hx. rewrite nth_error_app1 in Hx by lia. eapply Hfirst; eassumption.
Qed.
Lemma find_nearest_mid_spec v mids : mids <> [] ->
  exists m, find_nearest_mid v mids = Ok m /\ nearest v mids m.
Proof.
  destruct mids as [|m mids]; [congruence|]. intros _. exists (nearest_from v m mids). split; [reflexivity|].
  apply (nearest_from_spec v mids m [m] 0); [reflexivity|cbn; lia| |lia].
  intros x [<-|[]]. apply flt_irrefl.
Qed.
Lemma find_nearest_mid_nil v : find_nearest_mid v [] = Err ValueError.
Proof. reflexivity. Qed.
Lemma nearest_unique v mids m m' : nearest v mids m -> nearest v mids m' ->
  is_nan_f (distance m v) = false -> is_nan_f (distance m' v) = false -> m = m'.
Proof.
  intros (i & Hi & Hm & Hf) (j & Hj & Hm' & Hf') N N'.
  destruct (Nat.lt_trichotomy i j) as [H|[->|H]].
  - specialize (Hf' i m H Hi). pose proof (Hm' m (nth_error_In _ _ Hi)) as A.
    pose proof (Hm m' (nth_error_In _ _ Hj)) as B.
    rewrite fle_not_flt, B in Hf' by assumption. discriminate.
  - congruence.
  - specialize (Hf j m' H Hj). pose proof (Hm' m (nth_error_In _ _ Hi)) as A.
    rewrite fle_not_flt, A in Hf by assumption. discriminate.
Qed.

(** * Rows *)
Definition pick_rows {A} (def : A) (is : list nat) (l : list A) : list A := map (fun i => nth i l def) is.
Definition col_rows (is : list nat) (c : col) : col := Col (c_single c) (pick_rows S754_nan is (c_vals c)).
Definition take_rows (is : list nat) (d : frame) : frame :=
  Frame (pick_rows 0 is (f_index d)) (map (fun nc => (fst nc, col_rows is (snd nc))) (f_cols d)).

Lemma pick_seq {A} (def : A) l : pick_rows def (seq 0 (length l)) l = l.
Proof.
  unfold pick_rows. induction l as [|x l IH]; [reflexivity|].
  cbn [length seq map nth]. f_equal. rewrite <- seq_shift, map_map. exact IH.
Qed.
Lemma take_rows_all d : table d -> take_rows (seq 0 (n_rows d)) d = d.
Proof.
  intros [_ H]. destruct d as [ix cs]. unfold take_rows, n_rows in *. cbn [f_index f_cols] in *. f_equal.
  - apply pick_seq.
  - rewrite <- (map_id cs) at 2. apply map_ext_in. intros [n c] Hc. cbn [fst snd].
    unfold col_rows. rewrite <- (H n c Hc), pick_seq. destruct c; reflexivity.
Qed.
Lemma compress_pick {A B} (def : A) (p : B -> bool) (db : B) (lb : list B) is (l : list A) :
  compress (map p (pick_rows db is lb)) (pick_rows def is l)
  = pick_rows def (filter (fun i => p (nth i lb db)) is) l.
Proof.
  unfold pick_rows. induction is as [|i is IH]; [reflexivity|]. cbn [map compress filter].
  destruct (p (nth i lb db)); cbn [map]; rewrite IH; reflexivity.
Qed.
Lemma filter_take (p : float -> bool) c is d :
  frame_filter (map p (pick_rows S754_nan is (c_vals c))) (take_rows is d)
  = take_rows (filter (fun i => p (nth i (c_vals c) S754_nan)) is) d.
Proof.
  unfold frame_filter, take_rows. cbn [f_index f_cols]. f_equal; [apply compress_pick|].
  rewrite map_map. apply map_ext. intros [n c']. cbn [fst snd]. f_equal.
  unfold col_compress, col_rows. cbn [c_single c_vals]. f_equal. apply compress_pick.
Qed.
Lemma column_get cs name c : column cs name c <-> dict_get str_eqb name cs = Some c.
Proof.
  split.
  - induction 1 as [|name c other c' cs Hn H IH]; cbn [dict_get]; [rewrite str_eqb_refl; reflexivity|].
    apply str_eqb_neq in Hn. rewrite str_eqb_sym, Hn. exact IH.
  - induction cs as [|[n c'] cs IH]; cbn [dict_get]; [discriminate|].
    destruct (str_eqb_spec name n) as [->|Hn]; [intros [= ->]; constructor|].
    intros H. constructor; [congruence|auto].
Qed.
Lemma has_col d name c : has d name c <-> frame_col d (lit name) = Ok c.
Proof.
  unfold has, frame_col, dict_index. rewrite column_get.
  destruct (dict_get _ _ _); split; congruence.
Qed.
Lemma dict_get_map {V W} (f : V -> W) name (cs : list (str * V)) :
  dict_get str_eqb name (map (fun nc => (fst nc, f (snd nc))) cs) = option_map f (dict_get str_eqb name cs).
Proof.
  induction cs as [|[n c] cs IH]; [reflexivity|]. cbn [map dict_get fst snd].
  destruct (str_eqb name n); [reflexivity|exact IH].
Qed.
Lemma take_col is d name c : frame_col d name = Ok c -> frame_col (take_rows is d) name = Ok (col_rows is c).
Proof.
  unfold frame_col, dict_index, take_rows. cbn [f_cols]. rewrite (dict_get_map (col_rows is)).
  destruct (dict_get _ _ _) as [c'|]; cbn; congruence.
Qed.
Lemma take_col_Err is d name e : frame_col d name = Err e -> frame_col (take_rows is d) name = Err e.
Proof.
  unfold frame_col, dict_index, take_rows. cbn [f_cols]. rewrite (dict_get_map (col_rows is)).
  destruct (dict_get _ _ _) as [c'|]; cbn; congruence.
Qed.
Definition eq_at (c : col) (x : float) (i : nat) : bool := feq (nth i (c_vals c) S754_nan) (kept c x).
Definition close_at (c : col) (x : float) (i : nat) : bool := isclose (nth i (c_vals c) S754_nan) x.
Lemma where_eq_take is d name c x : frame_col d name = Ok c ->
  where_eq (take_rows is d) name x = Ok (take_rows (filter (eq_at c x) is) d).
Proof.
  intros H. unfold where_eq. rewrite (take_col is d name c H). cbn [bind].
  unfold col_eq, col_rows. cbn [c_single c_vals].
  apply (f_equal Ok). apply (filter_take (fun y => feq y (if c_single c then f32 x else x)) c is d).
Qed.
Lemma close_take is d c x :
  frame_filter (col_close (col_rows is c) x) (take_rows is d) = take_rows (filter (close_at c x) is) d.
Proof. unfold col_close, col_rows. cbn [c_vals]. apply (filter_take (fun y => isclose y x) c is d). Qed.
Definition opt_close (x : option float) (c : option col) (i : nat) : bool :=
  match truthy x, c with Some v, Some c => close_at c v i | _, _ => true end.
Definition opt_col (d : frame) (x : option float) (name : string) (c : option col) : Prop :=
  match truthy x with Some _ => exists k, c = Some k /\ has d name k | None => True end.
Lemma filter_true {A} (l : list A) : filter (fun _ => true) l = l.
Proof. induction l as [|x l IH]; cbn; congruence. Qed.
Lemma filter_filter {A} (p q : A -> bool) l : filter q (filter p l) = filter (fun x => p x && q x) l.
Proof.
  induction l as [|x l IH]; [reflexivity|]. cbn [filter]. destruct (p x); cbn [filter andb]; [|exact IH].
  destruct (q x); rewrite IH; reflexivity.
Qed.
Lemma filter_et_take is d erg time ce ct : opt_col d erg "Energy" ce -> opt_col d time "Time" ct ->
  filter_energy_time (take_rows is d) erg time
  = Ok (take_rows (filter (fun i => opt_close erg ce i && opt_close time ct i) is) d).
Proof.
  intros He Ht. unfold filter_energy_time, opt_col, opt_close in *.
  assert (E : forall js,
    match truthy time with
    | Some t => do c <- frame_col (take_rows js d) (lit "Time"); Ok (frame_filter (col_close c t) (take_rows js d))
    | None => Ok (take_rows js d)
    end = Ok (take_rows (filter (fun i => match truthy time, ct with Some v, Some c => close_at c v i | _, _ => true end) js) d)).
  { intros js. destruct (truthy time) as [t|].
    - destruct Ht as (c & -> & Hc). apply has_col in Hc. rewrite (take_col js d _ c Hc). cbn [bind].
      rewrite close_take. reflexivity.
    - rewrite filter_true. reflexivity. }
  rewrite <- filter_filter.
  destruct (truthy erg) as [e|].
  - destruct He as (c & -> & Hc). apply has_col in Hc. rewrite (take_col is d _ c Hc). cbn [bind].
    rewrite close_take. apply E.
  - cbn [bind]. rewrite E. rewrite filter_true. reflexivity.
Qed.
Lemma get_take is d name c : frame_col d name = Ok c ->
  frame_get (take_rows is d) name = Ok (Series (pick_rows 0 is (f_index d)) (col_rows is c)).
Proof. intros H. unfold frame_get. rewrite (take_col is d name c H). reflexivity. Qed.

(** * Properties of selections *)
Lemma increasing_sorted l : increasing l <-> Sorted lt l.
Proof.
  split.
  - induction 1; [constructor|constructor; constructor|constructor; [assumption|constructor; assumption]].
  - induction 1 as [|x l H IH Hd]; [constructor|]. inversion Hd; subst; constructor; auto.
Qed.
Lemma increasing_seq a n : increasing (seq a n).
Proof.
  revert a. induction n as [|n IH]; intros a; [constructor|]. cbn [seq].
  specialize (IH (S a)). destruct n; [constructor|]. cbn [seq] in *. constructor; [lia|exact IH].
Qed.
Lemma increasing_cons_inv a l : increasing (a :: l) -> increasing l /\ forall x, In x l -> a < x.
Proof.
  rewrite !increasing_sorted. intros H. apply Sorted_StronglySorted in H; [|intros ? ? ?; lia].
  inversion H; subst. split; [apply StronglySorted_Sorted; assumption|]. apply Forall_forall. assumption.
Qed.
Lemma increasing_filter (p : nat -> bool) l : increasing l -> increasing (filter p l).
Proof.
  induction l as [|a l IH]; [auto|]. intros H. apply increasing_cons_inv in H. destruct H as [H Ha].
  cbn [filter]. destruct (p a); [|auto]. apply increasing_sorted. specialize (IH H).
  apply increasing_sorted in IH. constructor; [exact IH|].
  destruct (filter p l) as [|b r] eqn:E; constructor. apply Ha.
  assert (In b (filter p l)) by (rewrite E; left; reflexivity). apply filter_In in H0. tauto.
Qed.
Lemma selected_filter (p : nat -> bool) (P : nat -> Prop) n :
  (forall i, i < n -> p i = true <-> P i) -> selected P n (filter p (seq 0 n)).
Proof.
  intros H. split; [apply increasing_filter, increasing_seq|]. intros i. rewrite filter_In, in_seq.
  split.
  - intros [[_ Hi] Hp]. split; [lia|]. apply H; [lia|exact Hp].
  - intros [Hi HP]. split; [lia|]. apply H; assumption.
Qed.
Lemma entries_pick {A} (def : A) l is : (forall i, In i is -> i < length l) -> entries l is (pick_rows def is l).
Proof.
  intros H. induction is as [|i is IH]; [constructor|]. constructor.
  - apply nth_error_nth'. apply H. left. reflexivity.
  - apply IH. intros j Hj. apply H. right. exact Hj.
Qed.
Lemma entries_fun {A} (l : list A) is vs vs' : entries l is vs -> entries l is vs' -> vs = vs'.
Proof.
  intros H. revert vs'. induction H; intros vs' H'; inversion H'; subst; [reflexivity|]. f_equal; [congruence|auto].
Qed.
Lemma column_In cs name c : column cs name c -> In (name, c) cs.
Proof. induction 1; [left; reflexivity|right; assumption]. Qed.
Lemma col_length d name c : table d -> has d name c -> length (c_vals c) = n_rows d.
Proof. intros [_ H] Hc. apply column_In in Hc. exact (H _ _ Hc). Qed.
Lemma eq_at_spec c x i : i < length (c_vals c) -> eq_at c x i = true <-> entry_is c i x.
Proof.
  intros Hi. unfold eq_at, entry_is. assert (E : nth_error (c_vals c) i = Some (nth i (c_vals c) S754_nan)) by (apply nth_error_nth'; exact Hi).
  split; [intros H; eauto|intros (y & Hy & H); rewrite E in Hy; injection Hy as Hy; congruence].
Qed.
Lemma isclose_close y x : isclose y x = true <-> close y x.
Proof. unfold isclose, close. destruct (is_finite_f x); split; intros H; auto; destruct H as [(A & B)|(A & B)]; auto; discriminate. Qed.
Lemma close_at_spec c x i : i < length (c_vals c) -> close_at c x i = true <-> entry_close c i x.
Proof.
  intros Hi. unfold close_at, entry_close. setoid_rewrite <- isclose_close. assert (E : nth_error (c_vals c) i = Some (nth i (c_vals c) S754_nan)) by (apply nth_error_nth'; exact Hi).
  split; [intros H; eauto|intros (y & Hy & H); rewrite E in Hy; injection Hy as Hy; congruence].
Qed.
Lemma rows_series d c is n : table d -> has d n c -> (forall i, In i is -> i < n_rows d) ->
  rows_of_series d c is (Series (pick_rows 0 is (f_index d)) (col_rows is c)).
Proof.
  intros Ht Hc Hi. split; [|split; [|reflexivity]]; cbn [s_index s_col].
  - apply entries_pick. exact Hi.
  - apply entries_pick. rewrite (col_length d n c Ht Hc). exact Hi.
Qed.
Lemma opt_close_spec d x name c i : table d -> opt_col d x name c -> i < n_rows d ->
  opt_close x c i = true <-> if_given x (fun v => forall k, has d name k -> entry_close k i v).
Proof.
  intros Ht Hc Hi. unfold opt_close, opt_col, if_given, truthy in *. destruct x as [v|]; [|split; [intros _ v [=]|reflexivity]].
  destruct (is_zero_f v) eqn:E; [split; [intros _ v' [= <-]; congruence|reflexivity]|].
  destruct Hc as (k & -> & Hk). rewrite close_at_spec by (rewrite (col_length d name k Ht Hk); exact Hi).
  split.
  - intros H v' [= <-] _ k' Hk'. apply has_col in Hk, Hk'. congruence.
  - intros H. exact (H v eq_refl E k Hk).
Qed.

(** * Points and lines *)
Lemma pick_point_rows x y z m erg time d cx cy cz cv ce ct :
  data m = Df d -> table d -> has d "x" cx -> has d "y" cy -> has d "z" cz -> has d "value" cv ->
  opt_col d erg "Energy" ce -> opt_col d time "Time" ct ->
  x_mids m <> [] -> y_mids m <> [] -> z_mids m <> [] ->
  exists mx my mz is s,
    nearest x (x_mids m) mx /\ nearest y (y_mids m) my /\ nearest z (z_mids m) mz /\
    selected (fun i => entry_is cx i mx /\ entry_is cy i my /\ entry_is cz i mz /\
                       if_given erg (fun v => forall k, has d "Energy" k -> entry_close k i v) /\
                       if_given time (fun v => forall k, has d "Time" k -> entry_close k i v)) (n_rows d) is /\
    pick_point x y z m erg time = Ok s /\ rows_of_series d cv is s.
Proof.
  intros Hd Ht Hx Hy Hz Hv He Hti Nx Ny Nz.
  destruct (find_nearest_mid_spec x _ Nx) as (mx & Fx & Sx).
  destruct (find_nearest_mid_spec y _ Ny) as (my & Fy & Sy).
  destruct (find_nearest_mid_spec z _ Nz) as (mz & Fz & Sz).
  set (p := fun i => eq_at cx mx i && eq_at cy my i && eq_at cz mz i && (opt_close erg ce i && opt_close time ct i)).
  set (is := filter p (seq 0 (n_rows d))).
  exists mx, my, mz, is, (Series (pick_rows 0 is (f_index d)) (col_rows is cv)).
  split; [exact Sx|]. split; [exact Sy|]. split; [exact Sz|]. split; [|split].
  - apply selected_filter. intros i Hi. unfold p. rewrite !andb_true_iff.
    rewrite (eq_at_spec cx), (eq_at_spec cy), (eq_at_spec cz), (opt_close_spec d erg "Energy" ce i Ht He Hi),
      (opt_close_spec d time "Time" ct i Ht Hti Hi)
      by (first [rewrite (col_length d "x" cx Ht Hx)|rewrite (col_length d "y" cy Ht Hy)|rewrite (col_length d "z" cz Ht Hz)]; exact Hi).
    tauto.
  - pose proof (proj1 (has_col _ _ _) Hx) as Hx'. pose proof (proj1 (has_col _ _ _) Hy) as Hy'.
    pose proof (proj1 (has_col _ _ _) Hz) as Hz'. pose proof (proj1 (has_col _ _ _) Hv) as Hv'.
    unfold pick_point, data_frame. rewrite Fx, Fy, Fz, Hd. cbn [bind as_frame].
    rewrite <- (take_rows_all d Ht) at 1.
    rewrite (where_eq_take _ d _ cx mx Hx'). cbn [bind].
    rewrite (where_eq_take _ d _ cy my Hy'). cbn [bind].
    rewrite (where_eq_take _ d _ cz mz Hz'). cbn [bind].
    rewrite (filter_et_take _ d erg time ce ct He Hti). cbn [bind].
    rewrite (get_take _ d _ cv Hv').
    apply (f_equal (fun F => Ok (Series (pick_rows 0 F (f_index d)) (col_rows F cv)))).
    rewrite !filter_filter. apply filter_ext. intros i. unfold p. rewrite ?andb_assoc. reflexivity.
  - apply (rows_series d cv _ "value"); [exact Ht|exact Hv|]. intros i Hi. apply filter_In in Hi. destruct Hi as [Hi _].
    apply in_seq in Hi. lia.
Qed.

Definition line_pred (same : bool) (c : col) (mid : float) (i : nat) : bool := if same then eq_at c mid i else true.
Lemma line_step_take same p mids name mid is d c : frame_col d name = Ok c ->
  (same = true -> find_nearest_mid p mids = Ok mid) ->
  line_step same p mids name (Df (take_rows is d)) = Ok (Df (take_rows (filter (line_pred same c mid) is) d)).
Proof.
  intros Hc Hm. unfold line_step, line_pred. destruct same.
  - rewrite (Hm eq_refl). cbn [bind as_frame]. rewrite (where_eq_take is d name c mid Hc). reflexivity.
  - rewrite filter_true. reflexivity.
Qed.
Lemma line_pred_spec same c mid i : i < length (c_vals c) ->
  line_pred same c mid i = true <-> (same = true -> entry_is c i mid).
Proof.
  intros Hi. unfold line_pred. destruct same; [rewrite eq_at_spec by exact Hi|]; intuition congruence.
Qed.
Lemma line_mid (same : bool) p mids : (same = true -> mids <> []) ->
  exists mid, (same = true -> find_nearest_mid p mids = Ok mid) /\ (same = true -> nearest p mids mid).
Proof.
  intros H. destruct same; [|exists S754_nan; split; congruence].
  destruct (find_nearest_mid_spec p mids (H eq_refl)) as (m & A & B). exists m. auto.
Qed.
Lemma extract_line_rows m p1 p2 erg time d cx cy cz cv ce ct :
  data m = Df d -> table d -> has d "x" cx -> has d "y" cy -> has d "z" cz -> has d "value" cv ->
  opt_col d erg "Energy" ce -> opt_col d time "Time" ct ->
  x_mids m <> [] -> y_mids m <> [] -> z_mids m <> [] ->
  let '(a1, b1, c1) := p1 in let '(a2, b2, c2) := p2 in
  exists mx my mz is s,
    nearest a1 (x_mids m) mx /\ nearest b1 (y_mids m) my /\ nearest c1 (z_mids m) mz /\
    selected (fun i => (feq a1 a2 = true -> entry_is cx i mx) /\ (feq b1 b2 = true -> entry_is cy i my) /\
                       (feq c1 c2 = true -> entry_is cz i mz) /\
                       if_given erg (fun v => forall k, has d "Energy" k -> entry_close k i v) /\
                       if_given time (fun v => forall k, has d "Time" k -> entry_close k i v)) (n_rows d) is /\
    extract_line m p1 p2 erg time = Ok s /\ rows_of_series d cv is s.
Proof.
  destruct p1 as [[a1 b1] c1], p2 as [[a2 b2] c2].
  intros Hd Ht Hx Hy Hz Hv He Hti Nx Ny Nz.
  destruct (find_nearest_mid_spec a1 _ Nx) as (mx & Fx & Sx).
  destruct (find_nearest_mid_spec b1 _ Ny) as (my & Fy & Sy).
  destruct (find_nearest_mid_spec c1 _ Nz) as (mz & Fz & Sz).
  set (p := fun i => line_pred (feq a1 a2) cx mx i && line_pred (feq b1 b2) cy my i && line_pred (feq c1 c2) cz mz i
                     && (opt_close erg ce i && opt_close time ct i)).
  set (is := filter p (seq 0 (n_rows d))).
  exists mx, my, mz, is, (Series (pick_rows 0 is (f_index d)) (col_rows is cv)).
  split; [exact Sx|]. split; [exact Sy|]. split; [exact Sz|]. split; [|split].
  - apply selected_filter. intros i Hi. unfold p. rewrite !andb_true_iff.
    rewrite (line_pred_spec _ cx), (line_pred_spec _ cy), (line_pred_spec _ cz), (opt_close_spec d erg "Energy" ce i Ht He Hi),
      (opt_close_spec d time "Time" ct i Ht Hti Hi)
      by (first [rewrite (col_length d "x" cx Ht Hx)|rewrite (col_length d "y" cy Ht Hy)|rewrite (col_length d "z" cz Ht Hz)]; exact Hi).
    tauto.
  - pose proof (proj1 (has_col _ _ _) Hx) as Hx'. pose proof (proj1 (has_col _ _ _) Hy) as Hy'.
    pose proof (proj1 (has_col _ _ _) Hz) as Hz'. pose proof (proj1 (has_col _ _ _) Hv) as Hv'.
    unfold extract_line. rewrite Hd. rewrite <- (take_rows_all d Ht) at 1.
    rewrite (line_step_take _ _ _ _ mx _ d cx Hx') by auto. cbn [bind].
    rewrite (line_step_take _ _ _ _ my _ d cy Hy') by auto. cbn [bind].
    rewrite (line_step_take _ _ _ _ mz _ d cz Hz') by auto. cbn [bind as_frame].
    rewrite (filter_et_take _ d erg time ce ct He Hti). cbn [bind].
    rewrite (get_take _ d _ cv Hv').
    apply (f_equal (fun F => Ok (Series (pick_rows 0 F (f_index d)) (col_rows F cv)))).
    rewrite !filter_filter. apply filter_ext. intros i. unfold p. rewrite ?andb_assoc. reflexivity.
  - apply (rows_series d cv _ "value"); [exact Ht|exact Hv|]. intros i Hi. apply filter_In in Hi. destruct Hi as [Hi _].
    apply in_seq in Hi. lia.
Qed.

(** * Slices *)
Lemma has_if_given_opt d x name : has_if_given d x name -> exists c, opt_col d x name c.
Proof.
  unfold has_if_given, if_given, opt_col, truthy. intros H. destruct x as [v|]; [|exists None; exact I].
  destruct (is_zero_f v) eqn:E; [exists None; exact I|].
  destruct (H v eq_refl E) as (c & Hc). exists (Some c), c. auto.
Qed.
Lemma et_filter_spec d erg time ce ct i : table d -> opt_col d erg "Energy" ce -> opt_col d time "Time" ct ->
  i < n_rows d -> opt_close erg ce i && opt_close time ct i = true <-> et_filter d erg time i.
Proof.
  intros Ht He Hti Hi. rewrite andb_true_iff. unfold et_filter.
  rewrite (opt_close_spec d erg "Energy" ce i Ht He Hi), (opt_close_spec d time "Time" ct i Ht Hti Hi). tauto.
Qed.
Lemma plane_axes_spec m p i j v : plane_of p i j v ->
  plane_axes m p = Ok ((axis_mids m i, lit (axis_name i)), (axis_mids m j, lit (axis_name j)), (axis_mids m v, lit (axis_name v))).
Proof. destruct 1; reflexivity. Qed.
Lemma plane_axes_other m p : (forall i j v, ~ plane_of p i j v) -> plane_axes m p = Err ValueError.
Proof.
  intros H. unfold plane_axes.
  destruct (str_eqb_spec p (lit "XZ")) as [->|]; [destruct (H AX AZ AY plane_XZ)|].
  destruct (str_eqb_spec p (lit "XY")) as [->|]; [destruct (H AX AY AZ plane_XY)|].
  destruct (str_eqb_spec p (lit "YZ")) as [->|]; [destruct (H AY AZ AX plane_YZ)|]. reflexivity.
Qed.
Lemma slice_data_take m erg time d ce ct : data m = Df d -> table d ->
  opt_col d erg "Energy" ce -> opt_col d time "Time" ct ->
  match truthy erg, truthy time with
  | None, None => Ok None
  | _, _ => do d <- data_frame m; do d' <- filter_energy_time d erg time; Ok (Some d')
  end = Ok None /\ truthy erg = None /\ truthy time = None \/
  match truthy erg, truthy time with
  | None, None => Ok None
  | _, _ => do d <- data_frame m; do d' <- filter_energy_time d erg time; Ok (Some d')
  end = Ok (Some (take_rows (filter (fun i => opt_close erg ce i && opt_close time ct i) (seq 0 (n_rows d))) d)).
Proof.
  intros Hd Ht He Hti. unfold data_frame. rewrite Hd. cbn [as_frame bind].
  pose proof (filter_et_take (seq 0 (n_rows d)) d erg time ce ct He Hti) as F.
  rewrite take_rows_all in F by exact Ht. rewrite F. cbn [bind].
  destruct (truthy erg), (truthy time); auto.
Qed.
Lemma col_where_take is d key x name ck cn : frame_col d key = Ok ck -> frame_col d name = Ok cn ->
  col_where (take_rows is d) key x name = Ok (pick_rows S754_nan (filter (eq_at ck x) is) (c_vals cn)).
Proof.
  intros Hk Hn. unfold col_where. rewrite (where_eq_take is d key ck x Hk). cbn [bind].
  rewrite (take_col _ d name cn Hn). reflexivity.
Qed.
Definition slice_col (sel : nat -> bool) (d : frame) (ck cn : col) (x : float) : list float :=
  pick_rows S754_nan (filter (fun i => sel i && eq_at ck x i) (seq 0 (n_rows d))) (c_vals cn).
Lemma slice_col_spec sel P d ck cn x k n : table d -> has d k ck -> has d n cn ->
  (forall i, i < n_rows d -> sel i = true <-> P i) ->
  line_entries d cn (fun i => P i /\ entry_is ck i x) (slice_col sel d ck cn x).
Proof.
  intros Ht Hk Hn HP. exists (filter (fun i => sel i && eq_at ck x i) (seq 0 (n_rows d))). split.
  - apply selected_filter. intros i Hi. rewrite andb_true_iff, (HP i Hi), eq_at_spec; [reflexivity|].
    rewrite (col_length d k ck Ht Hk). exact Hi.
  - apply entries_pick. intros i Hi. apply filter_In in Hi. destruct Hi as [Hi _]. apply in_seq in Hi.
    rewrite (col_length d n cn Ht Hn). lia.
Qed.
Lemma extract_slice_eq m value p i j v erg time d ce ct ci cj cn cval cerr mid :
  plane_of p i j v -> data m = Df d -> table d ->
  opt_col d erg "Energy" ce -> opt_col d time "Time" ct ->
  has d (axis_name i) ci -> has d (axis_name j) cj -> has d (axis_name v) cn ->
  has d "value" cval -> has d "rel_err" cerr ->
  find_nearest_mid value (axis_mids m v) = Ok mid ->
  let sel := fun r => (opt_close erg ce r && opt_close time ct r) && eq_at cn mid r in
  let vs := map (slice_col sel d ci cval) (axis_mids m i) in
  let es := map (slice_col sel d cj cerr) (axis_mids m i) in
  extract_slice m value p erg time =
    if same_lengths vs && same_lengths es
    then Ok (Slice vs es (axis_mids m v) (axis_mids m i) (axis_mids m j) mid) else Err ValueError.
Proof.
  intros Hp Hd Ht He Hti Hi Hj Hn Hv Hr Hm sel vs es.
  pose proof (slice_data_take m erg time d ce ct Hd Ht He Hti) as HD.
  unfold extract_slice.
  apply has_col in Hi, Hj, Hn, Hv, Hr.
  set (dd := match truthy erg, truthy time with None, None => Ok None | _, _ => _ end) in HD |- *.
  assert (E : exists o, dd = Ok o /\ match o with Some d => Ok d | None => data_frame m end
     = Ok (take_rows (filter (fun i => opt_close erg ce i && opt_close time ct i) (seq 0 (n_rows d))) d)).
  { destruct HD as [(E & H1 & H2)|E]; [|eauto].
    exists None. split; [exact E|]. unfold data_frame. rewrite Hd. cbn [as_frame].
    unfold opt_close. rewrite H1, H2. rewrite filter_true, take_rows_all by exact Ht. reflexivity. }
  destruct E as (o & Eo & Eo'). rewrite Eo. cbn [bind]. rewrite (plane_axes_spec m p i j v Hp). cbn [bind].
  rewrite Hm. cbn [bind]. rewrite Eo'. cbn [bind].
  rewrite (where_eq_take _ d _ cn mid Hn). cbn [bind]. rewrite filter_filter.
  erewrite mapM_ext.
  2:{ intros x _. rewrite (col_where_take _ d _ x _ ci cval Hi Hv). cbn [bind].
      rewrite (col_where_take _ d _ x _ cj cerr Hj Hr). cbn [bind]. rewrite !filter_filter. reflexivity. }
  rewrite mapM_Ok_map. cbn [bind]. rewrite !map_map. cbn [fst snd].
  change (map (fun x => pick_rows S754_nan (filter (fun x0 => (opt_close erg ce x0 && opt_close time ct x0 && eq_at cn mid x0) && eq_at ci x x0) (seq 0 (n_rows d))) (c_vals cval)) (axis_mids m i)) with vs.
  change (map (fun x => pick_rows S754_nan (filter (fun x0 => (opt_close erg ce x0 && opt_close time ct x0 && eq_at cn mid x0) && eq_at cj x x0) (seq 0 (n_rows d))) (c_vals cerr)) (axis_mids m i)) with es.
  unfold np_array. destruct (same_lengths vs); [|reflexivity]. cbn [bind andb].
  destruct (same_lengths es); reflexivity.
Qed.
Lemma Forall2_map_r {A B} (R : A -> B -> Prop) (f : A -> B) l : (forall x, R x (f x)) -> Forall2 R l (map f l).
Proof. intros H. induction l; constructor; auto. Qed.
Lemma extract_slice_rows m value p i j v erg time d ci cj cn cval cerr sl :
  plane_of p i j v -> data m = Df d -> table d ->
  has_if_given d erg "Energy" -> has_if_given d time "Time" ->
  has d (axis_name i) ci -> has d (axis_name j) cj -> has d (axis_name v) cn ->
  has d "value" cval -> has d "rel_err" cerr ->
  extract_slice m value p erg time = Ok sl ->
  nearest value (axis_mids m v) (sl_value sl) /\
  sl_i sl = axis_mids m i /\ sl_j sl = axis_mids m j /\
  Forall2 (fun x vs => line_entries d cval (fun r => (et_filter d erg time r /\ entry_is cn r (sl_value sl)) /\ entry_is ci r x) vs)
    (sl_i sl) (sl_values sl) /\
  Forall2 (fun x vs => line_entries d cerr (fun r => (et_filter d erg time r /\ entry_is cn r (sl_value sl)) /\ entry_is cj r x) vs)
    (sl_i sl) (sl_errors sl).
Proof.
  intros Hp Hd Ht He Hti Hi Hj Hn Hv Hr H.
  destruct (has_if_given_opt _ _ _ He) as (ce & He'). destruct (has_if_given_opt _ _ _ Hti) as (ct & Hti').
  assert (Nm : axis_mids m v <> []).
  { intros N. unfold extract_slice in H.
    destruct (match truthy erg, truthy time with None, None => Ok None | _, _ => _ end) as [o|]; [|discriminate].
    cbn [bind] in H. rewrite (plane_axes_spec m p i j v Hp) in H. cbn [bind] in H. rewrite N in H. discriminate. }
  destruct (find_nearest_mid_spec value _ Nm) as (mid & Fm & Sm).
  rewrite (extract_slice_eq m value p i j v erg time d ce ct ci cj cn cval cerr mid) in H by assumption.
  cbv zeta in H. destruct (_ && _) in H; [|discriminate]. injection H as <-. cbn [sl_value sl_i sl_j sl_values sl_errors].
  assert (HP : forall r, r < n_rows d ->
     (opt_close erg ce r && opt_close time ct r) && eq_at cn mid r = true <-> et_filter d erg time r /\ entry_is cn r mid).
  { intros r Hr'. rewrite andb_true_iff, (et_filter_spec d erg time ce ct r Ht He' Hti' Hr').
    rewrite eq_at_spec; [reflexivity|]. rewrite (col_length d _ cn Ht Hn). exact Hr'. }
  repeat split; try exact Sm; apply Forall2_map_r; intros x.
  - apply (slice_col_spec _ (fun r => et_filter d erg time r /\ entry_is cn r mid) d ci cval x (axis_name i) "value"); assumption.
  - apply (slice_col_spec _ (fun r => et_filter d erg time r /\ entry_is cn r mid) d cj cerr x (axis_name j) "rel_err"); assumption.
Qed.
Lemma extract_slice_plane m value p erg time : (forall i j v, ~ plane_of p i j v) ->
  (truthy erg = None -> truthy time = None -> extract_slice m value p erg time = Err ValueError).
Proof.
  intros H E1 E2. unfold extract_slice. rewrite E1, E2. cbn [bind]. rewrite (plane_axes_other m p H). reflexivity.
Qed.
(** If no mid point of the first axis is a coordinate on the second one, the table of
    errors has no entries. *)
Lemma extract_slice_errors_lost m value p i j v erg time d ci cj cn cval cerr sl :
  plane_of p i j v -> data m = Df d -> table d ->
  has_if_given d erg "Energy" -> has_if_given d time "Time" ->
  has d (axis_name i) ci -> has d (axis_name j) cj -> has d (axis_name v) cn ->
  has d "value" cval -> has d "rel_err" cerr ->
  (forall x r, In x (axis_mids m i) -> ~ entry_is cj r x) ->
  extract_slice m value p erg time = Ok sl ->
  Forall (fun vs => vs = []) (sl_errors sl).
Proof.
  intros Hp Hd Ht He Hti Hi Hj Hn Hv Hr Hdis H.
  destruct (extract_slice_rows m value p i j v erg time d ci cj cn cval cerr sl Hp Hd Ht He Hti Hi Hj Hn Hv Hr H)
    as (_ & Hsi & _ & _ & F). rewrite Hsi in F. clear -F Hdis.
  revert F. generalize (sl_errors sl). induction (axis_mids m i) as [|x l IH]; intros es F; inversion F; subst; constructor.
  - destruct H1 as (is & [_ Hs] & Hes). destruct is as [|r is]; [inversion Hes; reflexivity|].
    exfalso. destruct (proj1 (Hs r) (or_introl eq_refl)) as (_ & _ & Hx). exact (Hdis x r (or_introl eq_refl) Hx).
  - apply IH; [|assumption]. intros z r Hz. apply Hdis. right. exact Hz.
Qed.
