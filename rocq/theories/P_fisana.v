(** Proofs about the printlib reader. *)
From Coq Require Import Lia Floats.SpecFloat.
From Verif Require Import PyBase PyFloat PyFs SpecStr SpecUtil SpecOutput SpecFis PyTable PyFacts P_util P_fisout M_util M_ptrac M_fisout M_fisana SpecFisana.
Local Open Scope nat_scope.

Lemma names_dec l : (exists nuc, names l nuc) \/ names_none l \/ nth_error l 2 = None.
Proof.
  unfold names, names_none. destruct (nth_error l 2) as [c|]; [|now right; right].
  destruct (Ascii.eqb_spec c (chr 32)) as [->|N]; [right; now left|]. left. eexists. exists c. now rewrite N || auto.
Qed.

(** What one data line adds, given the nuclide named so far. *)
Definition line_gives (cur : option str) (l : str) (nuc : str) : Prop :=
  names l nuc \/ (names_none l /\ cur = Some nuc).
Inductive gives : option str -> list str -> list emission -> Prop :=
| gives_nil cur : gives cur [] []
| gives_cons cur l ls r rows : line_gives cur l (e_nuclide r) -> cleaned (columns 25 34 l) (e_particle r) ->
    field 43 54 l (e_energy r) -> field 71 82 l (e_intensity r) -> gives (Some (e_nuclide r)) ls rows -> gives cur (l :: ls) (r :: rows).

Lemma cleaned_spec s t : cleaned s t <-> t = string_cleaner s.
Proof.
  split.
  - intros (ws & W & S). apply words_split in W. rewrite string_cleaner_words, W. clear W.
    induction S as [|w|w v ws s' S IH]; [reflexivity|reflexivity|]. rewrite join_cons, <- IH. reflexivity.
  - intros ->. apply cleaner_spec.
Qed.

Definition is_data (l : str) : bool := negb (contains (lit "Type") l) && negb (contains (lit "no spectral data") l).
Lemma is_data_spec l : is_data l = true <-> data_line l.
Proof. unfold is_data, data_line. rewrite andb_true_iff, !negb_true_iff, !contains_false. tauto. Qed.

(** The section after the title, up to a run time line. *)
Lemma loop_section ls : forall cur rows rest out stop, Forall (fun l => ~ run_time_line l) ls -> run_time_line stop ->
  printlib_loop (ls ++ stop :: rest) true cur rows = Ok out <->
  exists dl new, picked data_line ls dl /\ gives cur dl new /\ out = Some (rev rows ++ new).
Proof.
  induction ls as [|l ls IH]; intros cur rows rest out stop F St.
  - cbn [app printlib_loop]. apply contains_spec in St. rewrite St. split.
    + intros H. injection H as <-. exists [], []. repeat split; try constructor. now rewrite app_nil_r.
    + intros (dl & new & P & G & ->). inversion P; subst. inversion G; subst. now rewrite app_nil_r.
  - pose proof (Forall_inv F) as Fl. pose proof (Forall_inv_tail F) as F'. cbn [app printlib_loop].
    replace (contains (lit "fispact run time") l) with false by (symmetry; now apply contains_false).
    fold (is_data l). destruct (is_data l) eqn:D.
    + assert (DL : data_line l) by (now apply is_data_spec).
      transitivity (exists r dl new, picked data_line ls dl /\ gives cur (l :: dl) (r :: new) /\ out = Some (rev rows ++ r :: new)).
      2:{ split.
          - intros (r & dl & new & P & G & ->). exists (l :: dl), (r :: new). split; [now constructor|]. split; [exact G|reflexivity].
          - intros (dl & new & P & G & ->). inversion P as [|x k k' Px Pk|x k k' Px Pk]; subst; [|contradiction].
            inversion G; subst. do 3 eexists. split; [eassumption|]. split; [eassumption|reflexivity]. }
      change 2%Z with (Z.of_nat 2). rewrite py_nth_nat. destruct (nth_error l 2) as [c|] eqn:E2; cbn [bind].
      2:{ split; [discriminate|]. intros (r & dl & new & _ & G & _). inversion G as [|? ? ? ? ? LG]; subst.
          destruct LG as [(c & E & _)|(E & _)]; [congruence|]. red in E. congruence. }
      assert (LG : forall nuc, line_gives cur l nuc <-> (if negb (Ascii.eqb c c_space) then Some (replace [c_space] [] (slice_btw (Z.of_nat 2) 8 l)) else cur) = Some nuc).
      { intros nuc. change (replace [c_space] [] (slice_btw (Z.of_nat 2) 8 l)) with (no_blanks (cols 2 8 l)). rewrite (cols_columns 2 8 2 8), no_blanks_spec by reflexivity.
        unfold line_gives, names, names_none. rewrite E2. destruct (Ascii.eqb_spec c c_space) as [->|N]; cbn [negb]; split.
        - intros [(c' & E & Nc & _)|(_ & E)]; [injection E as <-; now elim Nc|exact E].
        - intros E. right. split; [reflexivity|exact E].
        - intros [(c' & _ & _ & ->)|(E & _)]; [reflexivity|]. injection E as E. now elim N.
        - intros E. injection E as <-. left. exists c. repeat split. exact N. }
      destruct (if negb (Ascii.eqb c c_space) then Some (replace [c_space] [] (slice_btw (Z.of_nat 2) 8 l)) else cur) as [nuc|] eqn:EN.
      2:{ split; [discriminate|]. intros (r & dl & new & _ & G & _). inversion G as [|? ? ? ? ? L]; subst. apply LG in L. discriminate. }
      rewrite (slice_span' 43 54 43 54), (slice_span' 71 82 71 82), (slice_span' 25 34 25 34), !span_columns by reflexivity.
      split.
      * intros H. unbind H. unbind H. apply IH in H; [|assumption|assumption]. destruct H as (dl & new & P & G & ->).
        eexists (Emission _ _ _ _), dl, new. split; [exact P|]. cbn [rev]. rewrite <- app_assoc. split; [|reflexivity].
        constructor; cbn [e_nuclide e_particle e_energy e_intensity]; [now apply LG|now apply cleaned_spec|eassumption|eassumption|exact G].
      * intros (r & dl & new & P & G & ->). inversion G as [|? ? ? ? ? L C E1 E3 G']; subst. apply LG in L. injection L as ->.
        unfold field in E1, E3. rewrite E1. cbn [bind].
        rewrite span_columns, E3. cbn [bind]. apply cleaned_spec in C. rewrite span_columns, <- C. apply IH; [assumption|assumption|].
        exists dl, new. split; [exact P|]. split; [exact G'|]. cbn [rev]. rewrite <- app_assoc. destruct r; reflexivity.
    + rewrite IH by assumption. assert (ND : ~ data_line l) by (intros DL; apply is_data_spec in DL; congruence).
      split; intros (dl & new & P & G & ->).
      * exists dl, new. repeat split; [now constructor|exact G].
      * inversion P; subst; [contradiction|]. exists dl, new. repeat split; assumption.
Qed.
(** Before the title. *)
Lemma loop_before ls rest : Forall (fun l => ~ run_time_line l) ls -> Forall (fun l => ~ discrete_title l) ls ->
  forall cur rows, printlib_loop (ls ++ rest) false cur rows = printlib_loop rest false cur rows.
Proof.
  induction ls as [|l ls IH]; intros F G cur rows; [reflexivity|]. cbn [app printlib_loop].
  replace (contains (lit "fispact run time") l) with false by (symmetry; apply contains_false; exact (Forall_inv F)).
  replace (contains (lit " FD ") l) with false by (symmetry; apply contains_false; exact (Forall_inv G)).
  apply IH; [exact (Forall_inv_tail F)|exact (Forall_inv_tail G)].
Qed.
(** No line of the run time: no result. *)
Lemma loop_no_end ls : Forall (fun l => ~ run_time_line l) ls -> forall b cur rows x, printlib_loop ls b cur rows <> Ok (Some x).
Proof.
  induction ls as [|l ls IH]; intros F b cur rows x; [discriminate|]. cbn [printlib_loop].
  replace (contains (lit "fispact run time") l) with false by (symmetry; apply contains_false; exact (Forall_inv F)).
  assert (IH' := IH (Forall_inv_tail F)). destruct b.
  - destruct (_ && _); [|apply IH']. destruct (py_nth l 2); [|discriminate]. cbn [bind].
    destruct (if negb _ then _ else _); [|discriminate]. destruct (py_float _); [|discriminate]. cbn [bind]. destruct (py_float _); [|discriminate]. apply IH'.
  - destruct (contains _ _); apply IH'.
Qed.

(** [gives] in terms of positions. *)
Lemma last_named_cons l ls i nuc : last_named (l :: ls) (S i) nuc <->
  last_named ls i nuc \/ (names l nuc /\ forall j m, j <= i -> nth_error ls j = Some m -> names_none m).
Proof.
  unfold last_named. split.
  - intros ([|k] & l' & Hk & El & N & R).
    + right. injection El as <-. split; [exact N|]. intros j m Hj Ej. apply (R (S j) m); [lia|exact Ej].
    + left. exists k, l'. split; [lia|]. split; [exact El|]. split; [exact N|]. intros j m Hj Ej. apply (R (S j) m); [lia|exact Ej].
  - intros [(k & l' & Hk & El & N & R)|(N & R)].
    + exists (S k), l'. split; [lia|]. split; [exact El|]. split; [exact N|]. intros [|j] m Hj Ej; [lia|]. apply (R j m); [lia|exact Ej].
    + exists 0, l. split; [lia|]. split; [reflexivity|]. split; [exact N|]. intros [|j] m Hj Ej; [lia|]. apply (R j m); [lia|exact Ej].
Qed.
Lemma names_not_none l nuc : names l nuc -> names_none l -> False.
Proof. intros (c & E & N & _) E'. red in E'. rewrite E in E'. injection E' as E'. now elim N. Qed.
Definition from (cur : option str) (ls : list str) (i : nat) (nuc : str) : Prop :=
  last_named ls i nuc \/ (cur = Some nuc /\ forall j m, j <= i -> nth_error ls j = Some m -> names_none m).
Lemma gives_spec ls : forall cur rows, gives cur ls rows <->
  List.length rows = List.length ls /\
  forall i l r, nth_error ls i = Some l -> nth_error rows i = Some r ->
    from cur ls i (e_nuclide r) /\ cleaned (columns 25 34 l) (e_particle r) /\ field 43 54 l (e_energy r) /\ field 71 82 l (e_intensity r).
Proof.
  induction ls as [|l ls IH]; intros cur rows.
  - split; [intros G; inversion G; subst; split; [reflexivity|]; intros [|i] ? ? H; discriminate H|].
    intros (L & _). destruct rows; [constructor|discriminate].
  - split.
    + intros G. inversion G as [|? ? ? r rows' LG C E1 E2 G']; subst. apply IH in G'. destruct G' as (L & G'). split; [cbn; now rewrite L|].
      intros [|i] l' r' El Er; cbn in El, Er.
      * injection El as <-. injection Er as <-. split; [|auto]. destruct LG as [N|(N & ->)].
        -- left. exists 0, l. split; [lia|]. split; [reflexivity|]. split; [exact N|]. intros; lia.
        -- right. split; [reflexivity|]. intros j m Hj Ej. assert (j = 0) by lia. subst. injection Ej as <-. exact N.
      * destruct (G' i l' r' El Er) as (F & R). split; [|exact R]. destruct F as [F|(Ec & F)]; [left; apply last_named_cons; now left|].
        injection Ec as Ec. rewrite <- Ec. destruct LG as [N|(N & ->)].
        -- left. apply last_named_cons. right. split; [exact N|exact F].
        -- right. split; [reflexivity|]. intros [|j] m Hj Ej; [injection Ej as <-; exact N|]. apply (F j m); [lia|exact Ej].
    + intros (L & G). destruct rows as [|r rows]; [discriminate|]. injection L as L.
      destruct (G 0 l r eq_refl eq_refl) as (F & C & E1 & E2). 
      assert (LG : line_gives cur l (e_nuclide r)).
      { destruct F as [(k & l' & Hk & El & N & _)|(-> & F)].
        - assert (k = 0) by lia. subst. injection El as <-. now left.
        - right. split; [apply (F 0 l); [lia|reflexivity]|reflexivity]. }
      constructor; [exact LG|exact C|exact E1|exact E2|]. apply IH. split; [exact L|].
      intros i l' r' El Er. destruct (G (S i) l' r' El Er) as (F' & R). split; [|exact R].
      destruct F' as [F'|(-> & F')].
      * apply last_named_cons in F'. destruct F' as [F'|(N & F')]; [now left|]. right. split; [|exact F'].
        destruct LG as [(c & _ & _ & ->)|(N' & _)]; [|elim (names_not_none _ _ N N')]. destruct N as (c' & _ & _ & ->). reflexivity.
      * right. destruct LG as [N|(N & Ec)].
        -- elim (names_not_none _ _ N). apply (F' 0 l); [lia|reflexivity].
        -- split; [now injection Ec as ->|]. intros j m Hj Ej. apply (F' (S j) m); [lia|exact Ej].
Qed.
Lemma gives_emissions ls rows : gives None ls rows <-> emissions ls rows.
Proof.
  rewrite gives_spec. unfold emissions, emission_of, from. split; intros (L & G); (split; [exact L|]); intros i l r El Er; destruct (G i l r El Er) as (F & R).
  - split; [|exact R]. destruct F as [F|(E & _)]; [exact F|discriminate].
  - split; [now left|exact R].
Qed.

Lemma first_or_none {A} (P : A -> bool) (l : list A) : (exists i, first_index (fun x => P x = true) l i) \/ Forall (fun x => P x = false) l.
Proof.
  induction l as [|x l IH]; [right; constructor|]. destruct (P x) eqn:E.
  - left. exists 0. split; [exists x; auto|]. intros; lia.
  - destruct IH as [(i & (y & Ey & Py) & B)|F]; [|right; now constructor]. left. exists (S i). split; [now exists y|].
    intros [|j] z Hj Ez; [injection Ez as <-; congruence|]. apply (B j z); [lia|exact Ez].
Qed.
Lemma first_index_split {A} (P : A -> Prop) (l : list A) i : first_index P l i <->
  exists a x b, l = a ++ x :: b /\ List.length a = i /\ P x /\ Forall (fun y => ~ P y) a.
Proof.
  split.
  - intros ((x & E & Px) & B). apply nth_error_split in E. destruct E as (a & b & -> & L). exists a, x, b. repeat split; auto.
    apply Forall_forall. intros y Hy. apply In_nth_error in Hy. destruct Hy as (j & Ej). apply (B j y).
    + rewrite <- L. apply nth_error_Some. congruence.
    + rewrite nth_error_app1; [exact Ej|]. apply nth_error_Some. congruence.
  - intros (a & x & b & -> & <- & Px & F). split.
    + exists x. split; [|exact Px]. rewrite nth_error_app2, Nat.sub_diag by lia. reflexivity.
    + intros j y Hj Ey. rewrite nth_error_app1 in Ey by exact Hj. rewrite Forall_forall in F. apply F. eapply nth_error_In. exact Ey.
Qed.
Lemma span_middle {A} (a b c : list A) i j : List.length a = i -> i + List.length b = j -> span i j (a ++ b ++ c) = b.
Proof.
  intros <- <-. unfold span. rewrite skipn_app, skipn_all, Nat.sub_diag. cbn [app skipn].
  replace (List.length a + List.length b - List.length a) with (List.length b) by lia. rewrite firstn_app, firstn_all, Nat.sub_diag. cbn. apply app_nil_r.
Qed.

Lemma printlib_iff lines rows : printlib_lines lines = Ok rows <->
  exists section dl, discrete_section lines section /\ picked data_line section dl /\ emissions dl rows.
Proof.
  transitivity (printlib_loop lines false None [] = Ok (Some rows)).
  { unfold printlib_lines. destruct (printlib_loop lines false None []) as [[x|]|]; split; intros H; congruence. }
  destruct (first_or_none (contains (lit "fispact run time")) lines) as [(e & He)|N].
  2:{ assert (N' : Forall (fun l => ~ run_time_line l) lines). { eapply Forall_impl; [|exact N]. intros l Hl. now apply contains_false. }
      split; [intros H; elim (loop_no_end _ N' _ _ _ _ H)|].
      intros (s & dl & (e & ((x & Ex & Px) & _) & _) & _). rewrite Forall_forall in N'. elim (N' x); [eapply nth_error_In; exact Ex|exact Px]. }
  assert (He' : first_index run_time_line lines e). { eapply first_index_iff; [|exact He]. intros l. symmetry. apply contains_spec. }
  apply first_index_split in He'. destruct He' as (ls & stop & rest & -> & L & St & NR).
  assert (Uniq : forall e', first_index run_time_line (ls ++ stop :: rest) e' -> e' = e).
  { intros e' H'. apply first_index_split in H'. destruct H' as (a & x & b & E & La & Px & Fa).
    destruct (Nat.lt_trichotomy (List.length a) (List.length ls)) as [Hl|[Hl|Hl]]; [|lia|].
    - exfalso. assert (In x ls). { apply nth_error_In with (List.length a). rewrite <- (nth_error_app1 ls (stop :: rest) Hl), E, nth_error_app2, Nat.sub_diag by lia. reflexivity. }
      rewrite Forall_forall in NR. now apply (NR x).
    - exfalso. assert (In stop a). { apply nth_error_In with (List.length ls). rewrite <- (nth_error_app1 a (x :: b) Hl), <- E, nth_error_app2, Nat.sub_diag by lia. reflexivity. }
      rewrite Forall_forall in Fa. now apply (Fa stop). }
  destruct (first_or_none (contains (lit " FD ")) ls) as [(d & Hd)|N].
  - assert (Hd' : first_index discrete_title ls d). { eapply first_index_iff; [|exact Hd]. intros l. symmetry. apply contains_spec. }
    apply first_index_split in Hd'. destruct Hd' as (ps & tl & sec & -> & Ld & Tt & NT).
    rewrite Forall_app in NR. destruct NR as (NR1 & NR2). pose proof (Forall_inv NR2) as NRt. pose proof (Forall_inv_tail NR2) as NR3.
    rewrite <- app_assoc. cbn [app]. rewrite loop_before by assumption. cbn [printlib_loop].
    replace (contains (lit "fispact run time") tl) with false by (symmetry; now apply contains_false).
    replace (contains (lit " FD ") tl) with true by (symmetry; now apply contains_spec).
    rewrite loop_section by assumption. cbn [rev app]. rewrite app_length in L. cbn [List.length] in L.
    assert (DS : forall s, discrete_section (ps ++ tl :: sec ++ stop :: rest) s <-> s = sec).
    { intros s. unfold discrete_section. split.
      - intros (e' & H' & R). assert (e' = e) by (apply Uniq; rewrite <- app_assoc; exact H'). subst e'.
        destruct R as [(F & _)|(d' & Hd' & Hlt & ->)].
        + exfalso. rewrite Forall_forall in F. apply (F tl); [|exact Tt]. rewrite firstn_app. apply in_or_app. right. replace (e - List.length ps) with (S (List.length sec)) by lia. now left.
        + assert (d' = d).
          { apply first_index_split in Hd'. destruct Hd' as (a & x & b & E & La & Px & Fa).
            destruct (Nat.lt_trichotomy (List.length a) (List.length ps)) as [Hl|[Hl|Hl]]; [|lia|].
            - exfalso. assert (In x ps). { apply nth_error_In with (List.length a). rewrite <- (nth_error_app1 ps (tl :: sec ++ stop :: rest) Hl), E, nth_error_app2, Nat.sub_diag by lia. reflexivity. }
              rewrite Forall_forall in NT. now apply (NT x).
            - exfalso. assert (In tl a). { apply nth_error_In with (List.length ps). rewrite <- (nth_error_app1 a (x :: b) Hl), <- E, nth_error_app2, Nat.sub_diag by lia. reflexivity. }
              rewrite Forall_forall in Fa. now apply (Fa tl). }
          subst d'. replace (ps ++ tl :: sec ++ stop :: rest) with ((ps ++ [tl]) ++ sec ++ stop :: rest) by (now rewrite <- app_assoc).
          apply span_middle; rewrite ?app_length; cbn [List.length]; lia.
      - intros ->. exists e. split.
        + apply first_index_split. exists (ps ++ tl :: sec), stop, rest. rewrite <- app_assoc. split; [reflexivity|]. split; [rewrite app_length; cbn; lia|].
          split; [exact St|]. apply Forall_app. split; [exact NR1|]. now constructor.
        + right. exists d. split; [|split; [lia|]].
          * apply first_index_split. exists ps, tl, (sec ++ stop :: rest). repeat split; assumption.
          * symmetry. replace (ps ++ tl :: sec ++ stop :: rest) with ((ps ++ [tl]) ++ sec ++ stop :: rest) by (now rewrite <- app_assoc).
            apply span_middle; rewrite ?app_length; cbn [List.length]; lia. }
    split.
    + intros (dl & new & P & G & E). injection E as ->. exists sec, dl. split; [now apply DS|]. split; [exact P|now apply gives_emissions].
    + intros (s & dl & D & P & G). apply DS in D. subst s. exists dl, rows. split; [exact P|]. split; [now apply gives_emissions|reflexivity].
  - assert (NT : Forall (fun l => ~ discrete_title l) ls). { eapply Forall_impl; [|exact N]. intros l Hl. now apply contains_false. }
    rewrite loop_before by assumption. cbn [printlib_loop]. replace (contains (lit "fispact run time") stop) with true by (symmetry; now apply contains_spec).
    cbn [rev]. split.
    + intros E. injection E as <-. exists [], []. split; [|split; [constructor|]].
      * exists e. split; [apply first_index_split; exists ls, stop, rest; auto|]. left. split; [|reflexivity]. rewrite <- L, firstn_app, firstn_all, Nat.sub_diag. cbn. now rewrite app_nil_r.
      * split; [reflexivity|]. intros [|i] ? ? H; discriminate H.
    + intros (s & dl & (e' & H' & R) & P & (Lr & _)). apply Uniq in H'. subst e'. destruct R as [(_ & ->)|(d & Hd & Hlt & _)].
      * inversion P; subst. destruct rows; [reflexivity|discriminate].
      * exfalso. destruct Hd as ((x & Ex & Px) & _). rewrite nth_error_app1 in Ex by lia. rewrite Forall_forall in NT. apply (NT x); [eapply nth_error_In; exact Ex|exact Px].
Qed.

(** The exceptions. *)
Lemma printlib_Err lines e : printlib_lines lines = Err e -> e = OSError \/ (e = UnboundLocalError /\ Forall (fun l => ~ run_time_line l) lines).
Proof.
  unfold printlib_lines. destruct (printlib_loop lines false None []) as [[x|]|] eqn:E; intros H; [discriminate| |left; congruence].
  right. split; [congruence|]. revert E. generalize false, (@None str), (@nil emission). induction lines as [|l ls IH]; intros b cur rows E; [constructor|].
  cbn [printlib_loop] in E. destruct (contains (lit "fispact run time") l) eqn:C; [discriminate|].
  constructor; [now apply contains_false|]. destruct b.
  - destruct (_ && _); [|eapply IH; exact E]. destruct (py_nth l 2); [|discriminate]. cbn [bind] in E.
    destruct (if negb _ then _ else _); [|discriminate]. destruct (py_float _); [|discriminate]. cbn [bind] in E. destruct (py_float _); [|discriminate]. eapply IH. exact E.
  - destruct (contains (lit " FD ") l); eapply IH; exact E.
Qed.
Lemma printlib_no_end lines : Forall (fun l => ~ run_time_line l) lines -> exists e, printlib_lines lines = Err e.
Proof.
  intros F. unfold printlib_lines. destruct (printlib_loop lines false None []) as [[x|]|] eqn:E; [|eexists; reflexivity|eexists; reflexivity].
  elim (loop_no_end _ F _ _ _ _ E).
Qed.
Lemma printlib_unnamed lines section l dl : discrete_section lines section -> picked data_line section (l :: dl) -> names_none l -> printlib_lines lines = Err OSError.
Proof.
  intros D P N. destruct (printlib_lines lines) as [rows|e] eqn:E.
  - exfalso. apply printlib_iff in E. destruct E as (s & dl' & D' & P' & (L & G)).
    assert (s = section).
    { destruct D as (e1 & H1 & R1), D' as (e2 & H2 & R2).
      assert (U : forall (P : str -> Prop) ls i j, first_index P ls i -> first_index P ls j -> i = j).
      { intros Q ls i j ((x & Ex & Qx) & B1) ((y & Ey & Qy) & B2). destruct (Nat.lt_trichotomy i j) as [H|[H|H]]; [|exact H|]; exfalso; [apply (B2 i x H Ex Qx)|apply (B1 j y H Ey Qy)]. }
      assert (e1 = e2) by (eapply U; eassumption). subst e2.
      destruct R1 as [(F1 & ->)|(d1 & Hd1 & Hl1 & ->)], R2 as [(F2 & ->)|(d2 & Hd2 & Hl2 & ->)]; [reflexivity| | |].
      - exfalso. destruct Hd2 as ((x & Ex & Px) & _). rewrite Forall_forall in F1. apply (F1 x); [|exact Px]. eapply nth_error_In. rewrite <- (firstn_skipn e1 lines) in Ex. rewrite nth_error_app1 in Ex; [exact Ex|].
        destruct H1 as ((y & Ey & _) & _). assert (e1 < List.length lines) by (apply nth_error_Some; congruence). rewrite firstn_length. lia.
      - exfalso. destruct Hd1 as ((x & Ex & Px) & _). rewrite Forall_forall in F2. apply (F2 x); [|exact Px]. eapply nth_error_In. rewrite <- (firstn_skipn e1 lines) in Ex. rewrite nth_error_app1 in Ex; [exact Ex|].
        destruct H1 as ((y & Ey & _) & _). assert (e1 < List.length lines) by (apply nth_error_Some; congruence). rewrite firstn_length. lia.
      - assert (d1 = d2) by (eapply U; eassumption). now subst. }
    subst s. assert (dl' = l :: dl).
    { clear - P P'. revert dl' P'. induction P as [|x k k' Px Pk IH|x k k' Px Pk IH]; intros dl' P'; inversion P'; subst; try contradiction; [reflexivity| |]; [f_equal|]; now apply IH. }
    subst dl'. destruct rows as [|r rows]; [discriminate|]. destruct (G 0 l r eq_refl eq_refl) as ((k & l' & Hk & El & Nl & _) & _).
    assert (k = 0) by lia. subst. injection El as <-. exact (names_not_none _ _ Nl N).
  - apply printlib_Err in E. destruct E as [->|(_ & F)]; [reflexivity|]. exfalso. destruct D as (e' & ((x & Ex & Px) & _) & _).
    rewrite Forall_forall in F. apply (F x); [eapply nth_error_In; exact Ex|exact Px].
Qed.
(** Reading a file. *)
Lemma printlib_file f p t : path_isfile f p = true -> read_text f p = Ok t -> read_fispact_printlib f p = printlib_lines (file_lines t).
Proof.
  intros F R. unfold read_fispact_printlib. unfold path_isfile in *. apply andb_true_iff in F. destruct F as (F1 & F2). rewrite F1, F2. cbn. now rewrite R.
Qed.
Lemma printlib_paths f p : (path_exists f p = false -> read_fispact_printlib f p = Err FileNotFoundError) /\
  (path_exists f p = true -> is_dir f p = true -> read_fispact_printlib f p = Err ValueError).
Proof.
  unfold read_fispact_printlib, path_isfile. split; [now intros ->|]. intros -> ->. reflexivity.
Qed.
