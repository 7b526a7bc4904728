(** Proofs about M_fisout.v: dominant nuclides, parameters, mass, one time step. *)
From Coq Require Import Lia.
From Verif Require Import PyBase PyFloat PyFacts TextFacts PyFs SpecStr SpecUtil SpecOutput M_util P_util P_output P_output3 M_ptrac M_fisout SpecFis P_fisout.
Local Open Scope nat_scope.

(** * Dominant nuclides *)
Lemma read_entry_spec za a l e : za = Z.of_nat a -> read_entry za l = Ok e <-> entry_at a l e.
Proof.
  intros ->. unfold read_entry, entry_at. rewrite (cols_columns _ _ a (a + 6)), no_blanks_spec by lia. split.
  - intros H. unbind H. injection H as <-. cbn [fst snd]. split; [reflexivity|]. split.
    + apply (fcols_field (Z.of_nat a + 8) (Z.of_nat a + 18)); [lia|lia|assumption].
    + apply (fcols_field (Z.of_nat a + 20) (Z.of_nat a + 29)); [lia|lia|assumption].
  - intros (E & F & G). rewrite (fcols_back _ _ _ _ _ _ F) by lia. cbn [bind]. rewrite (fcols_back _ _ _ _ _ _ G) by lia. cbn [bind]. rewrite <- E. destruct e as [[? ?] ?]. reflexivity.
Qed.
Lemma read_entry_Err za l e : read_entry za l = Err e -> e = ValueError.
Proof. unfold read_entry. only_value. Qed.
Ltac entry E := apply (read_entry_spec _ _ _ _ eq_refl) in E.
Lemma read_top_spec l t : read_top l = Ok t <-> top_line l t.
Proof.
  unfold read_top, top_line. rewrite as_value_error_Ok. split.
  - intros H. unbind H. injection H as <-. cbn [d_act d_heat d_dose].
    apply (read_entry_spec 7 7 _ _ eq_refl) in E. apply (read_entry_spec 38 38 _ _ eq_refl) in E0. apply (read_entry_spec 69 69 _ _ eq_refl) in E1. auto.
  - intros (A & B & C). apply (read_entry_spec 7 7 _ _ eq_refl) in A. apply (read_entry_spec 38 38 _ _ eq_refl) in B. apply (read_entry_spec 69 69 _ _ eq_refl) in C.
    rewrite A. cbn [bind]. rewrite B. cbn [bind]. rewrite C. destruct t. reflexivity.
Qed.
Lemma read_low_spec l t : as_value_error (do x <- read_entry 7 l; do y <- read_entry 38 l; Ok (DomLow x y)) = Ok t <-> low_line l t.
Proof.
  unfold low_line. rewrite as_value_error_Ok. split.
  - intros H. unbind H. injection H as <-. cbn [d_gheat d_bheat]. apply (read_entry_spec 7 7 _ _ eq_refl) in E. apply (read_entry_spec 38 38 _ _ eq_refl) in E0. auto.
  - intros (A & B). apply (read_entry_spec 7 7 _ _ eq_refl) in A. apply (read_entry_spec 38 38 _ _ eq_refl) in B. rewrite A. cbn [bind]. rewrite B. destruct t. reflexivity.
Qed.
Lemma columns_nil a b : columns a b [] = [].
Proof. unfold columns. rewrite skipn_nil, firstn_nil. reflexivity. Qed.
Lemma low_line_cons l t : low_line l t -> exists c r, l = c :: r.
Proof. destruct l as [|c r]; [|eauto]. intros ((_ & F & _) & _). unfold field in F. rewrite columns_nil in F. discriminate. Qed.
Lemma read_lower_spec lows tail ls : Forall (fun l => ~ starts_with_1 l) lows -> (tail = [] \/ exists l r, tail = l :: r /\ starts_with_1 l) ->
  read_lower (lows ++ tail) = Ok ls <-> Forall2 low_line lows ls.
Proof.
  intros HF HT. revert ls. induction HF as [|l lows Hl _ IH]; intros ls.
  - cbn [app]. assert (R : read_lower tail = Ok []).
    { destruct HT as [->|(l & r & -> & c & ->)]; [reflexivity|]. cbn [read_lower]. change 0%Z with (Z.of_nat 0). rewrite py_nth_nat. reflexivity. }
    rewrite R. split; [intros [= <-]; constructor|]. intros H. inversion H. reflexivity.
  - change (read_lower ((l :: lows) ++ tail)) with
      (do c <- py_nth l 0; if Ascii.eqb c (chr 49) then Ok [] else
       do r <- as_value_error (do x <- read_entry 7 l; do y <- read_entry 38 l; Ok (DomLow x y)); do rs <- read_lower (lows ++ tail); Ok (r :: rs)).
    split.
    + intros H. apply bind_Ok in H. destruct H as (c & Hc & H). change 0%Z with (Z.of_nat 0) in Hc. rewrite py_nth_nat in Hc. destruct l as [|c' l]; [discriminate|]. injection Hc as ->.
      destruct (Ascii.eqb_spec c (chr 49)) as [->|N]; [elim Hl; exists l; reflexivity|]. apply bind_Ok in H. destruct H as (t & Ht & H). apply bind_Ok in H. destruct H as (ts & Hts & [= <-]).
      constructor; [apply read_low_spec; exact Ht|apply IH; exact Hts].
    + intros H. inversion H as [|? t ? ts Ht Hts]; subst. destruct (low_line_cons _ _ Ht) as (c & r & E). change 0%Z with (Z.of_nat 0). rewrite py_nth_nat. rewrite E at 1. cbn [nth_error bind].
      destruct (Ascii.eqb_spec c (chr 49)) as [->|N]; [elim Hl; exists r; exact E|]. apply read_low_spec in Ht. rewrite Ht. cbn [bind]. apply IH in Hts. rewrite Hts. reflexivity.
Qed.
Lemma parse_dominant_spec data tops lows rows : dominant_tables data tops lows ->
  parse_dominant data = Ok rows <->
  exists ts ls, Forall2 top_line tops ts /\ Forall2 low_line lows ls /\
    ((ts = [] /\ rows = map (fun l => (None, l)) ls) \/ (ts <> [] /\ List.length ts = List.length ls /\ rows = combine (map Some ts) ls)).
Proof.
  intros (p & d1 & d2 & tail & Hp & H1 & H2 & L & -> & E & HF & HT). unfold parse_dominant. destruct data as [|l0 data]; [elim (first_index_nonempty _ _ _ Hp eq_refl)|].
  apply find_ind_Ok in Hp. rewrite Hp. cbn [bind]. rewrite slice_from_nat. apply find_ind_Ok in H1. apply find_ind_Ok in H2. rewrite H1. cbn [bind]. rewrite H2. cbn [bind]. cbv zeta.
  rewrite (slice_span' _ _ (d1 + 2) (d2 - 1)) by lia. replace (Z.of_nat d2 + 3)%Z with (Z.of_nat (d2 + 3)) by lia. rewrite slice_from_nat, E. set (tops := span _ _ _). split.
  - intros H. apply bind_Ok in H. destruct H as (ts & Ht & H). apply bind_Ok in H. destruct H as (ls & Hl & H). exists ts, ls.
    apply (mapM_Forall2 _ _ _ _ read_top_spec) in Ht. apply (read_lower_spec lows tail ls HF HT) in Hl. split; [exact Ht|]. split; [exact Hl|]. unfold dom_table in H. destruct ts as [|t ts].
    + left. injection H as <-. auto.
    + right. destruct (Nat.eqb_spec (List.length (t :: ts)) (List.length ls)) as [E'|]; [|discriminate]. injection H as <-. split; [discriminate|]. auto.
  - intros (ts & ls & Ht & Hl & H). apply (mapM_Forall2 _ _ _ _ read_top_spec) in Ht. apply (read_lower_spec lows tail ls HF HT) in Hl. rewrite Ht. cbn [bind]. rewrite Hl. cbn [bind]. unfold dom_table.
    destruct H as [(-> & ->)|(N & E' & ->)]; [reflexivity|]. destruct ts as [|t ts]; [contradiction|]. destruct (Nat.eqb_spec (List.length (t :: ts)) (List.length ls)); [reflexivity|contradiction].
Qed.

(** * Parameters *)
Lemma upto_spec c s w : upto c s w <-> exists ws, split_on c s = w :: ws.
Proof.
  split.
  - intros (N & [->|(r & ->)]); [exists []; apply split_on_lacks; exact N|]. exists (split_on c r). apply split_on_app. exact N.
  - intros (ws & E). pose proof (join_split_on c s) as J. pose proof (split_on_lacks_all c s) as L. rewrite E in J, L. pose proof (Forall_inv L) as Lw. split; [exact Lw|].
    destruct ws as [|v ws]; [left; rewrite <- J; reflexivity|]. right. rewrite <- J, join_cons. cbn [app]. eauto.
Qed.
Lemma split_on_two c l u : (exists w ws, split_on c l = w :: u :: ws) <-> exists a v, l = a ++ c :: v /\ ~ In c a /\ upto c v u.
Proof.
  split.
  - intros (w & ws & E). pose proof (join_split_on c l) as J. pose proof (split_on_lacks_all c l) as L. rewrite E in J, L. pose proof (Forall_inv L) as Lw.
    rewrite join_cons in J. exists w, (join [c] (u :: ws)). split; [symmetry; exact J|]. split; [exact Lw|]. apply upto_spec. exists ws.
    rewrite <- J in E. cbn [app] in E. rewrite (split_on_app c w) in E by exact Lw. injection E as E. exact E.
  - intros (a & v & -> & N & H). apply upto_spec in H. destruct H as (ws & E). exists a, ws. rewrite split_on_app by exact N. rewrite E. reflexivity.
Qed.
Lemma read_parameter_spec data sub x : read_parameter data sub = Ok x <-> exists l, line_after data sub 0 l /\ parameter_line l x.
Proof.
  unfold read_parameter. split.
  - destruct data as [|l0 data]; [discriminate|]. intros H. apply bind_Ok in H. destruct H as (i & Hi & H). apply find_ind_Ok in Hi. apply bind_Ok in H. destruct H as (l & Hl & H).
    rewrite py_nth_nat in Hl. destruct (nth_error (l0 :: data) i) as [l'|] eqn:E; [|discriminate]. injection Hl as ->. exists l. split; [exists i; rewrite Nat.add_0_r; auto|].
    destruct (split_on (chr 61) l) as [|w [|u ws]] eqn:S; try discriminate. apply (proj1 (as_value_error_Ok _ _)) in H. apply bind_Ok in H. destruct H as (z & Hz & H).
    destruct (proj1 (split_on_two (chr 61) l u)) as (a & v & El & Na & Hu); [eauto|]. change 0%Z with (Z.of_nat 0) in Hz. rewrite py_nth_nat in Hz. destruct (split_on c_space (strip u)) as [|z' zs] eqn:S2; [discriminate|].
    injection Hz as ->. exists a, v, u, (strip u), z. split; [exact El|]. split; [exact Na|]. split; [exact Hu|]. split; [apply strip_trimmed|]. split; [|exact H]. apply upto_spec. exists zs. exact S2.
  - intros (l & (i & Hi & Hl) & a & v & u & t & w & El & Na & Hu & Ht & Hw & Hx). destruct data as [|l0 data]; [elim (first_index_nonempty _ _ _ Hi eq_refl)|].
    rewrite Nat.add_0_r in Hl. apply find_ind_Ok in Hi. rewrite Hi. cbn [bind]. rewrite py_nth_nat, Hl. cbn [bind].
    destruct (proj2 (split_on_two (chr 61) l u)) as (w' & ws & S); [eauto|]. rewrite S. apply as_value_error_Ok. apply trimmed_strip in Ht. rewrite Ht. apply upto_spec in Hw. destruct Hw as (zs & S2). change c_space with (chr 32).
    rewrite S2. exact Hx.
Qed.
Lemma read_parameter_Err data sub e : read_parameter data sub = Err e -> e = ValueError.
Proof.
  unfold read_parameter. destruct data as [|l0 data]; [congruence|]. destruct (find_ind _ _) as [i|x] eqn:E; cbn [bind]; [|intros [= <-]; exact (find_ind_only _ _ _ E)].
  rewrite py_nth_nat. apply find_ind_Ok in E. destruct E as ((l & Hl & _) & _). rewrite Hl. cbn [bind]. destruct (split_on (chr 61) l) as [|w [|u ws]]; try congruence.
  apply as_value_error_Err. intros e'. change 0%Z with (Z.of_nat 0). rewrite py_nth_nat. destruct (nth_error _ 0) as [z|]; cbn [bind]; [|intros [= <-]; auto]. intros H. left. exact (py_float_Err _ _ H).
Qed.

(** * Mass *)
Lemma span_by_app p a r : Forall (fun c => p c = true) a -> (forall c t, r = c :: t -> p c = false) -> span_by p (a ++ r) = (a, r).
Proof.
  intros Ha Hr. induction Ha as [|c a Hc Ha IH]; cbn [app span_by].
  - destruct r as [|c r]; [reflexivity|]. cbn. now rewrite (Hr c r eq_refl).
  - now rewrite Hc, IH.
Qed.
Lemma span_by_spec p s a b : span_by p s = (a, b) -> s = a ++ b /\ Forall (fun c => p c = true) a /\ (forall c t, b = c :: t -> p c = false).
Proof.
  revert a b. induction s as [|c s IH]; cbn; intros a b H.
  - injection H as <- <-. repeat split; [constructor|discriminate].
  - destruct (p c) eqn:E.
    + destruct (span_by p s) as [a' b'] eqn:Es. injection H as <- <-. destruct (IH _ _ eq_refl) as (-> & Ha & Hb). repeat split; [constructor; assumption|exact Hb].
    + injection H as <- <-. repeat split; [constructor|]. intros d t Ed. now injection Ed as -> ->.
Qed.
Lemma eat_Some p s r : eat p s = Some r <-> s = p ++ r.
Proof.
  unfold eat. destruct (starts_with p s) eqn:E.
  - apply starts_with_spec in E. destruct E as (t & ->). split; [intros [= <-]|intros H; apply app_inv_head in H; subst]; rewrite skipn_app, skipn_all, Nat.sub_diag; reflexivity.
  - split; [discriminate|]. intros ->. rewrite starts_with_app in E. discriminate.
Qed.
Lemma numeral_dec c : is_numeral c = true <-> numeral c.
Proof.
  pose proof (ascii_seq (fun c => Bool.eqb (is_numeral c) (existsb (Ascii.eqb c) (lit "0123456789.Ee+-"))) eq_refl c) as E. cbv beta in E. apply Bool.eqb_prop in E. rewrite E. unfold numeral.
  rewrite existsb_exists. split; [intros (x & Hx & Ex); apply Ascii.eqb_eq in Ex; subst; exact Hx|]. intros H. exists c. split; [exact H|]. apply Ascii.eqb_refl.
Qed.
Lemma lstrip_blank b s : blank b -> (forall c t, s = c :: t -> is_ws c = false) -> lstrip (b ++ s) = s.
Proof. intros Hb Hs. rewrite lstrip_pre by exact Hb. apply lstrip_id. exact Hs. Qed.
Lemma lstrip_parts s : exists b, s = b ++ lstrip s /\ blank b.
Proof. unfold lstrip. destruct (lstrip_by_decomp is_ws s) as (b & E & H). exists b. auto. Qed.
Lemma lit_head_ws (p r : str) c t : (exists d q, p = d :: q /\ is_ws d = false) -> p ++ r = c :: t -> is_ws c = false.
Proof. intros (d & q & -> & H) [= <- _]. exact H. Qed.
Lemma Forall_iff {A} (P Q : A -> Prop) l : (forall x, P x <-> Q x) -> Forall P l <-> Forall Q l.
Proof. intros H. rewrite !Forall_forall. split; intros K x Hx; apply H, K, Hx. Qed.
Lemma numeral_not_ws c : is_numeral c = true -> is_ws c = false.
Proof. intros H. pose proof (ascii_seq (fun c => negb (is_numeral c && is_ws c)) eq_refl c) as E. cbv beta in E. rewrite H in E. cbn in E. now destruct (is_ws c). Qed.
Lemma match_mass_spec l num : match_mass (strip l) = Some num <-> mass_line l num.
Proof.
  unfold match_mass, mass_line. split.
  - destruct (eat (lit "0") (strip l)) as [s1|] eqn:E1; cbn [obind]; [|discriminate]. apply eat_Some in E1. destruct (span_by is_ws s1) as [b1 s2] eqn:E2. apply span_by_spec in E2. destruct E2 as (E2 & H1 & _).
    destruct b1 as [|c1 b1]; [discriminate|]. destruct (eat (lit "Mass of material input") s2) as [s3|] eqn:E3; cbn [obind]; [|discriminate]. apply eat_Some in E3.
    destruct (eat (lit "=") (lstrip s3)) as [s4|] eqn:E4; cbn [obind]; [|discriminate]. apply eat_Some in E4. destruct (lstrip_parts s3) as (b2 & E5 & H2). destruct (lstrip_parts s4) as (b3 & E6 & H3).
    destruct (span_by is_numeral (lstrip s4)) as [n s5] eqn:E7. apply span_by_spec in E7. destruct E7 as (E7 & Hn & _). destruct n as [|c n]; [discriminate|].
    destruct (lstrip_parts s5) as (b4 & E8 & H4). destruct (eat (lit "kg.") (lstrip s5)) as [rest|] eqn:E9; cbn [obind]; [|discriminate]. apply eat_Some in E9. intros [= <-].
    exists (strip l), (c1 :: b1), b2, b3, b4, rest. split; [apply strip_trimmed|]. split; [exact H1|]. split; [discriminate|]. split; [exact H2|]. split; [exact H3|]. split; [exact H4|]. split; [discriminate|].
    split; [apply (proj1 (Forall_iff _ _ _ numeral_dec)); exact Hn|]. rewrite E4 in E5. rewrite E7 in E6. rewrite E9 in E8. rewrite E1, E2, E3, E5, E6, E8. reflexivity.
  - intros (t & b1 & b2 & b3 & b4 & rest & Ht & H1 & N1 & H2 & H3 & H4 & Nn & Hn & E). apply trimmed_strip in Ht. rewrite Ht, E.
    rewrite (proj2 (eat_Some (lit "0") _ _) eq_refl). cbn [obind]. rewrite span_by_app; [|exact H1|intros c r; apply lit_head_ws; eexists; eexists; split; reflexivity].
    destruct b1 as [|c1 b1]; [contradiction|]. rewrite (proj2 (eat_Some (lit "Mass of material input") _ _) eq_refl). cbn [obind].
    rewrite lstrip_blank; [|exact H2|intros c r; apply lit_head_ws; eexists; eexists; split; reflexivity]. rewrite (proj2 (eat_Some (lit "=") _ _) eq_refl). cbn [obind].
    apply (Forall_iff _ _ _ numeral_dec) in Hn. destruct num as [|d num]; [contradiction|]. rewrite lstrip_blank; [|exact H3|intros c r [= <- _]; inversion Hn; apply numeral_not_ws; assumption].
    rewrite span_by_app; [|exact Hn|].
    2:{ destruct b4 as [|c4 b4]; intros c r [= <- _]; [reflexivity|]. inversion H4 as [|? ? Hc _]; subst. destruct (is_numeral c4) eqn:Q; [|reflexivity]. apply numeral_not_ws in Q. congruence. }
    rewrite lstrip_blank; [|exact H4|intros c r; apply lit_head_ws; eexists; eexists; split; reflexivity]. rewrite (proj2 (eat_Some (lit "kg.") _ _) eq_refl). reflexivity.
Qed.
Lemma match_mass_None l : match_mass (strip l) = None <-> forall num, ~ mass_line l num.
Proof.
  split.
  - intros E num H. apply match_mass_spec in H. congruence.
  - intros H. destruct (match_mass (strip l)) as [num|] eqn:E; [|reflexivity]. apply match_mass_spec in E. elim (H num E).
Qed.
Lemma mass_line_fun l a b : mass_line l a -> mass_line l b -> a = b.
Proof. rewrite <- !match_mass_spec. congruence. Qed.
Lemma read_mass_none lines : Forall (fun x => forall n, ~ mass_line x n) lines -> read_mass lines = Ok fzero.
Proof. induction 1 as [|l lines H _ IH]; [reflexivity|]. cbn [read_mass]. apply match_mass_None in H. rewrite H. exact IH. Qed.
Lemma read_mass_first lines num : first_mass lines num -> read_mass lines = py_float num.
Proof.
  intros (a & l & b & -> & Ha & Hl). induction Ha as [|x a H _ IH]; cbn [app read_mass].
  - apply match_mass_spec in Hl. rewrite Hl. reflexivity.
  - apply match_mass_None in H. rewrite H. exact IH.
Qed.
Lemma mass_cases lines : Forall (fun x => forall n, ~ mass_line x n) lines \/ exists num, first_mass lines num.
Proof.
  induction lines as [|l lines IH]; [left; constructor|]. destruct (match_mass (strip l)) as [num|] eqn:E.
  - right. apply match_mass_spec in E. exists num, [], l, lines. auto.
  - pose proof (proj1 (match_mass_None l) E) as E'. destruct IH as [IH|(num & a & x & b & -> & Ha & Hx)]; [left; constructor; assumption|]. right. exists num, (l :: a), x, b. split; [reflexivity|]. split; [constructor; assumption|exact Hx].
Qed.

(** * One time step *)
Lemma labelled_at lines text i k zk za zb a b x : zk = Z.of_nat k -> za = Z.of_nat a -> zb = Z.of_nat b -> first_index (occurs text) lines i ->
  at_line lines i zk za zb = Ok x <-> labelled lines text k a b x.
Proof.
  intros -> -> -> Hi. unfold at_line, labelled, line_after. rewrite <- Nat2Z.inj_add, py_nth_nat. split.
  - intros H. apply bind_Ok in H. destruct H as (l & Hl & H). destruct (nth_error lines (i + k)) as [l'|] eqn:E; [|discriminate]. injection Hl as ->. exists l. split; [exists i; auto|]. apply (fcols_field _ _ a b) in H; auto.
  - intros (l & (j & Hj & E) & F). apply find_ind_Ok in Hi. apply find_ind_Ok in Hj. assert (j = i) as -> by congruence. rewrite E. cbn [bind]. apply (fcols_field _ _ a b); auto.
Qed.
Lemma text_at_spec lines text i k zk za zb a b v : zk = Z.of_nat k -> za = Z.of_nat a -> zb = Z.of_nat b -> first_index (occurs text) lines i ->
  text_at lines i zk za zb = Ok v <-> number_or_text lines text k a b v.
Proof.
  intros -> -> -> Hi. unfold text_at, number_or_text, line_after. rewrite <- Nat2Z.inj_add, py_nth_nat.
  assert (W : forall l, with_E (cols (Z.of_nat a) (Z.of_nat b) l) = Ok v <-> match v with Num x => In (chr 69) (columns a b l) /\ field a b l x | Text s => s = columns a b l /\ ~ In (chr 69) s end).
  { intros l. unfold with_E. rewrite (cols_columns _ _ a b) by reflexivity. change (lit "E") with [chr 69]. rewrite contains_char. unfold field.
    assert (B : existsb (Ascii.eqb (chr 69)) (columns a b l) = true <-> In (chr 69) (columns a b l)).
    { rewrite existsb_exists. split; [intros (x & Hx & Ex); apply Ascii.eqb_eq in Ex; rewrite Ex; exact Hx|]. intros H. exists (chr 69). split; [exact H|apply Ascii.eqb_refl]. }
    destruct (existsb _ _).
    - destruct v as [x|s]; split; [intros H; apply bind_Ok in H; destruct H as (y & Hy & [= <-]); tauto|intros (_ & ->); reflexivity|intros H; apply bind_Ok in H; destruct H as (y & Hy & H); discriminate|].
      intros (-> & N). elim N. apply B. reflexivity.
    - destruct v as [x|s]; split; [discriminate|intros (H & _); apply B in H; discriminate|intros [= <-]; split; [reflexivity|]; intros H; apply B in H; discriminate|intros (-> & _); reflexivity]. }
  split.
  - intros H. apply bind_Ok in H. destruct H as (l & Hl & H). destruct (nth_error lines (i + k)) as [l'|] eqn:E; [|discriminate]. injection Hl as ->. exists l. split; [exists i; auto|]. apply W. exact H.
  - intros (l & (j & Hj & E) & F). apply find_ind_Ok in Hi. apply find_ind_Ok in Hj. assert (j = i) as -> by congruence. rewrite E. cbn [bind]. apply W. exact F.
Qed.
Lemma labelled_first lines text k a b x : labelled lines text k a b x -> exists i, find_ind lines text = Ok i /\ first_index (occurs text) lines i.
Proof. intros (l & (i & Hi & _) & _). exists i. split; [apply find_ind_Ok|]; exact Hi. Qed.
