(** Proofs about the MCNP output reader: run date, tally sections, set orders. *)
From Coq Require Import Lia ZArith Permutation.
From Verif Require Import PyBase PyFloat PyFs SpecStr PyFacts M_util SpecUtil P_util SpecInput TextFacts SpecOutput P_output P_output3 M_mcout SpecMcout P_mcout.

(** * Run date *)
Lemma py_nth_last2 {A} (l : list A) x y : py_nth (l ++ [x; y]) (-2)%Z = Ok x.
Proof.
  unfold py_nth, zlen. rewrite app_length. cbn [List.length].
  replace (-2 <? 0)%Z with true by reflexivity.
  destruct (Z.ltb_spec (-2 + Z.of_nat (List.length l + 2)) 0); [lia|].
  replace (Z.to_nat (-2 + Z.of_nat (List.length l + 2))) with (List.length l) by lia.
  rewrite nth_error_app2, Nat.sub_diag by lia. reflexivity.
Qed.
Lemma first_index_firstn {A} (P : A -> Prop) n l i : first_index P (firstn n l) i <-> first_index P l i /\ i < n.
Proof.
  assert (Hnth : forall j, j < n -> nth_error (firstn n l) j = nth_error l j).
  { intros j Hj. rewrite <- (firstn_skipn n l) at 2. destruct (Nat.lt_ge_cases j (List.length (firstn n l))) as [L|L].
    - now rewrite nth_error_app1.
    - rewrite nth_error_app2 by lia. rewrite (proj2 (nth_error_None _ _)) by lia.
      rewrite firstn_length in L. symmetry. apply nth_error_None. rewrite skipn_length. lia. }
  split.
  - intros ((x & Hx & Px) & Hf). assert (Hi : i < n).
    { assert (i < List.length (firstn n l)) by (apply nth_error_Some; congruence). rewrite firstn_length in H. lia. }
    split; [|exact Hi]. split; [exists x; now rewrite Hnth in Hx by lia|]. intros j y Hj Hy. apply (Hf j y Hj). now rewrite Hnth by lia.
  - intros (((x & Hx & Px) & Hf) & Hi). split; [exists x; now rewrite Hnth by lia|]. intros j y Hj Hy. apply (Hf j y Hj). now rewrite Hnth in Hy by lia.
Qed.
Lemma run_date_spec lines l i pre date time : nth_error lines i = Some l -> first_index (prefix_of (lit "1mcnp")) lines i ->
  (List.length lines <= 101 \/ i < 100) -> words l (pre ++ [date; time]) -> read_run_date lines = Ok (date, time).
Proof.
  intros Hi Hf Hlen Hw. unfold read_run_date.
  assert (Hsub : exists ls, (if (101 <? zlen lines)%Z then slice_to 100 lines else lines) = ls /\ nth_error ls i = Some l /\ first_index (prefix_of (lit "1mcnp")) ls i).
  { unfold zlen. destruct (Z.ltb_spec 101 (Z.of_nat (List.length lines))) as [L|L]; [|eauto].
    destruct Hlen as [|Hlen]; [lia|]. change 100%Z with (Z.of_nat 100). rewrite slice_to_nat.
    exists (firstn 100 lines). split; [reflexivity|].
    assert (Hff : first_index (prefix_of (lit "1mcnp")) (firstn 100 lines) i) by now apply first_index_firstn.
    split; [|exact Hff]. destruct Hff as ((x & Hx & _) & _). rewrite Hx.
    rewrite <- (firstn_skipn 100 lines) in Hi. rewrite nth_error_app1 in Hi by (apply nth_error_Some; congruence). congruence. }
  destruct Hsub as (ls & -> & Hl & Hff). apply (find_line_pre_Ok (lit "1mcnp") ls 5 i eq_refl) in Hff.
  rewrite Hff. cbn [bind]. rewrite py_nth_nat, Hl. cbn [bind].
  assert (Hne : pre ++ [date; time] <> []) by (destruct pre; discriminate).
  rewrite (clean_split_words l _ Hne Hw). rewrite py_nth_last2. cbn [bind].
  change (pre ++ [date; time]) with (pre ++ [date] ++ [time]). rewrite app_assoc, py_nth_last. reflexivity.
Qed.
Lemma run_date_none lines : (forall i l, nth_error lines i = Some l -> (List.length lines <= 101 \/ i < 100) -> ~ prefix_of (lit "1mcnp") l) ->
  read_run_date lines = Err ValueError.
Proof.
  intros H. unfold read_run_date. rewrite find_line_none; [reflexivity|reflexivity|].
  intros l Hl Hp. unfold zlen in Hl. destruct (Z.ltb_spec 101 (Z.of_nat (List.length lines))) as [L|L].
  - change 100%Z with (Z.of_nat 100) in Hl. rewrite slice_to_nat in Hl. apply In_nth_error in Hl. destruct Hl as (i & Hi).
    assert (Hlt : i < List.length (firstn 100 lines)) by (apply nth_error_Some; congruence). rewrite firstn_length in Hlt.
    apply (H i l); [|right; lia|exact Hp]. rewrite <- (firstn_skipn 100 lines). rewrite nth_error_app1; [exact Hi|]. apply nth_error_Some. congruence.
  - apply In_nth_error in Hl. destruct Hl as (i & Hi). apply (H i l Hi); [left; lia|exact Hp].
Qed.

(** * Tally sections *)
Lemma term_line_Some lines i : find_term_line lines = Some i <-> first_index ends_run lines i.
Proof.
  unfold find_term_line. unfold ends_run. rewrite <- (find_line_pre_Ok (lit "      run terminated ") lines 21 i eq_refl).
  destruct (find_line (lit "      run terminated ") lines 21); split; congruence.
Qed.
Lemma term_line_None lines : find_term_line lines = None <-> none_of ends_run lines.
Proof.
  unfold find_term_line. destruct (find_line (lit "      run terminated ") lines 21) as [i|e] eqn:E.
  - split; [discriminate|]. intros H. apply (find_line_pre_Ok (lit "      run terminated ") lines 21 i eq_refl) in E. destruct E as ((x & Hx & Px) & _).
    apply nth_error_In in Hx. elim (H x Hx Px).
  - apply (find_line_pre_Err (lit "      run terminated ") lines 21 e eq_refl) in E. split; [intros _; exact (proj2 E)|reflexivity].
Qed.
Definition results_of (lines : list str) : list str :=
  let term_line := match find_term_line lines with Some i => Some i | None => find_last_rendevous lines end in
  match term_line with Some i => slice_from (Z.of_nat i) lines | None => lines end.
Lemma results_of_start lines i : results_start lines i -> results_of lines = skipn i lines.
Proof.
  unfold results_of. intros [i' H|i' H1 H2|H1 H2].
  - apply term_line_Some in H. rewrite H. apply slice_from_nat.
  - apply term_line_None in H1. rewrite H1. apply find_last_Some in H2. rewrite H2. apply slice_from_nat.
  - apply term_line_None in H1. rewrite H1. apply find_last_None in H2. now rewrite H2.
Qed.
Lemma results_start_ex lines : exists i, results_start lines i.
Proof.
  destruct (find_term_line lines) as [i|] eqn:E.
  - exists i. apply rs_end. now apply term_line_Some.
  - apply term_line_None in E. destruct (find_last_rendevous lines) as [i|] eqn:E'.
    + exists i. apply rs_dump; [exact E|]. now apply find_last_Some.
    + exists 0. apply rs_top; [exact E|]. now apply find_last_None.
Qed.

(** What [read_tally] makes of a title and the lines of its section. *)
Definition section_result (order : list str -> list str) (tnum hdr : str) (body : list str) : res tally :=
  do l1 <- py_nth body 0%Z;
  do c1 <- py_nth l1 0%Z;
  let comment := Ascii.eqb c1 (chr 43) in
  do lt <- py_nth body (if comment then 1 else 0);
  do tally_type <- py_nth lt 22%Z;
  do number <- py_int tnum;
  do lp <- py_nth body (if comment then 2 else 1);
  let particle := string_cleaner (slice_btw 24 33 lp) in
  let nps := string_cleaner (slice_btw 28 40 hdr) in
  let nps := match py_int nps with Ok z => NpsInt z | Err _ => NpsText nps end in
  let lines := removelast body in
  do b <-
    (if Ascii.eqb tally_type (chr 52) || Ascii.eqb tally_type (chr 54) then read_type_cell tally_type lines
     else if Ascii.eqb tally_type (chr 53) then read_type_5 lines
     else if Ascii.eqb tally_type (chr 49) || Ascii.eqb tally_type (chr 50) then read_type_surface order tally_type lines
     else if Ascii.eqb tally_type (chr 56) then read_type_8 lines
     else Ok empty_body);
  Ok (Tally number tally_type particle nps b).

Lemma title_text (t : str) : List.length t <= 9 ->
  lit "1tally" ++ rep_chr c_space (9 - zlen t) ++ t = lit "1tally" ++ repeat (chr 32) (9 - List.length t) ++ t /\
  zlen (lit "1tally" ++ repeat (chr 32) (9 - List.length t) ++ t) = 15%Z.
Proof.
  intros H. split.
  - unfold rep_chr, zlen, c_space. do 3 f_equal. lia.
  - unfold zlen. rewrite !app_length, repeat_length. change (List.length (lit "1tally")) with 6. lia.
Qed.
Lemma title_long (t : str) lines : 9 < List.length t -> find_line (lit "1tally" ++ rep_chr c_space (9 - zlen t) ++ t) lines 15 = Err ValueError.
Proof.
  intros H. apply find_line_Err. split; [reflexivity|]. intros l _ E.
  assert (Hl : List.length (head_chars 15 l) <= 15).
  { unfold head_chars. change (15 <? 0)%Z with false. cbv iota. rewrite firstn_length. lia. }
  rewrite E in Hl. rewrite !app_length in Hl. unfold rep_chr in Hl. rewrite repeat_length in Hl. change (List.length (lit "1tally")) with 6 in Hl. lia.
Qed.
Lemma removelast_firstn {A} (l : list A) : l <> [] -> removelast l = firstn (List.length l - 1) l.
Proof.
  intros H. destruct (snoc_cases l) as [->|(a & x & ->)]; [contradiction|]. rewrite removelast_last, app_length. cbn [List.length].
  replace (List.length a + 1 - 1) with (List.length a) by lia. rewrite firstn_app, Nat.sub_diag, firstn_O, app_nil_r. symmetry. apply firstn_all.
Qed.
Lemma read_tally_section order data t hdr body : tally_section data t hdr body ->
  read_tally order data t = section_result order t hdr body.
Proof.
  intros (pre & a & nxt & post & Hd & Hs & Ha & Hh & Hb & Hn & Hlen).
  pose proof (results_of_start _ _ Hs) as Hr. rewrite Hd in Hr at 2.
  rewrite skipn_app, skipn_all, Nat.sub_diag in Hr. cbn [skipn app] in Hr.
  unfold read_tally. fold (results_of data). rewrite Hr. cbv zeta.
  destruct Hh as (Ht & Hh). destruct (title_text t Ht) as (E1 & E2). rewrite <- !app_assoc. rewrite E1.
  assert (Ha' : none_of (prefix_of (lit "1tally" ++ repeat (chr 32) (9 - List.length t) ++ t)) a).
  { intros l Hl Hp. apply (Ha l Hl). split; assumption. }
  rewrite (find_line_app _ 15 a hdr (body ++ nxt :: post) (eq_sym E2) Ha' Hh). cbn [bind].
  destruct body as [|b1 [|b2 [|b3 bs]]]; [cbn in Hlen; lia|cbn in Hlen; lia|cbn in Hlen; lia|].
  unfold section_result.
  rewrite (py_nth_app a _ 1%Z) by lia. rewrite py_nth_app0.
  change (py_nth (hdr :: (b1 :: b2 :: b3 :: bs) ++ nxt :: post) 1%Z) with (Ok b1).
  change (py_nth (hdr :: (b1 :: b2 :: b3 :: bs) ++ nxt :: post) 0%Z) with (Ok hdr).
  change (py_nth (b1 :: b2 :: b3 :: bs) 0%Z) with (Ok b1).
  cbn [bind]. destruct (py_nth b1 0%Z) as [c1|e]; [|reflexivity]. cbn [bind].
  rewrite (py_nth_app a _ (if Ascii.eqb c1 (chr 43) then 2 else 1)%Z) by (destruct (Ascii.eqb c1 (chr 43)); lia).
  rewrite (py_nth_app a _ (if Ascii.eqb c1 (chr 43) then 3 else 2)%Z) by (destruct (Ascii.eqb c1 (chr 43)); lia).
  rewrite (slice_from_app a _ 1%Z) by lia.
  assert (Hsl : slice_from 1 (hdr :: (b1 :: b2 :: b3 :: bs) ++ nxt :: post) = (b1 :: b2 :: b3 :: bs) ++ nxt :: post) by apply slice_from_1. rewrite Hsl.
  assert (Hf : find_line (lit "1tally") ((b1 :: b2 :: b3 :: bs) ++ nxt :: post) 6 = Ok (List.length (b1 :: b2 :: b3 :: bs))).
  { apply find_line_app; [reflexivity|exact Hb|exact Hn]. }
  rewrite Hf. cbn [bind].
  replace (slice_to (Z.of_nat (List.length (b1 :: b2 :: b3 :: bs)) - 1) ((b1 :: b2 :: b3 :: bs) ++ nxt :: post)) with (removelast (b1 :: b2 :: b3 :: bs)).
  2:{ rewrite slice_to_pos by (cbn [List.length]; lia). rewrite removelast_firstn by discriminate.
      rewrite firstn_app. replace (Z.to_nat (Z.of_nat (List.length (b1 :: b2 :: b3 :: bs)) - 1)) with (List.length (b1 :: b2 :: b3 :: bs) - 1) by lia.
      replace (List.length (b1 :: b2 :: b3 :: bs) - 1 - List.length (b1 :: b2 :: b3 :: bs)) with 0 by lia. now rewrite firstn_O, app_nil_r. }
  destruct (Ascii.eqb c1 (chr 43));
  [change (py_nth (hdr :: (b1 :: b2 :: b3 :: bs) ++ nxt :: post) 2%Z) with (Ok b2);
   change (py_nth (hdr :: (b1 :: b2 :: b3 :: bs) ++ nxt :: post) 3%Z) with (Ok b3);
   change (py_nth (b1 :: b2 :: b3 :: bs) 1%Z) with (Ok b2); change (py_nth (b1 :: b2 :: b3 :: bs) 2%Z) with (Ok b3)
  |change (py_nth (hdr :: (b1 :: b2 :: b3 :: bs) ++ nxt :: post) 1%Z) with (Ok b1);
   change (py_nth (hdr :: (b1 :: b2 :: b3 :: bs) ++ nxt :: post) 2%Z) with (Ok b2);
   change (py_nth (b1 :: b2 :: b3 :: bs) 1%Z) with (Ok b2); change (py_nth (b1 :: b2 :: b3 :: bs) 0%Z) with (Ok b1)];
  cbn [bind]; reflexivity.
Qed.
Lemma read_tally_local order d1 d2 t hdr body : tally_section d1 t hdr body -> tally_section d2 t hdr body ->
  read_tally order d1 t = read_tally order d2 t.
Proof. intros H1 H2. now rewrite (read_tally_section _ _ _ _ _ H1), (read_tally_section _ _ _ _ _ H2). Qed.
(** No title of the tally, or no tally after it. *)
Lemma read_tally_missing order data t i : results_start data i -> none_of (tally_title t) (skipn i data) ->
  read_tally order data t = Err ValueError.
Proof.
  intros Hs Hn. unfold read_tally. fold (results_of data). rewrite (results_of_start _ _ Hs). cbv zeta. rewrite <- !app_assoc.
  destruct (Nat.le_gt_cases (List.length t) 9) as [L|L].
  - destruct (title_text t L) as (E1 & E2). rewrite E1. rewrite find_line_none; [reflexivity|now symmetry|].
    intros l Hl Hp. apply (Hn l Hl). split; assumption.
  - rewrite title_long by assumption. reflexivity.
Qed.
Lemma read_tally_header order data t hdr body tl : tally_section data t hdr body -> read_tally order data t = Ok tl ->
  py_int t = Ok (t_number tl) /\
  (exists l, type_line body l /\ nth_error l 22 = Some (t_type tl)) /\
  (exists l, particle_line body l /\ clean_columns 24 33 l (t_particle tl)) /\
  nps_of hdr (t_nps tl).
Proof.
  intros Hsec. pose proof Hsec as (_ & _ & _ & _ & _ & _ & _ & _ & _ & _ & Hlen). rewrite (read_tally_section _ _ _ _ _ Hsec).
  destruct body as [|b1 [|b2 [|b3 bs]]]; [cbn in Hlen; lia|cbn in Hlen; lia|cbn in Hlen; lia|].
  unfold section_result. change (py_nth (b1 :: b2 :: b3 :: bs) 0%Z) with (Ok b1). cbn [bind].
  destruct (py_nth b1 0%Z) as [c1|e] eqn:Ec; [|discriminate]. cbn [bind].
  assert (Hc : exists r, b1 = c1 :: r).
  { destruct b1 as [|c r]; [discriminate|]. change (py_nth (c :: r) 0%Z) with (Ok c) in Ec. injection Ec as ->. eauto. }
  destruct Hc as (r1 & ->). 
  set (lt := if Ascii.eqb c1 (chr 43) then b2 else c1 :: r1).
  set (lp := if Ascii.eqb c1 (chr 43) then b3 else b2).
  assert (E1 : py_nth ((c1 :: r1) :: b2 :: b3 :: bs) (if Ascii.eqb c1 (chr 43) then 1 else 0)%Z = Ok lt).
  { unfold lt. destruct (Ascii.eqb c1 (chr 43)); reflexivity. }
  assert (E2 : py_nth ((c1 :: r1) :: b2 :: b3 :: bs) (if Ascii.eqb c1 (chr 43) then 2 else 1)%Z = Ok lp).
  { unfold lp. destruct (Ascii.eqb c1 (chr 43)); reflexivity. }
  change (list ascii) with str in *. rewrite E1, E2. cbn [bind].
  destruct (py_nth lt 22%Z) as [ty|e] eqn:Et; [|discriminate]. cbn [bind].
  destruct (py_int t) as [n|e]; [|discriminate]. cbn [bind]. cbv zeta.
  match goal with |- bind ?b _ = _ -> _ => destruct b as [bd|e]; [|discriminate] end. cbn [bind].
  intros H; injection H as <-. cbn [t_number t_type t_particle t_nps].
  assert (Hcols : forall i j l, (i <= j)%nat -> clean_columns i j l (string_cleaner (slice_btw (Z.of_nat i) (Z.of_nat j) l))).
  { intros i j l Hij. rewrite slice_btw_nat. exists (split_ws (columns i j l)). split; [apply words_split; reflexivity|].
    rewrite string_cleaner_words. replace (skipn i (firstn j l)) with (columns i j l); [apply spaced_join|].
    unfold columns. rewrite firstn_skipn_comm. now replace (i + (j - i)) with j by lia. }
  assert (Hcom : Ascii.eqb c1 (chr 43) = true <-> is_comment (c1 :: r1)).
  { rewrite Ascii.eqb_eq. split; [intros ->; now exists r1|]. intros (r & E). now injection E. }
  split; [reflexivity|]. split; [|split].
  - exists lt. split.
    + unfold lt, type_line. destruct (Ascii.eqb c1 (chr 43)) eqn:E.
      * right. exists (c1 :: r1), (b3 :: bs). split; [reflexivity|]. now apply Hcom.
      * left. exists (b2 :: b3 :: bs). split; [reflexivity|]. rewrite <- Hcom. congruence.
    + change 22%Z with (Z.of_nat 22) in Et. rewrite py_nth_nat in Et. destruct (nth_error lt 22); [congruence|discriminate].
  - exists lp. split.
    + unfold lp, particle_line. destruct (Ascii.eqb c1 (chr 43)) eqn:E.
      * right. exists (c1 :: r1), b2, bs. split; [reflexivity|]. now apply Hcom.
      * left. exists (c1 :: r1), (b3 :: bs). split; [reflexivity|]. rewrite <- Hcom. congruence.
    + apply (Hcols 24 33 lp). lia.
  - exists (string_cleaner (slice_btw 28 40 hdr)). split; [apply (Hcols 28 40 hdr); lia|].
    destruct (py_int (string_cleaner (slice_btw 28 40 hdr))) as [z|e]; [left|right]; eauto.
Qed.

(** * Iteration order of sets *)
Lemma mapM_perm {A B} (f : A -> res B) l l' ys : Permutation l l' -> mapM f l = Ok ys -> exists ys', mapM f l' = Ok ys' /\ Permutation ys ys'.
Proof.
  intros Hp. revert ys. induction Hp as [|x l l' Hp IH|x y l|l l1 l' Hp1 IH1 Hp2 IH2]; intros ys H.
  - exists ys. auto.
  - cbn in H. destruct (f x) as [z|e] eqn:E; [|discriminate]. destruct (mapM f l) as [zs|e] eqn:E'; [|discriminate].
    injection H as <-. destruct (IH zs eq_refl) as (zs' & H1 & H2). exists (z :: zs'). cbn. rewrite E, H1. auto.
  - cbn in H. destruct (f y) as [b|e] eqn:Ey; [|discriminate]. destruct (f x) as [a|e] eqn:Ex; [|discriminate].
    destruct (mapM f l) as [zs|e] eqn:E'; [|discriminate]. injection H as <-. exists (a :: b :: zs). cbn. rewrite Ex, Ey, E'. split; [reflexivity|constructor].
  - destruct (IH1 ys H) as (y1 & H1 & P1). destruct (IH2 y1 H1) as (y2 & H2 & P2). exists y2. split; [exact H2|]. now transitivity y1.
Qed.
Lemma output_order t1 t2 so f p a : rearranges t1 -> rearranges t2 -> read_output_file t1 so f p = Ok a ->
  exists b, read_output_file t2 so f p = Ok b /\ Permutation (o_tally_data a) (o_tally_data b) /\
    b = McnpOutput (o_file_name a) (o_version a) (o_date a) (o_start_time a) (o_comments a) (o_warnings a)
          (o_num_rendevous a) (o_fatal a) (o_tables a) (o_t60 a) (o_t101 a) (o_tally_data b) (o_num_tallies a).
Proof.
  intros R1 R2. unfold read_output_file. destruct (get_lines f p) as [data|e]; [|discriminate]. cbn [bind].
  destruct (read_run_date data) as [dt|e]; [|discriminate]. cbn [bind]. destruct (read_comments_warnings data) as [cs ws]. cbv zeta.
  match goal with |- bind ?x _ = _ -> _ => destruct x as [t60|e]; [|discriminate] end. cbn [bind].
  match goal with |- bind ?x _ = _ -> _ => destruct x as [t101|e]; [|discriminate] end. cbn [bind].
  destruct (get_tally_nums data) as [tls|e]; [|discriminate]. cbn [bind].
  destruct (mapM (read_tally so data) (t1 tls)) as [ts|e] eqn:E; [|discriminate]. cbn [bind].
  intros H; injection H as <-. destruct (mapM_perm (read_tally so data) (t1 tls) (t2 tls) ts) as (ts' & E' & Hp); [|exact E|].
  - transitivity tls; [symmetry; apply R1|apply R2].
  - rewrite E'. cbn [bind]. eexists. split; [reflexivity|]. cbn. split; [exact Hp|reflexivity].
Qed.
(** Every listed tally is read, once. *)
Lemma output_tallies t so f p a data : rearranges t -> get_lines f p = Ok data -> read_output_file t so f p = Ok a ->
  (forall n, (exists l, In l data /\ listed_tally l n) -> exists tl, In tl (o_tally_data a) /\ read_tally so data n = Ok tl) /\
  (forall tl, In tl (o_tally_data a) -> exists n, (exists l, In l data /\ listed_tally l n) /\ read_tally so data n = Ok tl) /\
  List.length (o_tally_data a) = o_num_tallies a.
Proof.
  intros R Hg. unfold read_output_file. rewrite Hg. cbn [bind].
  destruct (read_run_date data) as [dt|e]; [|discriminate]. cbn [bind]. destruct (read_comments_warnings data) as [cs ws]. cbv zeta.
  match goal with |- bind ?x _ = _ -> _ => destruct x as [t60|e]; [|discriminate] end. cbn [bind].
  match goal with |- bind ?x _ = _ -> _ => destruct x as [t101|e]; [|discriminate] end. cbn [bind].
  destruct (get_tally_nums data) as [tls|e] eqn:En; [|discriminate]. cbn [bind].
  destruct (mapM (read_tally so data) (t tls)) as [ts|e] eqn:E; [|discriminate]. cbn [bind].
  intros H; injection H as <-. cbn [o_tally_data o_num_tallies]. destruct (tally_nums_Ok _ _ En) as (_ & HI).
  split; [|split].
  - intros n Hn. apply HI in Hn. apply mapM_Ok_iff in E. destruct (Forall2_In_l _ _ _ n E) as (y & Hy & Hf); [now apply (Permutation_in n (R tls))|eauto].
  - intros tl Htl. apply mapM_Ok_iff in E. destruct (Forall2_In_r _ _ _ tl E Htl) as (n & Hn & Hf). exists n. split; [|exact Hf].
    apply HI. apply (Permutation_in n (Permutation_sym (R tls)) Hn).
  - rewrite (mapM_length _ _ _ E). symmetry. apply Permutation_length. apply R.
Qed.

(** * Statistical tests *)
Lemma stat_tests_found lines i l w ws : first_index (prefix_of (lit " passed")) lines i -> nth_error lines i = Some l -> words l (w :: ws) ->
  read_stat_tests lines = Ok ws.
Proof.
  intros Hf Hl Hw. unfold read_stat_tests. apply (find_line_pre_Ok (lit " passed") lines 7 i eq_refl) in Hf. rewrite Hf.
  rewrite py_nth_nat, Hl. cbn [bind]. apply clean_split_words in Hw; [|discriminate]. rewrite Hw, slice_from_1. reflexivity.
Qed.
Lemma stat_tests_none lines : none_of (prefix_of (lit " passed")) lines -> read_stat_tests lines = Ok [lit "no"].
Proof. intros H. unfold read_stat_tests. now rewrite find_line_none. Qed.
