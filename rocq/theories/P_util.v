(** Proofs about neut_utilities. *)
From Coq Require Import Lia ZifyBool Floats.SpecFloat.
From Verif Require Import PyBase PyFloat PyFs M_util SpecStr SpecUtil PyFacts.

(** * Files *)
Lemma path_eqb_eq a b : path_eqb a b = true <-> a = b.
Proof.
  split.
  - revert b; induction a as [|x a IH]; intros [|y b]; cbn; try congruence.
    intros H. apply andb_prop in H. destruct H as [H1 H2].
    apply str_eqb_eq in H1. subst. f_equal. now apply IH.
  - intros <-. induction a as [|x a IH]; cbn; [reflexivity|]. now rewrite str_eqb_refl.
Qed.
Lemma path_eqb_spec a b : reflect (a = b) (path_eqb a b).
Proof.
  destruct (path_eqb a b) eqn:E; constructor; [now apply path_eqb_eq|].
  intros H. apply path_eqb_eq in H. congruence.
Qed.
Lemma fs_set_same f p n : fs_set f p n p = Some n.
Proof. unfold fs_set. destruct (path_eqb_spec p p); congruence. Qed.
Lemma fs_set_other f p n q : q <> p -> fs_set f p n q = f q.
Proof. unfold fs_set. destruct (path_eqb_spec q p); congruence. Qed.

Lemma walk_spec f pre rest :
  walk f pre rest = Ok tt <->
  forall a b, rest = a ++ b -> a <> [] -> b <> [] -> f (pre ++ a) = Some Dir.
Proof.
  revert pre; induction rest as [|x rest IH]; intros pre.
  - cbn. split; [|reflexivity]. intros _ a b H Ha. destruct a; [now elim Ha|discriminate].
  - destruct rest as [|y rest].
    + cbn. split; [|reflexivity]. intros _ a b H Ha Hb.
      destruct a as [|z [|w a]]; [now elim Ha| |discriminate]. injection H as -> <-. now elim Hb.
    + change (walk f pre (x :: y :: rest)) with
        (match f (pre ++ [x]) with
         | None => Err FileNotFoundError
         | Some (File _) => Err NotADirectoryError
         | Some Dir => walk f (pre ++ [x]) (y :: rest)
         end).
      split.
      * destruct (f (pre ++ [x])) as [[c|]|] eqn:E; try discriminate.
        rewrite IH. intros H a b Hab Ha Hb. destruct a as [|z a]; [now elim Ha|].
        injection Hab as <- Hab. destruct a as [|w a].
        -- exact E.
        -- specialize (H (w :: a) b Hab). rewrite <- app_assoc in H. apply H; [discriminate|assumption].
      * intros H. rewrite (H [x] (y :: rest)); [|reflexivity|discriminate|discriminate].
        apply IH. intros a b Hab Ha Hb. rewrite <- app_assoc. apply (H (x :: a) b).
        -- cbn. now rewrite Hab.
        -- discriminate.
        -- assumption.
Qed.

Lemma can_open_w_spec f p : can_open_w f p = Ok tt <-> openable f p.
Proof.
  unfold can_open_w, openable. destruct (walk f [] p) as [[]|e] eqn:E; cbn.
  - rewrite walk_spec in E. cbn in E. destruct p as [|x p]; cbn.
    + split; [discriminate|]. intros [H _]. now elim H.
    + destruct (f (x :: p)) as [[c|]|] eqn:Ef.
      * split; [|reflexivity]. intros _. repeat split; [discriminate|discriminate|].
        intros a b. apply E.
      * split; [discriminate|]. intros (_ & H & _). now elim H.
      * split; [|reflexivity]. intros _. repeat split; [discriminate|discriminate|].
        intros a b. apply E.
  - split; [discriminate|]. intros (H0 & H1 & H2).
    assert (walk f [] p = Ok tt) as Hw by (apply walk_spec; exact H2). congruence.
Qed.

Lemma can_open_w_read f p c : can_open_w f p = Ok tt -> read_text (fs_set f p (File c)) p = Ok (univ_nl c).
Proof.
  intros H. apply can_open_w_spec in H. destruct H as (H0 & H1 & H2).
  unfold read_text.
  assert (Hw : walk (fs_set f p (File c)) [] p = Ok tt).
  { apply walk_spec. intros a b Hab Ha Hb. cbn. rewrite fs_set_other.
    - eapply H2; eassumption.
    - intros ->. apply Hb. apply (f_equal (@length str)) in Hab. rewrite app_length in Hab.
      destruct b; [reflexivity|]. cbn in Hab. lia. }
  rewrite Hw. cbn. destruct p as [|x p]; [now elim H0|].
  cbn. rewrite fs_set_same. reflexivity.
Qed.


Lemma run_append_ops f p c lines :
  f p = Some (File c) ->
  forall q, run_ops f (map (fun line => OAppend p (line ++ [c_nl])) lines) q =
    if path_eqb q p then Some (File (c ++ full_text lines)) else f q.
Proof.
  revert f c; induction lines as [|l lines IH]; intros f c Hc q.
  - cbn. rewrite app_nil_r. destruct (path_eqb_spec q p) as [->|]; auto.
  - cbn [map run_ops fold_left run_op]. unfold run_ops in IH.
    assert (Hco : content_of f p = c) by (unfold content_of; now rewrite Hc).
    rewrite (IH _ (c ++ (l ++ [c_nl]))).
    2:{ rewrite fs_set_same. now rewrite Hco. }
    unfold full_text. cbn. rewrite <- !app_assoc. cbn.
    destruct (path_eqb_spec q p) as [->|Hn]; [reflexivity|]. now rewrite fs_set_other.
Qed.

Lemma write_lines_run f p lines q :
  run_ops f (write_lines_ops p lines) q =
  if path_eqb q p then Some (File (full_text lines)) else f q.
Proof.
  unfold write_lines_ops. cbn [run_ops fold_left run_op].
  change (fold_left run_op ?o ?g) with (run_ops g o).
  rewrite (run_append_ops _ _ []).
  2:{ apply fs_set_same. }
  cbn. destruct (path_eqb_spec q p) as [->|Hn]; [reflexivity|]. now rewrite fs_set_other.
Qed.

(** Text files of model file systems that agree on a path and its ancestors read alike. *)
Lemma walk_ext f g pre rest :
  (forall q, f q = g q) -> walk f pre rest = walk g pre rest.
Proof.
  intros H. revert pre; induction rest as [|x rest IH]; intros pre; [reflexivity|].
  destruct rest as [|y rest]; [reflexivity|].
  change (walk ?h pre (x :: y :: rest)) with
    (match h (pre ++ [x]) with
     | None => Err FileNotFoundError
     | Some (File _) => Err NotADirectoryError
     | Some Dir => walk h (pre ++ [x]) (y :: rest)
     end).
  rewrite H. destruct (g (pre ++ [x])) as [[c|]|]; auto.
Qed.
Lemma read_text_ext f g p : (forall q, f q = g q) -> read_text f p = read_text g p.
Proof.
  intros H. unfold read_text. rewrite (walk_ext f g) by assumption.
  destruct (walk g [] p); cbn; [|reflexivity].
  unfold is_dir. destruct p; rewrite ?H; reflexivity.
Qed.

(** * Lines *)
Lemma c_nl_sep : is_line_sep c_nl = true. Proof. reflexivity. Qed.
Lemma c_cr_sep : is_line_sep c_cr = true. Proof. reflexivity. Qed.

Lemma no_break_not_cr c : is_line_sep c = false -> Ascii.eqb c c_cr = false.
Proof. intros H. destruct (Ascii.eqb_spec c c_cr) as [->|]; [discriminate|reflexivity]. Qed.
Lemma no_break_not_nl c : is_line_sep c = false -> Ascii.eqb c c_nl = false.
Proof. intros H. destruct (Ascii.eqb_spec c c_nl) as [->|]; [discriminate|reflexivity]. Qed.

Lemma splitlines_aux_run cur l s : no_break l ->
  splitlines_aux cur (l ++ s) = splitlines_aux (rev l ++ cur) s.
Proof.
  intros H. revert cur. induction H as [|c l Hc Hl IH]; intros cur; [reflexivity|].
  cbn [app splitlines_aux]. rewrite no_break_not_cr by assumption. rewrite Hc, IH.
  cbn. now rewrite <- app_assoc.
Qed.

(** One of the three conventional line terminators. *)
Lemma splitlines_aux_nl l s : no_break l ->
  splitlines_aux [] (l ++ c_nl :: s) = l :: splitlines_aux [] s.
Proof.
  intros H. rewrite splitlines_aux_run by assumption. cbn [splitlines_aux].
  change (Ascii.eqb c_nl c_cr) with false. change (is_line_sep c_nl) with true. cbn.
  now rewrite app_nil_r, rev_involutive.
Qed.

Lemma splitlines_full lines last : Forall no_break lines -> no_break last ->
  splitlines (full_text lines ++ last) = lines ++ match last with [] => [] | _ => [last] end.
Proof.
  intros H Hl. unfold splitlines, full_text. induction H as [|l lines Hx _ IH].
  - cbn [map concat app]. rewrite <- (app_nil_r last) at 1. rewrite splitlines_aux_run by assumption.
    cbn. destruct last as [|c last]; [reflexivity|]. rewrite app_nil_r.
    rewrite rev_involutive. destruct (rev (c :: last)) eqn:E; [|reflexivity].
    apply (f_equal (@length ascii)) in E. rewrite rev_length in E. discriminate.
  - cbn [map concat]. rewrite <- !app_assoc. cbn [app]. rewrite splitlines_aux_nl by assumption.
    now rewrite IH.
Qed.

Lemma splitlines_aux_no_break s : forall cur, no_break (rev cur) -> Forall no_break (splitlines_aux cur s).
Proof.
  remember (length s) as n eqn:Hn. revert s Hn.
  induction n as [n IH] using lt_wf_ind. intros [|c s] -> cur Hcur; cbn [splitlines_aux].
  - destruct cur; constructor; auto.
  - destruct (Ascii.eqb_spec c c_cr) as [->|Hcr].
    + constructor; [assumption|]. destruct s as [|d s]; [constructor|].
      destruct (Ascii.eqb d c_nl); (eapply IH; [|reflexivity|constructor]; cbn; lia).
    + destruct (is_line_sep c) eqn:E.
      * constructor; [assumption|]. eapply IH; [|reflexivity|constructor]; cbn; lia.
      * eapply IH; [|reflexivity|]; [cbn; lia|]. cbn. unfold no_break.
        apply Forall_app. split; [assumption|]. auto.
Qed.
Lemma splitlines_no_break s : Forall no_break (splitlines s).
Proof. apply splitlines_aux_no_break. constructor. Qed.

Lemma univ_nl_no_cr s : ~ In c_cr s -> univ_nl s = s.
Proof.
  induction s as [|c s IH]; intros H; [reflexivity|].
  cbn [univ_nl]. destruct (Ascii.eqb_spec c c_cr) as [->|]; [elim H; now left|].
  rewrite IH; [reflexivity|]. intros Hi. apply H. now right.
Qed.
Lemma no_break_no_cr l : no_break l -> ~ In c_cr l.
Proof. intros H Hi. unfold no_break in H. rewrite Forall_forall in H. apply H in Hi. discriminate. Qed.
Lemma full_text_no_cr lines : Forall no_break lines -> ~ In c_cr (full_text lines).
Proof.
  unfold full_text. induction 1 as [|l lines Hl _ IH]; cbn; [tauto|].
  rewrite !in_app_iff. intros [[H|[H|[]]]|H]; [|discriminate|contradiction].
  now apply no_break_no_cr in Hl.
Qed.

Lemma write_lines_Ok f p lines f' : write_lines f p lines = Ok f' ->
  can_open_w f p = Ok tt /\ f' = run_ops f (write_lines_ops p lines).
Proof.
  unfold write_lines, write_lines_effects. destruct (can_open_w f p) as [[]|e]; cbn; [|discriminate].
  intros H; injection H as <-. auto.
Qed.

Lemma write_get f p lines f' : write_lines f p lines = Ok f' ->
  get_lines f' p = Ok (splitlines (univ_nl (full_text lines))).
Proof.
  intros H. apply write_lines_Ok in H. destruct H as [Ho ->].
  unfold get_lines. erewrite read_text_ext by (intros q; apply write_lines_run).
  pose proof (can_open_w_read f p (full_text lines) Ho) as Hr.
  unfold fs_set in Hr. rewrite Hr. reflexivity.
Qed.

Lemma write_get_iff f p lines f' : write_lines f p lines = Ok f' ->
  (get_lines f' p = Ok lines <-> Forall no_break lines) /\ (forall q, q <> p -> f' q = f q).
Proof.
  intros H. pose proof (write_get _ _ _ _ H) as Hg. apply write_lines_Ok in H. destruct H as [Ho ->].
  split.
  - rewrite Hg. split.
    + intros E. injection E as E. rewrite <- E. apply splitlines_no_break.
    + intros Hb. rewrite univ_nl_no_cr by now apply full_text_no_cr.
      rewrite <- (app_nil_r (full_text lines)). rewrite splitlines_full by (auto; constructor).
      now rewrite app_nil_r.
  - intros q Hq. rewrite write_lines_run. destruct (path_eqb_spec q p); congruence.
Qed.

Lemma write_lines_ok_iff f p lines : (exists f', write_lines f p lines = Ok f') <-> openable f p.
Proof.
  rewrite <- can_open_w_spec. unfold write_lines, write_lines_effects.
  destruct (can_open_w f p) as [[]|e]; cbn; split; try discriminate; eauto.
  intros [f' H]; discriminate.
Qed.

(** C02 *)

Lemma univ_nl_app_nb l s : no_break l -> univ_nl (l ++ s) = l ++ univ_nl s.
Proof.
  induction 1 as [|c l Hc _ IH]; [reflexivity|]. cbn [app univ_nl].
  rewrite no_break_not_cr by assumption. now rewrite IH.
Qed.
Lemma univ_nl_term t s : terminator t ->
  (forall c r, s = c :: r -> c = c_nl -> t <> [c_cr]) ->
  univ_nl (t ++ s) = c_nl :: univ_nl s.
Proof.
  intros [->|[->| ->]] H.
  - reflexivity.
  - reflexivity.
  - cbn [app univ_nl]. rewrite Ascii.eqb_refl. destruct s as [|d s]; [reflexivity|].
    destruct (Ascii.eqb_spec d c_nl) as [->|]; [|reflexivity].
    exfalso. eapply H; reflexivity.
Qed.
Lemma univ_nl_conv t lines last : terminator t -> Forall no_break lines -> no_break last ->
  univ_nl (concat (map (fun l => l ++ t) lines) ++ last) = full_text lines ++ last.
Proof.
  intros Ht H Hl. unfold full_text. induction H as [|l lines Hx Hf IH].
  - cbn. apply univ_nl_no_cr. now apply no_break_no_cr.
  - cbn [map concat]. rewrite <- !app_assoc. rewrite univ_nl_app_nb by assumption. f_equal.
    rewrite univ_nl_term; [|assumption|].
    + cbn. f_equal. exact IH.
    + intros c r Hs -> ->. destruct Hf as [|l' lines' Hl' _].
      * cbn in Hs. subst last. inversion Hl. discriminate.
      * cbn in Hs. destruct Hl' as [|d l' Hd _].
        -- discriminate Hs.
        -- cbn in Hs. injection Hs as -> _. discriminate.
Qed.

Lemma get_lines_conv f p t lines last :
  terminator t -> Forall no_break lines -> no_break last ->
  f p = Some (File (concat (map (fun l => l ++ t) lines) ++ last)) -> openable f p ->
  get_lines f p = Ok (lines ++ match last with [] => [] | _ => [last] end).
Proof.
  intros Ht H Hl Hf Ho. pose proof Ho as (H0 & H1 & H2).
  unfold get_lines, read_text.
  assert (Hw : walk f [] p = Ok tt) by (apply walk_spec; exact H2).
  rewrite Hw. cbn. unfold is_dir. destruct p as [|x p]; [now elim H0|]. rewrite Hf. cbn.
  rewrite univ_nl_conv by assumption. now rewrite splitlines_full.
Qed.
Lemma get_lines_no_break f p ls : get_lines f p = Ok ls -> Forall no_break ls.
Proof.
  unfold get_lines. destruct (read_text f p); cbn; [|discriminate].
  intros H; injection H as <-. apply splitlines_no_break.
Qed.

(** C03 *)
Lemma crash_appends f p c lines f' :
  f p = Some (File c) ->
  crash f (map (fun line => OAppend p (line ++ [c_nl])) lines) f' ->
  (exists t, prefix_of t (full_text lines) /\ f' p = Some (File (c ++ t))) /\
  forall q, q <> p -> f' q = f q.
Proof.
  revert f c; induction lines as [|l lines IH]; intros f c Hc H.
  - cbn in H. inversion H; subst. split; [|auto]. exists []. split; [exists []; reflexivity|].
    now rewrite app_nil_r.
  - cbn [map] in H. assert (Hco : content_of f p = c) by (unfold content_of; now rewrite Hc).
    inversion H as [| ? ? ? ? s1 s2 Hs | ? ? ? ? Hc']; subst.
    + split; [|auto]. exists []. split; [exists (full_text (l :: lines)); reflexivity|].
      now rewrite app_nil_r.
    + split.
      * exists s1. split.
        -- exists (s2 ++ full_text lines). unfold full_text. cbn [map concat].
           rewrite Hs. now rewrite <- app_assoc.
        -- cbn. now rewrite fs_set_same.
      * intros q Hq. cbn. now rewrite fs_set_other.
    + cbn [run_op] in Hc'. eapply IH in Hc'.
      2:{ rewrite fs_set_same. reflexivity. }
      destruct Hc' as [(t & (u & Ht) & Hp) Hq]. split.
      * exists ((l ++ [c_nl]) ++ t). split.
        -- exists u. unfold full_text in *. cbn [map concat]. rewrite Ht. now rewrite <- !app_assoc.
        -- rewrite Hp. now rewrite <- !app_assoc.
      * intros q Hn. rewrite Hq by assumption. now rewrite fs_set_other.
Qed.
Lemma crash_write_lines f p lines f' : crash f (write_lines_ops p lines) f' ->
  (f' p = f p \/ exists t, prefix_of t (full_text lines) /\ f' p = Some (File t)) /\
  forall q, q <> p -> f' q = f q.
Proof.
  intros H. unfold write_lines_ops in H. inversion H as [| |? ? ? ? Hc]; subst.
  - auto.
  - cbn [run_op] in Hc. eapply crash_appends in Hc.
    2:{ apply fs_set_same. }
    destruct Hc as [(t & Ht & Hp) Hq]. split.
    + right. exists t. auto.
    + intros q Hn. rewrite Hq by assumption. now rewrite fs_set_other.
Qed.

(** * Searches *)
Lemma slice_to_head num l : slice_to num l = head_chars num l.
Proof.
  unfold slice_to, slice, clamp_ix, head_chars, zlen. cbn [skipn].
  destruct (Z.ltb_spec num 0); f_equal; lia.
Qed.
Lemma find_line_from_find i text lines num :
  find_line_from i text lines num =
  match find_from (fun l => str_eqb (slice_to num l) text) i lines with
  | Some j => Ok j | None => Err ValueError end.
Proof.
  revert i; induction lines as [|l lines IH]; intros i; cbn; [reflexivity|].
  destruct (str_eqb (slice_to num l) text); [reflexivity|]. apply IH.
Qed.
Lemma first_index_iff {A} (P Q : A -> Prop) l i :
  (forall x, P x <-> Q x) -> first_index P l i <-> first_index Q l i.
Proof.
  intros H. unfold first_index. split; intros ((x & Hx & Px) & Hf); (split; [exists x; firstorder|]); intros j y Hj Hy Py; eapply Hf; eauto; now apply H.
Qed.
Lemma find_line_Ok text lines num i :
  find_line text lines num = Ok i <-> first_index (fun l => head_chars num l = text) lines i.
Proof.
  unfold find_line. rewrite find_line_from_find.
  destruct (find_from (fun l => str_eqb (slice_to num l) text) 0 lines) as [j|] eqn:E.
  - split.
    + intros H; injection H as <-. apply find_from_Some in E. destruct E as [_ E].
      rewrite Nat.sub_0_r in E. eapply first_index_iff; [|exact E].
      intros x. cbn. now rewrite str_eqb_eq, slice_to_head.
    + intros H. f_equal. assert (E' : find_from (fun l => str_eqb (slice_to num l) text) 0 lines = Some i).
      { apply find_from_Some. split; [lia|]. rewrite Nat.sub_0_r. eapply first_index_iff; [|exact H].
        intros x. cbn. now rewrite str_eqb_eq, slice_to_head. }
      congruence.
  - split; [discriminate|]. intros ((x & Hx & Px) & _). rewrite find_from_None in E.
    apply nth_error_In in Hx. apply E in Hx. cbn in Hx. apply str_eqb_neq in Hx.
    rewrite slice_to_head in Hx. contradiction.
Qed.
Lemma find_line_Err text lines num e :
  find_line text lines num = Err e <->
  e = ValueError /\ forall l, In l lines -> head_chars num l <> text.
Proof.
  unfold find_line. rewrite find_line_from_find.
  destruct (find_from (fun l => str_eqb (slice_to num l) text) 0 lines) as [j|] eqn:E.
  - split; [discriminate|]. intros (_ & H). apply find_from_Some in E.
    destruct E as (_ & (x & Hx & Px) & _). apply nth_error_In in Hx. apply H in Hx.
    cbn in Px. apply str_eqb_eq in Px. rewrite slice_to_head in Px. contradiction.
  - rewrite find_from_None in E. split.
    + intros H; injection H as <-. split; [reflexivity|]. intros l Hl. apply E in Hl. cbn in Hl.
      apply str_eqb_neq in Hl. now rewrite slice_to_head in Hl.
    + intros [-> _]. reflexivity.
Qed.

Lemma find_ind_from_find i data sub :
  find_ind_from i data sub =
  match find_from (contains sub) i data with Some j => Ok j | None => Err ValueError end.
Proof.
  revert i; induction data as [|l data IH]; intros i; cbn; [reflexivity|].
  destruct (contains sub l); [reflexivity|]. apply IH.
Qed.
Lemma find_ind_Ok data sub i : find_ind data sub = Ok i <-> first_index (occurs sub) data i.
Proof.
  unfold find_ind. rewrite find_ind_from_find.
  assert (Hiff : forall j, first_index (fun x => contains sub x = true) data j <-> first_index (occurs sub) data j)
    by (intros j; apply first_index_iff; apply contains_spec).
  destruct (find_from (contains sub) 0 data) as [j|] eqn:E.
  - split.
    + intros H; injection H as <-. apply find_from_Some in E. destruct E as [_ E].
      rewrite Nat.sub_0_r in E. now apply Hiff.
    + intros H. f_equal. assert (E' : find_from (contains sub) 0 data = Some i).
      { apply find_from_Some. split; [lia|]. rewrite Nat.sub_0_r. now apply Hiff. }
      congruence.
  - split; [discriminate|]. intros ((x & Hx & Px) & _). rewrite find_from_None in E.
    apply nth_error_In in Hx. apply E in Hx. apply contains_false in Hx. contradiction.
Qed.
Lemma find_ind_Err data sub e :
  find_ind data sub = Err e <-> e = ValueError /\ forall s, In s data -> ~ occurs sub s.
Proof.
  unfold find_ind. rewrite find_ind_from_find.
  destruct (find_from (contains sub) 0 data) as [j|] eqn:E.
  - split; [discriminate|]. intros (_ & H). apply find_from_Some in E.
    destruct E as (_ & (x & Hx & Px) & _). apply nth_error_In in Hx. apply H in Hx.
    apply contains_spec in Px. contradiction.
  - rewrite find_from_None in E. split.
    + intros H; injection H as <-. split; [reflexivity|]. intros l Hl. apply E in Hl.
      now apply contains_false.
    + intros [-> _]. reflexivity.
Qed.

(** * Cleaning *)
Lemma string_cleaner_words t : string_cleaner t = join [c_space] (split_ws t).
Proof. unfold string_cleaner. now rewrite split_ws_strip. Qed.
Lemma spaced_join ws : spaced ws (join [c_space] ws).
Proof.
  induction ws as [|w ws IH]; [constructor|].
  destruct ws as [|v ws]; [constructor|]. rewrite join_cons. now constructor.
Qed.
Lemma spaced_fun ws s : spaced ws s -> s = join [c_space] ws.
Proof. induction 1 as [|w|w v ws s _ ->]; reflexivity. Qed.
Lemma cleaner_spec t : exists ws, words t ws /\ spaced ws (string_cleaner t).
Proof. exists (split_ws t). split; [apply words_total|]. rewrite string_cleaner_words. apply spaced_join. Qed.
Lemma cleaner_split t : split_ws (string_cleaner t) = split_ws t.
Proof. rewrite string_cleaner_words. apply split_ws_join. apply split_ws_words. Qed.
Lemma cleaner_idem t : string_cleaner (string_cleaner t) = string_cleaner t.
Proof. rewrite !string_cleaner_words. f_equal. rewrite <- string_cleaner_words. apply cleaner_split. Qed.
Lemma cleaner_eq_iff a b : string_cleaner a = string_cleaner b <-> (forall ws, words a ws <-> words b ws).
Proof.
  split.
  - intros H ws. rewrite !words_split. rewrite <- (cleaner_split a), <- (cleaner_split b). now rewrite H.
  - intros H. rewrite !string_cleaner_words. f_equal. symmetry. apply words_split. apply H. apply words_total.
Qed.
Lemma clean_split_words t ws : ws <> [] -> words t ws -> string_clean_and_split t = ws.
Proof.
  intros H0 H. apply words_split in H. subst ws.
  unfold string_clean_and_split, string_clean_and_split_by. rewrite string_cleaner_words.
  apply split_on_join; [assumption|].
  eapply Forall_impl; [|apply split_ws_words]. apply word_lacks_space.
Qed.
Lemma clean_split_blank t : words t [] -> string_clean_and_split t = [[]].
Proof.
  intros H. apply words_split in H.
  unfold string_clean_and_split, string_clean_and_split_by. now rewrite string_cleaner_words, H.
Qed.
Lemma clean_split_join t : spaced (string_clean_and_split t) (string_cleaner t).
Proof.
  replace (string_cleaner t) with (join [c_space] (string_clean_and_split t)); [apply spaced_join|].
  apply join_split_on.
Qed.

(** * First zero / non zero *)
Lemma filter_enum_first {A} (p : A -> bool) n (l : list A) :
  match filter (fun ix => p (snd ix)) (enum_from n l) with
  | [] => None | (i, _) :: _ => Some i end = find_from p n l.
Proof.
  revert n; induction l as [|x l IH]; intros n; cbn; [reflexivity|].
  destruct (p x); [reflexivity|]. apply IH.
Qed.
Lemma feq_zero x : feq x fzero = true <-> fp_zero x.
Proof.
  unfold fp_zero. destruct x as [s|s| |s m e]; cbn; try destruct s; cbn; split; intros H; try discriminate; eauto; destruct H as [b H]; discriminate.
Qed.
Lemma truthy_nonzero x : truthy_f x = true <-> ~ fp_zero x.
Proof.
  unfold fp_zero, truthy_f. destruct x as [s|s| |s m e]; cbn; split; intros H; try discriminate; try reflexivity.
  - elim H. now exists s.
  - intros [b H']; discriminate.
  - intros [b H']; discriminate.
  - intros [b H']; discriminate.
Qed.
Lemma find_from0_Some {A} (p : A -> bool) (P : A -> Prop) l i :
  (forall x, p x = true <-> P x) -> find_from p 0 l = Some i <-> first_index P l i.
Proof.
  intros H. rewrite find_from_Some, Nat.sub_0_r. split.
  - intros [_ Hf]. eapply first_index_iff; [|exact Hf]. intros; symmetry; apply H.
  - intros Hf. split; [lia|]. eapply first_index_iff; [|exact Hf]. exact H.
Qed.
Lemma find_from0_None {A} (p : A -> bool) (P : A -> Prop) l :
  (forall x, p x = true <-> P x) -> find_from p 0 l = None <-> forall x, In x l -> ~ P x.
Proof.
  intros H. rewrite find_from_None. split.
  - intros Hf x Hx Px. apply H in Px. apply Hf in Hx. congruence.
  - intros Hf x Hx. apply Hf in Hx. rewrite <- H in Hx. now destruct (p x).
Qed.
Lemma find_first_zero_Some l i : find_first_zero l = Some i <-> first_index fp_zero l i.
Proof.
  unfold find_first_zero, enumerate. rewrite (filter_enum_first (fun x => feq x fzero)).
  apply find_from0_Some, feq_zero.
Qed.
Lemma find_first_zero_None l : find_first_zero l = None <-> forall x, In x l -> ~ fp_zero x.
Proof.
  unfold find_first_zero, enumerate. rewrite (filter_enum_first (fun x => feq x fzero)).
  apply find_from0_None, feq_zero.
Qed.
Lemma find_first_non_zero_Some l i : find_first_non_zero l = Some i <-> first_index (fun x => ~ fp_zero x) l i.
Proof.
  unfold find_first_non_zero, enumerate. rewrite (filter_enum_first truthy_f).
  apply find_from0_Some, truthy_nonzero.
Qed.
Lemma find_first_non_zero_None l : find_first_non_zero l = None <-> forall x, In x l -> fp_zero x.
Proof.
  unfold find_first_non_zero, enumerate. rewrite (filter_enum_first truthy_f).
  rewrite (find_from0_None _ (fun x => ~ fp_zero x)) by apply truthy_nonzero.
  split; intros H x Hx; specialize (H x Hx); [|tauto].
  destruct x as [s|s| |s m e]; try (exists s; reflexivity); exfalso; apply H; intros [b Hb]; discriminate.
Qed.

(** * Dimensions *)
Lemma dims_loop_branch x ds : first_branch x ds -> forall acc, exists fuel, dims_loop fuel acc x = Some (acc ++ ds).
Proof.
  induction 1 as [|x xs ds _ IH]; intros acc.
  - exists 1. cbn. now rewrite app_nil_r.
  - destruct (IH (acc ++ [S (length xs)])) as [k Hk]. exists (S k). cbn. rewrite Hk.
    now rewrite <- app_assoc.
Qed.
Lemma dims_loop_dead x : dead_end x -> forall fuel acc, dims_loop fuel acc x = None.
Proof.
  induction 1 as [|x xs _ IH]; intros fuel acc.
  - revert acc; induction fuel as [|k IH]; intros acc; cbn; [reflexivity|]. apply IH.
  - destruct fuel as [|k]; cbn; [reflexivity|]. apply IH.
Qed.
Fixpoint branch_dec (x : pyval) : (exists ds, first_branch x ds) \/ dead_end x :=
  match x with
  | PyLeaf => or_introl (ex_intro _ [] fb_leaf)
  | PyList [] => or_intror de_nil
  | PyList (y :: ys) =>
      match branch_dec y with
      | or_introl (ex_intro _ ds H) => or_introl (ex_intro _ (S (length ys) :: ds) (fb_list y ys ds H))
      | or_intror H => or_intror (de_list y ys H)
      end
  end.
Lemma dims_fuel_mono fuel acc x d : dims_loop fuel acc x = Some d ->
  forall k, dims_loop (fuel + k) acc x = Some d.
Proof.
  revert acc x; induction fuel as [|n IH]; intros acc x H k; cbn in *; [discriminate|].
  destruct x as [|l]; [assumption|]. now apply IH.
Qed.
Lemma get_dims_branch x d : (exists fuel, get_list_dimensions fuel x = Some d) <-> first_branch x d.
Proof.
  split.
  - intros [fuel H]. destruct (branch_dec x) as [[ds Hb]|Hd].
    + destruct x as [|l]; cbn in H.
      * injection H as <-. constructor.
      * destruct (dims_loop_branch _ _ Hb []) as [k Hk].
        apply (dims_fuel_mono _ _ _ _) with (k := k) in H.
        apply (dims_fuel_mono _ _ _ _) with (k := fuel) in Hk.
        rewrite Nat.add_comm in Hk. cbn in Hk. congruence.
    + destruct x as [|l]; [inversion Hd|]. cbn in H. now rewrite dims_loop_dead in H.
  - intros H. destruct x as [|l].
    + exists 0. inversion H. reflexivity.
    + destruct (dims_loop_branch _ _ H []) as [k Hk]. exists k. exact Hk.
Qed.
Lemma get_dims_dead x : (forall fuel, get_list_dimensions fuel x = None) <-> dead_end x.
Proof.
  split.
  - intros H. destruct (branch_dec x) as [[ds Hb]|Hd]; [|assumption].
    apply get_dims_branch in Hb. destruct Hb as [k Hk]. now rewrite H in Hk.
  - intros H fuel. destruct x as [|l]; [inversion H|]. cbn. now apply dims_loop_dead.
Qed.

(** * replace *)
Lemma replace_aux_skip old new s1 s2 :
  replace_aux old new (length s1) (s1 ++ s2) = replace_aux old new 0 s2.
Proof. induction s1 as [|c s1 IH]; cbn; [destruct s2; reflexivity|exact IH]. Qed.
Lemma replace_aux_hit old new c o s :
  old = c :: o -> replace_aux old new 0 (old ++ s) = new ++ replace_aux old new 0 s.
Proof.
  intros ->. cbn [app replace_aux].
  pose proof (starts_with_app (c :: o) s) as Hs. cbn [app] in Hs. rewrite Hs. f_equal.
  replace (length (c :: o) - 1) with (length o) by (cbn; lia).
  apply replace_aux_skip.
Qed.
Lemma replace_aux_miss old new c s :
  starts_with old (c :: s) = false -> replace_aux old new 0 (c :: s) = c :: replace_aux old new 0 s.
Proof. intros H. cbn [replace_aux]. now rewrite H. Qed.

Lemma replace_replaced_aux old new : old <> [] -> forall s, replaced old new s (replace_aux old new 0 s).
Proof.
  intros H0. destruct old as [|o0 o]; [now elim H0|]. clear H0. set (old := o0 :: o).
  intros s. remember (length s) as n eqn:Hn. revert s Hn.
  induction n as [n IH] using lt_wf_ind. intros s ->.
  (* find first occurrence *)
  assert (Hdec : (exists a b, s = a ++ old ++ b /\ (forall a' b', s = a' ++ old ++ b' -> length a <= length a')) \/ ~ occurs old s).
  { clear IH. induction s as [|c s IHs].
    - right. intros (a & b & H). destruct a; discriminate.
    - destruct (starts_with old (c :: s)) eqn:E.
      + left. apply starts_with_spec in E. destruct E as [t Ht]. exists [], t. split; [exact Ht|].
        intros; cbn; lia.
      + destruct IHs as [(a & b & Hs & Hmin)|Hno].
        * left. exists (c :: a), b. split; [cbn; now rewrite Hs|].
          intros [|d a'] b' H.
          -- exfalso. assert (starts_with old (c :: s) = true) by (apply starts_with_spec; exists b'; exact H). congruence.
          -- injection H as _ H. apply Hmin in H. cbn. lia.
        * right. intros (a & b & H). destruct a as [|d a].
          -- assert (starts_with old (c :: s) = true) by (apply starts_with_spec; exists b; exact H). congruence.
          -- injection H as _ H. apply Hno. now exists a, b. }
  destruct Hdec as [(a & b & Hs & Hmin)|Hno].
  - assert (Hgo : replace_aux old new 0 s = a ++ new ++ replace_aux old new 0 b).
    { subst s. clear IH. induction a as [|c a IHa].
      - cbn [app]. now apply (replace_aux_hit old new o0 o).
      - cbn [app]. rewrite replace_aux_miss.
        + f_equal. apply IHa. intros a' b' H. specialize (Hmin (c :: a') b').
          assert (E : (c :: a) ++ old ++ b = (c :: a') ++ old ++ b') by (cbn [app]; now rewrite H).
          specialize (Hmin E). cbn in Hmin. lia.
        + destruct (starts_with old (c :: a ++ old ++ b)) eqn:E; [|reflexivity].
          apply starts_with_spec in E. destruct E as [t Ht]. specialize (Hmin [] t Ht). cbn in Hmin. lia. }
    rewrite Hgo. rewrite Hs. constructor.
    + intros a' b' H. apply (Hmin a' b'). now rewrite Hs.
    + apply (IH (length b)); [|reflexivity]. rewrite Hs, !app_length. cbn. lia.
  - assert (Hgo : replace_aux old new 0 s = s).
    { clear IH. induction s as [|c s IHs]; [reflexivity|]. rewrite replace_aux_miss.
      - f_equal. apply IHs. intros (a & b & H). apply Hno. exists (c :: a), b. cbn. now rewrite H.
      - destruct (starts_with old (c :: s)) eqn:E; [|reflexivity].
        apply starts_with_spec in E. destruct E as [t Ht]. elim Hno. now exists [], t. }
    rewrite Hgo. now constructor.
Qed.
Lemma replace_replaced old new s : old <> [] -> replaced old new s (replace old new s).
Proof. intros H. destruct old as [|c o]; [now elim H|]. now apply replace_replaced_aux. Qed.

Lemma app_split_len {A} (a a' b b' : list A) : length a = length a' -> a ++ b = a' ++ b' -> a = a' /\ b = b'.
Proof.
  revert a'; induction a as [|x a IH]; intros [|y a'] Hl H; try discriminate; [auto|].
  injection Hl as Hl. injection H as -> H. destruct (IH _ Hl H) as [-> ->]. auto.
Qed.
Lemma replaced_fun old new s t t' : replaced old new s t -> replaced old new s t' -> t = t'.
Proof.
  intros H. revert t'. induction H as [s Hno | a b t Hmin _ IH]; intros t' H'.
  - inversion H'; subst; [reflexivity|]. elim Hno. now exists a, b.
  - remember (a ++ old ++ b) as s eqn:Hs. destruct H' as [s Hno | a' b' u' Hmin' H'].
    + elim Hno. now exists a, b.
    + assert (Hle : length a = length a').
      { pose proof (Hmin _ _ eq_refl). pose proof (Hmin' _ _ Hs). lia. }
      symmetry in Hs. destruct (app_split_len _ _ _ _ Hle Hs) as [-> Hs2].
      apply app_inv_head in Hs2. subst b'. f_equal. f_equal. now apply IH.
Qed.

Lemma text_replace_spec f p old new f' : text_replace f p old new = Ok f' ->
  exists data t, read_text f p = Ok data /\ f' p = Some (File t) /\
    t = replace old new data /\ forall q, q <> p -> f' q = f q.
Proof.
  unfold text_replace, text_replace_effects. destruct (read_text f p) as [data|e]; cbn; [|discriminate].
  destruct (can_open_w f p) as [[]|e]; cbn; [|discriminate]. intros H; injection H as <-.
  exists data, (replace old new data). split; [reflexivity|]. split.
  - rewrite fs_set_same. unfold content_of. now rewrite fs_set_same.
  - split; [reflexivity|]. intros q Hq. now rewrite !fs_set_other.
Qed.
Lemma text_replace_total f p old new c : openable f p -> f p = Some (File c) ->
  exists f', text_replace f p old new = Ok f' /\ read_text f p = Ok (univ_nl c).
Proof.
  intros Ho Hf. pose proof Ho as (H0 & H1 & H2). unfold text_replace, text_replace_effects, read_text.
  assert (Hw : walk f [] p = Ok tt) by (apply walk_spec; exact H2).
  assert (Hd : is_dir f p = false) by (unfold is_dir; destruct p; [now elim H0|]; now rewrite Hf).
  apply can_open_w_spec in Ho. rewrite Hw, Hd, Hf. cbn [bind]. rewrite Ho. cbn. eauto.
Qed.
Lemma text_replace_missing f p old new : (forall a b, p = a ++ b -> a <> [] -> b <> [] -> f a = Some Dir) ->
  p <> [] -> f p = None -> text_replace f p old new = Err FileNotFoundError.
Proof.
  intros H2 H0 Hf. unfold text_replace, text_replace_effects, read_text.
  assert (Hw : walk f [] p = Ok tt) by (apply walk_spec; exact H2).
  assert (Hd : is_dir f p = false) by (unfold is_dir; destruct p; [now elim H0|]; now rewrite Hf).
  rewrite Hw, Hd, Hf. reflexivity.
Qed.
Lemma crash_text_replace f p data f' : crash f (text_replace_ops p data) f' ->
  (f' p = f p \/ exists t, prefix_of t data /\ f' p = Some (File t)) /\ forall q, q <> p -> f' q = f q.
Proof.
  unfold text_replace_ops. intros H. inversion H as [| |? ? ? ? Hc]; subst; [auto|].
  cbn [run_op] in Hc. inversion Hc as [| ? ? ? ? s1 s2 Hs | ? ? ? ? Hc']; subst.
  - split.
    + right. exists []. split; [now exists data|]. apply fs_set_same.
    + intros q Hq. now rewrite fs_set_other.
  - split.
    + right. exists s1. split; [now exists s2|]. cbn. rewrite fs_set_same. unfold content_of. now rewrite fs_set_same.
    + intros q Hq. cbn. now rewrite !fs_set_other.
  - inversion Hc'; subst. split.
    + right. exists data. split; [exists []; now rewrite app_nil_r|]. cbn.
      rewrite fs_set_same. unfold content_of. now rewrite fs_set_same.
    + intros q Hq. cbn. now rewrite !fs_set_other.
Qed.

(** * Tabs *)
Lemma replace_char_detab n s : detabbed n s (replace_aux [c_tab] (repeat c_space n) 0 s).
Proof.
  induction s as [|c s IH]; [constructor|].
  destruct (Ascii.eqb_spec c c_tab) as [->|Hc].
  - change (c_tab :: s) with ([c_tab] ++ s) at 2. rewrite (replace_aux_hit [c_tab] _ c_tab []) by reflexivity.
    now constructor.
  - rewrite replace_aux_miss.
    + constructor; assumption.
    + cbn. destruct (Ascii.eqb_spec c_tab c); [congruence|reflexivity].
Qed.
Lemma replace_tab_detab s z : detabbed (Z.to_nat z) s (replace_tab_with_space s z).
Proof. apply replace_char_detab. Qed.
Lemma detabbed_no_tab n s t : detabbed n s t -> ~ In (chr 9) t.
Proof.
  induction 1 as [|s t _ IH|c s t Hc _ IH]; cbn; [tauto| |].
  - rewrite in_app_iff. intros [H|H]; [|contradiction]. apply repeat_spec in H. discriminate.
  - intros [H|H]; [congruence|contradiction].
Qed.
Lemma detabbed_fun n s t t' : detabbed n s t -> detabbed n s t' -> t = t'.
Proof.
  intros H. revert t'. induction H as [|s t _ IH|c s t Hc _ IH]; intros t' H'.
  - now inversion H'.
  - inversion H'; subst; [|congruence]. f_equal. auto.
  - inversion H'; subst; [congruence|]. f_equal. auto.
Qed.
Lemma enum_filter_increasing {A} (p : A -> bool) n (l : list A) :
  increasing (map fst (filter (fun il => p (snd il)) (enum_from n l))) /\
  Forall (fun i => n <= i) (map fst (filter (fun il => p (snd il)) (enum_from n l))).
Proof.
  revert n; induction l as [|x l IH]; intros n; cbn.
  - split; constructor.
  - destruct (IH (S n)) as [H1 H2]. destruct (p x); cbn.
    + split.
      * destruct (map fst (filter (fun il => p (snd il)) (enum_from (S n) l))) as [|m r]; constructor; [|assumption].
        inversion H2; subst. lia.
      * constructor; [lia|]. eapply Forall_impl; [|exact H2]. cbn. lia.
    + split; [assumption|]. eapply Forall_impl; [|exact H2]. cbn. lia.
Qed.
Lemma enum_filter_In {A} (p : A -> bool) (l : list A) i :
  In i (map fst (filter (fun il => p (snd il)) (enumerate l))) <-> exists x, nth_error l i = Some x /\ p x = true.
Proof.
  rewrite in_map_iff. split.
  - intros ([j x] & Hj & Hi). cbn in Hj. subst j. apply filter_In in Hi. destruct Hi as [Hi Hp].
    apply enumerate_In in Hi. eauto.
  - intros (x & Hx & Hp). exists (i, x). split; [reflexivity|]. apply filter_In. split; [|assumption].
    now apply enumerate_In.
Qed.
Lemma find_tabs_spec lines : increasing (find_tabs_in_list lines) /\
  forall i, In i (find_tabs_in_list lines) <-> exists l, nth_error lines i = Some l /\ In (chr 9) l.
Proof.
  split; [apply (enum_filter_increasing (contains [c_tab]))|].
  intros i. unfold find_tabs_in_list. rewrite (enum_filter_In (contains [c_tab])).
  split; intros (l & Hl & H); exists l; (split; [assumption|]).
  - rewrite contains_char in H. apply existsb_exists in H. destruct H as (c & Hc & E).
    apply Ascii.eqb_eq in E. now subst c.
  - rewrite contains_char. apply existsb_exists. exists c_tab. split; [assumption|]. apply Ascii.eqb_refl.
Qed.

(** * Logger *)
Section LoggerP.
  Context {level : Type} (level_of : str -> res level) (file_ok : str -> res unit) (auto_name : str).
  Let setup := setup_logging level_of file_ok auto_name.

  Lemma setup_shape lf cl fl ok h :
    fst (setup lf cl fl ok h) = [] \/
    (exists l, fst (setup lf cl fl ok h) = [Console l]) \/
    (exists l n l', fst (setup lf cl fl ok h) = [Console l; Rotating n l']).
  Proof.
    unfold setup, setup_logging. destruct ok; cbn; [|auto].
    destruct (level_of (upper cl)) as [l|e]; cbn; [|auto].
    destruct lf as [name|]; cbn; [|eauto].
    destruct (file_ok _); cbn; [|eauto].
    destruct (level_of (upper fl)); cbn; eauto.
    right. right. eauto.
  Qed.
  Lemma step_counts h c :
    (count is_console h <= 1 /\ count is_filelog h <= 1) ->
    count is_console (fst (log_step level_of file_ok auto_name h c)) <= 1 /\
    count is_filelog (fst (log_step level_of file_ok auto_name h c)) <= 1.
  Proof.
    intros H. destruct c as [lf cl fl ok|lf cl fl|]; cbn [log_step].
    - destruct (setup_shape lf cl fl ok h) as [E|[(l & E)|(l & n & l' & E)]];
        unfold setup in E; rewrite E; cbn; lia.
    - destruct (setup_shape lf cl fl true h) as [E|[(l & E)|(l & n & l' & E)]];
        unfold setup in E; rewrite E; cbn; lia.
    - unfold get_logger. destruct h as [|x h]; [|exact H].
      destruct (setup_shape None (lit "INFO") (lit "DEBUG") true []) as [E|[(l & E)|(l & n & l' & E)]];
        unfold setup in E; rewrite E; cbn; lia.
  Qed.
  Lemma run_counts cs :
    count is_console (log_run level_of file_ok auto_name cs) <= 1 /\
    count is_filelog (log_run level_of file_ok auto_name cs) <= 1.
  Proof.
    unfold log_run.
    assert (H : forall h, (count is_console h <= 1 /\ count is_filelog h <= 1) ->
      count is_console (fold_left (fun h c => fst (log_step level_of file_ok auto_name h c)) cs h) <= 1 /\
      count is_filelog (fold_left (fun h c => fst (log_step level_of file_ok auto_name h c)) cs h) <= 1).
    { induction cs as [|c cs IH]; intros h Hh; cbn [fold_left]; [assumption|].
      apply IH. now apply step_counts. }
    apply H. cbn. lia.
  Qed.
  Lemma setup_success lf cl fl ok h h' :
    setup lf cl fl ok h = (h', None) ->
    exists l, level_of (upper cl) = Ok l /\
      match lf with
      | None => h' = [Console l]
      | Some name => exists l', level_of (upper fl) = Ok l' /\
          h' = [Console l; Rotating (if str_eqb name (lit "auto") then auto_name else name) l']
      end.
  Proof.
    unfold setup, setup_logging. destruct ok; cbn; [|discriminate].
    destruct (level_of (upper cl)) as [l|e]; cbn; [|discriminate].
    destruct lf as [name|]; cbn.
    - destruct (file_ok _); cbn; [|discriminate].
      destruct (level_of (upper fl)) as [l'|]; cbn; [|discriminate].
      intros H; injection H as <-. exists l. split; [reflexivity|]. exists l'. auto.
    - intros H; injection H as <-. exists l. auto.
  Qed.
  Lemma get_logger_ready l h : level_of (lit "INFO") = Ok l ->
    snd (get_logger level_of file_ok auto_name h) = None /\
    fst (get_logger level_of file_ok auto_name h) <> [] /\
    (h <> [] -> fst (get_logger level_of file_ok auto_name h) = h).
  Proof.
    intros Hl. unfold get_logger. destruct h as [|x h].
    - unfold setup_logging. cbn [negb]. change (upper (lit "INFO")) with (lit "INFO"). rewrite Hl. cbn.
      repeat split; [discriminate|]. intros H; now elim H.
    - cbn. repeat split. discriminate.
  Qed.
End LoggerP.

(** * Directories *)
Lemma is_dir_Some f p : is_dir f p = true <-> p = [] \/ f p = Some Dir.
Proof.
  unfold is_dir. destruct p as [|x p]; [tauto|]. destruct (f (x :: p)) as [[c|]|]; split; intros H; try discriminate; auto; destruct H; discriminate.
Qed.
Lemma snoc_cases {A} (l : list A) : l = [] \/ exists a x, l = a ++ [x].
Proof. destruct l as [|y l]; [auto|]. right. destruct (@exists_last _ (y :: l)) as (a & x & ->); [discriminate|]. eauto. Qed.

(** All non-empty prefixes are directories. *)
(** Some non-empty prefix is a file. *)
Definition blocked (f : fs) (p : path) : Prop := exists a b c, p = a ++ b /\ a <> [] /\ f a = Some (File c).

Lemma all_dirs_snoc f p x : all_dirs f p -> f (p ++ [x]) = Some Dir -> all_dirs f (p ++ [x]).
Proof.
  intros H Hx a b Hab Ha. destruct (snoc_cases b) as [->|(b' & y & ->)].
  - rewrite app_nil_r in Hab. now subst a.
  - rewrite app_assoc in Hab. apply app_inj_tail in Hab. destruct Hab as [Hab _]. eapply H; eassumption.
Qed.
Lemma all_dirs_pre f p x : all_dirs f (p ++ [x]) -> all_dirs f p.
Proof. intros H a b Hab Ha. apply (H a (b ++ [x])); [|assumption]. now rewrite Hab, app_assoc. Qed.

Lemma walk_snoc_dirs f p x : walk f [] (p ++ [x]) = Ok tt <-> all_dirs f p.
Proof.
  rewrite walk_spec. cbn. split.
  - intros H a b Hab Ha. apply (H a (b ++ [x])); [now rewrite Hab, app_assoc|assumption|].
    destruct b; discriminate.
  - intros H a b Hab Ha Hb. destruct (snoc_cases b) as [->|(b' & y & ->)]; [now elim Hb|].
    rewrite app_assoc in Hab. apply app_inj_tail in Hab. destruct Hab as [Hab _]. eapply H; eassumption.
Qed.
Lemma walk_err f pre rest e : walk f pre rest = Err e ->
  (e = FileNotFoundError /\ exists a b, rest = a ++ b /\ a <> [] /\ b <> [] /\ f (pre ++ a) = None) \/
  (e = NotADirectoryError /\ exists a b c, rest = a ++ b /\ a <> [] /\ b <> [] /\ f (pre ++ a) = Some (File c)).
Proof.
  revert pre; induction rest as [|x rest IH]; intros pre; [discriminate|].
  destruct rest as [|y rest]; [discriminate|].
  change (walk f pre (x :: y :: rest)) with
    (match f (pre ++ [x]) with
     | None => Err FileNotFoundError
     | Some (File _) => Err NotADirectoryError
     | Some Dir => walk f (pre ++ [x]) (y :: rest)
     end).
  destruct (f (pre ++ [x])) as [[c|]|] eqn:E.
  - intros H; injection H as <-. right. split; [reflexivity|]. exists [x], (y :: rest), c. repeat split; auto; discriminate.
  - intros H. apply IH in H. destruct H as [(-> & a & b & Hab & Ha & Hb & Hf)|(-> & a & b & c & Hab & Ha & Hb & Hf)].
    + left. split; [reflexivity|]. exists (x :: a), b. rewrite Hab. rewrite <- app_assoc in Hf.
      repeat split; auto; discriminate.
    + right. split; [reflexivity|]. exists (x :: a), b, c. rewrite Hab. rewrite <- app_assoc in Hf.
      repeat split; auto; discriminate.
  - intros H; injection H as <-. left. split; [reflexivity|]. exists [x], (y :: rest). repeat split; auto; discriminate.
Qed.

Definition same_but (f f' : fs) (p : path) : Prop :=
  (forall q, f q <> None -> f' q = f q) /\
  (forall q, f' q <> f q -> exists r, p = q ++ r /\ f' q = Some Dir).

Lemma wf_prefix_dir f p : wf_fs f -> f p = Some Dir -> all_dirs f p.
Proof.
  intros Hw. induction p as [|x p IH] using rev_ind; intros H a b Hab Ha.
  - destruct a; [now elim Ha|discriminate].
  - destruct (snoc_cases b) as [->|(b' & y & ->)].
    + rewrite app_nil_r in Hab. now subst a.
    + rewrite app_assoc in Hab. apply app_inj_tail in Hab. destruct Hab as [Hab _].
      destruct (Hw p x) as [->|Hp]; [congruence| |].
      * destruct a; [now elim Ha|discriminate].
      * eapply IH; eassumption.
Qed.

Lemma wf_set_dir f p x : wf_fs f -> all_dirs f p -> f (p ++ [x]) = None -> wf_fs (fs_set f (p ++ [x]) Dir).
Proof.
  intros Hw Hd Hn q y Hq. destruct (path_eqb_spec (q ++ [y]) (p ++ [x])) as [E|Hne].
  - apply app_inj_tail in E. destruct E as [-> ->].
    destruct p as [|z p]; [auto|]. right. rewrite fs_set_other.
    + apply (Hd (z :: p) []); [now rewrite app_nil_r|discriminate].
    + intros E. apply (f_equal (@length str)) in E. rewrite app_length in E. cbn in E. lia.
  - rewrite fs_set_other in Hq by assumption. destruct (Hw _ _ Hq) as [->|H]; [auto|].
    right. destruct (path_eqb_spec q (p ++ [x])) as [->|]; [apply fs_set_same|]. now rewrite fs_set_other.
Qed.

(** The outcome of mkdir -p on a well formed tree. *)
Lemma mkdir_p_spec rp : forall f, wf_fs f ->
  match mkdir_p_rev f rp with
  | Ok f' => all_dirs f' (rev rp) /\ same_but f f' (rev rp) /\ wf_fs f' /\ ~ blocked f (rev rp)
  | Err _ => blocked f (rev rp)
  end.
Proof.
  induction rp as [|x rp IH]; intros f Hw.
  - cbn. repeat split; auto.
    + intros a b Hab Ha. destruct a; [now elim Ha|discriminate].
    + congruence.
    + intros (a & b & c & Hab & Ha & _). destruct a; [now elim Ha|discriminate].
  - cbn [mkdir_p_rev rev]. set (p := rev rp) in *.
    unfold os_mkdir at 1. destruct (walk f [] (p ++ [x])) as [[]|e] eqn:Ew; cbn [bind].
    + apply walk_snoc_dirs in Ew.
      destruct (p ++ [x]) as [|z zs] eqn:Ep; [destruct p; discriminate|]. rewrite <- Ep.
      destruct (f (p ++ [x])) as [n|] eqn:En.
      * destruct n as [c|].
        -- assert (Hd : is_dir f (p ++ [x]) = false).
           { destruct (is_dir f (p ++ [x])) eqn:E; [|reflexivity]. apply is_dir_Some in E.
             destruct E as [E|E]; [destruct p; discriminate|congruence]. }
           rewrite Hd. exists (p ++ [x]), [], c. rewrite app_nil_r. repeat split; auto. destruct p; discriminate.
        -- assert (Hd : is_dir f (p ++ [x]) = true) by (apply is_dir_Some; auto).
           rewrite Hd. repeat split; auto.
           ++ now apply all_dirs_snoc.
           ++ congruence.
           ++ intros (a & b & c & Hab & Ha & Hf). pose proof (all_dirs_snoc f p x Ew En a b Hab Ha). congruence.
      * repeat split.
        -- apply all_dirs_snoc; [|apply fs_set_same]. intros a b Hab Ha. rewrite fs_set_other.
           ++ eapply Ew; eassumption.
           ++ intros ->. apply (f_equal (@length str)) in Hab. rewrite !app_length in Hab. cbn in Hab. lia.
        -- intros q Hq. apply fs_set_other. congruence.
        -- intros q Hq. destruct (path_eqb_spec q (p ++ [x])) as [->|Hne].
           ++ exists []. rewrite app_nil_r. split; [reflexivity|]. apply fs_set_same.
           ++ rewrite fs_set_other in Hq by assumption. congruence.
        -- now apply wf_set_dir.
        -- intros (a & b & c & Hab & Ha & Hf). destruct (snoc_cases b) as [->|(b' & y & ->)].
           ++ rewrite app_nil_r in Hab. subst a. congruence.
           ++ rewrite app_assoc in Hab. apply app_inj_tail in Hab. destruct Hab as [Hab _].
              pose proof (Ew a b' Hab Ha). congruence.
    + apply walk_err in Ew. cbn in Ew.
      destruct Ew as [(-> & a & b & Hab & Ha & Hb & Hf)|(-> & a & b & c & Hab & Ha & Hb & Hf)].
      * specialize (IH f Hw). destruct (mkdir_p_rev f rp) as [f'|e].
        2:{ destruct IH as (a' & b' & c & Hab' & Ha' & Hf'). exists a', (b' ++ [x]), c.
            rewrite Hab'. rewrite app_assoc. auto. }
        fold p in IH. destruct IH as (Hd & Hs & Hw' & Hnb).
        assert (Hpn : f (p ++ [x]) = None).
        { destruct (f (p ++ [x])) as [n|] eqn:En; [|reflexivity]. exfalso.
          assert (Hne : f (p ++ [x]) <> None) by congruence. apply Hw in Hne.
          destruct (snoc_cases b) as [->|(b' & y & ->)]; [now elim Hb|].
          rewrite app_assoc in Hab. apply app_inj_tail in Hab. destruct Hab as [Hab _].
          destruct Hne as [Hp|Hp].
          - rewrite Hp in Hab. destruct a; [now elim Ha|discriminate].
          - pose proof (wf_prefix_dir f p Hw Hp a b' Hab Ha). congruence. }
        assert (Hpn' : f' (p ++ [x]) = None).
        { destruct (f' (p ++ [x])) as [n|] eqn:En; [|reflexivity]. exfalso.
          destruct Hs as [_ Hs]. destruct (Hs (p ++ [x])) as (r & Hr & _); [congruence|].
          apply (f_equal (@length str)) in Hr. rewrite !app_length in Hr. cbn in Hr. lia. }
        unfold os_mkdir. assert (Hwk : walk f' [] (p ++ [x]) = Ok tt) by now apply walk_snoc_dirs.
        rewrite Hwk. cbn [bind]. destruct (p ++ [x]) as [|z zs] eqn:Ep; [destruct p; discriminate|].
        rewrite <- Ep in *. rewrite Hpn'. repeat split.
        -- apply all_dirs_snoc; [|apply fs_set_same]. intros a' b' Hab' Ha'. rewrite fs_set_other.
           ++ eapply Hd; eassumption.
           ++ intros ->. apply (f_equal (@length str)) in Hab'. rewrite !app_length in Hab'. cbn in Hab'. lia.
        -- intros q Hq. destruct Hs as [Hs _]. rewrite fs_set_other by congruence. now apply Hs.
        -- intros q Hq. destruct (path_eqb_spec q (p ++ [x])) as [->|Hne].
           ++ exists []. rewrite app_nil_r. split; [reflexivity|]. apply fs_set_same.
           ++ rewrite fs_set_other in * by assumption. destruct Hs as [_ Hs].
              destruct (Hs q Hq) as (r & Hr & Hq'). exists (r ++ [x]). rewrite Hr. rewrite app_assoc. auto.
        -- now apply wf_set_dir.
        -- intros (a' & b' & c & Hab' & Ha' & Hf'). destruct (snoc_cases b') as [->|(b2 & y & ->)].
           ++ rewrite app_nil_r in Hab'. subst a'. congruence.
           ++ rewrite app_assoc in Hab'. apply app_inj_tail in Hab'. destruct Hab' as [Hab' _].
              apply Hnb. exists a', b2, c. auto.
      * assert (Hbl : blocked f (p ++ [x])) by (exists a, b, c; auto).
        destruct (is_dir f (p ++ [x])) eqn:E; [|assumption]. exfalso.
        apply is_dir_Some in E. destruct E as [E|E]; [destruct p; discriminate|].
        pose proof (wf_prefix_dir f _ Hw E a b Hab Ha). congruence.
Qed.

Lemma ensure_dir_ok f p f' : wf_fs f -> ensure_dir_exists f p = Ok f' ->
  (forall a b, p = a ++ b -> a <> [] -> f' a = Some Dir) /\
  (forall q, f q <> None -> f' q = f q) /\
  (forall q, f' q <> f q -> exists r, p = q ++ r /\ f' q = Some Dir) /\ wf_fs f'.
Proof.
  intros Hw H. unfold ensure_dir_exists in H. pose proof (mkdir_p_spec (rev p) f Hw) as Hs.
  rewrite H, rev_involutive in Hs. destruct Hs as (Hd & [Hs1 Hs2] & Hw' & _). auto.
Qed.
Lemma ensure_dir_fails_iff f p : wf_fs f ->
  (exists e, ensure_dir_exists f p = Err e) <->
  exists a b c, p = a ++ b /\ a <> [] /\ f a = Some (File c).
Proof.
  intros Hw. pose proof (mkdir_p_spec (rev p) f Hw) as Hs. rewrite rev_involutive in Hs.
  unfold ensure_dir_exists. destruct (mkdir_p_rev f (rev p)) as [f'|e].
  - split; [intros [e H]; discriminate|]. intros H. destruct Hs as (_ & _ & _ & Hs). now elim Hs.
  - split; eauto.
Qed.
Lemma ensure_dir_again f p : wf_fs f -> all_dirs f p -> ensure_dir_exists f p = Ok f.
Proof.
  intros Hw Hd. unfold ensure_dir_exists. destruct (snoc_cases p) as [->|(q & x & ->)]; [reflexivity|].
  rewrite rev_app_distr. cbn [app rev mkdir_p_rev]. rewrite rev_involutive.
  unfold os_mkdir at 1. assert (Hwk : walk f [] (q ++ [x]) = Ok tt) by (apply walk_snoc_dirs; now apply all_dirs_pre in Hd).
  rewrite Hwk. cbn [bind]. assert (Hx : f (q ++ [x]) = Some Dir).
  { apply (Hd (q ++ [x]) []); [now rewrite app_nil_r|destruct q; discriminate]. }
  destruct (q ++ [x]) as [|z zs] eqn:Ep; [destruct q; discriminate|]. rewrite <- Ep in *. rewrite Hx.
  assert (E : is_dir f (q ++ [x]) = true) by (apply is_dir_Some; auto). now rewrite E.
Qed.

(** * Tolerance comparison *)
From Verif Require Import FloatFacts.
Lemma is_same_sym a b tol : is_same_value a b tol = is_same_value b a tol.
Proof. unfold is_same_value. now rewrite fabs_sub_comm. Qed.
Lemma is_same_refl a tol : is_finite_f a = true -> flt fzero tol = true -> is_same_value a a tol = true.
Proof. intros Ha Ht. unfold is_same_value. now rewrite fsub_self. Qed.
Lemma is_same_nan a b tol : is_nan_f a = true \/ is_nan_f b = true \/ is_nan_f tol = true -> is_same_value a b tol = false.
Proof.
  intros H. destruct (is_same_value a b tol) eqn:E; [|reflexivity]. exfalso.
  unfold is_same_value in E. destruct H as [H|[H|H]].
  - apply flt_nan_l in E. destruct a; discriminate.
  - apply flt_nan_l in E. destruct b; try discriminate; destruct a; discriminate.
  - apply flt_nan_r in E. congruence.
Qed.
Lemma is_same_tol a b tol : fle tol fzero = true -> is_same_value a b tol = false.
Proof.
  intros H. destruct (is_same_value a b tol) eqn:E; [|reflexivity]. exfalso.
  unfold is_same_value in E. pose proof (flt_fle_trans _ _ _ E H) as E'. now rewrite fabs_not_neg in E'.
Qed.
Lemma is_same_mono a b t t' : fle t t' = true -> is_same_value a b t = true -> is_same_value a b t' = true.
Proof. unfold is_same_value. intros H E. eapply flt_fle_trans; eassumption. Qed.

(** * Statements assembled for the property file *)
Lemma univ_nl_translated_aux n s : List.length s <= n -> nl_translated s (univ_nl s).
Proof.
  revert s; induction n as [|n IH]; intros s Hn.
  - destruct s; [constructor|cbn in Hn; lia].
  - destruct s as [|c s]; [constructor|]. cbn in Hn. cbn [univ_nl].
    destruct (Ascii.eqb_spec c c_cr) as [->|Hc].
    + destruct s as [|d s'].
      * apply nlt_cr; [discriminate|constructor].
      * destruct (Ascii.eqb_spec d c_nl) as [->|Hd].
        -- apply nlt_crlf. apply IH. cbn in Hn. lia.
        -- apply nlt_cr; [intros s'' E; injection E as -> _; now elim Hd|]. apply IH. lia.
    + apply nlt_other; [exact Hc|]. apply IH. lia.
Qed.
Lemma univ_nl_translated s : nl_translated s (univ_nl s).
Proof. now apply (univ_nl_translated_aux (List.length s)). Qed.

Lemma text_replace_full f p old new c : openable f p -> f p = Some (File c) ->
  exists f' data t, text_replace f p old new = Ok f' /\ nl_translated c data /\
    f' p = Some (File t) /\
    (old <> [] -> replaced old new data t) /\
    (old = [] -> t = new ++ concat (map (fun c => c :: new) data)) /\
    forall q, q <> p -> f' q = f q.
Proof.
  intros Ho Hf. destruct (text_replace_total f p old new c Ho Hf) as (f' & E & Hr).
  destruct (text_replace_spec _ _ _ _ _ E) as (data & t & Hd & Ht & -> & Hq).
  rewrite Hr in Hd. injection Hd as <-.
  exists f', (univ_nl c), (replace old new (univ_nl c)). repeat split; auto using univ_nl_translated.
  - intros H. now apply replace_replaced.
  - intros ->. reflexivity.
Qed.
Lemma write_effects_crash f p lines ops f' :
  write_lines_effects f p lines = Ok ops -> crash f ops f' ->
  (f' p = f p \/ exists t, prefix_of t (full_text lines) /\ f' p = Some (File t)) /\
  forall q, q <> p -> f' q = f q.
Proof.
  unfold write_lines_effects. destruct (can_open_w f p); cbn; [|discriminate].
  intros E; injection E as <-. apply crash_write_lines.
Qed.
Lemma replace_effects_crash f p old new ops f' :
  text_replace_effects f p old new = Ok ops -> crash f ops f' ->
  exists final, text_replace f p old new = Ok final /\
  (f' p = f p \/ exists t u, prefix_of t u /\ final p = Some (File u) /\ f' p = Some (File t)) /\
  forall q, q <> p -> f' q = f q.
Proof.
  unfold text_replace. intros E Hc. rewrite E. cbn. eexists. split; [reflexivity|].
  unfold text_replace_effects in E. destruct (read_text f p) as [data|]; cbn in E; [|discriminate].
  destruct (can_open_w f p); cbn in E; [|discriminate]. injection E as <-.
  destruct (crash_text_replace _ _ _ _ Hc) as [H1 H2]. split; [|exact H2].
  destruct H1 as [H1|(t & H1 & H3)]; [now left|]. right. exists t, (replace old new data).
  repeat split; try assumption. cbn. unfold content_of. rewrite !fs_set_same. reflexivity.
Qed.
Lemma text_replace_lost f p old new ops : text_replace_effects f p old new = Ok ops -> f p <> Some (File []) ->
  exists final u, text_replace f p old new = Ok final /\ final p = Some (File u) /\
    (u <> [] -> exists f', crash f ops f' /\ f' p = Some (File []) /\ f' p <> f p /\ f' p <> final p).
Proof.
  unfold text_replace. intros E N. rewrite E. cbn. unfold text_replace_effects in E. destruct (read_text f p) as [data|]; cbn in E; [|discriminate].
  destruct (can_open_w f p); cbn in E; [|discriminate]. injection E as <-. eexists. exists (replace old new data). split; [reflexivity|].
  split; [cbn; unfold content_of; now rewrite !fs_set_same|]. intros U. exists (fs_set f p (File [])). split; [|split; [|split]].
  - apply crash_later. apply crash_here.
  - apply fs_set_same.
  - rewrite fs_set_same. congruence.
  - cbn. unfold content_of. rewrite !fs_set_same. cbn. congruence.
Qed.
Lemma text_replace_crash_refuted :
  exists f p old new ops f' final,
    text_replace_effects f p old new = Ok ops /\ crash f ops f' /\
    text_replace f p old new = Ok final /\ f' p <> f p /\ f' p <> final p.
Proof.
  set (p := [lit "deck.i"]).
  set (f := fun q => if path_eqb q p then Some (File (lit "cell")) else None).
  exists f, p, (lit "c"), (lit "d").
  eexists _, _, _. split; [vm_compute; reflexivity|]. split.
  - apply crash_later. apply crash_here.
  - split; [vm_compute; reflexivity|]. split; vm_compute; discriminate.
Qed.
Lemma detabbed_length n s t : detabbed n s t -> List.length t + tabs s = List.length s + n * tabs s.
Proof.
  unfold tabs, count. induction 1 as [|s t H IH|c s t Hc H IH]; [cbn; lia| |].
  - rewrite app_length, repeat_length. cbn [filter]. rewrite Ascii.eqb_refl. cbn [List.length].
    rewrite Nat.mul_succ_r. lia.
  - cbn [filter]. destruct (Ascii.eqb_spec c (chr 9)); [contradiction|]. cbn [List.length]. lia.
Qed.
Lemma get_dims_refuted : exists x, forall fuel, get_list_dimensions fuel x = None.
Proof. exists (PyList []). apply get_dims_dead. constructor. Qed.
Lemma ensure_dir_twice f p f' : wf_fs f -> ensure_dir_exists f p = Ok f' ->
  all_dirs f' p /\
  (forall q, f q <> None -> f' q = f q) /\
  (forall q, f' q <> f q -> exists r, p = q ++ r /\ f' q = Some Dir) /\
  wf_fs f' /\ ensure_dir_exists f' p = Ok f'.
Proof.
  intros Hw H. destruct (ensure_dir_ok _ _ _ Hw H) as (H1 & H2 & H3 & H4).
  repeat split; auto. apply ensure_dir_again; assumption.
Qed.
Lemma get_dims_all x :
  (forall d, (exists fuel, get_list_dimensions fuel x = Some d) <-> first_branch x d) /\
  ((forall fuel, get_list_dimensions fuel x = None) <-> dead_end x).
Proof. split; [intros d; apply get_dims_branch|apply get_dims_dead]. Qed.
Section LoggerAll.
  Context {level : Type} (level_of : str -> res level) (file_ok : str -> res unit) (auto_name : str).
  Lemma setup_call_success cs lf cl fl ok c h' :
    c = CSetup lf cl fl ok \/ c = CSetupNt lf cl fl ->
    log_step level_of file_ok auto_name (log_run level_of file_ok auto_name cs) c = (h', None) ->
    count is_console h' = 1 /\ count is_filelog h' = match lf with None => 0 | Some _ => 1 end.
  Proof.
    intros Hc H. destruct Hc as [-> | ->]; cbn [log_step] in H;
      destruct (setup_success _ _ _ _ _ _ _ _ _ H) as (l & _ & H'); destruct lf;
      try (destruct H' as (l' & _ & ->)); try rewrite H'; split; reflexivity.
  Qed.
End LoggerAll.
