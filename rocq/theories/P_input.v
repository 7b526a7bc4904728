(** Proofs about mcnp_input_reader: blocks, comments, cards, numbers. *)
From Coq Require Import Lia.
From Verif Require Import PyBase PyFloat PyFs SpecStr PyFacts SpecUtil M_util P_util M_input SpecInput PyNumFacts TextFacts.

(** * Blocks *)
Lemma cut3 {A} (a b c : list A) :
  firstn (length a) (a ++ b ++ c) = a /\ skipn (length a) (firstn (length a + length b) (a ++ b ++ c)) = b /\
  skipn (length a + length b) (a ++ b ++ c) = c.
Proof.
  repeat split.
  - rewrite firstn_app, firstn_all, Nat.sub_diag. cbn. apply app_nil_r.
  - rewrite app_assoc, <- app_length. rewrite firstn_app, firstn_all, Nat.sub_diag. cbn. rewrite app_nil_r.
    rewrite skipn_app, skipn_all, Nat.sub_diag. reflexivity.
  - rewrite app_assoc, <- app_length. rewrite skipn_app, skipn_all, Nat.sub_diag. reflexivity.
Qed.
Lemma split_blocs_Ok lines a b c : split_blocs lines = Ok (a, b, c) <->
  lines = a ++ b ++ c /\ Forall (fun l => ~ blank l) a /\
  (exists l b', b = l :: b' /\ blank l /\ Forall (fun l => ~ blank l) b') /\
  exists l c', c = l :: c' /\ blank l.
Proof.
  set (p := fun l => str_eqb (strip l) []).
  assert (Hp : forall x, p x = true <-> blank x) by (intros; apply blank_strip).
  assert (HpF : forall l, Forall (fun x => p x = false) l <-> Forall (fun x => ~ blank x) l).
  { intros l. split; apply Forall_impl; intros x; apply blank_stripF. }
  unfold split_blocs, find_blank_lines, enumerate.
  change (fun il : nat * str => str_eqb (strip (snd il)) []) with (fun il : nat * str => p (snd il)).
  split.
  - intros H. destruct (Forall_or_split p lines) as [Hn|(x1 & l1 & r1 & -> & H1 & E1)].
    + rewrite filter_enum_none in H by assumption. discriminate.
    + rewrite filter_enum_hit in H by assumption.
      destruct (Forall_or_split p r1) as [Hn|(x2 & l2 & r2 & -> & H2 & E2)].
      * rewrite filter_enum_none in H by assumption. discriminate.
      * rewrite filter_enum_hit in H by assumption. cbn [map nth_error fst] in H. change (0 + length x1) with (length x1) in H.
        rewrite slice_to_nat, slice_btw_nat, slice_from_nat in H.
        replace (S (length x1) + length x2) with (length x1 + length (l1 :: x2)) in H by (cbn; lia).
        change (x1 ++ l1 :: x2 ++ l2 :: r2) with (x1 ++ (l1 :: x2) ++ (l2 :: r2)) in H.
        destruct (cut3 x1 (l1 :: x2) (l2 :: r2)) as (G1 & G2 & G3). rewrite G1, G2, G3 in H. injection H as <- <- <-.
        repeat split.
        -- now apply HpF.
        -- exists l1, x2. repeat split; [now apply Hp|now apply HpF].
        -- exists l2, r2. split; [reflexivity|now apply Hp].
  - intros (-> & Ha & (l1 & b' & -> & E1 & Hb) & (l2 & c' & -> & E2)).
    apply HpF in Ha, Hb. apply Hp in E1, E2. cbn [app].
    rewrite filter_enum_hit by assumption. rewrite filter_enum_hit by assumption. cbn [map nth_error fst]. change (0 + length a) with (length a).
    rewrite slice_to_nat, slice_btw_nat, slice_from_nat.
    replace (S (length a) + length b') with (length a + length (l1 :: b')) by (cbn; lia).
    change (a ++ l1 :: b' ++ l2 :: c') with (a ++ (l1 :: b') ++ (l2 :: c')).
    destruct (cut3 a (l1 :: b') (l2 :: c')) as (-> & -> & ->). reflexivity.
Qed.
Lemma split_blocs_Err lines e : split_blocs lines = Err e <->
  e = KeyError /\ ~ exists a l1 b l2 c, lines = a ++ l1 :: b ++ l2 :: c /\ blank l1 /\ blank l2.
Proof.
  split.
  - intros H. split.
    + unfold split_blocs in H. destruct (nth_error _ 0); [destruct (nth_error _ 1)|]; congruence.
    + intros (a & l1 & b & l2 & c & -> & H1 & H2).
      set (p := fun l => str_eqb (strip l) []).
      destruct (Forall_or_split p (a ++ l1 :: b ++ l2 :: c)) as [Hn|(x1 & m1 & r1 & E & Hx1 & E1)].
      { rewrite Forall_forall in Hn. specialize (Hn l1 ltac:(apply in_elt)). apply blank_stripF in Hn. contradiction. }
      assert (G : exists x, In x r1 /\ p x = true).
      { assert (Hlen : length x1 <= length a).
        { destruct (le_lt_dec (length x1) (length a)); [assumption|exfalso].
          assert (G : nth_error (x1 ++ m1 :: r1) (length a) = Some l1) by (rewrite <- E, nth_error_app2, Nat.sub_diag by lia; reflexivity).
          rewrite nth_error_app1 in G by assumption. apply nth_error_In in G. rewrite Forall_forall in Hx1. apply Hx1 in G.
          apply blank_stripF in G. contradiction. }
        exists l2. split; [|now apply blank_strip].
        replace (a ++ l1 :: b ++ l2 :: c) with ((a ++ l1 :: b) ++ l2 :: c) in E by (rewrite <- app_assoc; reflexivity).
        assert (G : nth_error (x1 ++ m1 :: r1) (length (a ++ l1 :: b)) = Some l2) by (rewrite <- E, nth_error_app2, Nat.sub_diag by lia; reflexivity).
        rewrite app_length in G. cbn in G. rewrite nth_error_app2 in G by lia.
        destruct (length a + S (length b) - length x1) as [|k] eqn:Ek; [lia|]. cbn in G. now apply nth_error_In in G. }
      destruct G as (x & Hx & Px). destruct (Forall_or_split p r1) as [Hn|(x2 & m2 & r2 & -> & Hx2 & E2)].
      { rewrite Forall_forall in Hn. rewrite Hn in Px by assumption. discriminate. }
      rewrite E in H. assert (G : split_blocs (x1 ++ m1 :: x2 ++ m2 :: r2) = Ok (x1, m1 :: x2, m2 :: r2)).
      { apply split_blocs_Ok. repeat split.
        - eapply Forall_impl; [|exact Hx1]. intros y; apply blank_stripF.
        - exists m1, x2. repeat split; [now apply blank_strip|]. eapply Forall_impl; [|exact Hx2]. intros y; apply blank_stripF.
        - exists m2, r2. split; [reflexivity|now apply blank_strip]. }
      congruence.
  - intros (-> & H). destruct (split_blocs lines) as [[[a b] c]|e] eqn:E.
    + apply split_blocs_Ok in E. exfalso. apply H. destruct E as (-> & _ & (l1 & b' & -> & H1 & _) & (l2 & c' & -> & H2)).
      exists a, l1, b', l2, c'. auto.
    + unfold split_blocs in E. destruct (nth_error _ 0); [destruct (nth_error _ 1)|]; congruence.
Qed.

(** * Comments and long lines *)
Lemma comments_spec lines i l : In (i, l) (get_full_line_comments lines) <-> nth_error lines i = Some l /\ full_comment l.
Proof. unfold get_full_line_comments. rewrite filter_In, enumerate_In. cbn [snd]. now rewrite comment_lower. Qed.
Lemma comments_inc lines : increasing (map fst (get_full_line_comments lines)).
Proof. apply (enum_filter_increasing (fun l => starts_with (lit "c ") (lower l))). Qed.
Lemma is_long_spec l : is_long_line l = true <-> 79 < length l /\ ~ full_comment l /\ ~ occurs (lit " $") l.
Proof.
  unfold is_long_line, zlen. destruct (Z.ltb_spec 79 (Z.of_nat (length l))) as [H|H].
  - destruct (starts_with (lit "c ") (lower l)) eqn:E.
    + apply comment_lower in E. split; [discriminate|tauto].
    + apply comment_lowerF in E. destruct (contains (lit " $") l) eqn:E2.
      * apply contains_spec in E2. split; [discriminate|tauto].
      * apply contains_false in E2. split; [|reflexivity]. intros _. repeat split; [lia|assumption|assumption].
  - split; [discriminate|lia].
Qed.
Lemma long_lines_Some lines ix : long_line_index lines = Some ix ->
  ix <> [] /\ increasing ix /\
  forall i, In i ix <-> exists l, nth_error lines i = Some l /\ 79 < length l /\ ~ full_comment l /\ ~ occurs (lit " $") l.
Proof.
  unfold long_line_index. destruct (Nat.eqb_spec (length (map fst (filter (fun il => is_long_line (snd il)) (enumerate lines)))) 0) as [H|H]; [discriminate|].
  intros E; injection E as <-. repeat split.
  - intros E. now rewrite E in H.
  - apply (enum_filter_increasing is_long_line).
  - intros Hi. apply (enum_filter_In is_long_line) in Hi. destruct Hi as (x & Hx & Hp). exists x. split; [assumption|]. now apply is_long_spec.
  - intros (x & Hx & Hp). apply (enum_filter_In is_long_line). exists x. split; [assumption|]. now apply is_long_spec.
Qed.
Lemma long_lines_None lines : long_line_index lines = None <->
  forall l, In l lines -> ~ (79 < length l /\ ~ full_comment l /\ ~ occurs (lit " $") l).
Proof.
  unfold long_line_index. destruct (Nat.eqb_spec (length (map fst (filter (fun il => is_long_line (snd il)) (enumerate lines)))) 0) as [H|H].
  - split; [|reflexivity]. intros _ l Hl Hp. apply is_long_spec in Hp. apply In_nth_error in Hl. destruct Hl as [i Hi].
    assert (G : In i (map fst (filter (fun il => is_long_line (snd il)) (enumerate lines)))) by (apply (enum_filter_In is_long_line); eauto).
    destruct (map fst _); [destruct G|discriminate].
  - split; [discriminate|]. intros G. exfalso. apply H.
    destruct (map fst (filter (fun il => is_long_line (snd il)) (enumerate lines))) as [|i t] eqn:E; [reflexivity|].
    assert (Hi : In i (map fst (filter (fun il => is_long_line (snd il)) (enumerate lines)))) by (rewrite E; now left).
    apply (enum_filter_In is_long_line) in Hi. destruct Hi as (x & Hx & Hp). apply is_long_spec in Hp. elim (G x); [|assumption]. eapply nth_error_In; eassumption.
Qed.

(** * Inline comments *)
Lemma remove_spec l : upto (chr 36) l (remove_inline_comment l).
Proof. apply upto_split. Qed.
Lemma has_spec l : has_inline_comment l = true <-> In (chr 36) l.
Proof.
  unfold has_inline_comment. rewrite contains_char, existsb_exists. split.
  - intros (c & Hc & E). apply Ascii.eqb_eq in E. now subst c.
  - intros H. exists (chr 36). split; [assumption|apply Ascii.eqb_refl].
Qed.
Lemma get_inline_some a b r : ~ In (chr 36) a -> upto (chr 36) b r -> get_inline_comment (a ++ chr 36 :: b) = Ok r.
Proof.
  intros Ha Hb. unfold get_inline_comment. rewrite (proj2 (has_spec _)) by apply in_elt.
  rewrite split_on_app by exact Ha. apply upto_iff in Hb. unfold c_dollar in *.
  destruct (split_on (chr 36) b) as [|w ws] eqn:E; [now apply split_on_ne in E|]. cbn in Hb. subst w. reflexivity.
Qed.
Lemma get_inline_none l : ~ In (chr 36) l -> get_inline_comment l = Ok l.
Proof.
  intros H. unfold get_inline_comment. destruct (has_inline_comment l) eqn:E; [|reflexivity]. apply has_spec in E. contradiction.
Qed.

(** * Cards *)
Definition is_card_start (card line : str) : bool :=
  starts_with (lower card) line
  && (let c := slice_btw (zlen card) (zlen card + 1) line in str_eqb c (lit " ") || str_eqb c (lit ":")).
Lemma card_block card b lines : card_loop card b lines = block_loop (is_card_start card) b lines.
Proof.
  revert b. induction lines as [|l ls IH]; intros b; [reflexivity|]. cbn [card_loop block_loop]. cbv zeta.
  fold (is_card_start card). unfold is_card_start at 1.
  rewrite !IH. destruct b; [|reflexivity].
  destruct (is_continue_line (lower l)); [reflexivity|].
  destruct (starts_with (lit "c ") (lower l)); [reflexivity|]. destruct (lower l); reflexivity.
Qed.

Section Block.
  Variable is_start : str -> bool.
  Hypothesis start_nil : is_start [] = false.
  Hypothesis start_cont : forall l, continuation l -> is_start l = false.
  Definition heads (l : str) : Prop := is_start (lower l) = true.

  Lemma kept_fun l r : kept l r <-> remove_inline_comment (lower l) = r.
  Proof. apply upto_iff. Qed.
  Lemma cont_stripped l : continuation l -> continuation (remove_inline_comment (lower l)).
  Proof.
    intros Hc. apply continue_spec in Hc. rewrite <- continue_lower in Hc. apply continue_spec in Hc. destruct Hc as [r ->].
    unfold remove_inline_comment. exists (hd [] (split_on c_dollar r)).
    assert (Hs : forall s, hd [] (split_on c_dollar (chr 32 :: s)) = chr 32 :: hd [] (split_on c_dollar s)).
    { intros s. cbn [split_on]. change (Ascii.eqb (chr 32) c_dollar) with false. cbv iota.
      destruct (split_on c_dollar s) as [|w ws] eqn:E; [now apply split_on_ne in E|]. reflexivity. }
    change (lit "     " ++ r) with (chr 32 :: chr 32 :: chr 32 :: chr 32 :: chr 32 :: r). now rewrite !Hs.
  Qed.
  Lemma block_tail lines : card_tail lines (block_loop is_start true lines).
  Proof.
    induction lines as [|l ls IH]; [constructor|]. cbn [block_loop]. cbv zeta.
    rewrite continue_lower. destruct (is_continue_line l) eqn:Ec.
    - apply continue_spec in Ec. rewrite start_cont by now apply cont_stripped.
      apply ct_cont; [assumption|now apply kept_fun|assumption].
    - apply continue_specF in Ec. destruct (starts_with (lit "c ") (lower l)) eqn:Ef.
      + apply comment_lower in Ef. now apply ct_comment.
      + apply comment_lowerF in Ef. destruct (lower l) eqn:El.
        * apply (proj1 (lower_nil _)) in El. subst l. rewrite start_nil. now apply ct_empty.
        * apply ct_stop; [assumption|assumption|]. intros ->. discriminate.
  Qed.
  Lemma block_found lines : card_found heads lines (block_loop is_start false lines).
  Proof.
    induction lines as [|l ls IH]; [apply cf_none; intros ? []|]. cbn [block_loop]. cbv zeta.
    destruct (is_start (lower l)) eqn:E.
    - apply (cf_some _ []); [intros ? []|exact E|now apply kept_fun|apply block_tail].
    - cbn [app]. inversion IH as [? Hn Hout|pre h r post out Hn Hh Hk Ht Hls Hout].
      + apply cf_none. intros m [<-|Hm]; [unfold heads; congruence|auto].
      + apply (cf_some _ (l :: pre)); try assumption. intros m [<-|Hm]; [unfold heads; congruence|auto].
  Qed.
End Block.

Lemma cont_not_nil l : continuation l -> l <> [].
Proof. intros [r ->]. discriminate. Qed.
Lemma cont_not_comment l : continuation l -> ~ full_comment l.
Proof. intros [r ->] (s & [E|E]); discriminate. Qed.
Lemma nil_not_comment : ~ full_comment [].
Proof. intros (s & [E|E]); discriminate. Qed.
Lemma nil_not_cont : ~ continuation [].
Proof. intros (s & E); discriminate. Qed.
Lemma card_tail_fun ls o1 : card_tail ls o1 -> forall o2, card_tail ls o2 -> o1 = o2.
Proof.
  induction 1 as [|l r ls out Hc Hk H IH|l ls out Hf H IH|ls out H IH|l ls Hc Hf Hn]; intros o2 H2;
    inversion H2 as [|? ? ? ? Hc' Hk' H'|? ? ? Hf' H'|? ? H'|? ? Hs' Hf' Hn']; subst;
    try solve [ reflexivity | auto | contradiction | congruence
              | exfalso; eapply cont_not_comment; eassumption | exfalso; eapply nil_not_comment; eassumption
              | exfalso; eapply nil_not_cont; eassumption ].
  f_equal; [|auto]. eapply upto_fun; eassumption.
Qed.
Lemma first_head_fun {A} (P : A -> Prop) pre h post pre' h' post' :
  (forall l, In l pre -> ~ P l) -> P h -> (forall l, In l pre' -> ~ P l) -> P h' ->
  pre ++ h :: post = pre' ++ h' :: post' -> pre = pre' /\ h = h' /\ post = post'.
Proof.
  revert pre'. induction pre as [|x pre IH]; intros pre' Hn Hh Hn' Hh' E.
  - destruct pre' as [|y pre']; cbn in E; injection E as -> ->; [auto|]. elim (Hn' y (or_introl eq_refl) Hh).
  - destruct pre' as [|y pre']; cbn in E; injection E as -> E; [elim (Hn h' (or_introl eq_refl) Hh')|].
    destruct (IH pre') as (-> & -> & ->); auto; intros; [apply Hn|apply Hn']; now right.
Qed.
Lemma card_found_fun P ls o1 o2 : card_found P ls o1 -> card_found P ls o2 -> o1 = o2.
Proof.
  intros H1 H2. inversion H1 as [? Hn|pre h r post out Hn Hh Hk Ht El]; inversion H2 as [? Hn'|pre' h' r' post' out' Hn' Hh' Hk' Ht' El']; subst.
  - reflexivity.
  - elim (Hn h'); [apply in_elt|assumption].
  - elim (Hn' h); [apply in_elt|assumption].
  - destruct (first_head_fun P _ _ _ _ _ _ Hn' Hh' Hn Hh El') as (-> & -> & ->). f_equal.
    + eapply upto_fun; eassumption.
    + eapply card_tail_fun; eassumption.
Qed.
Lemma card_found_iff P Q ls o : (forall l, P l <-> Q l) -> card_found P ls o <-> card_found Q ls o.
Proof.
  intros H. split; intros [? Hn|pre h r post out Hn Hh Hk Ht].
  - apply cf_none. intros l Hl. rewrite <- H. auto.
  - apply cf_some; auto; [|now apply H]. intros l Hl. rewrite <- H. auto.
  - apply cf_none. intros l Hl. rewrite H. auto.
  - apply cf_some; auto; [|now apply H]. intros l Hl. rewrite H. auto.
Qed.
Lemma block_iff is_start (P : str -> Prop) lines out : is_start [] = false -> (forall l, continuation l -> is_start l = false) ->
  (forall l, is_start (lower l) = true <-> P l) ->
  block_loop is_start false lines = out <-> card_found P lines out.
Proof.
  intros H1 H2 H3. pose proof (block_found is_start H1 H2 lines) as H.
  apply (card_found_iff _ P) in H; [|exact H3]. split; [intros <-; exact H|]. intros G. eapply card_found_fun; eassumption.
Qed.

Lemma slice_one (n : nat) (l : str) : slice_btw (Z.of_nat n) (Z.of_nat n + 1) l = match nth_error l n with Some c => [c] | None => [] end.
Proof.
  replace (Z.of_nat n + 1)%Z with (Z.of_nat (S n)) by lia. rewrite slice_btw_nat.
  revert l. induction n as [|n IH]; intros [|c l]; try reflexivity. apply IH.
Qed.
Lemma card_start_spec card l : is_card_start card (lower l) = true <-> card_head card l.
Proof.
  unfold is_card_start, card_head, same_case, zlen. cbv zeta. rewrite slice_one, andb_true_iff, lower_prefix. split.
  - intros ((q & r & -> & Hq) & Hc). exists q, r. repeat split; [assumption|].
    assert (Hl : length q = length card) by (rewrite <- (lower_length q), Hq; apply lower_length).
    rewrite lower_app, nth_error_app2 in Hc by (rewrite lower_length; lia).
    rewrite lower_length, Hl, Nat.sub_diag in Hc. destruct r as [|c r]; [discriminate|]. cbn [lower map nth_error] in Hc.
    exists c, r. split; [reflexivity|]. rewrite <- lower_space, <- lower_colon. apply orb_true_iff in Hc. destruct Hc as [Hc|Hc]; apply str_eqb_eq in Hc; injection Hc; auto.
  - intros (q & r & -> & Hq & c & r' & -> & Hc). split; [exists q, (c :: r'); auto|].
    assert (Hl : length q = length card) by (rewrite <- (lower_length q), Hq; apply lower_length).
    rewrite lower_app, nth_error_app2 by (rewrite lower_length; lia).
    rewrite lower_length, Hl, Nat.sub_diag. destruct Hc as [->| ->]; reflexivity.
Qed.
(** A card name: not empty, not starting with a space. *)
Lemma get_card_iff lines card out : (exists a t, card = a :: t /\ a <> chr 32) ->
  get_card_lines lines card = out <-> card_found (card_head card) lines out.
Proof.
  intros (a & t & -> & Ha). unfold get_card_lines. rewrite card_block. apply block_iff.
  - reflexivity.
  - intros l [r ->]. unfold is_card_start. replace (starts_with (lower (a :: t)) _) with false; [reflexivity|]. symmetry.
    change (lit "     " ++ r) with (chr 32 :: lit "    " ++ r). cbn [lower map starts_with]. destruct (Ascii.eqb_spec (lower_c a) (chr 32)) as [E|E].
    + apply (proj1 (lower_space _)) in E. contradiction.
    + reflexivity.
  - intros l. apply card_start_spec.
Qed.
Lemma get_card_nil lines card : (exists a t, card = a :: t /\ a <> chr 32) ->
  get_card_lines lines card = [] <-> forall l, In l lines -> ~ card_head card l.
Proof.
  intros H. rewrite get_card_iff by assumption. split.
  - intros G. inversion G; assumption.
  - intros G. now apply cf_none.
Qed.

(** * Mode card *)
Lemma kept_head_word card l r : (exists a t, card = a :: t /\ is_ws a = false /\ ~ In (chr 36) (lower card)) -> card_head card l -> kept l r ->
  split_ws r <> [].
Proof.
  intros (a & t & -> & Ha & Hd) (q & u & -> & Hq & _) Hk E. apply split_ws_nil_iff in E.
  unfold kept in Hk. rewrite lower_app, Hq in Hk. cbn in Hk. destruct Hk as [Hn [Hk|(v & Hk)]].
  - rewrite <- Hk in E. inversion E; subst. rewrite lower_ws in *. congruence.
  - destruct r as [|b r]; cbn in Hk; injection Hk as Eb _.
    + apply Hd. cbn. left. assumption.
    + inversion E; subst. rewrite lower_ws in *. congruence.
Qed.
Lemma mode_name : exists a t, lit "mode" = a :: t /\ a <> chr 32.
Proof. eexists _, _. split; [reflexivity|discriminate]. Qed.
Lemma mode_kept : exists a t, lit "mode" = a :: t /\ is_ws a = false /\ ~ In (chr 36) (lower (lit "mode")).
Proof.
  exists (chr 109), (lit "ode"). split; [reflexivity|split; [reflexivity|]]. vm_compute. intuition discriminate.
Qed.
Lemma read_mode_Some lines ws : read_mode_card lines = Some ws <->
  exists out m, card_found (card_head (lit "mode")) lines out /\ all_words out (m :: ws).
Proof.
  unfold read_mode_card. pose proof (proj1 (get_card_iff lines (lit "mode") _ mode_name) eq_refl) as H.
  set (out := get_card_lines lines (lit "mode")) in *.
  destruct out as [|r out'] eqn:E; cbn [length Nat.eqb].
  - split; [discriminate|]. intros (o & m & Ho & Hw). assert (o = []) by (eapply card_found_fun; eassumption). subst o. inversion Hw.
  - rewrite cleaner_lines.
    assert (G : concat (map split_ws (r :: out')) <> []).
    { inversion H as [|pre h r' post o Hn Hh Hk Ht]; subst. cbn. pose proof (kept_head_word _ _ _ mode_kept Hh Hk) as Hr.
      destruct (split_ws r); [congruence|discriminate]. }
    rewrite split_on_words by (assumption || apply concat_words).
    destruct (concat (map split_ws (r :: out'))) as [|m ms] eqn:Ew; [congruence|]. rewrite slice_from_1. split.
    + intros Hs; injection Hs as <-. exists (r :: out'), m. split; [assumption|]. now apply all_words_fun.
    + intros (o & m' & Ho & Hw). assert (o = r :: out') by (eapply card_found_fun; eassumption). subst o.
      apply all_words_fun in Hw. rewrite Ew in Hw. injection Hw as _ ->. reflexivity.
Qed.
Lemma read_mode_None lines : read_mode_card lines = None <-> forall l, In l lines -> ~ card_head (lit "mode") l.
Proof.
  rewrite <- (get_card_nil lines (lit "mode") mode_name). unfold read_mode_card.
  destruct (get_card_lines lines (lit "mode")); cbn; split; congruence.
Qed.
Lemma mode_valid_spec mode : is_mode_valid mode = true <->
  Forall (fun p => In (lower p) (map lit ["n"; "p"; "h"; "e"; "|"; "q"; "u"; "v"; "!"]%string)) mode.
Proof.
  unfold is_mode_valid. rewrite forallb_forall, Forall_forall. split; intros H x Hx; specialize (H x Hx).
  - apply existsb_exists in H. destruct H as (y & Hy & E). apply str_eqb_eq in E. now rewrite E.
  - apply existsb_exists. eexists. split; [exact H|apply str_eqb_refl].
Qed.

(** * Material and tally numbers *)
Lemma numbered_spec letter l : is_numbered_card letter l = true <-> numbered letter l.
Proof.
  unfold is_numbered_card, numbered. destruct l as [|a [|b l]].
  - split; [discriminate|]. intros (? & ? & ? & E & _); discriminate.
  - split; [discriminate|]. intros (? & ? & ? & E & _); discriminate.
  - rewrite andb_true_iff, Ascii.eqb_eq. split.
    + intros [H1 H2]. exists a, b, l. auto.
    + intros (? & ? & ? & E & H1 & H2). injection E as <- <- <-. auto.
Qed.
Lemma numbered_words letter l : is_ws letter = false -> numbered letter l ->
  exists a w ws, split_ws l = (a :: w) :: ws /\ hd [] (split_on c_space (string_cleaner l)) = a :: w.
Proof.
  intros Hl (a & d & r & -> & Ha & Hd). rewrite string_cleaner_words.
  pose proof (split_ws_words (a :: d :: r)) as Hw.
  assert (Hane : is_ws a = false) by (rewrite <- (lower_ws a), Ha; assumption).
  destruct (split_ws (a :: d :: r)) as [|w ws] eqn:E.
  - apply split_ws_nil_iff in E. inversion E; subst. congruence.
  - pose proof (words_total (a :: d :: r)) as T. rewrite E in T. inversion T as [|pre w' rest ws' Hp Hw' Hr Hrest E1 E2]; subst.
    destruct pre as [|x pre].
    + destruct w as [|y w]; [now destruct Hw' as [? _]|]. cbn in E1. injection E1 as <- _. exists y, w, ws. split; [reflexivity|].
      rewrite split_on_words; [reflexivity|discriminate|assumption].
    + cbn in E1. injection E1 as -> _. inversion Hp; subst. congruence.
Qed.
Lemma mat_numbers_spec lines ns : get_material_numbers lines = Ok ns <-> card_numbers (chr 109) None lines ns.
Proof.
  unfold get_material_numbers. revert ns. induction lines as [|l ls IH]; intros ns; cbn [filter].
  - cbn. split; [intros H; injection H as <-; constructor|]. intros H. inversion H. reflexivity.
  - destruct (is_numbered_card (chr 109) l) eqn:E.
    + apply numbered_spec in E. destruct (numbered_words (chr 109) l eq_refl E) as (a & w & ws & Ew & Eh). cbn [mapM]. rewrite Eh, slice_from_1. split.
      * destruct (py_int w) as [n|] eqn:Ei; [|discriminate]. destruct (mapM _ _) as [ms|] eqn:Em; [|discriminate].
        intros H; injection H as <-. eapply cn_take; [assumption|apply words_split; exact Ew|reflexivity|exact Ei|]. now apply IH.
      * intros H. inversion H as [|? ? ? Hn|? ? a' w1 w' ws' n ms He Hw Hs Hi Hr]; subst; [contradiction|].
        apply words_split in Hw. rewrite Ew in Hw. injection Hw as <- <- <-. rewrite Hi. apply IH in Hr. now rewrite Hr.
    + assert (E' : ~ numbered (chr 109) l) by (rewrite <- numbered_spec; congruence).
      rewrite IH. split; [intros H; now apply cn_skip|]. intros H. inversion H; subst; [assumption|contradiction].
Qed.
Lemma tally_numbers_spec lines ns : get_tally_numbers lines = Ok ns <-> card_numbers (chr 102) (Some (chr 58)) lines ns.
Proof.
  unfold get_tally_numbers. revert ns. induction lines as [|l ls IH]; intros ns; cbn [filter].
  - cbn. split; [intros H; injection H as <-; constructor|]. intros H. inversion H. reflexivity.
  - destruct (is_numbered_card (chr 102) l) eqn:E.
    + apply numbered_spec in E. destruct (numbered_words (chr 102) l eq_refl E) as (a & w & ws & Ew & Eh). cbn [mapM]. rewrite Eh.
      assert (Hac : Ascii.eqb a c_colon = false).
      { destruct E as (a' & d & r & -> & Ha & Hd). pose proof (words_total (a' :: d :: r)) as T. rewrite Ew in T.
        inversion T as [|pre w' rest ws' Hp Hw' Hr Hrest E1 E2]; subst. destruct pre as [|x pre].
        - cbn in E1. injection E1 as <- _. apply Ascii.eqb_neq. intros ->. discriminate.
        - cbn in E1. injection E1 as -> _. inversion Hp; subst. rewrite <- lower_ws, Ha in *. discriminate. }
      assert (Hc : slice_from 1 (hd [] (split_on c_colon (a :: w))) = hd [] (split_on c_colon w)).
      { cbn [split_on]. rewrite Hac. destruct (split_on c_colon w) as [|v vs] eqn:Ev; [now apply split_on_ne in Ev|]. cbn [hd]. apply slice_from_1. }
      rewrite Hc. pose proof (upto_split (chr 58) w) as Hu. fold c_colon in Hu. set (w0 := hd [] (split_on c_colon w)) in *. split.
      * destruct (py_int w0) as [n|] eqn:Ei; [|discriminate]. destruct (mapM _ _) as [ms|] eqn:Em; [|discriminate].
        intros H; injection H as <-. eapply cn_take; [assumption|apply words_split; exact Ew|exact Hu|exact Ei|]. now apply IH.
      * intros H. inversion H as [|? ? ? Hn|? ? a' w1 w' ws' n ms He Hw Hs Hi Hr]; subst; [contradiction|].
        apply words_split in Hw. rewrite Ew in Hw. injection Hw as <- <- <-. assert (w' = w0) by (eapply upto_fun; eassumption). subst w'. rewrite Hi. apply IH in Hr. now rewrite Hr.
    + assert (E' : ~ numbered (chr 102) l) by (rewrite <- numbered_spec; congruence).
      rewrite IH. split; [intros H; now apply cn_skip|]. intros H. inversion H; subst; [assumption|contradiction].
Qed.
