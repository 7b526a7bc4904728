(** Proofs about mcnp_input_reader: tallies, whole decks and findings. *)
From Coq Require Import Lia.
From Verif Require Import PyBase PyFloat FloatZ PyFs SpecStr PyFacts SpecUtil M_util P_util M_input SpecInput PyNumFacts TextFacts P_input P_input2 P_input3.

(** * Tallies *)
Lemma lower_decimal_inv c : is_decimal (lower_c c) = true -> lower_c c = c.
Proof.
  intros H. pose proof (ascii_all (fun c => implb (is_decimal (lower_c c)) (Ascii.eqb (lower_c c) c)) ltac:(vm_compute; reflexivity) c) as G.
  cbv beta in G. rewrite H in G. now apply Ascii.eqb_eq in G.
Qed.
Lemma lower_prefix_digits s ds r' : Forall (fun c => is_decimal c = true) ds -> lower s = ds ++ r' -> exists r, s = ds ++ r /\ lower r = r'.
Proof.
  intros H. revert s. induction H as [|d ds Hd Hds IH]; intros s E; [exists s; auto|].
  destruct s as [|c s]; [discriminate|]. cbn in E. injection E as E1 E2. destruct (IH s E2) as (r & -> & Hr). exists r. split; [|assumption].
  cbn. f_equal. rewrite <- E1. symmetry. apply lower_decimal_inv. now rewrite E1.
Qed.
Lemma upto2 c1 c2 s w w' : upto c1 s w -> upto c2 w w' -> ~ In c1 w' /\ ~ In c2 w' /\ (s = w' \/ exists c t, s = w' ++ c :: t /\ (c = c1 \/ c = c2)).
Proof.
  intros [H1 H2] [H3 H4].
  assert (Hw : ~ In c1 w'). { intros Hi. apply H1. destruct H4 as [->|(t & ->)]; [assumption|apply in_app_iff; auto]. }
  split; [assumption|]. split; [assumption|]. destruct H4 as [->|(t & ->)].
  - destruct H2 as [->|(u & ->)]; [now left|right; eauto].
  - right. destruct H2 as [->|(u & ->)]; [eauto|]. exists c2, (t ++ c1 :: u). split; [now rewrite <- app_assoc|auto].
Qed.
Lemma tally_start_spec n l : (0 <= n)%Z -> is_tally_start n (lower l) = true <-> tally_head n l.
Proof.
  intros Hn. unfold is_tally_start, tally_head. destruct (str_of_Z_nonneg n Hn) as [Hd H0]. split.
  - intros H. split; [assumption|]. destruct l as [|a [|b l]]; try discriminate. cbn [lower map] in H.
    rewrite !andb_true_iff, Ascii.eqb_eq, str_eqb_eq in H. destruct H as ((Ha & Hb) & He). exists a.
    change (map lower_c l) with (lower l) in He. change (lower_c b :: lower l) with (lower (b :: l)) in He. rewrite hd_split_cons in He by (rewrite Ha; discriminate).
    rewrite slice_from_1 in He.
    destruct (upto2 _ _ _ _ _ (upto_split c_space (lower (b :: l))) (upto_split c_colon _)) as (_ & _ & Hu). rewrite He in Hu.
    destruct Hu as [Hu|(c & t & Hu & Hc)].
    + rewrite <- (app_nil_r (str_of_Z n)) in Hu. destruct (lower_prefix_digits _ _ _ Hd Hu) as (r & E & Hr). apply (proj1 (lower_nil _)) in Hr. subst r.
      exists []. rewrite E. auto.
    + destruct (lower_prefix_digits _ _ _ Hd Hu) as (r & E & Hr). exists r. rewrite E. split; [reflexivity|]. split; [assumption|]. right.
      destruct r as [|c' r]; [discriminate|]. cbn in Hr. injection Hr as Hr _. exists c', r. split; [reflexivity|]. destruct Hc as [->| ->].
      * left. now apply (proj1 (lower_space _)).
      * right. now apply (proj1 (lower_colon _)).
  - intros (_ & a & r & -> & Ha & Hr). cbn [lower map]. rewrite map_app. change (map lower_c (str_of_Z n)) with (lower (str_of_Z n)). rewrite lower_decimals by assumption.
    destruct (str_of_Z n) as [|d ds] eqn:En; [congruence|]. cbn [app]. rewrite Ha. change (Ascii.eqb (chr 102) (chr 102)) with true.
    inversion Hd; subst. destruct (decimal_facts d) as (_ & _ & _ & _ & Hdig & _); [assumption|]. rewrite Hdig. cbn [andb].
    rewrite hd_split_cons, slice_from_1 by discriminate. change (d :: ds ++ map lower_c r) with ((d :: ds) ++ lower r).
    assert (Hl1 : lacks c_space (d :: ds)). { intros E. rewrite Forall_forall in Hd. apply Hd in E. discriminate. }
    assert (Hl2 : lacks c_colon (d :: ds)). { intros E. rewrite Forall_forall in Hd. apply Hd in E. discriminate. }
    assert (E : hd [] (split_on c_colon (hd [] (split_on c_space ((d :: ds) ++ lower r)))) = d :: ds).
    { destruct Hr as [->|(c & r' & -> & [->| ->])].
      - cbn [lower map]. rewrite app_nil_r, (split_on_lacks c_space) by assumption. cbn [hd]. now rewrite split_on_lacks by assumption.
      - cbn [lower map]. change (lower_c (chr 32)) with c_space. rewrite (split_on_app c_space) by assumption. cbn [hd]. now rewrite split_on_lacks by assumption.
      - cbn [lower map]. change (lower_c (chr 58)) with c_colon. change (map lower_c r') with (lower r').
        destruct (upto_split c_space ((d :: ds) ++ c_colon :: lower r')) as [Hq1 Hq2].
        set (q := hd [] (split_on c_space ((d :: ds) ++ c_colon :: lower r'))) in *.
        assert (Eq : exists q', q = (d :: ds) ++ c_colon :: q').
        { destruct Hq2 as [<-|(t & E)]; [eauto|]. clearbody q. revert E Hl1. generalize (d :: ds) as u. clear. intros u. revert q. induction u as [|x u IH]; intros q E Hl.
          - destruct q as [|y q]; cbn in E; [discriminate|]. injection E as -> E. now exists q.
          - destruct q as [|y q]; cbn in E; injection E as -> E; [elim Hl; now left|]. destruct (IH q E) as (q' & ->); [intros Hi; apply Hl; now right|]. now exists q'. }
        destruct Eq as (q' & ->). rewrite split_on_app by assumption. reflexivity. }
    rewrite E. apply str_eqb_refl.
Qed.
Lemma tally_block n lines out : (0 <= n)%Z -> block_loop (is_tally_start n) false lines = out <-> card_found (tally_head n) lines out.
Proof.
  intros Hn. apply block_iff; [reflexivity| |].
  - intros l [r ->]. reflexivity.
  - intros l. now apply tally_start_spec.
Qed.
Lemma app_compare {A} (a b c d : list A) : a ++ b = c ++ d -> (exists x, a = c ++ x /\ d = x ++ b) \/ (exists y, y <> [] /\ c = a ++ y /\ b = y ++ d).
Proof.
  revert c. induction a as [|x a IH]; intros c E.
  - destruct c as [|y c]; [left; exists []; auto|right; exists (y :: c); split; [discriminate|auto]].
  - destruct c as [|y c]; [left; exists (x :: a); auto|]. cbn in E. injection E as -> E. destruct (IH c E) as [(u & -> & ->)|(u & Hu & -> & ->)]; [left; exists u; auto|right; exists u; auto].
Qed.
Lemma tally_first_word n r1 w ws : (0 <= n)%Z -> words (chr 102 :: str_of_Z n ++ r1) (w :: ws) ->
  (r1 = [] \/ exists c r', r1 = c :: r' /\ (c = chr 32 \/ c = chr 58)) -> slice_from 1 (hd [] (split_on c_colon w)) = str_of_Z n.
Proof.
  intros Hn Hw Hr. destruct (str_of_Z_nonneg n Hn) as [Hd H0]. inversion Hw as [|pre w' rest ws' Hp [Hw0 Hww] Hrest Hws E1 E2]; subst.
  destruct pre as [|y pre]; [|cbn in E1; injection E1 as -> _; inversion Hp; discriminate].
  cbn [app] in E1. change (chr 102 :: str_of_Z n ++ r1) with ((chr 102 :: str_of_Z n) ++ r1) in E1.
  assert (Hlu : lacks c_colon (chr 102 :: str_of_Z n)).
  { intros [E|E]; [discriminate|]. rewrite Forall_forall in Hd. apply Hd in E. discriminate. }
  destruct (app_compare _ _ _ _ E1) as [(x & -> & ->)|(y & Hy & Eu & ->)].
  - destruct x as [|c x].
    + rewrite app_nil_r, split_on_lacks by assumption. cbn [hd]. apply slice_from_1.
    + destruct Hr as [Hr|(c' & r' & Hr & Hc)]; [discriminate|]. cbn in Hr. injection Hr as -> <-. destruct Hc as [->| ->].
      * exfalso. apply Forall_app in Hww. destruct Hww as [_ Hww]. inversion Hww; discriminate.
      * rewrite split_on_app by assumption. cbn [hd]. apply slice_from_1.
  - exfalso. destruct y as [|c y]; [congruence|]. destruct Hrest as [Hrest|(c' & t & Hrest & Hc)]; [discriminate|]. cbn in Hrest. injection Hrest as -> _.
    assert (Hi : In c' (chr 102 :: str_of_Z n)) by (rewrite Eu; apply in_elt). destruct Hi as [<-|Hi]; [discriminate|]. rewrite Forall_forall in Hd. apply Hd in Hi. apply decimal_not in Hi. destruct Hi as (_ & Hi & _). congruence.
Qed.
Lemma tally_recovers n lines out w ws : (0 <= n)%Z -> card_found (tally_head n) lines out -> all_words out (w :: ws) ->
  exists t, read_tally_lines n lines = t /\ ti_number t = n /\ ti_type t = str_of_Z n /\ spaced (w :: ws) (ti_data t).
Proof.
  intros Hn Hc Hw. eexists. split; [reflexivity|]. unfold read_tally_lines. cbv zeta. cbn [ti_number ti_type ti_data]. split; [reflexivity|].
  unfold tally_text. pose proof Hc as Hc'. apply (tally_block n) in Hc; [|assumption]. rewrite Hc, cleaner_lines.
  pose proof Hw as Hw'. apply all_words_fun in Hw. rewrite <- Hw. split; [|now apply spaced_fun].
  unfold tally_type_of. rewrite split_on_words; [|discriminate|rewrite Hw; apply concat_words]. cbn [hd].
  destruct Hc' as [ls _|pre h r post out Hpre Hh Hk Ht]; [discriminate|].
  inversion Hw' as [|l ls ws1 ws2 Hl Hls E1 E2]; subst.
  assert (Er : exists r1, r = chr 102 :: str_of_Z n ++ r1 /\ (r1 = [] \/ exists c r', r1 = c :: r' /\ (c = chr 32 \/ c = chr 58))).
  { destruct Hh as (_ & a & q & -> & Ha & Hq). destruct Hk as [Hk1 Hk2]. destruct (str_of_Z_nonneg n Hn) as [Hd H0].
    cbn [lower map] in Hk2. rewrite map_app in Hk2. change (map lower_c (str_of_Z n)) with (lower (str_of_Z n)) in Hk2. rewrite lower_decimals, Ha in Hk2 by assumption.
    assert (Hq' : map lower_c q = [] \/ exists c r', map lower_c q = c :: r' /\ (c = chr 32 \/ c = chr 58)).
    { destruct Hq as [->|(c & r' & -> & [->| ->])]; [now left|right; cbn; eauto|right; cbn; eauto]. }
    destruct Hk2 as [<-|(t & Hk2)]; [eauto|].
    change (chr 102 :: str_of_Z n ++ map lower_c q) with ((chr 102 :: str_of_Z n) ++ map lower_c q) in Hk2. symmetry in Hk2.
    destruct (app_compare _ _ _ _ Hk2) as [(x & -> & Ex)|(y & Hy & Eu & Ey)].
    - exists x. split; [reflexivity|]. destruct x as [|c x]; [now left|right]. destruct Hq' as [Hq'|(c' & r' & Hq' & Hcc)]; [rewrite Hq' in Ex; discriminate|]. rewrite Hq' in Ex. cbn in Ex. injection Ex as <- _. eauto.
    - exfalso. destruct y as [|c y]; [congruence|]. cbn in Ey. injection Ey as <- _.
      assert (Hi : In (chr 36) (chr 102 :: str_of_Z n)) by (rewrite Eu; apply in_elt). destruct Hi as [Hi|Hi]; [discriminate|]. rewrite Forall_forall in Hd. apply Hd in Hi. discriminate. }
  destruct Er as (r1 & -> & Hr1). destruct ws1 as [|w1 ws1].
  - exfalso. inversion Hl as [s Hb|]; subst. inversion Hb; discriminate.
  - cbn in E2. injection E2 as -> _. now apply (tally_first_word n r1 w ws1).
Qed.
Lemma tally_flags n lines : (0 <= n)%Z -> let t := read_tally_lines n lines in
  let present k := exists l q r, In l lines /\ l = q ++ chr 32 :: r /\ same_case q (lit k ++ str_of_Z n) in
  (ti_has_ebins t = true <-> present "e"%string) /\ (ti_has_tbins t = true <-> present "t"%string) /\
  (ti_has_fm t = true <-> present "fm"%string) /\ (ti_has_sd t = true <-> present "sd"%string) /\ (ti_has_fc t = true <-> present "fc"%string).
Proof.
  intros Hn. cbv zeta. unfold read_tally_lines. cbv zeta. cbn [ti_has_ebins ti_has_tbins ti_has_fm ti_has_sd ti_has_fc].
  assert (G : forall k, is_card_present lines (tally_card k n) = true <-> exists l q r, In l lines /\ l = q ++ chr 32 :: r /\ same_case q (lit k ++ str_of_Z n)).
  { intros k. rewrite card_present_spec. unfold tally_card, same_case. rewrite app_assoc. split.
    - intros (l & q & r & Hl & -> & Hq). rewrite lower_app in Hq. assert (Hne : q <> []) by (intros ->; symmetry in Hq; apply app_eq_nil in Hq; destruct Hq; discriminate).
      destruct (exists_last Hne) as (q' & c & ->). rewrite lower_app in Hq. change (lower [c]) with [lower_c c] in Hq. change (lower (lit " ")) with [chr 32] in Hq. apply app_inj_tail in Hq. destruct Hq as [Hq Hc].
      apply (proj1 (lower_space _)) in Hc. subst c. exists ((q' ++ [chr 32]) ++ r), q', r. split; [assumption|]. split; [now rewrite <- app_assoc|assumption].
    - intros (l & q & r & Hl & -> & Hq). exists (q ++ chr 32 :: r), (q ++ [chr 32]), r. split; [assumption|]. split; [now rewrite <- app_assoc|]. rewrite lower_app, Hq, <- lower_app. reflexivity. }
  repeat split; apply G.
Qed.

(** * vised_compatible *)
Lemma replaced_occurs old new s t : replaced old new s t -> occurs old s -> exists a u, t = a ++ new ++ u.
Proof. destruct 1 as [s Hn|a b t Hm Hr]; [contradiction|]. intros _. eauto. Qed.
Lemma replaced_length old new s t : length old <= length new -> replaced old new s t -> length s <= length t.
Proof. intros H. induction 1 as [s Hn|a b t Hm Hr IH]; [lia|]. rewrite !app_length. lia. Qed.
Lemma replaced_grows old new s t : length old < length new -> replaced old new s t -> occurs old s -> length s < length t.
Proof.
  intros H Hr. destruct Hr as [s Hn|a b t Hm Hr]; [contradiction|]. intros _. apply replaced_length in Hr; [|lia]. rewrite !app_length. lia.
Qed.
Lemma replaced_chars old new s t c : replaced old new s t -> ~ In c s -> ~ In c new -> ~ In c t.
Proof.
  induction 1 as [s Hn|a b t Hm Hr IH]; intros Hs Hnew; [assumption|]. rewrite !in_app_iff in *. tauto.
Qed.
Lemma nl_no_cr s t : nl_translated s t -> ~ In (chr 13) t.
Proof. induction 1 as [| | |c s t Hc H IH]; cbn; [tauto| | |]; intros [E|E]; try discriminate; try contradiction. Qed.
Lemma nl_fun s t : nl_translated s t -> forall t', nl_translated s t' -> t = t'.
Proof.
  induction 1 as [|s t H IH|s t Hs H IH|c s t Hc H IH]; intros t' H'; inversion H'; subst; try congruence; try (f_equal; now apply IH).
Qed.
Lemma nl_id s t : nl_translated s t -> ~ In (chr 13) s -> t = s.
Proof. induction 1 as [|s t H IH|s t Hs H IH|c s t Hc H IH]; intros Hn; [reflexivity|elim Hn; now left|elim Hn; now left|]. f_equal. apply IH. intros Hi. apply Hn. now right. Qed.
Lemma openable_ext f g p : openable f p -> (forall q, q <> p -> g q = f q) -> g p <> Some Dir -> openable g p.
Proof.
  intros (H0 & H1 & H2) Hg Hd. repeat split; [assumption|assumption|]. intros a b Ep Ha Hb. rewrite Hg; [eauto|].
  intros ->. apply (f_equal (@length _)) in Ep. rewrite app_length in Ep. destruct b; [congruence|cbn in Ep; lia].
Qed.
Lemma vised_twice f p c data : openable f p -> f p = Some (File c) -> nl_translated c data ->
  exists f1 f2, vised_compatible f p = Ok f1 /\ vised_compatible f1 p = Ok f2 /\
    (f1 p = f2 p <-> ~ occurs (lit "mphys") data).
Proof.
  intros Ho Hf Hd. unfold vised_compatible. destruct (text_replace_full f p (lit "mphys") (lit "c mphys") c Ho Hf) as (f1 & d1 & t1 & E1 & Hd1 & Ht1 & Hr1 & _ & Hq1).
  assert (d1 = data) by (eapply nl_fun; eauto). subst d1. specialize (Hr1 ltac:(discriminate)).
  assert (Ho1 : openable f1 p) by (eapply openable_ext; eauto; rewrite Ht1; discriminate).
  destruct (text_replace_full f1 p (lit "mphys") (lit "c mphys") t1 Ho1 Ht1) as (f2 & d2 & t2 & E2 & Hd2 & Ht2 & Hr2 & _ & Hq2).
  specialize (Hr2 ltac:(discriminate)). exists f1, f2. split; [assumption|]. split; [assumption|].
  assert (d2 = t1).
  { apply (nl_id t1 d2 Hd2). eapply replaced_chars; [exact Hr1|now apply (nl_no_cr c)|]. vm_compute. intuition discriminate. }
  subst d2. rewrite Ht1, Ht2. split.
  - intros E Hoc. injection E as E. destruct (replaced_occurs _ _ _ _ Hr1 Hoc) as (a & u & Et).
    assert (Hoc1 : occurs (lit "mphys") t1) by (exists (a ++ lit "c "), u; rewrite Et, <- app_assoc; reflexivity).
    assert (Hlen : length (lit "mphys") < length (lit "c mphys")) by (apply Nat.ltb_lt; reflexivity). apply (replaced_grows _ _ _ _ Hlen Hr2) in Hoc1. rewrite E in Hoc1. lia.
  - intros Hoc. f_equal. f_equal. assert (t1 = data) by (eapply replaced_fun; [exact Hr1|now apply repl_done]). subst t1. eapply replaced_fun; [|exact Hr2]. now apply repl_done.
Qed.

(** * Unions *)
Lemma float_bad ds c : ds <> [] -> Forall (fun c => is_decimal c = true) ds -> is_num_ws c = false -> (code c =? 95)%N = false ->
  is_decimal c = false -> (code c =? 46)%N = false -> (code c =? 101)%N = false -> (code c =? 69)%N = false -> py_float (ds ++ [c]) = Err ValueError.
Proof.
  intros H0 H Hc1 Hc2 Hc3 Hc4 Hc5 Hc6. unfold py_float.
  assert (H1 : Forall (fun c => is_num_ws c = false) (ds ++ [c])).
  { apply Forall_app. split; [|now repeat constructor]. eapply Forall_impl; [|exact H]; intros d Hd; apply decimal_not in Hd; tauto. }
  rewrite rstrip_by_none by assumption. rewrite lstrip_by_none by assumption.
  rewrite drop_underscores_id.
  2:{ apply Forall_app. split; [|now repeat constructor]. eapply Forall_impl; [|exact H]; intros d Hd; apply decimal_not in Hd; tauto. }
  destruct ds as [|d ds]; [congruence|]. inversion H as [|? ? Hd Hs]; subst. cbn [app].
  destruct (decimal_not d Hd) as (_ & _ & _ & E1 & E2 & _ & E3 & _). unfold take_sign. rewrite E1, E2. unfold parse_unsigned.
  assert (El : lower (d :: ds ++ [c]) = d :: lower (ds ++ [c])) by (cbn; now rewrite E3). rewrite El.
  assert (Hi : str_eqb (d :: lower (ds ++ [c])) (lit "inf") = false). { apply str_eqb_neq. intros E. injection E as -> _. discriminate. }
  assert (Hj : str_eqb (d :: lower (ds ++ [c])) (lit "infinity") = false). { apply str_eqb_neq. intros E. injection E as -> _. discriminate. }
  assert (Hk : str_eqb (d :: lower (ds ++ [c])) (lit "nan") = false). { apply str_eqb_neq. intros E. injection E as -> _. discriminate. }
  rewrite Hi, Hj, Hk. cbn [orb].
  assert (Hspan : span_digits (d :: ds ++ [c]) = (d :: ds, [c])).
  { change (d :: ds ++ [c]) with ((d :: ds) ++ [c]). clear - H Hc3. induction H as [|x l Hx Hl IH]; cbn [app span_digits]; [now rewrite Hc3|]. now rewrite Hx, IH. }
  rewrite Hspan, Hc4. cbn [app]. unfold parse_exp. now rewrite Hc5, Hc6.
Qed.
Lemma union_groups_step st L a b R : brackets L -> brackets R -> (0 <= a)%Z -> (0 <= b)%Z ->
  geom_step st (L ++ (str_of_Z a ++ lit "):(" ++ str_of_Z b) ++ R) = Err ValueError.
Proof.
  intros Hl Hr Ha Hb. destruct st as [[com imp] surfs]. unfold geom_step. apply brackets_true in Hl, Hr.
  destruct (str_of_Z_nonneg a Ha) as [Hda Ha0]. destruct (str_of_Z_nonneg b Hb) as [Hdb Hb0].
  set (m := str_of_Z a ++ lit "):(" ++ str_of_Z b).
  assert (Hchars : forall c, In c m -> is_decimal c = true \/ In c (lit "):(")).
  { intros c. unfold m. rewrite !in_app_iff. rewrite Forall_forall in Hda, Hdb. intros [H|[H|H]]; auto. }
  assert (Hstrip : strip_brackets (L ++ m ++ R) = m).
  { unfold strip_brackets. apply strip_around; try assumption.
    - unfold m. destruct (str_of_Z a) as [|x xs]; [congruence|]. inversion Hda; subst. exists x, (xs ++ lit "):(" ++ str_of_Z b). split; [reflexivity|]. now apply decimal_facts.
    - unfold m. destruct (exists_last Hb0) as (u & x & E). rewrite E in *. apply Forall_app in Hdb. destruct Hdb as [_ Hx]. inversion Hx; subst. exists (str_of_Z a ++ lit "):(" ++ u), x. split; [now rewrite <- !app_assoc|]. now apply decimal_facts. }
  rewrite no_dollar.
  2:{ rewrite !Forall_app. repeat split.
      - eapply Forall_impl; [|exact Hl]. intros c; apply bracket_facts.
      - apply Forall_forall. intros c Hc. apply Hchars in Hc. destruct Hc as [Hc|Hc]; [now apply decimal_facts in Hc|]. revert c Hc. apply Forall_forall. repeat constructor.
      - eapply Forall_impl; [|exact Hr]. intros c; apply bracket_facts. }
  cbn [bind]. assert (Hne : L ++ m ++ R <> []). { unfold m. destruct L; [|discriminate]. destruct (str_of_Z a); [congruence|discriminate]. }
  destruct (L ++ m ++ R) as [|x xs] eqn:E; [congruence|]. cbv zeta. rewrite Hstrip.
  rewrite lacks_no_imp.
  2:{ unfold lower. rewrite in_map_iff. intros (c & E1 & E2). apply Hchars in E2. destruct E2 as [Hc|Hc].
      - apply decimal_facts in Hc. destruct Hc as (_ & _ & _ & Hc & _ & Hc'). congruence.
      - assert (G : Forall (fun c => lower_c c <> chr 105) (lit "):(")) by (repeat constructor; discriminate). rewrite Forall_forall in G. exact (G c Hc E1). }
  assert (E0 : exists c, py_nth m 0 = Ok c /\ is_digit c = true).
  { unfold m. destruct (str_of_Z a) as [|y ys]; [congruence|]. exists y. split; [reflexivity|]. inversion Hda; subst. now apply decimal_facts. }
  destruct E0 as (c & -> & Hc). cbn [bind]. rewrite Hc.
  assert (Em : m = (str_of_Z a ++ [chr 41]) ++ c_colon :: (chr 40 :: str_of_Z b)) by (unfold m; rewrite <- app_assoc; reflexivity).
  rewrite Em, split_on_app.
  - cbn [mapM]. rewrite float_bad by (reflexivity || assumption). reflexivity.
  - intros Hi. apply in_app_iff in Hi. destruct Hi as [Hi|[Hi|[]]]; [|discriminate]. rewrite Forall_forall in Hda. apply Hda in Hi. discriminate.
Qed.
(** Geometry entries followed by a failing one. *)
Lemma geom_fail ts bad rest st e : Forall wf_gtok ts -> (forall st, geom_step st bad = Err e) ->
  foldM geom_step (map gtok_text ts ++ bad :: rest) st = Err e.
Proof. intros Ht Hb. rewrite foldM_app, geom_toks by assumption. cbn [bind foldM]. now rewrite Hb. Qed.
Lemma start_words num mat den ws l : (0 <= num)%Z -> match den with None => mat = 0%Z | Some (t, x) => mat <> 0%Z /\ py_float t = Ok x /\ word t end ->
  Forall word ws -> words l (str_of_Z num :: str_of_Z mat :: match den with Some (t, _) => [t] | None => [] end ++ ws) ->
  start_cell l = Ok (Cell num mat (match den with Some (_, x) => Some x | None => None end) [] [] [] [], ws).
Proof.
  intros Hn Hd Hws Hl. assert (Hall : Forall word (str_of_Z num :: str_of_Z mat :: match den with Some (t, _) => [t] | None => [] end ++ ws)).
  { constructor; [split; apply str_of_Z_word|]. constructor; [split; apply str_of_Z_word|]. apply Forall_app. split; [|assumption]. destruct den as [[t x]|]; [constructor; [tauto|constructor]|constructor]. }
  apply words_split in Hl. unfold start_cell. cbv zeta. rewrite string_cleaner_words, Hl, split_on_words by (discriminate || assumption).
  rewrite py_nth_0. cbn [bind]. rewrite py_int_str_of_Z. cbn [bind]. rewrite py_nth_1. cbn [bind]. rewrite py_int_str_of_Z. cbn [bind].
  destruct den as [[t x]|].
  - destruct Hd as (Hm & Hx & Ht). destruct (Z.eqb_spec mat 0); [contradiction|]. cbn [app]. rewrite py_nth_2. cbn [bind]. rewrite Hx. cbn [bind]. now rewrite slice_from_3.
  - rewrite Hd. cbn [Z.eqb]. cbn [app]. now rewrite slice_from_2.
Qed.
Lemma first_digit_of num ws l : (0 <= num)%Z -> words l (str_of_Z num :: ws) -> (exists a r, l = a :: r /\ is_ws a = false) -> exists a r, l = a :: r /\ is_digit a = true.
Proof.
  intros Hn Hw (a & r & -> & Ha). exists a, r. split; [reflexivity|].
  inversion Hw as [|pre w rest ws' Hp Hww Hr Hrest E1 E2]; subst. destruct pre as [|y pre].
  - destruct (str_of_Z_nonneg num Hn) as [Hd H0]. destruct (str_of_Z num) as [|y t]; [congruence|]. cbn in E1. injection E1 as <- _.
    inversion Hd; subst. now apply decimal_facts.
  - cbn in E1. injection E1 as -> _. inversion Hp; subst. congruence.
Qed.
Lemma union_groups_fail c l L a b R rest : wf_cell_card c -> brackets L -> brackets R -> (0 <= a)%Z -> (0 <= b)%Z -> Forall word rest ->
  words l (cell_card_words c ++ (L ++ str_of_Z a ++ lit "):(" ++ str_of_Z b ++ R) :: rest) -> (exists x r, l = x :: r /\ is_ws x = false) ->
  process_cell_block [l] = Err ValueError.
Proof.
  intros (Hn & Hd & Hg) HL HR Ha Hb Hrest Hw Hl.
  assert (Em : L ++ str_of_Z a ++ lit "):(" ++ str_of_Z b ++ R = L ++ (str_of_Z a ++ lit "):(" ++ str_of_Z b) ++ R) by (now rewrite <- !app_assoc).
  rewrite Em in Hw. unfold cell_card_words in Hw. cbn [app] in Hw. rewrite <- app_assoc in Hw.
  destruct (first_digit_of _ _ _ Hn Hw Hl) as (x & r & El & Hx).
  apply start_words in Hw; [|assumption|assumption|].
  2:{ apply Forall_app. split; [apply Forall_forall; intros t Ht; apply in_map_iff in Ht; destruct Ht as (g & <- & Hgi); apply gtok_word; rewrite Forall_forall in Hg; auto|].
      constructor; [|assumption]. destruct (str_of_Z_word a) as [Wa Wa0]. destruct (str_of_Z_word b) as [Wb Wb0]. split.
      - destruct L; [|discriminate]. destruct (str_of_Z a); [congruence|discriminate].
      - rewrite !Forall_app. repeat split; try assumption.
        + eapply Forall_impl; [|exact HL]. intros y. revert y. apply Forall_forall. repeat constructor.
        + repeat constructor.
        + eapply Forall_impl; [|exact HR]. intros y. revert y. apply Forall_forall. repeat constructor. }
  unfold process_cell_block. cbn [foldM]. unfold cell_step. rewrite El, py_nth_0, <- El. cbn [bind]. rewrite Hx. cbn [bind]. rewrite Hw. cbn [bind fst snd foldM].
  unfold finish_cell, process_geom. cbn [c_comment c_imp]. rewrite (geom_fail (cc_geom c) _ rest _ ValueError); [reflexivity|assumption|].
  intros st. now apply union_groups_step.
Qed.

(** * A blank line of five or more spaces before the surfaces *)
Lemma surface_line_blank t : process_surface_line (chr 32 :: t) = Err ValueError.
Proof.
  unfold process_surface_line. cbv zeta. change (lower (chr 32 :: t)) with (c_space :: lower t).
  change (split_on c_space (c_space :: lower t)) with ([] :: split_on c_space (lower t)). reflexivity.
Qed.
Lemma bad_start_steps c ls t : (forall t, process_surface_line (c :: t) = Err ValueError) ->
  forall d, (do st <- foldM surface_step ls (c :: t, d); (let '(surf_line, d) := st in match surf_line with _ :: _ => flush_surface surf_line d | [] => Ok d end)) = Err ValueError.
Proof.
  intros Hbad. revert t. induction ls as [|l ls IH]; intros t d.
  - cbn [foldM bind]. unfold flush_surface. now rewrite Hbad.
  - cbn [foldM]. unfold surface_step at 1. destruct (is_continue_line l); [|destruct (str_eqb (strip l) []); [|destruct (starts_with (lit "c") (lower l))]].
    + cbn [app]. apply IH.
    + apply IH.
    + apply IH.
    + unfold flush_surface at 1. rewrite Hbad. reflexivity.
Qed.
Lemma long_blank_fails b rest : blank b -> continuation b -> process_surface_block (b :: rest) = Err ValueError.
Proof.
  intros Hb Hc. unfold process_surface_block. cbn [foldM]. unfold surface_step at 1. apply continue_spec in Hc. rewrite Hc. cbn [app].
  change (lit " " ++ string_cleaner b) with (chr 32 :: string_cleaner b). apply bad_start_steps, surface_line_blank.
Qed.

(** * Reflecting surfaces *)
Lemma int_star ds : py_int (chr 42 :: ds) = Err ValueError.
Proof.
  unfold py_int.
  assert (E : exists t, lstrip_by is_num_ws (rstrip_by is_num_ws (chr 42 :: ds)) = chr 42 :: t).
  { destruct (rstrip_by_decomp is_num_ws (chr 42 :: ds)) as (u & E & Hu). destruct (rstrip_by is_num_ws (chr 42 :: ds)) as [|c t] eqn:Er.
    - apply rstrip_by_nil_iff in Er. inversion Er; discriminate.
    - cbn [app] in E. injection E as <- _. exists t. apply lstrip_by_id. reflexivity. }
  destruct E as (t & ->). cbn [drop_underscores]. change (code (chr 42) =? 95)%N with false. cbv iota.
  destruct (drop_underscores (is_decimal (chr 42)) t) as [u|]; reflexivity.
Qed.
Lemma surface_line_star t : process_surface_line (chr 42 :: t) = Err ValueError.
Proof.
  unfold process_surface_line. cbv zeta. change (lower (chr 42 :: t)) with (chr 42 :: lower t). cbn [split_on].
  change (Ascii.eqb (chr 42) c_space) with false. cbv iota. destruct (split_on c_space (lower t)) as [|w ws]; rewrite py_nth_0; cbn [bind]; now rewrite int_star.
Qed.
Lemma star_fails pre l w ws rest : Forall surf_noise pre -> ~ continuation l -> words l ((chr 42 :: w) :: ws) -> process_surface_block (pre ++ l :: rest) = Err ValueError.
Proof.
  intros Hpre Hc Hw. unfold process_surface_block. rewrite foldM_app, surf_noise_steps by assumption. cbn [bind foldM].
  assert (Hb : ~ blank l). { intros Hb. apply words_split in Hw. apply split_ws_blank in Hb. congruence. }
  assert (Hs : starts_with (lit "c") (lower l) = false).
  { destruct (starts_with (lit "c") (lower l)) eqn:E; [|reflexivity]. exfalso. apply (lower_prefix (lit "c")) in E. destruct E as (q & r & El & Eq).
    destruct q as [|a [|? ?]]; try discriminate. cbn in El. injection Eq as Eq. subst l.
    inversion Hw as [|p0 w0 rest0 ws0 Hp Hww Hr Hrest E1 E2]; subst. destruct p0 as [|y p0]; cbn in E1; injection E1 as E1 _; subst; [discriminate Eq|]. inversion Hp as [|? ? Hy _]; subst.
    rewrite <- lower_ws in Hy. rewrite Eq in Hy. discriminate. }
  unfold surface_step at 1. apply continue_specF in Hc. rewrite Hc. apply blank_stripF in Hb. rewrite Hb, Hs.
  rewrite string_cleaner_words. apply words_split in Hw. rewrite Hw. assert (E : exists t, join [c_space] ((chr 42 :: w) :: ws) = chr 42 :: t) by (destruct ws; eexists; reflexivity).
  destruct E as (t & ->). apply bad_start_steps, surface_line_star.
Qed.

(** * Importance of several particles *)
Lemma imp_list_first name p q v x imp : ~ In c_colon name -> ~ In c_equal v -> ~ In c_colon v -> p <> c_colon -> ~ In c_colon q -> py_float v = Ok x ->
  process_imp (name ++ c_colon :: p :: q ++ c_equal :: v) imp = Ok (dict_set Ascii.eqb p x imp).
Proof.
  intros H1 H2 H3 H4 H5 H6. unfold process_imp.
  replace (name ++ c_colon :: p :: q ++ c_equal :: v) with ((name ++ c_colon :: p :: q) ++ c_equal :: v) at 1 by (now rewrite <- app_assoc).
  rewrite split_on_last by assumption. cbn [bind]. rewrite split_on_app by assumption. rewrite split_on_lacks.
  - rewrite py_nth_1. cbn [bind]. rewrite py_nth_0. cbn [bind]. rewrite H6. reflexivity.
  - intros [E|E]; [congruence|]. apply in_app_iff in E. destruct E as [E|[E|E]]; [contradiction|discriminate|contradiction].
Qed.

(** * Whole decks *)
Lemma deck_blocks cl b1 sl b2 dl : Forall (fun l => ~ blank l) cl -> blank b1 -> Forall (fun l => ~ blank l) sl -> blank b2 ->
  split_blocs (cl ++ (b1 :: sl) ++ b2 :: dl) = Ok (cl, b1 :: sl, b2 :: dl).
Proof. intros H1 H2 H3 H4. apply split_blocs_Ok. split; [reflexivity|]. split; [assumption|]. split; eauto 6. Qed.
Lemma deck_roundtrip f p f' cards cl b1 ss scards sl b2 dl d :
  cards <> [] -> cell_layout cards cl -> Forall wf_cell_card cards -> NoDup (map cc_number cards) -> Forall (fun l => ~ blank l) cl ->
  blank b1 -> ~ continuation b1 ->
  surf_layout scards sl -> Forall2 (fun s ws => wf_surface s /\ map lower ws = surface_words s) ss scards -> NoDup (map s_number ss) -> Forall (fun l => ~ blank l) sl ->
  blank b2 -> process_data_block (b2 :: dl) = Ok d ->
  Forall no_break (cl ++ (b1 :: sl) ++ b2 :: dl) -> write_lines f p (cl ++ (b1 :: sl) ++ b2 :: dl) = Ok f' ->
  exists i, read_mcnp_input f' p = Ok i /\ i_cell_block i = cl /\ i_surface_block i = b1 :: sl /\ i_data_block i = b2 :: dl /\
    i_cells i = map (fun c => (cc_number c, cell_of_card c)) cards /\ i_surfaces i = map (fun s => (s_number s, s)) ss /\
    i_data i = d /\ (forall k l, In (k, l) (i_comments i) <-> nth_error (cl ++ (b1 :: sl) ++ b2 :: dl) k = Some l /\ full_comment l).
Proof.
  intros Hc0 HL Hwf HN Hcl Hb1 Hb1c HS HF HN2 Hsl Hb2 Hd Hnb Hw. unfold read_mcnp_input.
  apply write_get_iff in Hw. destruct Hw as [Hw _]. apply Hw in Hnb. rewrite Hnb. cbn [bind].
  rewrite deck_blocks by assumption. cbn [bind]. rewrite (cell_block_recovers cards cl) by assumption. cbn [bind].
  assert (HS' : surf_layout scards (b1 :: sl)).
  { assert (Hn1 : surf_noise b1) by (split; [assumption|now left]). inversion HS as [ls Hn|pre l w ls ws cards' rest Hpre Hl Hww Hb Hrest]; subst.
    - apply sl_nil. now constructor.
    - change (b1 :: pre ++ l :: ls ++ rest) with ((b1 :: pre) ++ l :: ls ++ rest). apply sl_card; try assumption. now constructor. }
  rewrite (surface_block_recovers ss scards) by assumption. cbn [bind]. rewrite Hd. cbn [bind]. eexists. split; [reflexivity|].
  cbn [i_cell_block i_surface_block i_data_block i_cells i_surfaces i_data i_comments]. repeat (split; [reflexivity|]). intros k l. apply comments_spec.
Qed.
