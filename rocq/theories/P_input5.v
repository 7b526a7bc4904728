(** Proofs about mcnp_input_reader: titles, comments, brackets, signs and lone c lines. *)
From Coq Require Import Lia.
From Verif Require Import PyBase PyFloat FloatZ PyFs SpecStr PyFacts SpecUtil M_util P_util M_input SpecInput SpecInput2 PyNumFacts TextFacts P_input P_input2 P_input3 P_input4.

(** * Titles *)
Lemma words_word s ws : words s ws -> Forall word ws.
Proof. induction 1; constructor; assumption. Qed.
Lemma no_cell_geom b g1 g2 d :
  (do st <- foldM cell_step b (None, g1, d); finish_cell st) = (do st <- foldM cell_step b (None, g2, d); finish_cell st).
Proof.
  revert g1 g2. induction b as [|l b IH]; intros g1 g2; [reflexivity|]. cbn [foldM]. unfold cell_step at 1 3.
  destruct (py_nth l 0) as [c0|e]; [|reflexivity]. cbn [bind]. destruct (is_digit c0).
  - reflexivity.
  - destruct (is_continue_line l); cbn [bind]; apply IH.
Qed.
Lemma title_ignored t b : (exists a r, t = a :: r /\ is_digit a = false) -> process_cell_block (t :: b) = process_cell_block b.
Proof.
  intros (a & r & -> & Ha). unfold process_cell_block. cbn [foldM]. unfold cell_step at 1. rewrite py_nth_0. cbn [bind]. rewrite Ha.
  destruct (is_continue_line (a :: r)); cbn [bind]; apply no_cell_geom.
Qed.
Lemma py_int_err w : (forall n, py_int w <> Ok n) -> py_int w = Err ValueError.
Proof.
  intros H. destruct (py_int w) as [n|e] eqn:E; [elim (H n eq_refl)|]. unfold py_int in E. revert E.
  repeat (match goal with |- context [match ?x with _ => _ end] => destruct x end; try congruence; try discriminate).
Qed.
Lemma title_number t w v ws b : (exists a r, t = a :: r /\ is_digit a = true) -> words t (w :: v :: ws) ->
  (forall n, py_int v <> Ok n) -> process_cell_block (t :: b) = Err ValueError.
Proof.
  intros (a & r & E & Ha) Hw Hv. unfold process_cell_block. cbn [foldM]. unfold cell_step. rewrite E, py_nth_0, <- E. cbn [bind]. rewrite Ha. cbn [bind].
  pose proof (words_word _ _ Hw) as Hall. apply words_split in Hw. unfold start_cell. cbv zeta.
  rewrite string_cleaner_words, Hw, split_on_words by (discriminate || assumption). rewrite py_nth_0. cbn [bind].
  destruct (py_int w) as [n|e] eqn:Ew; cbn [bind].
  - rewrite py_nth_1. cbn [bind]. now rewrite py_int_err.
  - assert (Hn : forall n, py_int w <> Ok n) by (intros n; congruence). apply py_int_err in Hn. congruence.
Qed.

(** * A simple card followed by other words *)
Lemma extra_words c l ex : wf_cell_card c -> Forall word ex -> words l (cell_card_words c ++ ex) -> column_one l ->
  process_cell_block [l] =
  (do st <- foldM geom_step ex ([], fold_left gtok_imp (cc_geom c) [], map f_of_Z (card_surfaces c));
   Ok [(cc_number c, Cell (cc_number c) (cc_mat c) (match cc_density c with Some (_, x) => Some x | None => None end)
          (snd (fst st)) (map gtok_text (cc_geom c) ++ ex) (snd st) (fst (fst st)))]).
Proof.
  intros (Hn & Hd & Hg) Hex Hw Hl. unfold cell_card_words in Hw. cbn [app] in Hw. rewrite <- app_assoc in Hw.
  destruct (first_digit_of _ _ _ Hn Hw Hl) as (x & r & El & Hx).
  apply start_words in Hw; [|assumption|assumption|].
  2:{ apply Forall_app. split; [|assumption]. apply Forall_forall; intros t Ht; apply in_map_iff in Ht; destruct Ht as (g & <- & Hgi); apply gtok_word; rewrite Forall_forall in Hg; auto. }
  unfold process_cell_block. cbn [foldM]. unfold cell_step. rewrite El, py_nth_0, <- El. cbn [bind]. rewrite Hx. cbn [bind]. rewrite Hw. cbn [bind fst snd foldM].
  unfold finish_cell, process_geom. cbn [c_comment c_imp]. rewrite foldM_app, geom_toks by assumption. cbn [bind fst snd app].
  unfold card_surfaces. destruct (foldM geom_step ex _) as [[[com imp] surfs]|e]; reflexivity.
Qed.

(** * Entries *)
Lemma contains_dollar s : contains [c_dollar] s = true <-> In (chr 36) s.
Proof.
  rewrite contains_spec. split.
  - intros (a & b & ->). apply in_app_iff. right. now left.
  - intros H. apply in_split in H. destruct H as (a & b & ->). now exists a, b.
Qed.
Lemma step_texty st w : texty w -> geom_step st w = Ok st.
Proof.
  intros ([H0 _] & Hd & Hi & L & a & r & E & HL & Ha & Hdig). destruct st as [[com imp] surfs]. unfold geom_step.
  replace (contains [c_dollar] w) with false.
  2:{ symmetry. destruct (contains [c_dollar] w) eqn:Ec; [|reflexivity]. apply contains_dollar in Ec. contradiction. }
  cbn [bind]. destruct w as [|w0 wt] eqn:Ew; [congruence|]. rewrite <- Ew in *. cbv zeta.
  assert (Es : exists t u, strip_brackets w = a :: t /\ w = L ++ (a :: t) ++ u).
  { unfold strip_brackets. rewrite E, lstrip_by_app by (now apply brackets_true).
    assert (Hb : is_bracket a = false). { destruct (is_bracket a) eqn:Eb; [|reflexivity]. apply bracket_In in Eb. contradiction. }
    rewrite lstrip_by_id by assumption. destruct (rstrip_by_decomp is_bracket (a :: r)) as (u & E1 & Hu).
    destruct (rstrip_by is_bracket (a :: r)) as [|b t] eqn:Er.
    - apply rstrip_by_nil_iff in Er. inversion Er; subst. congruence.
    - assert (b = a) by (cbn in E1; congruence). subst b. exists t, u. split; [reflexivity|]. now rewrite <- E1. }
  destruct Es as (t & u & -> & Eu). replace (contains (lit "imp") (lower (a :: t))) with false.
  2:{ symmetry. apply contains_false. intros (p & q & Eo). apply Hi. rewrite Eu, !lower_app, Eo. exists (lower L ++ p), (q ++ lower u). now rewrite <- !app_assoc. }
  rewrite py_nth_0. cbn [bind]. now rewrite Hdig.
Qed.
Lemma step_comment st u : ~ In (chr 36) u -> geom_step st (chr 36 :: u) = Ok (fst (fst st) ++ [u], snd (fst st), snd st).
Proof.
  intros Hu. destruct st as [[com imp] surfs]. unfold geom_step. cbn [fst snd].
  replace (contains [c_dollar] (chr 36 :: u)) with true by (symmetry; apply contains_dollar; now left).
  pose proof (split_on_last c_dollar [] u Hu) as E1. pose proof (split_on_app c_dollar [] u (fun H => H)) as E2. cbn [app] in E1, E2.
  change (chr 36 :: u) with (c_dollar :: u). rewrite E1. cbn [bind]. rewrite E2, py_nth_0. reflexivity.
Qed.
Lemma step_number st n : (0 <= n)%Z -> geom_step st (str_of_Z n) = Ok (fst (fst st), snd (fst st), snd st ++ [f_of_Z n]).
Proof.
  intros Hn. pose proof (geom_numbers st [] n [] [] (Forall_nil _) (Forall_nil _) Hn (Forall_nil _)) as G.
  unfold colon_join in G. cbn [map concat app] in G. now rewrite !app_nil_r in G.
Qed.
Lemma step_brackets st b : b <> [] -> brackets b -> geom_step st b = Err IndexError.
Proof.
  intros H0 Hb. destruct st as [[com imp] surfs]. unfold geom_step. pose proof (brackets_true _ Hb) as Hb'. rewrite no_dollar.
  2:{ eapply Forall_impl; [|exact Hb']. intros c; apply bracket_facts. }
  cbn [bind]. destruct b as [|x xs] eqn:E; [congruence|]. rewrite <- E in *. cbv zeta.
  assert (Es : strip_brackets b = []).
  { unfold strip_brackets. replace b with (b ++ []) by apply app_nil_r. rewrite lstrip_by_app by assumption. reflexivity. }
  rewrite Es. reflexivity.
Qed.
(** Signed members of a union. *)
Lemma zchar m c : In c (str_of_Z m) -> is_decimal c = true \/ c = chr 45.
Proof.
  destruct m as [|p|p]; cbn [str_of_Z].
  - intros H. left. destruct (str_of_N_spec 0%N) as (_ & Hd & _). rewrite Forall_forall in Hd. auto.
  - intros H. left. destruct (str_of_N_spec (N.pos p)) as (_ & Hd & _). rewrite Forall_forall in Hd. auto.
  - intros [H|H]; [right; now symmetry|left]. destruct (str_of_N_spec (N.pos p)) as (_ & Hd & _). rewrite Forall_forall in Hd. auto.
Qed.
Lemma zlast m : exists t a, str_of_Z m = t ++ [a] /\ is_bracket a = false.
Proof.
  assert (G : forall n, exists t a, str_of_N n = t ++ [a] /\ is_bracket a = false).
  { intros n. destruct (str_of_N_spec n) as (_ & Hd & H0). destruct (snoc_cases (str_of_N n)) as [E|(t & a & E)]; [now rewrite E in H0|].
    exists t, a. split; [assumption|]. rewrite E in Hd. apply Forall_app in Hd. destruct Hd as [_ Hd]. inversion Hd; subst. now apply decimal_facts. }
  destruct m as [|p|p]; [exists [], (chr 48); split; reflexivity|apply G|]. change (str_of_Z (Z.neg p)) with (chr 45 :: str_of_N (N.pos p)). destruct (G (N.pos p)) as (t & a & E & Ha). exists (chr 45 :: t), a. split; [|assumption]. now rewrite E.
Qed.
Lemma py_float_neg p : py_float (chr 45 :: str_of_N (N.pos p)) = Ok (f_of_Z (Z.neg p)).
Proof.
  destruct (str_of_N_spec (N.pos p)) as (Ev & H & H0). set (ds := str_of_N (N.pos p)) in *. unfold py_float.
  assert (H1 : Forall (fun c => is_num_ws c = false) (chr 45 :: ds)) by (constructor; [reflexivity|]; eapply Forall_impl; [|exact H]; intros c Hc; apply decimal_not in Hc; tauto).
  rewrite rstrip_by_none by assumption. rewrite lstrip_by_none by assumption.
  rewrite drop_underscores_id by (constructor; [reflexivity|]; eapply Forall_impl; [|exact H]; intros c Hc; apply decimal_not in Hc; tauto).
  change (take_sign (chr 45 :: ds)) with (true, ds). cbv iota beta. unfold parse_unsigned. rewrite lower_decimals by assumption.
  destruct ds as [|c ds']; [congruence|]. inversion H as [|? ? Hc Hs]; subst.
  replace (str_eqb (c :: ds') (lit "inf")) with false by (symmetry; apply str_eqb_neq; intros E; injection E as -> _; discriminate).
  replace (str_eqb (c :: ds') (lit "infinity")) with false by (symmetry; apply str_eqb_neq; intros E; injection E as -> _; discriminate).
  replace (str_eqb (c :: ds') (lit "nan")) with false by (symmetry; apply str_eqb_neq; intros E; injection E as -> _; discriminate).
  cbn [orb]. rewrite span_digits_all by assumption. rewrite app_nil_r, Ev. reflexivity.
Qed.
Lemma py_float_Z z : py_float (str_of_Z z) = Ok (f_of_Z z).
Proof. destruct z as [|p|p]; [now apply py_float_str_of_Z|now apply py_float_str_of_Z|apply py_float_neg]. Qed.
Lemma step_union st L n m R : brackets L -> brackets R -> (0 <= n)%Z ->
  geom_step st (L ++ (str_of_Z n ++ chr 58 :: str_of_Z m) ++ R) = Ok (fst (fst st), snd (fst st), snd st ++ [f_of_Z n; f_of_Z m]).
Proof.
  intros HL HR Hn. destruct st as [[com imp] surfs]. cbn [fst snd]. unfold geom_step. apply brackets_true in HL, HR.
  destruct (str_of_Z_nonneg n Hn) as [Hdn Hn0]. set (u := str_of_Z n ++ chr 58 :: str_of_Z m).
  assert (Hchars : forall c, In c u -> is_decimal c = true \/ c = chr 58 \/ c = chr 45).
  { intros c. unfold u. rewrite in_app_iff. intros [H|[H|H]]; [left; rewrite Forall_forall in Hdn; auto|right; left; now symmetry|]. apply zchar in H. tauto. }
  assert (Hfirst : exists a t, u = a :: t /\ is_digit a = true /\ is_bracket a = false).
  { unfold u. destruct (str_of_Z n) as [|a t]; [congruence|]. inversion Hdn; subst. exists a, (t ++ chr 58 :: str_of_Z m). split; [reflexivity|].
    match goal with H : is_decimal a = true |- _ => apply decimal_facts in H; tauto end. }
  destruct Hfirst as (a & t & Ef & Ha & Hab).
  assert (Hstrip : strip_brackets (L ++ u ++ R) = u).
  { unfold strip_brackets. apply strip_around; try assumption; [now exists a, t|]. unfold u. destruct (zlast m) as (t' & a' & -> & Ha').
    exists (str_of_Z n ++ chr 58 :: t'), a'. split; [|assumption]. now rewrite <- app_assoc. }
  rewrite no_dollar.
  2:{ rewrite !Forall_app. repeat split.
      - eapply Forall_impl; [|exact HL]. intros c; apply bracket_facts.
      - apply Forall_forall. intros c Hc. apply Hchars in Hc. destruct Hc as [Hc|[->| ->]]; [now apply decimal_facts in Hc|reflexivity|reflexivity].
      - eapply Forall_impl; [|exact HR]. intros c; apply bracket_facts. }
  cbn [bind]. assert (Hne : L ++ u ++ R <> []) by (rewrite Ef; destruct L; discriminate).
  destruct (L ++ u ++ R) as [|x xs] eqn:E; [congruence|]. cbv zeta. rewrite Hstrip. rewrite lacks_no_imp.
  2:{ unfold lower. rewrite in_map_iff. intros (c & E1 & E2). apply Hchars in E2. destruct E2 as [Hc|[->| ->]]; [|discriminate|discriminate].
      apply decimal_facts in Hc. destruct Hc as (_ & _ & _ & Hc & _ & Hc'). congruence. }
  replace (py_nth u 0) with (@Ok ascii a) by (rewrite Ef; reflexivity). cbn [bind]. rewrite Ha. unfold u. rewrite (split_on_app c_colon).
  - rewrite split_on_lacks.
    + cbn [mapM]. rewrite !py_float_Z. reflexivity.
    + intros H. apply zchar in H. destruct H as [H|H]; discriminate.
  - intros H. rewrite Forall_forall in Hdn. apply Hdn in H. discriminate.
Qed.

(** * Inline comments *)
Lemma texty_word w : texty w -> word w. Proof. now intros []. Qed.
Lemma comment_words_word ws ns : comment_numbers ws ns -> Forall word ws.
Proof. induction 1; constructor; auto; [now apply texty_word|split; apply str_of_Z_word]. Qed.
Lemma comment_fold ws ns : comment_numbers ws ns -> forall st,
  foldM geom_step ws st = Ok (fst (fst st), snd (fst st), snd st ++ map f_of_Z ns).
Proof.
  induction 1 as [|w ws ns Hw H IH|n ws ns Hn H IH]; intros [[com imp] surfs]; cbn [foldM fst snd map].
  - now rewrite app_nil_r.
  - rewrite step_texty by assumption. apply IH.
  - rewrite step_number by assumption. rewrite IH. cbn [fst snd]. now rewrite <- app_assoc.
Qed.
Lemma cell_comment c l u ws ns : wf_cell_card c -> word (chr 36 :: u) -> ~ In (chr 36) u -> comment_numbers ws ns ->
  words l (cell_card_words c ++ (chr 36 :: u) :: ws) -> column_one l ->
  exists c', process_cell_block [l] = Ok [(cc_number c, c')] /\ c_surfaces c' = map f_of_Z (card_surfaces c ++ ns) /\ c_comment c' = [u].
Proof.
  intros Hc Hu Hd Hws Hw Hl. rewrite (extra_words c l ((chr 36 :: u) :: ws)); try assumption.
  2:{ constructor; [assumption|now apply comment_words_word in Hws]. }
  cbn [foldM]. rewrite step_comment by assumption. cbn [fst snd]. rewrite (comment_fold ws ns Hws). cbn [bind fst snd]. eexists. split; [reflexivity|].
  cbn [c_surfaces c_comment app]. split; [now rewrite map_app|reflexivity].
Qed.
Lemma comment_adds c l u ws n ns : (Z.abs n < 2 ^ 53)%Z -> wf_cell_card c -> word (chr 36 :: u) -> ~ In (chr 36) u -> comment_numbers ws (n :: ns) ->
  words l (cell_card_words c ++ (chr 36 :: u) :: ws) -> column_one l ->
  exists c', process_cell_block [l] = Ok [(cc_number c, c')] /\ c_surfaces c' <> map f_of_Z (card_surfaces c) /\
    cells_with_surface n [(cc_number c, c')] = [c'].
Proof.
  intros Hb Hc Hu Hd Hws Hw Hl. destruct (cell_comment c l u ws (n :: ns) Hc Hu Hd Hws Hw Hl) as (c' & E & Es & _). exists c'. split; [assumption|].
  rewrite Es. split.
  - intros E1. apply (f_equal (@length _)) in E1. rewrite !map_length, app_length in E1. cbn in E1. lia.
  - unfold cells_with_surface. cbn [map snd filter]. replace (existsb _ (c_surfaces c')) with true; [reflexivity|]. symmetry. rewrite Es. apply existsb_exists.
    exists (f_of_Z n). split; [apply in_map, in_app_iff; right; now left|]. now apply feq_f_of_Z.
Qed.

(** * Brackets, signs and complements *)
Lemma lone_bracket c l b rest : wf_cell_card c -> b <> [] -> brackets b -> Forall word rest -> words l (cell_card_words c ++ b :: rest) -> column_one l ->
  process_cell_block [l] = Err IndexError.
Proof.
  intros Hc H0 Hb Hr Hw Hl. rewrite (extra_words c l (b :: rest)); try assumption.
  2:{ constructor; [|assumption]. split; [assumption|]. eapply Forall_impl; [|exact Hb]. intros x [<-|[<-|[<-|[]]]]; reflexivity. }
  cbn [foldM]. now rewrite step_brackets.
Qed.
Lemma entry_then c l e ts add : wf_cell_card c -> word e -> Forall wf_gtok ts ->
  (forall st, geom_step st e = Ok (fst (fst st), snd (fst st), snd st ++ map f_of_Z add)) ->
  words l (cell_card_words c ++ e :: map gtok_text ts) -> column_one l ->
  exists c', process_cell_block [l] = Ok [(cc_number c, c')] /\
    c_surfaces c' = map f_of_Z (card_surfaces c ++ add ++ concat (map gtok_surfaces ts)).
Proof.
  intros Hc He Ht Hs Hw Hl. rewrite (extra_words c l (e :: map gtok_text ts)); try assumption.
  2:{ constructor; [assumption|]. apply Forall_forall; intros t Hi; apply in_map_iff in Hi; destruct Hi as (g & <- & Hgi); apply gtok_word; rewrite Forall_forall in Ht; auto. }
  cbn [foldM]. rewrite Hs. cbn [fst snd]. rewrite geom_toks by assumption. cbn [bind fst snd]. eexists. split; [reflexivity|].
  cbn [c_surfaces]. now rewrite <- !map_app, <- app_assoc.
Qed.
Lemma texty_digits L p n R : brackets L -> brackets R -> Forall (fun c => is_ws c = false /\ c <> chr 36 /\ lower_c c <> chr 105 ) p ->
  (exists a r, p = a :: r /\ ~ In a (lit "()-") /\ is_digit a = false) -> texty (L ++ p ++ str_of_Z n ++ R).
Proof.
  intros HL HR Hp (a & r & Ep & Ha & Hdig).
  assert (Hch : Forall (fun c => is_ws c = false /\ c <> chr 36 /\ lower_c c <> chr 105) (L ++ p ++ str_of_Z n ++ R)).
  { rewrite !Forall_app. repeat split; try assumption.
    - eapply Forall_impl; [|exact HL]. intros x [<-|[<-|[<-|[]]]]; repeat split; (reflexivity || discriminate).
    - apply Forall_forall. intros x Hx. apply zchar in Hx. destruct Hx as [Hx| ->]; [|repeat split; (reflexivity || discriminate)].
      destruct (decimal_facts x Hx) as (_ & H1 & _ & H2 & _ & H3). repeat split; [|intros ->; discriminate Hx|rewrite H2; assumption]. destruct (decimal_not x Hx); tauto.
    - eapply Forall_impl; [|exact HR]. intros x [<-|[<-|[<-|[]]]]; repeat split; (reflexivity || discriminate). }
  split; [split|].
  - rewrite Ep. destruct L; discriminate.
  - eapply Forall_impl; [|exact Hch]. cbv beta. tauto.
  - split; [|split].
    + intros Hi. rewrite Forall_forall in Hch. apply Hch in Hi. destruct Hi as (_ & Hi & _). congruence.
    + intros (x & y & E). assert (Hi : In (chr 105) (lower (L ++ p ++ str_of_Z n ++ R))) by (rewrite E; apply in_app_iff; right; now left).
      unfold lower in Hi. rewrite in_map_iff in Hi. destruct Hi as (b & Eb & Hb). rewrite Forall_forall in Hch. apply Hch in Hb. tauto.
    + exists L, a, (r ++ str_of_Z n ++ R). split; [now rewrite Ep|]. auto.
Qed.
Lemma plus_lost c l n ts : wf_cell_card c -> Forall wf_gtok ts -> words l (cell_card_words c ++ (chr 43 :: str_of_Z n) :: map gtok_text ts) -> column_one l ->
  exists c', process_cell_block [l] = Ok [(cc_number c, c')] /\ c_surfaces c' = map f_of_Z (card_surfaces c ++ concat (map gtok_surfaces ts)).
Proof.
  intros Hc Ht Hw Hl.
  assert (Hx : texty (chr 43 :: str_of_Z n)).
  { pose proof (texty_digits [] [chr 43] n [] (Forall_nil _) (Forall_nil _)) as G. rewrite app_nil_r in G. apply G.
    - repeat constructor; discriminate.
    - exists (chr 43), []. repeat split. intros [H|[H|[H|[]]]]; discriminate. }
  apply (entry_then c l (chr 43 :: str_of_Z n) ts []); try assumption; [now apply texty_word|].
  intros [[com imp] surfs]. rewrite step_texty by assumption. cbn. now rewrite app_nil_r.
Qed.
Lemma complement_lost c l n R ts : wf_cell_card c -> brackets R -> Forall wf_gtok ts ->
  words l (cell_card_words c ++ (lit "#(" ++ str_of_Z n ++ R) :: map gtok_text ts) -> column_one l ->
  exists c', process_cell_block [l] = Ok [(cc_number c, c')] /\ c_surfaces c' = map f_of_Z (card_surfaces c ++ concat (map gtok_surfaces ts)).
Proof.
  intros Hc HR Ht Hw Hl.
  assert (Hx : texty (lit "#(" ++ str_of_Z n ++ R)).
  { apply (texty_digits [] (lit "#(") n R (Forall_nil _) HR).
    - repeat constructor; discriminate.
    - exists (chr 35), (lit "("). repeat split. intros [H|[H|[H|[]]]]; discriminate. }
  apply (entry_then c l (lit "#(" ++ str_of_Z n ++ R) ts []); try assumption; [now apply texty_word|].
  intros [[com imp] surfs]. rewrite step_texty by assumption. cbn. now rewrite app_nil_r.
Qed.
Lemma union_sense c l L n m R ts : wf_cell_card c -> brackets L -> brackets R -> (0 <= n)%Z -> (0 < m)%Z -> Forall wf_gtok ts ->
  words l (cell_card_words c ++ (L ++ str_of_Z n ++ lit ":-" ++ str_of_Z m ++ R) :: map gtok_text ts) -> column_one l ->
  exists c', process_cell_block [l] = Ok [(cc_number c, c')] /\
    c_surfaces c' = map f_of_Z (card_surfaces c ++ [n; - m]%Z ++ concat (map gtok_surfaces ts)).
Proof.
  intros Hc HL HR Hn Hm Ht Hw Hl.
  assert (E : L ++ str_of_Z n ++ lit ":-" ++ str_of_Z m ++ R = L ++ (str_of_Z n ++ chr 58 :: str_of_Z (- m)) ++ R).
  { rewrite <- app_assoc. do 2 f_equal. destruct m as [|p|p]; [lia| |lia]. reflexivity. }
  rewrite E in Hw. eapply entry_then; try eassumption.
  - split; [destruct L; [|discriminate]; destruct (str_of_Z_nonneg n Hn) as [_ H]; destruct (str_of_Z n); [congruence|discriminate]|].
    rewrite !Forall_app. repeat split.
    + eapply Forall_impl; [|exact HL]. intros x [<-|[<-|[<-|[]]]]; reflexivity.
    + apply str_of_Z_word.
    + constructor; [reflexivity|apply str_of_Z_word].
    + eapply Forall_impl; [|exact HR]. intros x [<-|[<-|[<-|[]]]]; reflexivity.
  - intros st. now apply step_union.
Qed.
Lemma union_not_found c l L n m R ts : wf_cell_card c -> brackets L -> brackets R -> (0 <= n)%Z -> (0 < m)%Z -> Forall wf_gtok ts ->
  words l (cell_card_words c ++ (L ++ str_of_Z n ++ lit ":-" ++ str_of_Z m ++ R) :: map gtok_text ts) -> column_one l ->
  ~ In m (card_surfaces c ++ n :: concat (map gtok_surfaces ts)) ->
  Forall (fun z => Z.abs z < 2 ^ 53)%Z (m :: card_surfaces c ++ n :: concat (map gtok_surfaces ts)) ->
  exists cells, process_cell_block [l] = Ok cells /\ cells_with_surface m cells = [].
Proof.
  intros Hc HL HR Hn Hm Ht Hw Hl Hni Hb. destruct (union_sense c l L n m R ts) as (c' & E & Es); try assumption.
  eexists. split; [exact E|]. unfold cells_with_surface. cbn [map snd filter]. replace (existsb _ (c_surfaces c')) with false; [reflexivity|]. symmetry.
  inversion Hb as [|? ? Hmb Hbs]; subst. apply Forall_app in Hbs. destruct Hbs as [Hb1 Hb2]. inversion Hb2 as [|? ? Hnb Hb3]; subst.
  apply Bool.not_true_iff_false. rewrite existsb_exists. intros (x & Hx & Hq). rewrite Es in Hx. apply in_map_iff in Hx. destruct Hx as (z & <- & Hz).
  assert (Hzb : (Z.abs z < 2 ^ 53)%Z).
  { rewrite Forall_forall in Hb1, Hb3. apply in_app_iff in Hz. destruct Hz as [Hz|Hz]; [auto|]. destruct Hz as [<-|[<-|Hz]]; [assumption|lia|auto]. }
  apply feq_f_of_Z in Hq; try assumption. subst z. apply in_app_iff in Hz. destruct Hz as [Hz|[Hz|[Hz|Hz]]]; try lia; apply Hni, in_app_iff; [now left|right; now left|right; now right].
Qed.
Lemma trcl_numbers c l a b d : wf_cell_card c -> (0 <= b)%Z -> (0 <= d)%Z ->
  words l (cell_card_words c ++ [lit "trcl=(" ++ str_of_Z a; str_of_Z b; str_of_Z d ++ lit ")"]) -> column_one l ->
  exists c', process_cell_block [l] = Ok [(cc_number c, c')] /\ c_surfaces c' = map f_of_Z (card_surfaces c ++ [b; d]).
Proof.
  intros Hc Hb Hd Hw Hl.
  assert (Hx : texty (lit "trcl=(" ++ str_of_Z a)).
  { pose proof (texty_digits [] (lit "trcl=(") a [] (Forall_nil _) (Forall_nil _)) as G. rewrite app_nil_r in G. apply G.
    - repeat constructor; discriminate.
    - exists (chr 116), (lit "rcl=("). repeat split. intros [H|[H|[H|[]]]]; discriminate. }
  assert (HR : brackets (lit ")")) by (repeat constructor; right; now left).
  pose proof (entry_then c l (lit "trcl=(" ++ str_of_Z a) [GSurf [] b []; GSurf [] d (lit ")")] []) as G. cbn [map gtok_text app] in G. rewrite app_nil_r in G.
  apply G; try assumption; [now apply texty_word| |].
  - repeat constructor; assumption.
  - intros [[com imp] surfs]. rewrite step_texty by assumption. cbn. now rewrite app_nil_r.
Qed.

(** * Surface cards *)
Lemma surface_comment s l ws cw : wf_surface s -> surf_first l -> words l (ws ++ cw) -> map lower ws = surface_words s ->
  process_surface_block [l] = Ok [(s_number s, Surface (s_number s) (s_type s) (s_params s ++ map lower cw) (s_has_transform s) (s_transform s))].
Proof.
  intros Hs Hl Hw Hws.
  pose (s' := Surface (s_number s) (s_type s) (s_params s ++ map lower cw) (s_has_transform s) (s_transform s)).
  pose proof (surface_block_recovers [s'] [(ws ++ cw) ++ []] [l]) as G. cbn [map] in G. apply G.
  - apply (sl_card [] l (ws ++ cw) [] [] [] []); [constructor|assumption|assumption|constructor|now apply sl_nil].
  - constructor; [|constructor]. split; [exact Hs|]. rewrite app_nil_r, map_app, Hws. unfold surface_words, s'. cbn. f_equal.
    rewrite <- app_assoc. reflexivity.
  - constructor; [intros []|constructor].
Qed.
Lemma point_plane l nw n t ps : surf_first l -> words l (nw :: t :: ps) -> py_int (lower nw) = Ok n -> In (lower t) [lit "x"; lit "y"; lit "z"] ->
  process_surface_block [l] = Err ValueError.
Proof.
  intros Hl Hw Hn Ht. unfold process_surface_block. cbn [foldM]. erewrite surf_first_step by eassumption.
  cbn [bind]. destruct (surf_first_words _ _ Hl Hw) as [H0 Hww]. destruct (join_ne _ Hww H0) as (a & r & Ej).
  change (lit " ") with [c_space] in *. rewrite Ej, <- Ej. unfold flush_surface.
  rewrite (surface_bad_type (join [c_space] (nw :: t :: ps)) (lower nw) n (map lower (t :: ps))); [reflexivity|assumption| | |].
  - change (lower nw :: map lower (t :: ps)) with (map lower (nw :: t :: ps)). apply Forall_forall. intros x Hx. apply in_map_iff in Hx. destruct Hx as (y & <- & Hy).
    rewrite Forall_forall in Hww. apply Hww in Hy. destruct Hy as [Hy0 Hy]. split; [destruct y; [congruence|discriminate]|]. apply Forall_forall. intros z Hz. unfold lower in Hz.
    apply in_map_iff in Hz. destruct Hz as (q & <- & Hq). rewrite lower_ws. rewrite Forall_forall in Hy. auto.
  - rewrite lower_join. apply spaced_join.
  - left. exists (lower t), (map lower ps). split; [|split; [|reflexivity]].
    + intros [_ Hd]. destruct Ht as [E|[E|[E|[]]]]; rewrite <- E in Hd; inversion Hd; discriminate.
    + rewrite <- surface_type_spec. destruct Ht as [<-|[<-|[<-|[]]]]; discriminate.
Qed.

(** * Lone c lines *)
Lemma lone_c_tail body out rest : card_tail body out -> card_tail (body ++ lit "c" :: rest) out.
Proof.
  induction 1 as [|l r ls out Hc Hk H IH|l ls out Hf H IH|ls out H IH|l ls Hc Hf Hn]; cbn [app].
  - apply ct_stop; [intros [r E]; discriminate|intros (r & [E|E]); discriminate|discriminate].
  - now apply ct_cont.
  - now apply ct_comment.
  - now apply ct_empty.
  - now apply ct_stop.
Qed.
Lemma lone_c_found P pre h body rest out : (forall l, In l pre -> ~ P l) -> P h -> card_found P (pre ++ h :: body) out ->
  card_found P (pre ++ h :: body ++ lit "c" :: rest) out.
Proof.
  intros Hp Hh H. inversion H as [? Hn|pre' h' r post out' Hn' Hh' Hk Ht E]; subst.
  - elim (Hn h); [apply in_elt|assumption].
  - destruct (first_head_fun P _ _ _ _ _ _ Hn' Hh' Hp Hh E) as (-> & -> & ->). apply cf_some; try assumption. now apply lone_c_tail.
Qed.
Lemma lone_c_card card pre h body rest : (exists a t, card = a :: t /\ a <> chr 32) -> (forall l, In l pre -> ~ card_head card l) -> card_head card h ->
  get_card_lines (pre ++ h :: body ++ lit "c" :: rest) card = get_card_lines (pre ++ h :: body) card.
Proof.
  intros Hc Hp Hh. apply get_card_iff; [assumption|]. apply lone_c_found; try assumption. now apply get_card_iff.
Qed.
Lemma lone_c_material n pre h body rest : (0 <= n)%Z -> (forall l, In l pre -> ~ mat_head n l) -> mat_head n h ->
  rmap m_composition (read_material_lines n (pre ++ h :: body ++ lit "c" :: rest)) = rmap m_composition (read_material_lines n (pre ++ h :: body)).
Proof.
  intros Hn Hp Hh. unfold read_material_lines, material_text.
  assert (E : block_loop (is_mat_start n) false (pre ++ h :: body ++ lit "c" :: rest) = block_loop (is_mat_start n) false (pre ++ h :: body)).
  { apply mat_block; [assumption|]. apply lone_c_found; try assumption. now apply mat_block. }
  rewrite E. destruct (process_material_line _ n); reflexivity.
Qed.
