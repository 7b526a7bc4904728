(** Proofs about mcnp_input_reader: surfaces and cells. *)
From Coq Require Import Lia.
From Verif Require Import PyBase PyFloat PyFs SpecStr PyFacts SpecUtil M_util P_util M_input SpecInput PyNumFacts TextFacts P_input.

(** * Surface lines *)
Lemma incl_dec (a b : list str) : forallb (fun x => existsb (str_eqb x) b) a = true -> incl a b.
Proof.
  intros H x Hx. rewrite forallb_forall in H. specialize (H x Hx). apply existsb_exists in H.
  destruct H as (y & Hy & E). apply str_eqb_eq in E. now subst y.
Qed.
Lemma existsb_str x l : existsb (str_eqb x) l = true <-> In x l.
Proof.
  rewrite existsb_exists. split.
  - intros (y & Hy & E). apply str_eqb_eq in E. now subst y.
  - intros H. exists x. split; [assumption|apply str_eqb_refl].
Qed.
Lemma surface_type_spec t : is_surface_type_valid t = true <-> In t surface_mnemonics.
Proof.
  unfold is_surface_type_valid. rewrite orb_true_iff, !existsb_str, <- in_app_iff. split; apply incl_dec; vm_compute; reflexivity.
Qed.
Lemma mnemonic_not_digits t : In t surface_mnemonics -> is_digit_str t = false.
Proof.
  intros H. assert (G : forallb (fun t => negb (is_digit_str t)) surface_mnemonics = true) by (vm_compute; reflexivity).
  rewrite forallb_forall in G. apply G in H. now apply negb_true_iff in H.
Qed.
Lemma digit_str_spec t : is_digit_str t = true <-> digits t.
Proof.
  unfold is_digit_str, digits. destruct t as [|c t]; [split; [discriminate|tauto]|]. rewrite forallb_forall, Forall_forall. split; [|tauto].
  intros H. split; [discriminate|assumption].
Qed.
Lemma py_nth_0 {A} (x : A) l : py_nth (x :: l) 0 = Ok x. Proof. reflexivity. Qed.
Lemma py_nth_1 {A} (x y : A) l : py_nth (x :: y :: l) 1 = Ok y. Proof. reflexivity. Qed.
Lemma py_nth_2 {A} (x y z : A) l : py_nth (x :: y :: z :: l) 2 = Ok z. Proof. reflexivity. Qed.
Lemma slice_from_2 {A} (x y : A) l : slice_from 2 (x :: y :: l) = l.
Proof. now rewrite (slice_from_nat 2). Qed.
Lemma slice_from_3 {A} (x y z : A) l : slice_from 3 (x :: y :: z :: l) = l.
Proof. now rewrite (slice_from_nat 3). Qed.

Definition surface_of_words (ws : list str) : res surface :=
  do n0 <- py_nth ws 0;
  do number <- py_int n0;
  do has_transform <- check_surf_transform ws;
  do s <- (if has_transform : bool then
             do ty <- py_nth ws 2;
             do tr <- py_nth ws 1;
             Ok (Surface number ty (slice_from 3 ws) true (Some tr))
           else
             do ty <- py_nth ws 1;
             Ok (Surface number ty (slice_from 2 ws) false None));
  if is_surface_type_valid (s_type s) then Ok s else Err ValueError.
Lemma surface_line_words line ws : ws <> [] -> Forall word ws -> spaced ws (lower line) ->
  process_surface_line line = surface_of_words ws.
Proof.
  intros H0 Hw Hs. apply spaced_fun in Hs. unfold process_surface_line. cbv zeta.
  rewrite Hs, split_on_words by assumption. reflexivity.
Qed.
(** A surface as laid out by its words: number, transform if any, type, parameters. *)
Definition surf_layout_words (s : surface) (ws : list str) : Prop :=
  exists nw, py_int nw = Ok (s_number s) /\
    ws = nw :: match s_transform s with Some t => [t] | None => [] end ++ s_type s :: s_params s.
Lemma surface_of_words_Ok ws s : surface_of_words ws = Ok s <-> wf_surface s /\
  exists nw, py_int nw = Ok (s_number s) /\
    ws = nw :: match s_transform s with Some t => [t] | None => [] end ++ s_type s :: s_params s.
Proof.
  unfold surface_of_words, check_surf_transform. split.
  - intros H. destruct ws as [|w0 ws]; [discriminate|]. rewrite py_nth_0 in H. cbn [bind] in H.
    destruct (py_int w0) as [n|] eqn:En; cbn [bind] in H; [|discriminate].
    destruct ws as [|w1 ws]; [discriminate|]. rewrite py_nth_1 in H. cbn [bind] in H.
    destruct (is_digit_str w1) eqn:Ed.
    + destruct ws as [|w2 ws]; [discriminate|]. rewrite py_nth_2, slice_from_3 in H. cbn [bind s_type] in H.
      destruct (is_surface_type_valid w2) eqn:Et; [|discriminate]. injection H as <-. split.
      * split; [now apply surface_type_spec|split; [reflexivity|]]. cbn. intros t E; injection E as <-. now apply digit_str_spec.
      * exists w0. split; [assumption|reflexivity].
    + rewrite slice_from_2 in H. cbn [bind s_type] in H.
      destruct (is_surface_type_valid w1) eqn:Et; [|discriminate]. injection H as <-. split.
      * split; [now apply surface_type_spec|split; [reflexivity|]]. cbn. discriminate.
      * exists w0. split; [assumption|reflexivity].
  - intros ((Ht & Hf & Hd) & nw & Hn & ->). rewrite py_nth_0. cbn [bind]. rewrite Hn. cbn [bind].
    pose proof (proj2 (surface_type_spec _) Ht) as Hv. destruct s as [n ty ps ht tr]. cbn [s_transform s_has_transform s_type s_params s_number] in *. destruct tr as [t|].
    + cbn [app]. rewrite py_nth_1. cbn [bind]. rewrite (proj2 (digit_str_spec t)) by now apply Hd.
      rewrite py_nth_2, slice_from_3. cbn [bind s_type]. rewrite Hv. now subst ht.
    + cbn [app]. rewrite py_nth_1. cbn [bind]. rewrite (mnemonic_not_digits ty) by assumption.
      rewrite slice_from_2. cbn [bind s_type]. rewrite Hv. now subst ht.
Qed.
Lemma surface_line_iff line ws s : ws <> [] -> Forall word ws -> spaced ws (lower line) ->
  process_surface_line line = Ok s <-> wf_surface s /\
  exists nw, py_int nw = Ok (s_number s) /\
    ws = nw :: match s_transform s with Some t => [t] | None => [] end ++ s_type s :: s_params s.
Proof. intros H0 Hw Hs. rewrite (surface_line_words line ws) by assumption. apply surface_of_words_Ok. Qed.
Lemma surface_words_words s : wf_surface s -> Forall word (s_params s) -> Forall word (surface_words s).
Proof.
  intros (Ht & Hf & Hd) Hp. unfold surface_words. constructor.
  - destruct (str_of_Z_word (s_number s)). split; assumption.
  - apply Forall_app. split.
    + destruct (s_transform s) as [t|]; [|constructor]. destruct (Hd t eq_refl) as [Hd0 Hd1]. constructor; [|constructor].
      split; [assumption|]. eapply Forall_impl; [|exact Hd1]. intros c Hc.
      pose proof (ascii_all (fun c => implb (is_digit c) (negb (is_ws c))) ltac:(vm_compute; reflexivity) c) as G.
      cbv beta in G. rewrite Hc in G. cbn in G. now apply negb_true_iff in G.
    + constructor; [|assumption].
      assert (G : forallb (fun t => match t with [] => false | _ :: _ => true end && forallb (fun c => negb (is_ws c)) t) surface_mnemonics = true) by (vm_compute; reflexivity).
      rewrite forallb_forall in G. apply G in Ht. apply andb_true_iff in Ht. destruct Ht as [H1 H2]. split; [now destruct (s_type s)|].
      rewrite forallb_forall in H2. apply Forall_forall. intros c Hc. apply H2 in Hc. now apply negb_true_iff in Hc.
Qed.
Lemma surface_roundtrip s line : wf_surface s -> Forall word (s_params s) -> spaced (surface_words s) (lower line) ->
  process_surface_line line = Ok s.
Proof.
  intros Hw Hp Hs. apply (surface_line_iff line (surface_words s)); [discriminate|now apply surface_words_words|assumption|].
  split; [assumption|]. exists (str_of_Z (s_number s)). split; [apply py_int_str_of_Z|reflexivity].
Qed.
Lemma surface_bad_type line nw n ws : py_int nw = Ok n -> Forall word (nw :: ws) -> spaced (nw :: ws) (lower line) ->
  (exists t ps, ~ digits t /\ ~ In t surface_mnemonics /\ ws = t :: ps) \/
  (exists tr t ps, digits tr /\ ~ In t surface_mnemonics /\ ws = tr :: t :: ps) ->
  process_surface_line line = Err ValueError.
Proof.
  intros Hn Hw Hs H. rewrite (surface_line_words line (nw :: ws)) by (discriminate || assumption).
  unfold surface_of_words, check_surf_transform. rewrite py_nth_0. cbn [bind]. rewrite Hn. cbn [bind].
  destruct H as [(t & ps & Hd & Ht & ->)|(tr & t & ps & Hd & Ht & ->)]; rewrite py_nth_1; cbn [bind].
  - assert (E : is_digit_str t = false) by (destruct (is_digit_str t) eqn:E; [apply digit_str_spec in E; contradiction|reflexivity]).
    rewrite E. cbn [bind s_type]. rewrite <- surface_type_spec in Ht. destruct (is_surface_type_valid t); [congruence|reflexivity].
  - apply digit_str_spec in Hd. rewrite Hd, py_nth_2. cbn [bind s_type]. rewrite <- surface_type_spec in Ht. destruct (is_surface_type_valid t); [congruence|reflexivity].
Qed.
Lemma surface_short line nw n : py_int nw = Ok n -> word nw -> spaced [nw] (lower line) -> process_surface_line line = Err IndexError.
Proof.
  intros Hn Hw Hs. rewrite (surface_line_words line [nw]) by (discriminate || (constructor; auto) || assumption).
  unfold surface_of_words. rewrite py_nth_0. cbn [bind]. rewrite Hn. reflexivity.
Qed.

(** * Surface blocks *)
Lemma surf_noise_step l st : surf_noise l -> surface_step st l = Ok st.
Proof.
  intros (Hc & H). destruct st as [sl d]. unfold surface_step. apply continue_specF in Hc. rewrite Hc.
  destruct (str_eqb (strip l) []) eqn:E; [reflexivity|]. apply blank_stripF in E. destruct H as [H|(a & r & -> & Ha)]; [contradiction|].
  cbn. change (lit "c") with [chr 99]. cbn [starts_with]. rewrite Ha. reflexivity.
Qed.
Lemma surf_noise_steps ls st : Forall surf_noise ls -> foldM surface_step ls st = Ok st.
Proof. induction 1 as [|l ls Hl Hls IH]; cbn; [reflexivity|]. now rewrite surf_noise_step. Qed.
Lemma surf_body_steps ls ws : surf_body ls ws -> forall cur d, cur <> [] -> Forall word cur ->
  foldM surface_step ls (join [c_space] cur, d) = Ok (join [c_space] (cur ++ ws), d) /\ Forall word (cur ++ ws).
Proof.
  induction 1 as [|l ls ws Hn Hb IH|l w ls ws Hc Hw H0 Hb IH]; intros cur d Hcur Hwc.
  - rewrite app_nil_r. auto.
  - cbn [foldM]. rewrite surf_noise_step by assumption. auto.
  - cbn [foldM surface_step]. apply continue_spec in Hc. rewrite Hc.
    apply words_split in Hw. rewrite string_cleaner_words, Hw.
    change (lit " ") with [c_space]. rewrite <- join_app by assumption. rewrite app_assoc. apply IH.
    + destruct cur; [congruence|discriminate].
    + apply Forall_app. split; [assumption|]. rewrite <- Hw. apply split_ws_words.
Qed.
Lemma surf_first_step l w sl d : surf_first l -> words l w ->
  surface_step (sl, d) l = match sl with
    | _ :: _ => do d <- flush_surface sl d; Ok (join [c_space] w, d)
    | [] => Ok (join [c_space] w, d) end.
Proof.
  intros (Hc & Hb & Hn) Hw. unfold surface_step. apply continue_specF in Hc. rewrite Hc. apply blank_stripF in Hb. rewrite Hb.
  apply words_split in Hw. rewrite string_cleaner_words, Hw.
  replace (starts_with (lit "c") (lower l)) with false; [reflexivity|]. symmetry.
  destruct l as [|a r]; [reflexivity|]. change (lit "c") with [chr 99]. cbn [lower map starts_with].
  destruct (Ascii.eqb_spec (chr 99) (lower_c a)) as [E|E]; [|reflexivity]. elim Hn. exists a, r. auto.
Qed.
Lemma surf_first_words l w : surf_first l -> words l w -> w <> [] /\ Forall word w.
Proof.
  intros (_ & Hb & _) Hw. apply words_split in Hw. subst w. split; [|apply split_ws_words]. intros E. apply split_ws_nil_iff in E. contradiction.
Qed.
Lemma join_ne ws : Forall word ws -> ws <> [] -> exists c t, join [c_space] ws = c :: t.
Proof. intros H H0. destruct (join_words_head ws H H0) as (c & t & E & _). eauto. Qed.
Lemma lower_join ws : lower (join [c_space] ws) = join [c_space] (map lower ws).
Proof.
  induction ws as [|w ws IH]; [reflexivity|]. destruct ws as [|v ws]; [reflexivity|].
  cbn [map] in *. rewrite !join_cons, !lower_app. change (map lower (v :: ws)) with (lower v :: map lower ws). cbn [map] in *. rewrite IH. reflexivity.
Qed.
Lemma flush_card ws s d : ws <> [] -> Forall word ws -> wf_surface s -> map lower ws = surface_words s ->
  flush_surface (join [c_space] ws) d = Ok (dict_set Z.eqb (s_number s) s d).
Proof.
  intros H0 Hw Hs E. unfold flush_surface.
  assert (Hww : Forall word (surface_words s)).
  { rewrite <- E. clear - Hw. induction Hw; cbn; constructor; [now apply lower_word|assumption]. }
  assert (Hsp : spaced (surface_words s) (lower (join [c_space] ws))) by (apply spaced_fun; rewrite lower_join; now rewrite E).
  assert (Hp : process_surface_line (join [c_space] ws) = Ok s).
  { apply (surface_line_iff _ (surface_words s)); [discriminate|assumption|assumption|].
    split; [assumption|]. exists (str_of_Z (s_number s)). split; [apply py_int_str_of_Z|reflexivity]. }
  rewrite Hp. reflexivity.
Qed.
Definition add_surface (d : list (Z * surface)) (s : surface) := dict_set Z.eqb (s_number s) s d.
Lemma surf_block_steps cards lines : surf_layout cards lines -> forall ss cur s0 d,
  cur <> [] -> Forall word cur -> wf_surface s0 -> map lower cur = surface_words s0 ->
  Forall2 (fun s ws => wf_surface s /\ map lower ws = surface_words s) ss cards ->
  (do st <- foldM surface_step lines (join [c_space] cur, d);
   let '(surf_line, d) := st in
   match surf_line with _ :: _ => flush_surface surf_line d | [] => Ok d end) =
  Ok (fold_left add_surface (s0 :: ss) d).
Proof.
  induction 1 as [ls Hn|pre l w ls ws cards rest Hpre Hl Hw Hb Hrest IH]; intros ss cur s0 d H0 Hcw Hs0 Hcur HF.
  - inversion HF; subst. rewrite surf_noise_steps by assumption. cbn [bind fold_left].
    destruct (join_ne cur Hcw H0) as (c & t & E). rewrite E, <- E. now apply flush_card.
  - inversion HF as [|s1 ? ss' ? [Hs1 E1] HF']; subst. rewrite foldM_app, surf_noise_steps by assumption. cbn [foldM bind].
    rewrite (surf_first_step l w) by assumption. destruct (join_ne cur Hcw H0) as (c & t & E). rewrite E, <- E.
    rewrite (flush_card cur s0) by assumption. cbn [bind]. rewrite foldM_app.
    destruct (surf_first_words l w Hl Hw) as [Hw0 Hww].
    destruct (surf_body_steps ls ws Hb w (dict_set Z.eqb (s_number s0) s0 d) Hw0 Hww) as [-> Hall]. cbn [fold_left bind].
    rewrite (IH ss' (w ++ ws) s1); try assumption; [reflexivity|]. destruct w; [congruence|discriminate].
Qed.
Lemma fold_add_surfaces ss d : NoDup (map fst d ++ map s_number ss) ->
  fold_left add_surface ss d = d ++ map (fun s => (s_number s, s)) ss.
Proof.
  revert d. induction ss as [|s ss IH]; intros d H; cbn [fold_left map]; [now rewrite app_nil_r|].
  unfold add_surface at 2. rewrite (dict_set_fresh Z.eqb Z.eqb_spec).
  - rewrite IH; [now rewrite <- app_assoc|]. rewrite map_app. cbn [map fst]. rewrite <- app_assoc. exact H.
  - cbn [map] in H. apply NoDup_remove_2 in H. intros Hi. apply H. apply in_app_iff. now left.
Qed.
Lemma surface_block_recovers ss cards lines :
  surf_layout cards lines ->
  Forall2 (fun s ws => wf_surface s /\ map lower ws = surface_words s) ss cards ->
  NoDup (map s_number ss) ->
  process_surface_block lines = Ok (map (fun s => (s_number s, s)) ss).
Proof.
  intros HL HF HN. unfold process_surface_block. inversion HL as [ls Hn|pre l w ls ws cards' rest Hpre Hl Hw Hb Hrest]; subst.
  - inversion HF; subst. rewrite surf_noise_steps by assumption. reflexivity.
  - inversion HF as [|s1 ? ss' ? [Hs1 E1] HF']; subst. rewrite foldM_app, surf_noise_steps by assumption. cbn [foldM bind].
    rewrite (surf_first_step l w) by assumption. rewrite foldM_app.
    destruct (surf_first_words l w Hl Hw) as [Hw0 Hww].
    destruct (surf_body_steps ls ws Hb w [] Hw0 Hww) as [-> Hall]. cbn [bind].
    rewrite (surf_block_steps cards' rest Hrest ss' (w ++ ws) s1 []); try assumption.
    + f_equal. apply (fold_add_surfaces (s1 :: ss') []). exact HN.
    + destruct w; [congruence|discriminate].
Qed.

(** * Cell cards *)
Lemma bracket_In c : is_bracket c = true <-> In c (lit "()-").
Proof.
  unfold is_bracket. change (In c (lit "()-")) with (chr 40 = c \/ chr 41 = c \/ chr 45 = c \/ False).
  rewrite !orb_true_iff, !Ascii.eqb_eq. intuition congruence.
Qed.
Lemma strip_around p l s r : Forall (fun c => p c = true) l -> Forall (fun c => p c = true) r ->
  (exists a t, s = a :: t /\ p a = false) -> (exists t a, s = t ++ [a] /\ p a = false) ->
  rstrip_by p (lstrip_by p (l ++ s ++ r)) = s.
Proof.
  intros Hl Hr (a & t & E & Ha) (t' & a' & E' & Ha'). rewrite lstrip_by_app by assumption.
  rewrite E. cbn [app]. rewrite lstrip_by_id by assumption. change (a :: t ++ r) with ((a :: t) ++ r). rewrite <- E.
  rewrite rstrip_by_app by assumption. rewrite E'. now apply rstrip_by_last.
Qed.
Lemma decimal_facts c : is_decimal c = true -> is_bracket c = false /\ Ascii.eqb c_dollar c = false /\ Ascii.eqb c c_colon = false /\ lower_c c = c /\ is_digit c = true /\ c <> chr 105.
Proof.
  intros H. pose proof (ascii_all (fun c => implb (is_decimal c) (negb (is_bracket c) && negb (Ascii.eqb c_dollar c) && negb (Ascii.eqb c c_colon) && Ascii.eqb (lower_c c) c && is_digit c && negb (Ascii.eqb c (chr 105)))) ltac:(vm_compute; reflexivity) c) as G.
  cbv beta in G. rewrite H in G. cbn [implb] in G. rewrite !andb_true_iff, !negb_true_iff in G.
  destruct G as (((((G1 & G2) & G3) & G4) & G5) & G6). apply Ascii.eqb_eq in G4. apply Ascii.eqb_neq in G6. auto 10.
Qed.
Lemma brackets_true s : brackets s -> Forall (fun c => is_bracket c = true) s.
Proof. apply Forall_impl. intros c. apply bracket_In. Qed.
Lemma bracket_facts c : is_bracket c = true -> Ascii.eqb c_dollar c = false.
Proof.
  intros H. pose proof (ascii_all (fun c => implb (is_bracket c) (negb (Ascii.eqb c_dollar c))) ltac:(vm_compute; reflexivity) c) as G.
  cbv beta in G. rewrite H in G. now apply negb_true_iff in G.
Qed.
Lemma no_dollar s : Forall (fun c => Ascii.eqb c_dollar c = false) s -> contains [c_dollar] s = false.
Proof. rewrite contains_char. induction 1 as [|c s Hc Hs IH]; [reflexivity|]. cbn. now rewrite Hc. Qed.
Lemma lacks_no_imp s : ~ In (chr 105) (lower s) -> contains (lit "imp") (lower s) = false.
Proof.
  intros H. apply contains_false. intros (a & b & E). apply H. rewrite E. apply in_app_iff. right. left. reflexivity.
Qed.
Definition colon_join (n : Z) (ns : list Z) : str := str_of_Z n ++ concat (map (fun m => chr 58 :: str_of_Z m) ns).
Lemma colon_join_join n ns : colon_join n ns = join [c_colon] (map str_of_Z (n :: ns)).
Proof.
  unfold colon_join. revert n. induction ns as [|m ns IH]; intros n; [cbn; now rewrite app_nil_r|].
  cbn [map]. rewrite join_cons. f_equal. cbn [concat map]. specialize (IH m). cbn [map] in IH. rewrite <- IH. reflexivity.
Qed.
Definition geom_char (c : ascii) : bool := is_decimal c || Ascii.eqb c c_colon.
Lemma colon_join_chars n ns : (0 <= n)%Z -> Forall (fun m => 0 <= m)%Z ns -> Forall (fun c => geom_char c = true) (colon_join n ns).
Proof.
  intros Hn Hns. unfold colon_join. apply Forall_app. assert (G : forall z, (0 <= z)%Z -> Forall (fun c => geom_char c = true) (str_of_Z z)).
  { intros z Hz. eapply Forall_impl; [|apply (str_of_Z_nonneg z Hz)]. intros c Hc. unfold geom_char. now rewrite Hc. }
  split; [now apply G|]. induction Hns as [|m ns Hm Hns IH]; [constructor|]. cbn. constructor; [reflexivity|]. apply Forall_app. split; [now apply G|assumption].
Qed.
Lemma geom_char_facts c : geom_char c = true -> Ascii.eqb c_dollar c = false /\ is_bracket c = false /\ lower_c c <> chr 105 /\ is_ws c = false.
Proof.
  intros H. pose proof (ascii_all (fun c => implb (geom_char c) (negb (Ascii.eqb c_dollar c) && negb (is_bracket c) && negb (Ascii.eqb (lower_c c) (chr 105)) && negb (is_ws c))) ltac:(vm_compute; reflexivity) c) as G.
  cbv beta in G. rewrite H in G. cbn [implb] in G. rewrite !andb_true_iff, !negb_true_iff in G. destruct G as (((G1 & G2) & G3) & G4). apply Ascii.eqb_neq in G3. auto.
Qed.
Lemma mapM_floats ns : Forall (fun m => 0 <= m)%Z ns -> mapM py_float (map str_of_Z ns) = Ok (map f_of_Z ns).
Proof. induction 1 as [|m ns Hm Hns IH]; [reflexivity|]. cbn. now rewrite py_float_str_of_Z, IH. Qed.
Lemma colon_split n ns : split_on c_colon (colon_join n ns) = map str_of_Z (n :: ns).
Proof.
  rewrite colon_join_join. apply split_on_join; [discriminate|]. apply Forall_forall. intros s Hs. apply in_map_iff in Hs. destruct Hs as (z & <- & _).
  intros Hi. destruct z as [|p|p].
  - cbn in Hi. vm_compute in Hi. intuition discriminate.
  - destruct (str_of_N_spec (N.pos p)) as (_ & Hd & _). rewrite Forall_forall in Hd. apply Hd in Hi. discriminate.
  - destruct Hi as [Hi|Hi]; [discriminate|]. destruct (str_of_N_spec (N.pos p)) as (_ & Hd & _). rewrite Forall_forall in Hd. apply Hd in Hi. discriminate.
Qed.
Lemma ends_of (p : ascii -> bool) (s : str) : s <> [] -> Forall (fun c => p c = false) s ->
  (exists a t, s = a :: t /\ p a = false) /\ (exists t a, s = t ++ [a] /\ p a = false).
Proof.
  intros H0 H. split.
  - destruct s as [|a t]; [congruence|]. inversion H; subst. eauto.
  - destruct (snoc_cases s) as [->|(t & a & ->)]; [congruence|]. apply Forall_app in H. destruct H as [_ H]. inversion H; subst. eauto.
Qed.
Lemma geom_numbers st l n ns r : brackets l -> brackets r -> (0 <= n)%Z -> Forall (fun m => 0 <= m)%Z ns ->
  geom_step st (l ++ colon_join n ns ++ r) = Ok (fst (fst st), snd (fst st), snd st ++ map f_of_Z (n :: ns)).
Proof.
  intros Hl Hr Hn Hns. destruct st as [[com imp] surfs]. cbn [fst snd]. unfold geom_step.
  pose proof (colon_join_chars n ns Hn Hns) as Hc. apply brackets_true in Hl, Hr.
  assert (H0 : colon_join n ns <> []). { unfold colon_join. destruct (str_of_Z_nonneg n Hn) as [_ H]. destruct (str_of_Z n); [congruence|discriminate]. }
  assert (Hfirst : exists c t, colon_join n ns = c :: t /\ is_digit c = true).
  { unfold colon_join. destruct (str_of_Z_nonneg n Hn) as [Hd H]. destruct (str_of_Z n) as [|c t]; [congruence|]. inversion Hd; subst. exists c, (t ++ concat (map (fun m => chr 58 :: str_of_Z m) ns)). split; [reflexivity|].
    now apply decimal_facts. }
  rewrite no_dollar.
  2:{ rewrite !Forall_app. repeat split.
      - eapply Forall_impl; [|exact Hl]. intros c; apply bracket_facts.
      - eapply Forall_impl; [|exact Hc]. intros c H; now apply geom_char_facts in H.
      - eapply Forall_impl; [|exact Hr]. intros c; apply bracket_facts. }
  cbn [bind].
  assert (Hstrip : strip_brackets (l ++ colon_join n ns ++ r) = colon_join n ns).
  { unfold strip_brackets. destruct (ends_of is_bracket (colon_join n ns) H0) as [E1 E2].
    - eapply Forall_impl; [|exact Hc]. intros c H; now apply geom_char_facts in H.
    - now apply strip_around. }
  assert (Hne : l ++ colon_join n ns ++ r <> []) by (destruct l; [destruct (colon_join n ns); [congruence|]|]; discriminate).
  destruct (l ++ colon_join n ns ++ r) as [|x xs] eqn:E; [congruence|]. cbv zeta. rewrite Hstrip.
  rewrite lacks_no_imp.
  2:{ unfold lower. rewrite in_map_iff. intros (c & E1 & E2). rewrite Forall_forall in Hc. apply Hc in E2. apply geom_char_facts in E2. tauto. }
  destruct Hfirst as (c & t & Ef & Hd). replace (py_nth (colon_join n ns) 0) with (@Ok ascii c) by (rewrite Ef; reflexivity). cbn [bind]. rewrite Hd.
  rewrite colon_split, mapM_floats by (constructor; assumption). reflexivity.
Qed.
Lemma split_on_last sep a b : ~ In sep b -> py_nth (split_on sep (a ++ sep :: b)) (-1) = Ok b.
Proof.
  intros Hb. induction a as [|x a IH].
  - cbn [app split_on]. rewrite Ascii.eqb_refl, split_on_lacks by assumption. reflexivity.
  - cbn [app split_on]. destruct (Ascii.eqb x sep).
    + destruct (snoc_cases (split_on sep (a ++ sep :: b))) as [E|(t & y & E)]; [now apply split_on_ne in E|].
      rewrite E in IH |- *. rewrite py_nth_last in IH. injection IH as ->. apply (py_nth_last ([] :: t)).
    + destruct (split_on sep (a ++ sep :: b)) as [|w ws] eqn:E; [now apply split_on_ne in E|].
      destruct (snoc_cases ws) as [->|(t & y & ->)].
      * exfalso. assert (L : length (split_on sep (a ++ sep :: b)) = 1) by now rewrite E.
        clear -L. induction a as [|z a IHa]; cbn [app split_on] in L.
        -- rewrite Ascii.eqb_refl in L. cbn in L. destruct (split_on sep b) eqn:E; [now apply split_on_ne in E|discriminate].
        -- destruct (Ascii.eqb z sep).
           ++ cbn in L. destruct (split_on sep (a ++ sep :: b)) eqn:E; [now apply split_on_ne in E|discriminate].
           ++ destruct (split_on sep (a ++ sep :: b)) as [|u us] eqn:E; [now apply split_on_ne in E|]. apply IHa. exact L.
      * change (w :: t ++ [y]) with ((w :: t) ++ [y]) in IH. rewrite py_nth_last in IH. injection IH as ->.
        change ((x :: w) :: t ++ [b]) with (((x :: w) :: t) ++ [b]). apply py_nth_last.
Qed.
Lemma geom_imp st name p v x : wf_gtok (GImp name p v x) ->
  geom_step st (gtok_text (GImp name p v x)) = Ok (fst (fst st), dict_set Ascii.eqb p x (snd (fst st)), snd st).
Proof.
  intros (Hname & (Hp1 & Hp2 & Hp3 & Hp4 & Hp5) & Hv & Hv0 & Hvc & (u & c & Hu & Hc)). destruct st as [[com imp] surfs]. cbn [fst snd gtok_text]. unfold geom_step.
  unfold same_case in Hname. change (lower (lit "imp")) with (lit "imp") in Hname.
  destruct name as [|a [|b [|d [|? ?]]]]; try discriminate Hname.
  pose proof Hname as Hl. cbn in Hl. injection Hl as Ea Eb Ed.
  assert (Hnd : forall y z, lower_c y = z -> caseless (chr 36) = true -> z <> chr 36 -> Ascii.eqb c_dollar y = false).
  { intros y z E _ Hz. apply Ascii.eqb_neq. intros <-. apply Hz. rewrite <- E. reflexivity. }
  assert (Hco : forall y z, lower_c y = z -> z <> chr 58 -> y <> chr 58).
  { intros y z E Hz ->. apply Hz. rewrite <- E. reflexivity. }
  assert (Hno : Forall (fun c => Ascii.eqb c_dollar c = false) ([a; b; d] ++ chr 58 :: p :: chr 61 :: v)).
  { apply Forall_app. split.
    - repeat constructor; eapply Hnd; try eassumption; try (vm_compute; reflexivity); discriminate.
    - constructor; [reflexivity|]. constructor; [apply Ascii.eqb_neq; intros Hq; now apply Hp2|]. constructor; [reflexivity|].
      eapply Forall_impl; [|exact Hvc]. intros y (_ & Hy & _). apply Ascii.eqb_neq. intros Hq; now apply Hy. }
  rewrite no_dollar by assumption. cbn [bind app].
  set (s := a :: b :: d :: chr 58 :: p :: chr 61 :: v).
  assert (Hstrip : strip_brackets s = s).
  { pose proof (strip_around is_bracket [] s [] ltac:(constructor) ltac:(constructor)) as G.
    rewrite app_nil_r in G. apply G.
    - exists a. eexists. split; [reflexivity|]. destruct (is_bracket a) eqn:E; [|reflexivity]. apply bracket_In in E.
      destruct E as [<-|[<-|[<-|[]]]]; discriminate Ea.
    - exists ([a; b; d] ++ chr 58 :: p :: chr 61 :: u), c. split; [unfold s; rewrite Hu; reflexivity|].
      destruct (is_bracket c) eqn:E; [|reflexivity]. apply bracket_In in E. contradiction. }
  cbv zeta. rewrite Hstrip.
  assert (Hcon : contains (lit "imp") (lower s) = true).
  { apply contains_spec. exists [], (lower (chr 58 :: p :: chr 61 :: v)). unfold s. change (lower (a :: b :: d :: chr 58 :: p :: chr 61 :: v)) with (lower [a; b; d] ++ lower (chr 58 :: p :: chr 61 :: v)). rewrite Hname. reflexivity. }
  rewrite Hcon. unfold process_imp.
  assert (E1 : py_nth (split_on c_equal s) (-1) = Ok v).
  { change s with ((a :: b :: d :: chr 58 :: p :: []) ++ c_equal :: v). apply split_on_last. intros Hi. rewrite Forall_forall in Hvc. apply Hvc in Hi. tauto. }
  rewrite E1. cbn [bind].
  assert (E2 : split_on c_colon s = [a; b; d] :: [p :: chr 61 :: v]).
  { change s with ([a; b; d] ++ c_colon :: (p :: chr 61 :: v)). rewrite split_on_app.
    - rewrite split_on_lacks; [reflexivity|]. intros [Hi|[Hi|Hi]]; [now apply Hp3|discriminate|]. rewrite Forall_forall in Hvc. apply Hvc in Hi. tauto.
    - intros [Hi|[Hi|[Hi|[]]]]; subst; discriminate. }
  rewrite E2, py_nth_1. cbn [bind]. rewrite py_nth_0. cbn [bind]. rewrite Hv. reflexivity.
Qed.
Lemma geom_tok st t : wf_gtok t ->
  geom_step st (gtok_text t) = Ok (fst (fst st), gtok_imp (snd (fst st)) t, snd st ++ map f_of_Z (gtok_surfaces t)).
Proof.
  destruct t as [l n r|l n ns r|name p v x]; intros H.
  - destruct H as (Hl & Hn & Hr). cbn [gtok_text gtok_surfaces gtok_imp].
    pose proof (geom_numbers st l n [] r Hl Hr Hn (Forall_nil _)) as G. unfold colon_join in G. cbn [map concat] in G. now rewrite app_nil_r in G.
  - destruct H as (Hl & Hn & Hns & Hr). cbn [gtok_text gtok_surfaces gtok_imp].
    pose proof (geom_numbers st l n ns r Hl Hr Hn Hns) as G. unfold colon_join in G. rewrite <- app_assoc in G. exact G.
  - rewrite geom_imp by assumption. cbn. now rewrite app_nil_r.
Qed.
Lemma geom_toks ts st : Forall wf_gtok ts ->
  foldM geom_step (map gtok_text ts) st = Ok (fst (fst st), fold_left gtok_imp ts (snd (fst st)), snd st ++ map f_of_Z (concat (map gtok_surfaces ts))).
Proof.
  intros H. revert st. induction H as [|t ts Ht Hts IH]; intros [[com imp] surfs].
  - cbn. now rewrite app_nil_r.
  - cbn [map foldM]. rewrite geom_tok by assumption. cbn [fst snd]. rewrite IH. cbn [fst snd fold_left concat map].
    now rewrite map_app, app_assoc.
Qed.
Lemma gtok_word t : wf_gtok t -> word (gtok_text t).
Proof.
  assert (Hb : forall s, brackets s -> Forall (fun c => is_ws c = false) s).
  { intros s. apply Forall_impl. intros c [<-|[<-|[<-|[]]]]; reflexivity. }
  destruct t as [l n r|l n ns r|name p v x]; cbn [gtok_text].
  - intros (Hl & Hn & Hr). destruct (str_of_Z_word n) as [H1 H2]. split.
    + destruct l; [destruct (str_of_Z n); [congruence|]|]; discriminate.
    + rewrite !Forall_app. auto.
  - intros (Hl & Hn & Hns & Hr). destruct (str_of_Z_word n) as [H1 H2]. split.
    + destruct l; [destruct (str_of_Z n); [congruence|]|]; discriminate.
    + rewrite !Forall_app. repeat split; auto. clear -Hns. induction ns as [|m ns IH]; [constructor|]. cbn. constructor; [reflexivity|].
      inversion Hns; subst. apply Forall_app. split; [apply str_of_Z_word|auto].
  - intros (Hname & (Hp1 & _) & _ & _ & Hvc & _). split; [destruct name; discriminate|]. apply Forall_app. split.
    + apply (f_equal (fun s => forallb (fun c => negb (is_ws c)) s)) in Hname.
      change (forallb (fun c => negb (is_ws c)) (lower (lit "imp"))) with true in Hname. apply Forall_forall. intros c Hc.
      rewrite forallb_forall in Hname. specialize (Hname (lower_c c) (in_map _ _ _ Hc)). rewrite lower_ws in Hname. now apply negb_true_iff in Hname.
    + constructor; [reflexivity|]. constructor; [assumption|]. constructor; [reflexivity|]. eapply Forall_impl; [|exact Hvc]. cbv beta. tauto.
Qed.
Lemma cell_words_ok c : wf_cell_card c -> Forall word (cell_card_words c).
Proof.
  intros (Hn & Hd & Hg). unfold cell_card_words. assert (Hz : forall z, word (str_of_Z z)) by (intros z; destruct (str_of_Z_word z); split; assumption).
  constructor; [apply Hz|]. constructor; [apply Hz|]. apply Forall_app. split.
  - destruct (cc_density c) as [[t x]|]; [|constructor]. constructor; [tauto|constructor].
  - apply Forall_forall. intros s Hs. apply in_map_iff in Hs. destruct Hs as (g & <- & Hi). rewrite Forall_forall in Hg. apply gtok_word. auto.
Qed.
Lemma start_card c l : wf_cell_card c -> words l (cell_card_words c) ->
  start_cell l = Ok (Cell (cc_number c) (cc_mat c) (match cc_density c with Some (_, x) => Some x | None => None end) [] [] [] [], map gtok_text (cc_geom c)).
Proof.
  intros Hw Hl. apply words_split in Hl. unfold start_cell. cbv zeta. rewrite string_cleaner_words, Hl, split_on_words by (discriminate || now apply cell_words_ok).
  unfold cell_card_words. rewrite py_nth_0. cbn [bind]. rewrite py_int_str_of_Z. cbn [bind]. rewrite py_nth_1. cbn [bind]. rewrite py_int_str_of_Z. cbn [bind].
  destruct Hw as (Hn & Hd & Hg). destruct (cc_density c) as [[t x]|].
  - destruct Hd as (Hm & Hx & Ht). destruct (Z.eqb_spec (cc_mat c) 0); [contradiction|]. cbn [app]. rewrite py_nth_2. cbn [bind]. rewrite Hx. cbn [bind]. now rewrite slice_from_3.
  - rewrite Hd. cbn [Z.eqb]. cbn [app]. now rewrite slice_from_2.
Qed.
Lemma finish_card c d : wf_cell_card c ->
  finish_cell (Some (Cell (cc_number c) (cc_mat c) (match cc_density c with Some (_, x) => Some x | None => None end) [] [] [] []), map gtok_text (cc_geom c), d)
  = Ok (dict_set Z.eqb (cc_number c) (cell_of_card c) d).
Proof.
  intros (Hn & Hd & Hg). unfold finish_cell, process_geom. cbn [c_comment c_imp c_number c_mat c_density]. rewrite geom_toks by assumption. reflexivity.
Qed.
Lemma cell_noise_step l st : cell_noise l -> cell_step st l = Ok st.
Proof.
  intros (Hc & a & r & -> & Ha). destruct st as [[c g] d]. unfold cell_step. rewrite py_nth_0. cbn [bind]. rewrite Ha.
  apply continue_specF in Hc. now rewrite Hc.
Qed.
Lemma cell_noise_steps ls st : Forall cell_noise ls -> foldM cell_step ls st = Ok st.
Proof. induction 1 as [|l ls Hl Hls IH]; cbn; [reflexivity|]. now rewrite cell_noise_step. Qed.
Lemma card_first_digit c l : wf_cell_card c -> words l (cell_card_words c) -> (exists a r, l = a :: r /\ is_ws a = false) ->
  exists a r, l = a :: r /\ is_digit a = true.
Proof.
  intros (Hn & _) Hw (a & r & -> & Ha). exists a, r. split; [reflexivity|].
  inversion Hw as [|pre w rest ws Hp Hww Hr Hrest E1 E2]; subst. destruct pre as [|y pre].
  - destruct (str_of_Z_nonneg (cc_number c) Hn) as [Hd H0]. destruct (str_of_Z (cc_number c)) as [|y t]; [congruence|]. cbn in E1. injection E1 as <- _.
    inversion Hd; subst. now apply decimal_facts.
  - cbn in E1. injection E1 as -> _. inversion Hp; subst. congruence.
Qed.
Lemma cell_card_step c l st : wf_cell_card c -> words l (cell_card_words c) -> (exists a r, l = a :: r /\ is_ws a = false) ->
  cell_step st l = (do d <- (match fst (fst st) with None => Ok (snd st) | Some _ => finish_cell st end);
    Ok (Some (Cell (cc_number c) (cc_mat c) (match cc_density c with Some (_, x) => Some x | None => None end) [] [] [] []), map gtok_text (cc_geom c), d)).
Proof.
  intros Hc Hw Hl. destruct (card_first_digit c l Hc Hw Hl) as (a & r & E & Ha). destruct st as [[c0 g] d]. unfold cell_step. rewrite E, py_nth_0. cbn [bind]. rewrite Ha, <- E.
  cbn [fst snd]. destruct (match c0 with Some _ => finish_cell (c0, g, d) | None => Ok d end) as [d'|]; [|reflexivity]. cbn [bind].
  rewrite (start_card c l) by assumption. reflexivity.
Qed.
Definition add_cell (d : list (Z * cell)) (c : cell_card) := dict_set Z.eqb (cc_number c) (cell_of_card c) d.
Lemma cell_steps cards lines : cell_layout cards lines -> Forall wf_cell_card cards -> forall c0 d, wf_cell_card c0 ->
  (do st <- foldM cell_step lines (Some (Cell (cc_number c0) (cc_mat c0) (match cc_density c0 with Some (_, x) => Some x | None => None end) [] [] [] []), map gtok_text (cc_geom c0), d); finish_cell st)
  = Ok (fold_left add_cell (c0 :: cards) d).
Proof.
  induction 1 as [ls Hn|pre l c cards rest Hpre Hw Hf Hrest IH]; intros Hwf c0 d H0.
  - rewrite cell_noise_steps by assumption. cbn [bind]. rewrite finish_card by assumption. reflexivity.
  - inversion Hwf as [|? ? Hc Hcs]; subst. rewrite foldM_app, cell_noise_steps by assumption. cbn [foldM bind].
    rewrite (cell_card_step c l) by assumption. cbn [fst snd]. rewrite finish_card by assumption. cbn [bind].
    rewrite IH by assumption. reflexivity.
Qed.
Lemma fold_add_cells cs d : NoDup (map fst d ++ map cc_number cs) ->
  fold_left add_cell cs d = d ++ map (fun c => (cc_number c, cell_of_card c)) cs.
Proof.
  revert d. induction cs as [|s ss IH]; intros d H; cbn [fold_left map]; [now rewrite app_nil_r|].
  unfold add_cell at 2. rewrite (dict_set_fresh Z.eqb Z.eqb_spec).
  - rewrite IH; [now rewrite <- app_assoc|]. rewrite map_app. cbn [map fst]. rewrite <- app_assoc. exact H.
  - cbn [map] in H. apply NoDup_remove_2 in H. intros Hi. apply H. apply in_app_iff. now left.
Qed.
Lemma cell_block_recovers cards lines : cards <> [] -> cell_layout cards lines -> Forall wf_cell_card cards -> NoDup (map cc_number cards) ->
  process_cell_block lines = Ok (map (fun c => (cc_number c, cell_of_card c)) cards).
Proof.
  intros H0 HL Hwf HN. unfold process_cell_block. inversion HL as [ls Hn|pre l c cards' rest Hpre Hw Hf Hrest]; subst; [congruence|].
  inversion Hwf as [|? ? Hc Hcs]; subst. rewrite foldM_app, cell_noise_steps by assumption. cbn [foldM bind].
  rewrite (cell_card_step c l) by assumption. cbn [fst snd bind].
  rewrite (cell_steps cards' rest) by assumption. f_equal. apply (fold_add_cells (c :: cards') []). exact HN.
Qed.
Lemma cell_block_none lines : Forall cell_noise lines -> process_cell_block lines = Err AttributeError.
Proof. intros H. unfold process_cell_block. rewrite cell_noise_steps by assumption. reflexivity. Qed.
