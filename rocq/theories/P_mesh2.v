(** Mesh tally tools: reading files. *)
From Coq Require Import Floats.SpecFloat Lia.
From Verif Require Import PyBase PyFacts PyFloat SpecStr TextFacts PyFrame M_mesh SpecMesh P_mcout6 P_mesh.

Lemma marker_in k w : nth_error markers k = Some w -> In w markers.
Proof. apply nth_error_In. Qed.
Lemma header_quiet m l : quiet l -> header_line m l = Ok (false, m).
Proof.
  intros H. unfold header_line.
  assert (E : forall w, In w markers -> contains w l = false) by (intros w Hw; apply contains_false, H, Hw).
  rewrite !E by (unfold markers; cbn [map In]; tauto). reflexivity.
Qed.
Lemma announces_contains k l : announces k l ->
  contains (lit "Mesh Tally Number") l = false /\
  (forall w, nth_error markers k = Some w -> contains w l = true) /\
  (forall j w, j < k -> nth_error markers j = Some w -> contains w l = false).
Proof.
  intros (H1 & (w & Hw & Ho) & H3). split; [apply contains_false; exact H1|]. split.
  - intros w' Hw'. apply contains_spec. congruence.
  - intros j w' Hj Hw'. apply contains_false. eapply H3; eassumption.
Qed.
Lemma clean_words l ws : words l ws -> clean l = join [c_space] ws.
Proof. intros H. unfold clean. apply words_split in H. rewrite H. reflexivity. Qed.
Lemma words_Forall l ws : words l ws -> Forall word ws.
Proof. intros H. apply words_split in H. rewrite <- H. apply split_ws_words. Qed.
Lemma words_from_spec k l ws bs : words l (ws ++ bs) -> length ws = k -> ws <> [] ->
  words_from (Z.of_nat k) l = bs.
Proof.
  intros H Hk Hne. unfold words_from. rewrite (clean_words _ _ H), split_on_words.
  - rewrite slice_from_nat, <- Hk, skipn_app, skipn_all, Nat.sub_diag. reflexivity.
  - intros E. apply app_eq_nil in E. tauto.
  - exact (words_Forall _ _ H).
Qed.
Lemma words_from_2 l ws bs : words l (ws ++ bs) -> length ws = 2 -> words_from 2 l = bs.
Proof. intros H Hk. apply (words_from_spec 2 l ws bs H Hk). intros ->; discriminate. Qed.
Lemma words_from_3 l ws bs : words l (ws ++ bs) -> length ws = 3 -> words_from 3 l = bs.
Proof. intros H Hk. apply (words_from_spec 3 l ws bs H Hk). intros ->; discriminate. Qed.
Lemma split_clean l r : words l r -> split_ws (clean l) = r.
Proof. intros H. rewrite (clean_words _ _ H). apply split_ws_join, (words_Forall _ _ H). Qed.
Lemma numbers_mids bs xs : numbers bs xs -> calc_mid_points bs = Ok (mid_points xs).
Proof. intros H. unfold calc_mid_points. rewrite (proj2 (mapM_Ok_iff py_float bs xs) H). reflexivity. Qed.

Lemma header_x m l bs xs : bounds_line 2 0 l bs -> numbers bs xs -> header_line m l = Ok (false, set_x m bs (mid_points xs)).
Proof.
  intros (A & ws & Hw & Hl) Hn. destruct (announces_contains 0 l A) as (_ & AT & AF). unfold header_line.
  rewrite (AT _ eq_refl). rewrite (words_from_2 l ws bs Hw Hl).
  cbv zeta. rewrite (numbers_mids _ _ Hn). reflexivity.
Qed.
Lemma header_y m l bs xs : bounds_line 2 1 l bs -> numbers bs xs -> header_line m l = Ok (false, set_y m bs (mid_points xs)).
Proof.
  intros (A & ws & Hw & Hl) Hn. destruct (announces_contains 1 l A) as (_ & AT & AF). unfold header_line.
  rewrite (AF 0 _ ltac:(lia) eq_refl), (AT _ eq_refl).
  rewrite (words_from_2 l ws bs Hw Hl).
  cbv zeta. rewrite (numbers_mids _ _ Hn). reflexivity.
Qed.
Lemma header_z m l bs xs : bounds_line 2 2 l bs -> numbers bs xs -> header_line m l = Ok (false, set_z m bs (mid_points xs)).
Proof.
  intros (A & ws & Hw & Hl) Hn. destruct (announces_contains 2 l A) as (_ & AT & AF). unfold header_line.
  rewrite (AF 0 _ ltac:(lia) eq_refl), (AF 1 _ ltac:(lia) eq_refl), (AT _ eq_refl).
  rewrite (words_from_2 l ws bs Hw Hl).
  cbv zeta. rewrite (numbers_mids _ _ Hn). reflexivity.
Qed.
Lemma header_e m l bs : bounds_line 3 3 l bs -> header_line m l = Ok (false, set_e m bs).
Proof.
  intros (A & ws & Hw & Hl). destruct (announces_contains 3 l A) as (_ & AT & AF). unfold header_line.
  rewrite (AF 0 _ ltac:(lia) eq_refl), (AF 1 _ ltac:(lia) eq_refl), (AF 2 _ ltac:(lia) eq_refl), (AT _ eq_refl).
  rewrite (words_from_3 l ws bs Hw Hl). reflexivity.
Qed.
Lemma header_t m l bs : bounds_line 3 4 l bs -> header_line m l = Ok (false, set_t m bs).
Proof.
  intros (A & ws & Hw & Hl). destruct (announces_contains 4 l A) as (_ & AT & AF). unfold header_line.
  rewrite (AF 0 _ ltac:(lia) eq_refl), (AF 1 _ ltac:(lia) eq_refl), (AF 2 _ ltac:(lia) eq_refl),
    (AF 3 _ ltac:(lia) eq_refl), (AT _ eq_refl).
  rewrite (words_from_3 l ws bs Hw Hl). reflexivity.
Qed.
Definition ctype_for (k : kind) (old : option str) : option str :=
  match k with ByEnergy => old | ByTime => Some (lit "6col_t") | Plain => Some (lit "5col") end.
Definition with_ctype (k : kind) (m : mesh) : mesh :=
  match k with ByEnergy => m | ByTime => set_ctype m (lit "6col_t") | Plain => set_ctype m (lit "5col") end.
Lemma header_table m l k : announces (kind_marker k) l -> header_line m l = Ok (true, with_ctype k m).
Proof.
  intros A. destruct (announces_contains _ l A) as (_ & AT & AF). unfold header_line.
  rewrite (AF 0 _ ltac:(destruct k; cbn; lia) eq_refl), (AF 1 _ ltac:(destruct k; cbn; lia) eq_refl),
    (AF 2 _ ltac:(destruct k; cbn; lia) eq_refl), (AF 3 _ ltac:(destruct k; cbn; lia) eq_refl),
    (AF 4 _ ltac:(destruct k; cbn; lia) eq_refl).
  destruct k; cbn [kind_marker with_ctype] in *.
  - rewrite (AT _ eq_refl). reflexivity.
  - rewrite (AF 5 _ ltac:(lia) eq_refl), (AT _ eq_refl). reflexivity.
  - rewrite (AF 5 _ ltac:(lia) eq_refl), (AF 6 _ ltac:(lia) eq_refl), (AT _ eq_refl). reflexivity.
Qed.
Lemma header_particle m l p ws : announces 8 l -> words l (p :: ws) -> header_line m l = Ok (false, set_ptype m p).
Proof.
  intros A Hw. destruct (announces_contains _ l A) as (_ & AT & AF). unfold header_line.
  rewrite (AF 0 _ ltac:(lia) eq_refl), (AF 1 _ ltac:(lia) eq_refl), (AF 2 _ ltac:(lia) eq_refl),
    (AF 3 _ ltac:(lia) eq_refl), (AF 4 _ ltac:(lia) eq_refl), (AF 5 _ ltac:(lia) eq_refl),
    (AF 6 _ ltac:(lia) eq_refl), (AF 7 _ ltac:(lia) eq_refl), (AT _ eq_refl).
  rewrite (clean_words _ _ Hw), split_on_words by (try discriminate; exact (words_Forall _ _ Hw)). reflexivity.
Qed.

(** * The loop *)
Lemma step_header num l lines sel m ms b m' :
  ~ occurs number_text l -> header_line m l = Ok (b, m') ->
  read_lines num (l :: lines) false sel m ms = read_lines num lines b sel m' ms.
Proof.
  intros Hn Hh. cbn [read_lines andb]. apply contains_false in Hn. unfold number_text in Hn.
  rewrite Hn. cbn [bind]. rewrite Hh. reflexivity.
Qed.
Lemma read_gap num g lines sel m ms : gap g ->
  read_lines num (g ++ lines) false sel m ms = read_lines num lines false sel m ms.
Proof.
  induction 1 as [|l g [Hq Hn] _ IH]; [reflexivity|]. cbn [app].
  rewrite (step_header num l _ sel m ms false m Hn (header_quiet m l Hq)). exact IH.
Qed.
Definition add_rows (m : mesh) (rws : list (list str)) : mesh := fold_left add_row rws m.
Lemma occurs_space_number l : ~ occurs number_text l -> ~ occurs (chr 32 :: number_text) l.
Proof. intros H (a & b & ->). apply H. exists (a ++ [chr 32]), b. rewrite <- app_assoc. reflexivity. Qed.
Lemma read_rows num rows rws lines sel ms : 
  Forall2 (fun l r => ~ occurs number_text l /\ words l r) rows rws -> forall m,
  read_lines num (rows ++ lines) true sel m ms = read_lines num lines true sel (add_rows m rws) ms.
Proof.
  induction 1 as [|l r rows rws [Hn Hw] _ IH]; intros m; [reflexivity|]. cbn [app].
  change (add_rows m (r :: rws)) with (add_rows (add_row m r) rws). rewrite <- (IH (add_row m r)). cbn [read_lines andb].
  pose proof (occurs_space_number _ Hn) as Hn2. apply contains_false in Hn, Hn2.
  change (lit " Mesh Tally Number") with (chr 32 :: number_text). rewrite Hn2.
  change (lit "Mesh Tally Number") with number_text. rewrite Hn. cbn [andb negb bind].
  rewrite (split_clean _ _ Hw). reflexivity.
Qed.
Lemma add_rows_data m rows rws : data m = Raw rows -> add_rows m rws = set_data m (Raw (rows ++ rws)).
Proof.
  revert m rows. induction rws as [|r rws IH]; intros m rows H.
  - rewrite app_nil_r. destruct m. cbn in *. subst. reflexivity.
  - change (add_rows m (r :: rws)) with (add_rows (add_row m r) rws).
    assert (E : add_row m r = set_data m (Raw (rows ++ [r]))) by (unfold add_row; rewrite H; reflexivity).
    rewrite E, (IH _ (rows ++ [r])) by reflexivity.
    rewrite <- app_assoc. reflexivity.
Qed.
Lemma tally_number_spec l n : number_line l n -> tally_number l = Ok n.
Proof.
  intros (_ & _ & a & w & -> & Hw & Hn). unfold tally_number.
  assert (E : exists ps, split_on c_space (a ++ chr 32 :: w) = ps ++ [w]).
  { exists (split_on c_space a). change (chr 32) with c_space. rewrite split_on_app_gen. f_equal.
    apply split_on_lacks, lacks_In. exact Hw. }
  destruct E as (ps & ->). rewrite py_nth_last. exact Hn.
Qed.
(** The mesh of a description, starting from a mesh [m]. *)
Definition filled (m : mesh) (d : mesh_desc) (xs ys zs : list float) : mesh :=
  Mesh (Some (d_num d)) (Some (d_particle d)) (d_x d) (d_y d) (d_z d) (d_e d) (d_t d) (Raw (d_rows d))
    (mid_points xs) (mid_points ys) (mid_points zs) (ctype_for (d_kind d) (ctype m)).
Definition selects (num : option Z) (n : Z) : bool := match num with Some k => (n =? k)%Z | None => false end.

Lemma number_line_contains l n : number_line l n ->
  contains (lit " Mesh Tally Number") l = true /\ contains (lit "Mesh Tally Number") l = true.
Proof.
  intros (H & _). split; apply contains_spec; [exact H|]. destruct H as (a & b & ->).
  exists (a ++ [chr 32]), b. rewrite <- app_assoc. reflexivity.
Qed.
(** The lines of a mesh after its number. *)
Lemma mesh_lines_inv b d : mesh_lines b d -> exists ln body, b = ln :: body /\ number_line ln (d_num d) /\
  forall num rest sel ms xs ys zs m, numbers (d_x d) xs -> numbers (d_y d) ys -> numbers (d_z d) zs ->
    data m = Raw [] -> idnum m = Some (d_num d) -> e_bounds m = [] -> t_bounds m = [] ->
    read_lines num (body ++ rest) false sel m ms = read_lines num rest true sel (filled m d xs ys zs) ms.
Proof.
  destruct 1 as [ln g1 lp g2 lx ly lz lt le g3 lh rows n p pws bx by_ bz be bt k rws Hn G1 Hp Hpw G2 Hx Hy Hz Ht He G3 Hh Hr].
  exists ln, (g1 ++ (lp :: g2) ++ [lx; ly; lz] ++ lt ++ (le :: g3) ++ lh :: rows). split; [reflexivity|].
  split; [exact Hn|]. cbn [d_x d_y d_z d_e d_t d_rows d_kind d_num d_particle].
  intros num rest sel ms xs ys zs m Nx Ny Nz Hd Hid Hem Htm.
  repeat (rewrite <- ?app_assoc; cbn [app]).
  rewrite (read_gap num g1) by exact G1.
  rewrite (step_header num lp _ sel m ms _ _ (proj1 Hp) (header_particle m lp p pws Hp Hpw)).
  rewrite (read_gap num g2) by exact G2.
  rewrite (step_header num lx _ sel _ ms _ _ (proj1 (proj1 Hx)) (header_x _ lx bx xs Hx Nx)).
  rewrite (step_header num ly _ sel _ ms _ _ (proj1 (proj1 Hy)) (header_y _ ly by_ ys Hy Ny)).
  rewrite (step_header num lz _ sel _ ms _ _ (proj1 (proj1 Hz)) (header_z _ lz bz zs Hz Nz)).
  set (m1 := set_z _ bz (mid_points zs)).
  assert (E : read_lines num (lt ++ le :: g3 ++ lh :: rows ++ rest) false sel m1 ms
            = read_lines num (le :: g3 ++ lh :: rows ++ rest) false sel (set_t m1 bt) ms).
  { destruct Ht as [[-> ->]|(l & -> & Hl)].
    - destruct m; cbn in *; subst; reflexivity.
    - apply (step_header num l _ sel m1 ms _ _ (proj1 (proj1 Hl)) (header_t m1 l bt Hl)). }
  rewrite E. clear E.
  rewrite (step_header num le _ sel _ ms _ _ (proj1 (proj1 He)) (header_e _ le be He)).
  rewrite (read_gap num g3) by exact G3.
  rewrite (step_header num lh _ sel _ ms _ _ (proj1 Hh) (header_table _ lh k Hh)).
  rewrite (read_rows num rows rws rest sel ms Hr).
  rewrite (add_rows_data _ [] rws) by (destruct k; exact Hd). cbn [app].
  destruct m; cbn in *; subst. destruct k; reflexivity.
Qed.
Definition first_mesh : mesh := set_ctype new_mesh (lit "6col_e").
(** First mesh of the file. *)
Lemma read_first num b d rest xs ys zs : mesh_lines b d ->
  numbers (d_x d) xs -> numbers (d_y d) ys -> numbers (d_z d) zs ->
  read_lines num (b ++ rest) false false first_mesh []
  = read_lines num rest true (selects num (d_num d)) (filled first_mesh d xs ys zs) [].
Proof.
  intros Hb Nx Ny Nz. destruct (mesh_lines_inv b d Hb) as (ln & body & -> & Hn & H).
  cbn [app read_lines andb]. destruct (number_line_contains _ _ Hn) as [_ E]. rewrite E.
  rewrite (tally_number_spec _ _ Hn). cbn [bind orb]. rewrite (header_quiet _ _ (proj1 (proj2 Hn))). cbn [bind].
  rewrite (H num rest _ [] xs ys zs (set_idnum first_mesh (d_num d)) Nx Ny Nz); reflexivity.
Qed.
(** Another mesh. *)
Lemma read_next num b d rest m ms xs ys zs : mesh_lines b d ->
  numbers (d_x d) xs -> numbers (d_y d) ys -> numbers (d_z d) zs ->
  read_lines num (b ++ rest) true false m ms
  = read_lines num rest true (selects num (d_num d)) (filled new_mesh d xs ys zs) (ms ++ [m]).
Proof.
  intros Hb Nx Ny Nz. destruct (mesh_lines_inv b d Hb) as (ln & body & -> & Hn & H).
  cbn [app read_lines andb]. destruct (number_line_contains _ _ Hn) as [E0 E]. rewrite E0, E.
  cbn [andb negb]. rewrite (tally_number_spec _ _ Hn). cbn [bind orb]. rewrite (header_quiet _ _ (proj1 (proj2 Hn))). cbn [bind].
  rewrite (H num rest _ _ xs ys zs (set_idnum new_mesh (d_num d)) Nx Ny Nz); reflexivity.
Qed.
Lemma read_stop num b d rest m ms : mesh_lines b d -> read_lines num (b ++ rest) true true m ms = Ok (One m).
Proof.
  intros Hb. destruct (mesh_lines_inv b d Hb) as (ln & body & -> & Hn & H).
  cbn [app read_lines andb]. destruct (number_line_contains _ _ Hn) as [E0 E]. rewrite E0. reflexivity.
Qed.
