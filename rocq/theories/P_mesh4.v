(** Lemmas about mesh arithmetic and the finding of meshes. *)
From Coq Require Import Reals Lra Lia Floats.SpecFloat Sorting.Sorted.
From Flocq Require Import Core.
From Verif Require Import PyBase PyFacts PyFloat FloatR FloatZ Float32 SpecStr TextFacts SpecMcout PyFrame M_mesh SpecMesh SpecMesh2 P_mcout P_mcout3 P_mcout6 P_mesh P_mesh2 P_mesh3.

(** * Mesh numbers *)
Lemma header_tally_number n l : header_of n l -> tally_number l = Ok n.
Proof.
  intros (_ & a & w & -> & Hw & Hn). unfold tally_number.
  assert (E : exists ps, split_on c_space (a ++ chr 32 :: w) = ps ++ [w]).
  { exists (split_on c_space a). change (chr 32) with c_space. rewrite split_on_app_gen. f_equal.
    apply split_on_lacks, lacks_In. exact Hw. }
  destruct E as (ps & ->). rewrite py_nth_last. exact Hn.
Qed.
Lemma header_unique n n' l : header_of n l -> header_of n' l -> n = n'.
Proof. intros H H'. apply header_tally_number in H, H'. congruence. Qed.
Lemma numbers_dict lines : (forall l, In l lines -> occurs number_text l -> exists n, header_of n l) ->
  exists d, find_mesh_tally_numbers lines = Ok d /\ NoDup (map fst d) /\
    forall n i, dict_get Z.eqb n d = Some i <-> last_at (header_of n) lines i.
Proof.
  induction lines as [|l lines IH] using rev_ind; intros H.
  - exists []. split; [reflexivity|]. split; [constructor|]. intros n i. split; [discriminate|].
    intros ((x & Hx & _) & _). destruct i; discriminate.
  - destruct IH as (d & E & ND & S); [intros x Hx; apply H, in_or_app; left; exact Hx|].
    unfold find_mesh_tally_numbers, enumerate in *. rewrite enum_from_app, foldM_app, E. cbn [bind foldM enum_from number_step plus].
    change (lit "Mesh Tally Number") with number_text. destruct (contains number_text l) eqn:Ec.
    + apply contains_spec in Ec. destruct (H l) as (n0 & Hn0); [apply in_or_app; right; left; reflexivity|exact Ec|].
      rewrite (header_tally_number _ _ Hn0). cbn [bind]. exists (dict_set Z.eqb n0 (length lines) d).
      split; [reflexivity|]. split; [now apply (dict_set_NoDup Z.eqb Z.eqb_spec)|]. intros n i.
      rewrite (dict_get_set Z.eqb Z.eqb_spec). destruct (Z.eqb_spec n n0) as [->|Hn].
      * split.
        { intros K; injection K as <-. split.
          - apply line_at_snoc. auto.
          - intros j Hj. apply line_at_lt in Hj. rewrite app_length in Hj. cbn in Hj. lia. }
        { intros (Hi & Hmax). f_equal. assert (Hd : line_at (header_of n0) (lines ++ [l]) (length lines)) by (apply line_at_snoc; auto).
          apply Hmax in Hd. apply line_at_lt in Hi. rewrite app_length in Hi. cbn in Hi. lia. }
      * rewrite S. assert (Hl : ~ header_of n l) by (intros K; apply Hn; exact (header_unique _ _ _ K Hn0)).
        split; intros (H1 & H2); split.
        { apply line_at_snoc. auto. }
        { intros j Hj. apply line_at_snoc in Hj. destruct Hj as [Hj|[_ Hj]]; [auto|contradiction]. }
        { apply line_at_snoc in H1. destruct H1 as [|[_ H1]]; [assumption|contradiction]. }
        { intros j Hj. apply H2. apply line_at_snoc. auto. }
    + exists d. split; [reflexivity|]. split; [exact ND|]. intros n i. rewrite S.
      assert (Hl : ~ header_of n l) by (intros (K & _); apply contains_spec in K; congruence).
      split; intros (H1 & H2); split.
      * apply line_at_snoc. auto.
      * intros j Hj. apply line_at_snoc in Hj. destruct Hj as [Hj|[_ Hj]]; [auto|contradiction].
      * apply line_at_snoc in H1. destruct H1 as [|[_ H1]]; [assumption|contradiction].
      * intros j Hj. apply H2. apply line_at_snoc. auto.
Qed.

Lemma insert_z_In z l x : In x (insert_z z l) <-> x = z \/ In x l.
Proof. induction l as [|y l IH]; cbn; [intuition|]. destruct (z <=? y)%Z; cbn; [intuition|]. rewrite IH. intuition. Qed.
Lemma sort_z_In l x : In x (sort_z l) <-> In x l.
Proof. induction l as [|y l IH]; [reflexivity|]. cbn [sort_z fold_right]. rewrite insert_z_In. fold (sort_z l). rewrite IH. cbn. intuition. Qed.
Lemma insert_z_sorted z l : Sorted Z.lt l -> ~ In z l -> Sorted Z.lt (insert_z z l).
Proof.
  induction l as [|y l IH]; cbn; intros S N; [repeat constructor|].
  destruct (Z.leb_spec z y).
  - constructor; [exact S|]. constructor. assert (z <> y) by (intros ->; tauto). lia.
  - inversion S as [|? ? S1 H1]; subst. constructor; [apply IH; tauto|].
    destruct l as [|w l]; cbn; [constructor; lia|]. destruct (z <=? w)%Z; constructor; [lia|]. inversion H1; assumption.
Qed.
Lemma sort_z_sorted l : NoDup l -> Sorted Z.lt (sort_z l).
Proof.
  induction 1 as [|x l Hx ND IH]; [constructor|]. cbn [sort_z fold_right]. apply insert_z_sorted; [exact IH|].
  rewrite sort_z_In. exact Hx.
Qed.
Lemma next_of_spec d : NoDup (map fst d) -> forall keys n, StronglySorted Z.lt keys ->
  (forall k, In k keys -> In k (map fst d)) ->
  (In n keys -> (exists k, In k keys /\ (n < k)%Z) ->
   exists k i, In (k, i) d /\ (n < k)%Z /\ (forall k', In k' keys -> (n < k')%Z -> (k <= k')%Z) /\ next_of n keys d = Ok (Some (Z.of_nat i))) /\
  (~ In n keys -> next_of n keys d = Ok None).
Proof.
  intros ND. induction keys as [|k keys IH]; intros n S Hk; [split; [intros []|reflexivity]|].
  inversion S as [|? ? S1 F]; subst. rewrite Forall_forall in F. cbn [next_of]. split.
  - intros Hn Hex. destruct (Z.eqb_spec k n) as [->|Hne].
    + destruct keys as [|k2 keys].
      { destruct Hex as (k & [->|[]] & ?); lia. }
      assert (Hin : In k2 (map fst d)) by (apply Hk; right; left; reflexivity).
      apply in_map_iff in Hin. destruct Hin as ([k2' i] & E & Hi). cbn in E. subst k2'.
      exists k2, i. split; [exact Hi|]. split; [apply F; left; reflexivity|]. split.
      * intros k' [->|[->|Hk']]; [lia|lia|]. inversion S1 as [|? ? _ F2]; subst. rewrite Forall_forall in F2. intros _. specialize (F2 _ Hk'). lia.
      * change (py_nth (k2 :: keys) 0) with (Ok k2). cbn [bind]. unfold dict_index.
        rewrite (dict_get_NoDup Z.eqb Z.eqb_spec k2 i d ND Hi). reflexivity.
    + destruct Hn as [->|Hn]; [congruence|]. destruct (IH n S1) as [H1 _]; [intros; apply Hk; right; assumption|].
      assert (Hlt : (k < n)%Z) by (apply F; exact Hn).
      destruct Hex as (k' & [<-|Hk'] & Hl); [lia|]. destruct (H1 Hn) as (k2 & i & A & B & C & D); [eauto|].
      exists k2, i. split; [exact A|]. split; [exact B|]. split; [|exact D]. intros k3 [<-|Hk3] Hl3; [lia|]. apply C; assumption.
  - intros Hn. destruct (Z.eqb_spec k n) as [->|Hne]; [elim Hn; left; reflexivity|].
    apply IH; [exact S1|intros; apply Hk; right; assumption|intros ?; apply Hn; right; assumption].
Qed.
Lemma sorted_last l x : StronglySorted Z.lt l -> l <> [] -> py_nth l (-1) = Ok x <-> In x l /\ forall y, In y l -> (y <= x)%Z.
Proof.
  intros S Hne. destruct (exists_last Hne) as (l' & y & ->). rewrite py_nth_last.
  assert (Hy : forall z, In z (l' ++ [y]) -> (z <= y)%Z).
  { clear Hne. induction l' as [|a l' IH]; cbn in S |- *; [intros z [->|[]]; lia|].
    inversion S as [|? ? S1 F]; subst. rewrite Forall_forall in F. intros z [->|Hz]; [|apply IH; assumption].
    assert (In y (l' ++ [y])) by (apply in_or_app; right; left; reflexivity). specialize (F _ H). lia. }
  split.
  - intros [= <-]. split; [apply in_or_app; right; left; reflexivity|exact Hy].
  - intros (Hx & H). f_equal. assert (In y (l' ++ [y])) by (apply in_or_app; right; left; reflexivity).
    specialize (H _ H0). specialize (Hy _ Hx). lia.
Qed.
Lemma find_next_spec n d : NoDup (map fst d) ->
  (d = [] -> find_next_mesh n d = Err IndexError) /\
  (d <> [] -> ~ In n (map fst d) -> find_next_mesh n d = Ok None) /\
  (In n (map fst d) -> (forall k, In k (map fst d) -> (k <= n)%Z) -> find_next_mesh n d = Ok (Some (-1)%Z)) /\
  (In n (map fst d) -> (exists k, In k (map fst d) /\ (n < k)%Z) ->
   exists k i, In (k, i) d /\ (n < k)%Z /\ (forall k', In k' (map fst d) -> (n < k')%Z -> (k <= k')%Z) /\
     find_next_mesh n d = Ok (Some (Z.of_nat i))).
Proof.
  intros ND. split; [intros ->; reflexivity|].
  assert (SS : StronglySorted Z.lt (sort_z (map fst d))) by (apply Sorted_StronglySorted; [intros ? ? ?; lia|apply sort_z_sorted; exact ND]).
  assert (HN : d <> [] -> sort_z (map fst d) <> []).
  { intros Hd E. destruct d as [|[k v] d]; [congruence|]. assert (K : In k (sort_z (map fst ((k, v) :: d)))) by (apply sort_z_In; left; reflexivity).
    rewrite E in K. destruct K. }
  assert (G : d <> [] -> exists t, py_nth (sort_z (map fst d)) (-1) = Ok t /\ In t (map fst d) /\ forall k, In k (map fst d) -> (k <= t)%Z).
  { intros Hd. destruct (exists_last (HN Hd)) as (l' & t & E). exists t. rewrite E at 1. rewrite py_nth_last. split; [reflexivity|].
    assert (P : py_nth (sort_z (map fst d)) (-1) = Ok t) by (rewrite E; apply py_nth_last).
    apply sorted_last in P; [|exact SS|apply HN; exact Hd]. destruct P as (P1 & P2). split; [apply sort_z_In; exact P1|].
    intros k Hk. apply P2, sort_z_In. exact Hk. }
  destruct (next_of_spec d ND (sort_z (map fst d)) n SS) as (N1 & N2); [intros k Hk; apply sort_z_In; exact Hk|].
  unfold find_next_mesh. cbv zeta. split; [|split].
  - intros Hd Hn. destruct (G Hd) as (t & -> & Ht & _). cbn [bind]. destruct (Z.eqb_spec n t) as [->|_]; [contradiction|].
    apply N2. rewrite sort_z_In. exact Hn.
  - intros Hn Hmax. assert (Hd : d <> []) by (intros ->; destruct Hn). destruct (G Hd) as (t & -> & Ht & Hm). cbn [bind].
    specialize (Hmax t Ht). specialize (Hm n Hn). destruct (Z.eqb_spec n t); [reflexivity|lia].
  - intros Hn (k & Hk & Hl). assert (Hd : d <> []) by (intros ->; destruct Hn). destruct (G Hd) as (t & -> & Ht & Hm). cbn [bind].
    specialize (Hm k Hk). destruct (Z.eqb_spec n t) as [->|_]; [lia|].
    destruct N1 as (k2 & i & A & B & C & D); [apply sort_z_In; exact Hn|exists k; split; [apply sort_z_In; exact Hk|exact Hl]|].
    exists k2, i. split; [exact A|]. split; [exact B|]. split; [intros k' Hk'; apply C, sort_z_In; exact Hk'|exact D].
Qed.

(** * Arithmetic on columns *)
Lemma zip_nth {A B C} (f : A -> B -> C) a b i x y : nth_error a i = Some x -> nth_error b i = Some y ->
  nth_error (zip_with f a b) i = Some (f x y).
Proof.
  revert b i; induction a as [|u a IH]; intros b i; [destruct i; discriminate|].
  destruct b as [|v b]; [destruct i; discriminate|]. destruct i as [|i]; cbn; [congruence|apply IH].
Qed.
Lemma zip_length {A B C} (f : A -> B -> C) a b : length a = length b -> length (zip_with f a b) = length a.
Proof. revert b; induction a as [|u a IH]; intros [|v b]; cbn; try discriminate; [reflexivity|]. intros [= H]. f_equal. apply IH, H. Qed.
Lemma number_in_fin c x : number_in c x -> valid x = true /\ is_finite_f x = true.
Proof. unfold number_in. destruct (c_single c); [intros (A & B & _); auto|auto]. Qed.
Lemma number_in_both a b x : number_in a x -> c_single a && c_single b = true -> single x.
Proof. unfold number_in. destruct (c_single a); [auto|discriminate]. Qed.
Lemma number_in_both2 a b x : number_in b x -> c_single a && c_single b = true -> single x.
Proof. unfold number_in. destruct (c_single a), (c_single b); try discriminate. auto. Qed.
Section Op.
Variables (opR : R -> R -> R) (op64 op32 : float -> float -> float).
Hypothesis H64 : forall x y, valid x = true -> valid y = true -> is_finite_f x = true -> is_finite_f y = true ->
  rounded64 (opR (FR x) (FR y)) (op64 x y).
Hypothesis H32 : forall x y, single x -> single y -> rounded32 (opR (FR x) (FR y)) (op32 x y).
Lemma op_entry a b i x y : entry a i x -> entry b i y -> number_in a x -> number_in b y ->
  exists z, entry (col_op op64 op32 a b) i z /\ rounded_in (c_single a && c_single b) (opR (FR x) (FR y)) z.
Proof.
  intros Ha Hb Nx Ny. eexists. split; [apply (zip_nth _ _ _ _ _ _ Ha Hb)|].
  unfold rounded_in. destruct (c_single a && c_single b) eqn:E.
  - apply H32; [exact (number_in_both _ _ _ Nx E)|exact (number_in_both2 _ _ _ Ny E)].
  - destruct (number_in_fin _ _ Nx), (number_in_fin _ _ Ny). apply H64; assumption.
Qed.
End Op.
Definition add_entry := op_entry Rplus fadd add32 add64_R add32_R.
Definition sub_entry := op_entry Rminus fsub sub32 sub64_R sub32_R.
Definition mul_entry := op_entry Rmult fmul mul32 mul64_R mul32_R.

Lemma op_length op64 op32 a b : length (c_vals a) = length (c_vals b) -> length (c_vals (col_op op64 op32 a b)) = length (c_vals a).
Proof. intros H. apply zip_length, H. Qed.
Lemma index_eqb_refl l : index_eqb l l = true.
Proof. unfold index_eqb. destruct (list_eq_dec _ l l); congruence. Qed.
Lemma rounded_in_valid s r z : rounded_in s r z -> valid z = true.
Proof. destruct s; intros (V & _); exact V. Qed.
Lemma rounded_in_number s r z c : rounded_in s r z -> is_finite_f z = true -> c_single c = s -> number_in c z.
Proof.
  intros H F <-. unfold number_in, rounded_in in *. destruct (c_single c).
  - apply (rounded32_fin r z H F).
  - split; [apply H|exact F].
Qed.
Lemma rounded_in_fin s r z : rounded_in s r z -> is_finite_f z = true -> FR z = rnd_in s r.
Proof.
  intros H F. destruct s; cbn [rounded_in rnd_in] in *; [apply (rounded32_fin r z H F)|].
  destruct H as (_ & H1 & H2). destruct (Rlt_le_dec (Rabs (rnd r)) fmax_bound) as [Hl|Hl]; [apply H1; exact Hl|].
  rewrite (H2 Hl) in F. discriminate.
Qed.
Lemma rounded_in_inf s r z : rounded_in s r z -> is_finite_f z = false -> z = S754_infinity (Rlt_bool r 0).
Proof.
  intros H F. destruct s; destruct H as (_ & H1 & H2).
  - destruct (Rlt_le_dec (Rabs (rnd32 r)) max32) as [Hl|Hl]; [destruct (H1 Hl); congruence|apply H2; exact Hl].
  - destruct (Rlt_le_dec (Rabs (rnd r)) fmax_bound) as [Hl|Hl]; [destruct (H1 Hl); congruence|apply H2; exact Hl].
Qed.
Lemma rnd_in_le s a b : (a <= b)%R -> (rnd_in s a <= rnd_in s b)%R.
Proof. destruct s; [apply rnd32_le|apply rnd_le]. Qed.
Lemma rnd_in_number s c x : number_in c x -> (s = true -> c_single c = true) -> rnd_in s (FR x) = FR x.
Proof.
  intros H Hs. destruct s; cbn [rnd_in].
  - unfold number_in in H. rewrite (Hs eq_refl) in H. apply rnd32_single, H.
  - apply rnd_FR, (number_in_fin _ _ H).
Qed.

(** * Upper and lower values *)
Lemma has_get d name c : has d name c -> frame_get d (lit name) = Ok (Series (f_index d) c).
Proof. intros H. apply has_col in H. unfold frame_get. rewrite H. reflexivity. Qed.
Lemma column_set cs name c : column (dict_set str_eqb name c cs) name c.
Proof. apply column_get. rewrite (dict_get_set str_eqb str_eqb_spec). destruct (str_eqb_spec name name); congruence. Qed.
Lemma column_set_other cs name c n c' : n <> name -> column (dict_set str_eqb name c cs) n c' <-> column cs n c'.
Proof. intros H. rewrite !column_get, (dict_get_set str_eqb str_eqb_spec). destruct (str_eqb_spec n name); [congruence|reflexivity]. Qed.
Lemma same_mesh_set m d : same_mesh m (set_data m d).
Proof. destruct m; repeat split. Qed.
Lemma error_vals_spec op64 op32 name m d v r : data m = Df d -> has d "value" v -> has d "rel_err" r ->
  exists m' d', error_vals (col_op op64 op32) (lit name) m = Ok m' /\ same_mesh m m' /\ data m' = Df d' /\
    same_table_but name d d' /\ has d' name (col_op op64 op32 v (col_mul v r)).
Proof.
  intros Hd Hv Hr. unfold error_vals, data_frame. rewrite Hd. cbn [as_frame bind]. rewrite (has_get _ _ _ Hv), (has_get _ _ _ Hr). cbn [bind].
  unfold series_op. cbn [s_index s_col]. rewrite !index_eqb_refl. cbn [s_index s_col]. rewrite ?index_eqb_refl.
  eexists. eexists. split; [reflexivity|]. split; [apply same_mesh_set|]. split; [reflexivity|].
  unfold frame_set, aligned. cbn [s_index s_col]. rewrite ?index_eqb_refl. cbn [s_index s_col]. split.
  - split; [reflexivity|]. intros n c Hn. apply column_set_other. exact Hn.
  - apply column_set.
Qed.
Lemma single_mul_mono v r : c_single v && c_single (col_mul v r) = c_single v && c_single r.
Proof. cbn. destruct (c_single v), (c_single r); reflexivity. Qed.
Lemma fle_fin_inf x : is_finite_f x = true -> fle x (S754_infinity false) = true.
Proof. destruct x as [s| | |s m e]; try discriminate; intros _; [reflexivity|destruct s; reflexivity]. Qed.
Lemma fle_inf_fin x : is_finite_f x = true -> fle (S754_infinity true) x = true.
Proof. destruct x as [s| | |s m e]; try discriminate; intros _; [reflexivity|destruct s; reflexivity]. Qed.
Lemma upper_entry v r i x e : entry v i x -> entry r i e -> number_in v x -> number_in r e -> non_negative x -> non_negative e ->
  exists u l p, entry (col_add v (col_mul v r)) i u /\ entry (col_sub v (col_mul v r)) i l /\
    fle l x = true /\ fle x u = true /\ rounded_in (c_single v && c_single r) (FR x * FR e) p /\
    (is_finite_f p = true -> rounded_in (c_single v && c_single r) (FR x + FR p) u /\ rounded_in (c_single v && c_single r) (FR x - FR p) l).
Proof.
  intros Hx He Nx Ne Px Pe. destruct (mul_entry v r i x e Hx He Nx Ne) as (p & Hp & Rp).
  assert (Np : (0 <= FR x * FR e)%R) by (apply Rmult_le_pos; assumption).
  destruct (number_in_fin _ _ Nx) as (Vx & Fx).
  destruct (is_finite_f p) eqn:Fp.
  - assert (Np' : number_in (col_mul v r) p) by (apply (rounded_in_number _ _ _ _ Rp Fp); reflexivity).
    assert (P0 : (0 <= FR p)%R).
    { rewrite (rounded_in_fin _ _ _ Rp Fp). replace 0%R with (rnd_in (c_single v && c_single r) 0); [apply rnd_in_le; exact Np|].
      destruct (c_single v && c_single r); cbn [rnd_in]; [|apply rnd_0]. apply round_0. apply valid_rnd_N. }
    destruct (add_entry v (col_mul v r) i x p Hx Hp Nx Np') as (u & Hu & Ru).
    destruct (sub_entry v (col_mul v r) i x p Hx Hp Nx Np') as (l & Hl & Rl).
    rewrite single_mul_mono in Ru, Rl.
    exists u, l, p. split; [exact Hu|]. split; [exact Hl|].
    assert (Es : rnd_in (c_single v && c_single r) (FR x) = FR x).
    { apply (rnd_in_number _ v x Nx). destruct (c_single v); [reflexivity|discriminate]. }
    split; [|split; [|split; [exact Rp|intros _; split; assumption]]].
    + destruct (is_finite_f l) eqn:Fl.
      * apply fle_R; [exact (rounded_in_valid _ _ _ Rl)|exact Vx|exact Fl|exact Fx|]. rewrite (rounded_in_fin _ _ _ Rl Fl).
        rewrite <- Es at 2. apply rnd_in_le. lra.
      * rewrite (rounded_in_inf _ _ _ Rl Fl). destruct (Rlt_bool_spec (FR x - FR p) 0) as [L|L]; [apply fle_inf_fin; exact Fx|].
        exfalso. assert (A : (0 <= rnd_in (c_single v && c_single r) (FR x - FR p) <= FR x)%R).
        { split; [|rewrite <- Es at 2; apply rnd_in_le; lra].
          replace 0%R with (rnd_in (c_single v && c_single r) 0); [apply rnd_in_le; exact L|].
          destruct (c_single v && c_single r); cbn [rnd_in]; [|apply rnd_0]. apply round_0. apply valid_rnd_N. }
        destruct (c_single v && c_single r) eqn:Es'; cbn [rnd_in rounded_in] in *.
        -- destruct Rl as (_ & K & _). assert (S : single x) by (unfold number_in in Nx; destruct (c_single v); [exact Nx|discriminate]).
           destruct S as (_ & _ & _ & M). rewrite Rabs_pos_eq in M by exact Px. destruct K as (_ & K); [|congruence].
           rewrite Rabs_pos_eq by apply A. lra.
        -- destruct Rl as (_ & K & _). pose proof (FR_lt_max x Vx) as M. rewrite Rabs_pos_eq in M by exact Px. destruct K as (_ & K); [|congruence].
           rewrite Rabs_pos_eq by apply A. lra.
    + destruct (is_finite_f u) eqn:Fu.
      * apply fle_R; [exact Vx|exact (rounded_in_valid _ _ _ Ru)|exact Fx|exact Fu|]. rewrite (rounded_in_fin _ _ _ Ru Fu).
        rewrite <- Es at 1. apply rnd_in_le. lra.
      * rewrite (rounded_in_inf _ _ _ Ru Fu). unfold non_negative in *. destruct (Rlt_bool_spec (FR x + FR p) 0) as [L|L]; [lra|apply fle_fin_inf; exact Fx].
  - assert (Ep := rounded_in_inf _ _ _ Rp Fp). destruct (Rlt_bool_spec (FR x * FR e) 0) as [L|L]; [lra|]. subst p.
    eexists. eexists. exists (S754_infinity false).
    split; [apply (zip_nth _ _ _ _ _ _ Hx Hp)|]. split; [apply (zip_nth _ _ _ _ _ _ Hx Hp)|].
    assert (Nr : forall y, is_finite_f y = true -> fadd y (S754_infinity false) = S754_infinity false /\ fsub y (S754_infinity false) = S754_infinity true).
    { intros y. destruct y as [s| | |s m k]; try discriminate; intros _; split; reflexivity. }
    assert (Nr32 : forall y, single y -> add32 y (S754_infinity false) = S754_infinity false /\ sub32 y (S754_infinity false) = S754_infinity true).
    { intros y Hy. destruct (narrow_single y Hy) as (_ & _ & Fy). unfold add32, sub32, f32_op. change (narrow (S754_infinity false)) with (S754_infinity false).
      destruct (narrow y) as [s| | |s m k]; try discriminate; split; reflexivity. }
    rewrite single_mul_mono.
    destruct (c_single v && c_single r) eqn:Es'.
    + destruct (Nr32 x) as (-> & ->); [exact (number_in_both _ _ _ Nx Es')|]. split; [apply fle_inf_fin; exact Fx|]. split; [apply fle_fin_inf; exact Fx|].
      split; [exact Rp|discriminate].
    + destruct (Nr x Fx) as (-> & ->). split; [apply fle_inf_fin; exact Fx|]. split; [apply fle_fin_inf; exact Fx|]. split; [exact Rp|discriminate].
Qed.

(** * Adding meshes *)
Lemma strs_eqb_spec a b : strs_eqb a b = true <-> a = b.
Proof. unfold strs_eqb. destruct (list_eq_dec (list_eq_dec ascii_dec) a b); split; intros; congruence. Qed.
Lemma strs_eqb_neq a b : a <> b -> strs_eqb a b = false.
Proof. intros H. destruct (strs_eqb a b) eqn:E; [apply strs_eqb_spec in E; contradiction|reflexivity]. Qed.
Lemma ctype_eqb_neq a b : a <> b -> ctype_eqb a b = false.
Proof.
  intros H. destruct a as [x|], b as [y|]; cbn; try reflexivity; [|congruence].
  destruct (str_eqb_spec x y); [congruence|reflexivity].
Qed.
Lemma add_mesh_space m1 m2 : ~ same_space m1 m2 -> add_mesh m1 m2 = Err ValueError.
Proof.
  intros H. unfold add_mesh. destruct (_ && _ && _) eqn:E; [|reflexivity].
  apply andb_true_iff in E. destruct E as [E Ez]. apply andb_true_iff in E. destruct E as [Ex Ey].
  apply strs_eqb_spec in Ex, Ey, Ez. elim H. repeat split; assumption.
Qed.
Lemma add_mesh_kinds m1 m2 : same_space m1 m2 -> ctype m1 <> ctype m2 -> add_mesh m1 m2 = Err ValueError.
Proof.
  intros (Hx & Hy & Hz) H. unfold add_mesh. destruct (negb (_ && _ && _)); [reflexivity|].
  destruct (_ && _); [reflexivity|]. destruct (_ && _); [reflexivity|]. rewrite (ctype_eqb_neq _ _ H). reflexivity.
Qed.
Lemma has_ctype_kind m k : ctype m = Some (ctype_name k) ->
  has_ctype m "6col_e" = (match k with ByEnergy => true | _ => false end) /\
  has_ctype m "6col_t" = (match k with ByTime => true | _ => false end).
Proof. intros H. unfold has_ctype. rewrite H. destruct k; split; reflexivity. Qed.
Lemma add_mesh_bins m1 m2 k : same_space m1 m2 -> ctype m1 = Some (ctype_name k) -> bins k m1 <> bins k m2 -> add_mesh m1 m2 = Err ValueError.
Proof.
  intros (Hx & Hy & Hz) Hc H. unfold add_mesh. destruct (negb (_ && _ && _)); [reflexivity|].
  destruct (has_ctype_kind m1 k Hc) as (-> & ->). destruct k; cbn [bins] in H; [| |congruence].
  - rewrite (strs_eqb_neq _ _ H). reflexivity.
  - cbn [andb]. rewrite (strs_eqb_neq _ _ H). reflexivity.
Qed.
Lemma add_mesh_pass m1 m2 k : same_space m1 m2 -> ctype m1 = Some (ctype_name k) -> ctype m2 = Some (ctype_name k) -> bins k m1 = bins k m2 ->
  negb (strs_eqb (x_bounds m1) (x_bounds m2) && strs_eqb (y_bounds m1) (y_bounds m2) && strs_eqb (z_bounds m1) (z_bounds m2)) = false /\
  has_ctype m1 "6col_e" && negb (strs_eqb (e_bounds m1) (e_bounds m2)) = false /\
  has_ctype m1 "6col_t" && negb (strs_eqb (t_bounds m1) (t_bounds m2)) = false /\
  negb (ctype_eqb (ctype m1) (ctype m2)) = false.
Proof.
  intros (Hx & Hy & Hz) Hc Hc2 Hb. rewrite (proj2 (strs_eqb_spec _ _) Hx), (proj2 (strs_eqb_spec _ _) Hy), (proj2 (strs_eqb_spec _ _) Hz).
  split; [reflexivity|]. destruct (has_ctype_kind m1 k Hc) as (-> & ->).
  assert (E : ctype_eqb (ctype m1) (ctype m2) = true) by (rewrite Hc, Hc2; destruct k; reflexivity). rewrite E.
  destruct k; cbn [bins] in Hb; cbn [andb]; try rewrite (proj2 (strs_eqb_spec _ _) Hb); repeat split; reflexivity.
Qed.
Definition err_col (r1 r2 : col) : col := col_sqrt (col_add (col_mul r1 r1) (col_mul r2 r2)).
Lemma add_mesh_plain m1 m2 d1 d2 v1 v2 r1 r2 : same_space m1 m2 -> ctype m1 = Some (ctype_name Plain) -> ctype m2 = Some (ctype_name Plain) ->
  data m1 = Df d1 -> data m2 = Df d2 -> has d1 "value" v1 -> has d2 "value" v2 -> has d1 "rel_err" r1 -> has d2 "rel_err" r2 ->
  add_mesh m1 m2 = Err UnboundLocalError.
Proof.
  intros Hs Hc Hc2 D1 D2 V1 V2 R1 R2. destruct (add_mesh_pass m1 m2 Plain Hs Hc Hc2 eq_refl) as (P1 & P2 & P3 & P4).
  unfold add_mesh. rewrite P1, P2, P3, P4. unfold data_frame. rewrite D1, D2. cbn [as_frame bind].
  rewrite (has_get _ _ _ V1), (has_get _ _ _ V2), (has_get _ _ _ R1), (has_get _ _ _ R2). cbn [bind].
  destruct (has_ctype_kind m1 Plain Hc) as (-> & ->). reflexivity.
Qed.
Lemma add_mesh_ok m1 m2 d1 d2 k v1 v2 r1 r2 g x y z xs ys zs : same_space m1 m2 -> k <> Plain ->
  ctype m1 = Some (ctype_name k) -> ctype m2 = Some (ctype_name k) -> bins k m1 = bins k m2 ->
  numbers (x_bounds m1) xs -> numbers (y_bounds m1) ys -> numbers (z_bounds m1) zs ->
  data m1 = Df d1 -> data m2 = Df d2 -> f_index d1 = f_index d2 ->
  has d1 "value" v1 -> has d2 "value" v2 -> has d1 "rel_err" r1 -> has d2 "rel_err" r2 ->
  has d1 (bin_name k) g -> has d1 "x" x -> has d1 "y" y -> has d1 "z" z ->
  exists m, add_mesh m1 m2 = Ok m /\ same_space m1 m /\ ctype m = ctype m1 /\ bins k m = bins k m1 /\
    calc_mid_points (x_bounds m1) = Ok (x_mids m) /\ calc_mid_points (y_bounds m1) = Ok (y_mids m) /\ calc_mid_points (z_bounds m1) = Ok (z_mids m) /\
    data m = Df (Frame (f_index d1) [(lit (bin_name k), g); (lit "x", x); (lit "y", y); (lit "z", z); (lit "value", col_add v1 v2); (lit "rel_err", err_col r1 r2)]).
Proof.
  intros Hs Hk Hc Hc2 Hb Nx Ny Nz D1 D2 Hi V1 V2 R1 R2 G X Y Z. destruct (add_mesh_pass m1 m2 k Hs Hc Hc2 Hb) as (P1 & P2 & P3 & P4).
  unfold add_mesh. rewrite P1, P2, P3, P4. unfold data_frame. rewrite D1, D2. cbn [as_frame bind].
  rewrite (has_get _ _ _ V1), (has_get _ _ _ V2), (has_get _ _ _ R1), (has_get _ _ _ R2). cbn [bind].
  destruct (has_ctype_kind m1 k Hc) as (-> & ->).
  rewrite (numbers_mids _ _ Nx), (numbers_mids _ _ Ny), (numbers_mids _ _ Nz).
  unfold series_op, square. cbn [s_index s_col]. rewrite <- Hi, !index_eqb_refl.
  destruct k; [| |congruence]; cbn [orb negb bind bin_name] in *.
  - rewrite (has_get _ _ _ G), (has_get _ _ _ X), (has_get _ _ _ Y), (has_get _ _ _ Z). cbn [bind s_index s_col].
    unfold aligned. cbn [s_index s_col]. rewrite !index_eqb_refl. eexists. split; [reflexivity|]. repeat split; reflexivity.
  - rewrite (has_get _ _ _ G), (has_get _ _ _ X), (has_get _ _ _ Y), (has_get _ _ _ Z). cbn [bind s_index s_col].
    unfold aligned. cbn [s_index s_col]. rewrite !index_eqb_refl. eexists. split; [reflexivity|]. repeat split; reflexivity.
Qed.

Lemma err_entry r1 r2 i a b : entry r1 i a -> entry r2 i b -> number_in r1 a -> number_in r2 b ->
  exists c q1 q2 t, entry (err_col r1 r2) i c /\
    rounded_in (c_single r1) (FR a * FR a) q1 /\ rounded_in (c_single r2) (FR b * FR b) q2 /\
    (is_finite_f q1 = true -> is_finite_f q2 = true -> rounded_in (c_single r1 && c_single r2) (FR q1 + FR q2) t /\
     (is_finite_f t = true -> FR c = rnd_in (c_single r1 && c_single r2) (sqrt (FR t)) /\ is_finite_f c = true)).
Proof.
  intros Ha Hb Na Nb.
  destruct (mul_entry r1 r1 i a a Ha Ha Na Na) as (q1 & E1 & Q1). destruct (mul_entry r2 r2 i b b Hb Hb Nb Nb) as (q2 & E2 & Q2).
  rewrite andb_diag in Q1, Q2. pose proof (zip_nth (if c_single (col_mul r1 r1) && c_single (col_mul r2 r2) then add32 else fadd) _ _ i _ _ E1 E2) as Et.
  set (t := (if c_single (col_mul r1 r1) && c_single (col_mul r2 r2) then add32 else fadd) q1 q2) in Et.
  assert (S : c_single (col_mul r1 r1) && c_single (col_mul r2 r2) = c_single r1 && c_single r2) by (cbn; rewrite !andb_diag; reflexivity).
  exists ((if c_single r1 && c_single r2 then sqrt32 else fsqrt) t), q1, q2, t. split; [|split; [exact Q1|split; [exact Q2|]]].
  - unfold entry, err_col, col_sqrt. cbn [c_vals c_single col_add]. change (c_single (col_add (col_mul r1 r1) (col_mul r2 r2))) with (c_single (col_mul r1 r1) && c_single (col_mul r2 r2)).
    rewrite S. rewrite nth_error_map.
    assert (Et' : nth_error (c_vals (col_add (col_mul r1 r1) (col_mul r2 r2))) i = Some t) by exact Et. rewrite Et'. reflexivity.
  - intros F1 F2. assert (N1 : number_in (col_mul r1 r1) q1) by (apply (rounded_in_number _ _ _ _ Q1 F1); cbn; apply andb_diag).
    assert (N2 : number_in (col_mul r2 r2) q2) by (apply (rounded_in_number _ _ _ _ Q2 F2); cbn; apply andb_diag).
    destruct (add_entry (col_mul r1 r1) (col_mul r2 r2) i q1 q2 E1 E2 N1 N2) as (t' & Et' & Rt). rewrite S in Rt.
    assert (t' = t) by (assert (K : Some t' = Some t) by (rewrite <- Et, <- Et'; reflexivity); congruence). subst t'.
    split; [exact Rt|]. intros Ft.
    assert (P : forall s r z, rounded_in s r z -> (0 <= r)%R -> is_finite_f z = true -> (0 <= FR z)%R).
    { intros s r z Rz Pr Fz. rewrite (rounded_in_fin _ _ _ Rz Fz). replace 0%R with (rnd_in s 0); [apply rnd_in_le; exact Pr|].
      destruct s; cbn [rnd_in]; [|apply rnd_0]. apply round_0. apply valid_rnd_N. }
    assert (Pt : (0 <= FR t)%R).
    { apply (P _ _ _ Rt); [|exact Ft]. pose proof (P _ _ _ Q1 (Rle_0_sqr (FR a)) F1). pose proof (P _ _ _ Q2 (Rle_0_sqr (FR b)) F2). lra. }
    destruct (c_single r1 && c_single r2) eqn:E; cbn [rnd_in rounded_in] in *.
    + destruct (sqrt32_R t) as ((_ & Hf & _) & H); [apply (rounded32_fin _ _ Rt Ft)|exact Pt|]. split; [exact H|exact Hf].
    + destruct (fsqrt_R t) as (_ & H & Hf); [apply Rt|exact Ft|exact Pt|]. split; assumption.
Qed.

(** * Arrays *)
Lemma where_mid_In mids x i : In i (where_mid mids x) <-> exists m, nth_error mids i = Some m /\ feq m x = true.
Proof.
  unfold where_mid. rewrite in_map_iff. split.
  - intros ([j m] & <- & H). apply filter_In in H. destruct H as (H & E). cbn [snd] in E. apply enumerate_In in H. eauto.
  - intros (m & H & E). exists (i, m). split; [reflexivity|]. apply filter_In. split; [apply enumerate_In; exact H|exact E].
Qed.
Lemma enum_from_NoDup {A} (l : list A) : forall n, NoDup (map fst (enum_from n l)) /\ forall i, In i (map fst (enum_from n l)) -> n <= i.
Proof.
  induction l as [|x l IH]; intros n; [split; [constructor|intros i []]|]. destruct (IH (S n)) as (H1 & H2). cbn [enum_from map fst]. split.
  - constructor; [|exact H1]. intros H. apply H2 in H. lia.
  - intros i [<-|H]; [lia|]. apply H2 in H. lia.
Qed.
Lemma NoDup_map_filter {A B} (f : A -> B) p l : NoDup (map f l) -> NoDup (map f (filter p l)).
Proof.
  induction l as [|x l IH]; intros H; [constructor|]. cbn [map] in H. inversion H as [|? ? N D]; subst. cbn [filter].
  destruct (p x); [|apply IH; exact D]. cbn [map]. constructor; [|apply IH; exact D].
  intros K. apply N. apply in_map_iff in K. destruct K as (y & E & Hy). apply filter_In in Hy. apply in_map_iff. exists y. tauto.
Qed.
Lemma where_mid_le1 mids x : distinct_numbers mids -> where_mid mids x = [] \/ exists i, where_mid mids x = [i].
Proof.
  intros H. assert (ND : NoDup (where_mid mids x)) by (apply NoDup_map_filter; apply (proj1 (enum_from_NoDup mids 0))).
  assert (S : forall i j, In i (where_mid mids x) -> In j (where_mid mids x) -> i = j).
  { intros i j Hi Hj. apply where_mid_In in Hi, Hj. destruct Hi as (a & Ha & Ea), Hj as (b & Hb & Eb). exact (H i j a b x Ha Hb Ea Eb). }
  destruct (where_mid mids x) as [|i [|j l]]; [left; reflexivity|right; eauto|]. exfalso.
  assert (i = j) by (apply S; [left; reflexivity|right; left; reflexivity]). subst j. inversion ND as [|? ? N _]; subst. apply N. left. reflexivity.
Qed.
Definition hits (m : mesh) (r1 r2 r3 : float) (i j k : nat) : Prop :=
  In i (where_mid (x_mids m) r1) /\ In j (where_mid (y_mids m) r2) /\ In k (where_mid (z_mids m) r3).
Lemma place_row_spec m g r0 r1 r2 r3 r4 r5 :
  distinct_numbers (x_mids m) -> distinct_numbers (y_mids m) -> distinct_numbers (z_mids m) ->
  exists g', place_row m g [r0; r1; r2; r3; r4; r5] = Ok g' /\
    forall i j k, (hits m r1 r2 r3 i j k -> fst g' i j k = r4 /\ snd g' i j k = r5) /\
                  (~ hits m r1 r2 r3 i j k -> fst g' i j k = fst g i j k /\ snd g' i j k = snd g i j k).
Proof.
  intros Dx Dy Dz. unfold place_row, hits.
  change (py_nth [r0; r1; r2; r3; r4; r5] 1) with (Ok r1). change (py_nth [r0; r1; r2; r3; r4; r5] 2) with (Ok r2).
  change (py_nth [r0; r1; r2; r3; r4; r5] 3) with (Ok r3). change (py_nth [r0; r1; r2; r3; r4; r5] 4) with (Ok r4).
  change (py_nth [r0; r1; r2; r3; r4; r5] 5) with (Ok r5). cbn [bind].
  destruct (where_mid_le1 (x_mids m) r1 Dx) as [->|(a & ->)], (where_mid_le1 (y_mids m) r2 Dy) as [->|(b & ->)], (where_mid_le1 (z_mids m) r3 Dz) as [->|(c & ->)];
    cbn; (eexists; split; [reflexivity|]); intros i j k; cbn; (split; [|try (intros _; split; reflexivity)]); try tauto.
  - intros ([->|[]] & [->|[]] & [->|[]]). rewrite !Nat.eqb_refl. split; reflexivity.
  - intros H. destruct (Nat.eqb_spec i a) as [->|]; [|split; reflexivity]. destruct (Nat.eqb_spec j b) as [->|]; [|split; reflexivity].
    destruct (Nat.eqb_spec k c) as [->|]; [|split; reflexivity]. elim H. auto.
Qed.
Lemma nth_entry c p : p < length (c_vals c) -> entry c p (nth p (c_vals c) S754_nan).
Proof. intros H. unfold entry. apply nth_error_nth'. exact H. Qed.
Lemma array_spec m d n0 n1 n2 n3 n4 n5 g x y z v e : data m = Df d -> table d ->
  f_cols d = [(n0, g); (n1, x); (n2, y); (n3, z); (n4, v); (n5, e)] ->
  distinct_numbers (x_mids m) -> distinct_numbers (y_mids m) -> distinct_numbers (z_mids m) ->
  exists A E, convert_to_3d_array m = Ok (A, E) /\
    forall i j k xi yj zk, nth_error (x_mids m) i = Some xi -> nth_error (y_mids m) j = Some yj -> nth_error (z_mids m) k = Some zk ->
      ((exists p a b, entry v p a /\ entry e p b /\ lies_at x y z p xi yj zk /\ (forall p', lies_at x y z p' xi yj zk -> p' <= p) /\
          A i j k = a /\ E i j k = b) \/
       ((forall p, ~ lies_at x y z p xi yj zk) /\ A i j k = fzero /\ E i j k = fzero)).
Proof.
  intros Hd [_ Ht] Hc Dx Dy Dz. unfold convert_to_3d_array, data_rows. rewrite Hd. cbn [bind]. unfold frame_rows. rewrite Hc in *.
  assert (L : length (c_vals x) = n_rows d /\ length (c_vals y) = n_rows d /\ length (c_vals z) = n_rows d /\ length (c_vals v) = n_rows d /\ length (c_vals e) = n_rows d).
  { repeat split; eapply Ht; cbn; eauto 9. }
  destruct L as (Lx & Ly & Lz & Lv & Le). fold (n_rows d). clear Ht.
  assert (B : forall p xi yj zk, lies_at x y z p xi yj zk -> p < n_rows d).
  { intros p xi yj zk (a & _ & _ & Ha & _). rewrite <- Lx. apply nth_error_Some. unfold entry in Ha. congruence. }
  assert (G : forall n, n <= n_rows d -> exists g', foldM (place_row m) (map (fun i => map (fun nc : str * col => nth i (c_vals (snd nc)) S754_nan)
     [(n0, g); (n1, x); (n2, y); (n3, z); (n4, v); (n5, e)]) (seq 0 n)) (zeros, zeros) = Ok g' /\
     forall i j k xi yj zk, nth_error (x_mids m) i = Some xi -> nth_error (y_mids m) j = Some yj -> nth_error (z_mids m) k = Some zk ->
      ((exists p a b, p < n /\ entry v p a /\ entry e p b /\ lies_at x y z p xi yj zk /\ (forall p', p' < n -> lies_at x y z p' xi yj zk -> p' <= p) /\
          fst g' i j k = a /\ snd g' i j k = b) \/
       ((forall p, p < n -> ~ lies_at x y z p xi yj zk) /\ fst g' i j k = fzero /\ snd g' i j k = fzero))).
  { induction n as [|n IH]; intros Hn.
    - exists (zeros, zeros). split; [reflexivity|]. intros i j k xi yj zk _ _ _. right. split; [intros p Hp; lia|split; reflexivity].
    - destruct IH as (g0 & E0 & H0); [lia|]. rewrite seq_S, map_app, foldM_app, E0. cbn [bind map foldM plus snd].
      destruct (place_row_spec m g0 (nth n (c_vals g) S754_nan) (nth n (c_vals x) S754_nan) (nth n (c_vals y) S754_nan) (nth n (c_vals z) S754_nan)
                  (nth n (c_vals v) S754_nan) (nth n (c_vals e) S754_nan) Dx Dy Dz) as (g1 & E1 & H1).
      rewrite E1. exists g1. split; [reflexivity|]. intros i j k xi yj zk Hi Hj Hk.
      destruct (H1 i j k) as (H1a & H1b). specialize (H0 i j k xi yj zk Hi Hj Hk).
      assert (HL : hits m (nth n (c_vals x) S754_nan) (nth n (c_vals y) S754_nan) (nth n (c_vals z) S754_nan) i j k <-> lies_at x y z n xi yj zk).
      { unfold hits, lies_at. rewrite !where_mid_In. split.
        - intros ((a & Ha & Fa) & (b & Hb & Fb) & (c & Hcc & Fc)).
          exists (nth n (c_vals x) S754_nan), (nth n (c_vals y) S754_nan), (nth n (c_vals z) S754_nan).
          repeat split; try (apply nth_entry; lia); congruence.
        - intros (a & b & c & Ha & Hb & Hcc & Fa & Fb & Fc). unfold entry in *.
          rewrite (nth_error_nth _ _ _ Ha), (nth_error_nth _ _ _ Hb), (nth_error_nth _ _ _ Hcc). repeat split; eauto. }
      destruct (in_dec Nat.eq_dec i (where_mid (x_mids m) (nth n (c_vals x) S754_nan))) as [Ii|Ii].
      2: { assert (NH : ~ hits m (nth n (c_vals x) S754_nan) (nth n (c_vals y) S754_nan) (nth n (c_vals z) S754_nan) i j k) by (intros (K & _); contradiction).
           destruct (H1b NH) as (-> & ->). rewrite HL in NH. destruct H0 as [(p & a & b & Hp & Ea & Eb & Hl & Hm & A1 & A2)|(Hno & A1 & A2)].
           - left. exists p, a, b. repeat split; try assumption; [lia|]. intros p' Hp' Hl'. destruct (Nat.eq_dec p' n) as [->|]; [contradiction|]. apply Hm; [lia|exact Hl'].
           - right. split; [|split; assumption]. intros p Hp. destruct (Nat.eq_dec p n) as [->|]; [exact NH|]. apply Hno. lia. }
      destruct (in_dec Nat.eq_dec j (where_mid (y_mids m) (nth n (c_vals y) S754_nan))) as [Ij|Ij].
      2: { assert (NH : ~ hits m (nth n (c_vals x) S754_nan) (nth n (c_vals y) S754_nan) (nth n (c_vals z) S754_nan) i j k) by (intros (_ & K & _); contradiction).
           destruct (H1b NH) as (-> & ->). rewrite HL in NH. destruct H0 as [(p & a & b & Hp & Ea & Eb & Hl & Hm & A1 & A2)|(Hno & A1 & A2)].
           - left. exists p, a, b. repeat split; try assumption; [lia|]. intros p' Hp' Hl'. destruct (Nat.eq_dec p' n) as [->|]; [contradiction|]. apply Hm; [lia|exact Hl'].
           - right. split; [|split; assumption]. intros p Hp. destruct (Nat.eq_dec p n) as [->|]; [exact NH|]. apply Hno. lia. }
      destruct (in_dec Nat.eq_dec k (where_mid (z_mids m) (nth n (c_vals z) S754_nan))) as [Ik|Ik].
      2: { assert (NH : ~ hits m (nth n (c_vals x) S754_nan) (nth n (c_vals y) S754_nan) (nth n (c_vals z) S754_nan) i j k) by (intros (_ & _ & K); contradiction).
           destruct (H1b NH) as (-> & ->). rewrite HL in NH. destruct H0 as [(p & a & b & Hp & Ea & Eb & Hl & Hm & A1 & A2)|(Hno & A1 & A2)].
           - left. exists p, a, b. repeat split; try assumption; [lia|]. intros p' Hp' Hl'. destruct (Nat.eq_dec p' n) as [->|]; [contradiction|]. apply Hm; [lia|exact Hl'].
           - right. split; [|split; assumption]. intros p Hp. destruct (Nat.eq_dec p n) as [->|]; [exact NH|]. apply Hno. lia. }
      assert (YH : hits m (nth n (c_vals x) S754_nan) (nth n (c_vals y) S754_nan) (nth n (c_vals z) S754_nan) i j k) by (repeat split; assumption).
      destruct (H1a YH) as (A1 & A2). left. exists n, (nth n (c_vals v) S754_nan), (nth n (c_vals e) S754_nan).
      repeat split; try (apply nth_entry; lia); try assumption; [lia|apply HL; exact YH|]. intros; lia. }
  destruct (G (n_rows d) (le_n _)) as ([A E] & EG & HG). exists A, E. split; [exact EG|].
  intros i j k xi yj zk Hi Hj Hk. destruct (HG i j k xi yj zk Hi Hj Hk) as [(p & a & b & _ & Ea & Eb & Hl & Hm & A1 & A2)|(Hno & A1 & A2)].
  - left. exists p, a, b. repeat split; try assumption. intros p' Hp'. apply Hm; [exact (B _ _ _ _ Hp')|exact Hp'].
  - right. split; [|split; assumption]. intros p Hp. exact (Hno p (B _ _ _ _ Hp) Hp).
Qed.
Lemma single_never_equal x a : valid x = true -> is_finite_f x = true -> ~ single x -> single a -> feq x a = false.
Proof.
  intros V F N (Va & Fa & Ga & Ma). destruct (feq x a) eqn:E; [|reflexivity]. exfalso. apply N.
  apply (feq_R x a V Va F Fa) in E. split; [exact V|]. split; [exact F|]. rewrite E. split; assumption.
Qed.
Lemma array_plain m d n1 n2 n3 n4 n5 x y z v e : data m = Df d -> f_index d <> [] ->
  f_cols d = [(n1, x); (n2, y); (n3, z); (n4, v); (n5, e)] -> convert_to_3d_array m = Err IndexError.
Proof.
  intros Hd Hi Hc. unfold convert_to_3d_array, data_rows. rewrite Hd. cbn [bind]. unfold frame_rows. rewrite Hc.
  destruct (f_index d) as [|i0 ix]; [congruence|]. cbn [length seq map foldM snd].
  match goal with |- context [place_row m (zeros, zeros) ?r] => set (row := r) end.
  assert (E : place_row m (zeros, zeros) row = Err IndexError); [|rewrite E; reflexivity].
  unfold place_row, row. repeat match goal with |- context [py_nth (?a :: ?b :: ?c :: ?d' :: ?e' :: nil) ?n] =>
    let v := eval cbv in (Z.to_nat n) in
    match v with
    | 1%nat => change (py_nth [a; b; c; d'; e'] n) with (Ok b)
    | 2%nat => change (py_nth [a; b; c; d'; e'] n) with (Ok c)
    | 3%nat => change (py_nth [a; b; c; d'; e'] n) with (Ok d')
    | 4%nat => change (py_nth [a; b; c; d'; e'] n) with (Ok e')
    | _ => change (py_nth [a; b; c; d'; e'] n) with (@Err float IndexError)
    end end.
  cbn [bind]. unfold broadcast. cbv zeta. destruct (forallb _ _); reflexivity.
Qed.
