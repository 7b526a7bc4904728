(** Facts about PyTable.v in terms of SpecFisana.v. *)
From Coq Require Import Lia Floats.SpecFloat.
From Verif Require Import PyBase PyFloat PyFs SpecStr SpecUtil SpecOutput SpecFis PyTable PyFacts P_util P_fisout M_util M_fisout M_fisana SpecFisana.
Local Open Scope nat_scope.

Lemma has_col_In t n : has_col t n = true <-> In n (t_names t).
Proof.
  unfold has_col. rewrite existsb_exists. split.
  - intros (m & Hm & E). apply str_eqb_eq in E. now subst.
  - intros H. exists n. split; [exact H|apply str_eqb_refl].
Qed.
Lemma has_col_not t n : has_col t n = false <-> ~ In n (t_names t).
Proof. rewrite <- has_col_In. destruct (has_col t n); intuition congruence. Qed.
Lemma holds_num c x : holds c x <-> cell_num c = Ok x.
Proof.
  split.
  - intros H. destruct H; reflexivity.
  - destruct c as [y|z|s|[|]]; cbn [cell_num]; intros H; try discriminate; injection H as <-; constructor.
Qed.
Lemma cell_num_Err c e : cell_num c = Err e -> e = TypeError.
Proof. destruct c; cbn; congruence. Qed.
Lemma holds_fun c x y : holds c x -> holds c y -> x = y.
Proof. rewrite !holds_num. congruence. Qed.

Lemma get_cell_spec names : NoDup names -> forall cells name c, get_cell names cells name = Ok c <-> exists i, nth_error names i = Some name /\ nth_error cells i = Some c.
Proof.
  induction names as [|n names IH]; intros ND cells name c; cbn [get_cell].
  - split; [discriminate|]. intros ([|i] & H & _); discriminate.
  - inversion ND as [|? ? Hn ND']; subst. destruct cells as [|d cells].
    + split; [discriminate|]. intros ([|i] & _ & H); discriminate.
    + destruct (str_eqb_spec name n) as [->|N].
      * split; [intros H; injection H as <-; now exists 0|]. intros ([|i] & H1 & H2); [cbn in H2; congruence|]. elim Hn. cbn in H1. eapply nth_error_In. exact H1.
      * rewrite IH by assumption. split; [intros (i & H); now exists (S i)|]. intros ([|i] & H1 & H2); [cbn in H1; congruence|]. now exists i.
Qed.
Lemma row_cell_spec t name r c : NoDup (t_names t) -> row_cell t name r = Ok c <-> at_col t name r c.
Proof. intros ND. unfold row_cell, at_col. apply get_cell_spec. exact ND. Qed.
Lemma at_col_fun t name r c d : NoDup (t_names t) -> at_col t name r c -> at_col t name r d -> c = d.
Proof. intros ND H1 H2. apply row_cell_spec in H1; [|exact ND]. apply row_cell_spec in H2; [|exact ND]. congruence. Qed.
Lemma at_col_total t name r : In name (t_names t) -> List.length (snd r) = List.length (t_names t) -> exists c, at_col t name r c.
Proof.
  intros H L. apply In_nth_error in H. destruct H as (i & Hi). assert (Hl : i < List.length (snd r)) by (rewrite L; apply nth_error_Some; congruence).
  apply nth_error_Some in Hl. destruct (nth_error (snd r) i) as [c|] eqn:E; [|congruence]. exists c, i. auto.
Qed.
Lemma wf_row t r : well_formed t -> In r (t_rows t) -> List.length (snd r) = List.length (t_names t).
Proof. intros (_ & F) H. rewrite Forall_forall in F. now apply F. Qed.
Lemma row_cell_total t name r : well_formed t -> In r (t_rows t) -> In name (t_names t) -> exists c, row_cell t name r = Ok c /\ at_col t name r c.
Proof. intros W H I. destruct (at_col_total t name r I (wf_row t r W H)) as (c & Hc). exists c. split; [|exact Hc]. apply row_cell_spec; [apply W|exact Hc]. Qed.

(** mapM of a composition. *)
Lemma mapM_comp {A B C} (f : A -> res B) (g : B -> res C) l m : (do cs <- mapM f l; mapM g cs) = Ok m <-> mapM (fun x => do c <- f x; g c) l = Ok m.
Proof.
  revert m. induction l as [|x l IH]; intros m; [reflexivity|]. cbn [mapM]. destruct (f x) as [c|e]; cbn [bind]; [|split; discriminate].
  destruct (mapM f l) as [cs|e] eqn:E; cbn [bind mapM] in *.
  - split; intros H; apply bind_Ok in H; destruct H as (y & Ey & H); apply bind_Ok in H; destruct H as (ys & Eys & H); rewrite Ey; cbn [bind].
    + apply IH in Eys. rewrite Eys. exact H.
    + apply IH in Eys. rewrite Eys. exact H.
  - split; [discriminate|]. intros H. apply bind_Ok in H. destruct H as (y & _ & H). apply bind_Ok in H. destruct H as (ys & Eys & _). apply IH in Eys. discriminate.
Qed.
Lemma keep_picked {A} (h : A -> res bool) l m : mapM h l = Ok m -> picked (fun x => h x = Ok true) l (keep m l).
Proof.
  revert m. induction l as [|x l IH]; intros m H; cbn [mapM] in H; [injection H as <-; constructor|]. unbind H. injection H as <-. cbn [keep].
  destruct v; constructor; auto; congruence.
Qed.
Lemma picked_iff {A} (P Q : A -> Prop) l l' : (forall x, In x l -> (P x <-> Q x)) -> picked P l l' <-> picked Q l l'.
Proof.
  assert (One : forall (P Q : A -> Prop), (forall x, In x l -> (P x <-> Q x)) -> picked P l l' -> picked Q l l').
  { clear. intros P Q H G. revert H. induction G as [|x l l' Px G IH|x l l' Px G IH]; intros H.
    - constructor.
    - constructor; [apply H; [now left|exact Px]|]. apply IH. intros. apply H. now right.
    - constructor; [rewrite <- (H x (or_introl eq_refl)); exact Px|]. apply IH. intros. apply H. now right. }
  intros H. split; apply One; [exact H|]. intros x Hx. symmetry. now apply H.
Qed.
Lemma picked_fun {A} (P : A -> Prop) l a b : picked P l a -> picked P l b -> a = b.
Proof. intros G. revert b. induction G; intros b H'; inversion H'; subst; try contradiction; [reflexivity| |]; [f_equal|]; auto. Qed.
Lemma picked_In {A} (P : A -> Prop) l l' x : picked P l l' -> In x l' <-> In x l /\ P x.
Proof.
  induction 1 as [|y l l' Py G IH|y l l' Py G IH]; cbn [In]; [tauto| |]; rewrite IH; [intuition (subst; auto)|].
  split; [tauto|]. intros ([->|I] & Px); [contradiction|auto].
Qed.
Lemma picked_all {A} (P : A -> Prop) l : Forall P l -> picked P l l.
Proof. induction 1; constructor; auto. Qed.
Lemma picked_exists {A} (P : A -> Prop) l : (forall x, In x l -> P x \/ ~ P x) -> exists l', picked P l l'.
Proof.
  induction l as [|x l IH]; intros D; [exists []; constructor|]. destruct IH as (l' & G); [intros; apply D; now right|].
  destruct (D x (or_introl eq_refl)); [exists (x :: l')|exists l']; now constructor.
Qed.
(** Two selections one after the other. *)
Lemma picked_picked {A} (P Q : A -> Prop) l a b : picked P l a -> picked Q a b <-> picked Q a b /\ picked (fun x => P x /\ Q x) l b.
Proof.
  intros G. split; [|tauto]. intros H. split; [exact H|]. revert b H. induction G as [|x l a Px G IH|x l a Px G IH]; intros b H.
  - inversion H; constructor.
  - inversion H; subst; constructor; auto; tauto.
  - constructor; [tauto|]. now apply IH.
Qed.

Section Select.
  Context (t : table) (W : well_formed t) (name : str) (test : cell -> res bool).
  Let chk (r : row) : res bool := do c <- row_cell t name r; test c.
  Lemma select_Ok t' : select t name test = Ok t' <-> In name (t_names t) /\ exists m, mapM chk (t_rows t) = Ok m /\ t' = Table (t_names t) (keep m (t_rows t)).
  Proof.
    unfold select, column. destruct (has_col t name) eqn:E.
    - apply has_col_In in E. split.
      + intros H. unbind H. injection H as <-. split; [exact E|]. exists v0. split; [|reflexivity]. apply mapM_comp. rewrite E0. exact E1.
      + intros (_ & m & H & ->). apply mapM_comp in H. unbind H. rewrite E0. cbn [bind]. rewrite H. reflexivity.
    - apply has_col_not in E. split; [discriminate|]. intros (H & _). contradiction.
  Qed.
  Lemma chk_spec r b : chk r = Ok b <-> exists c, at_col t name r c /\ test c = Ok b.
  Proof.
    unfold chk. rewrite bind_Ok. split; intros (c & H1 & H2); exists c; (split; [|exact H2]); (apply row_cell_spec in H1; [exact H1|apply W]) || (apply row_cell_spec; [apply W|exact H1]).
  Qed.
  Lemma select_spec t' : select t name test = Ok t' <->
    In name (t_names t) /\ (forall r, In r (t_rows t) -> exists c b, at_col t name r c /\ test c = Ok b) /\
    rows_where t (fun r => exists c, at_col t name r c /\ test c = Ok true) t'.
  Proof.
    rewrite select_Ok. split.
    - intros (I & m & H & ->). split; [exact I|]. split.
      + intros r Hr. assert (exists b, chk r = Ok b) as (b & Hb).
        { clear -H Hr. revert m H. induction (t_rows t) as [|x l IH]; [contradiction|]. intros m H. cbn [mapM] in H. unbind H. destruct Hr as [->|Hr]; [now exists v|]. eapply IH; eassumption. }
        apply chk_spec in Hb. destruct Hb as (c & H1 & H2). now exists c, b.
      + split; [reflexivity|]. cbn [t_rows]. apply keep_picked in H. eapply picked_iff; [|exact H]. intros r _. symmetry. apply chk_spec.
    - intros (I & T & N & P). split; [exact I|].
      assert (exists m, mapM chk (t_rows t) = Ok m) as (m & Hm).
      { assert (D : forall r, In r (t_rows t) -> exists b, chk r = Ok b). { intros r Hr. destruct (T r Hr) as (c & b & H1 & H2). exists b. apply chk_spec. now exists c. }
        clear -D. induction (t_rows t) as [|x l IH]; [now exists []|]. destruct (D x (or_introl eq_refl)) as (b & Hb). destruct IH as (m & Hm); [intros; apply D; now right|].
        exists (b :: m). cbn [mapM]. rewrite Hb, Hm. reflexivity. }
      exists m. split; [exact Hm|]. destruct t' as [n' rs']. cbn [t_names t_rows] in *. subst n'. f_equal.
      apply keep_picked in Hm. eapply picked_fun; [exact P|]. eapply picked_iff; [|exact Hm]. intros r _. symmetry. apply chk_spec.
  Qed.
  (** Errors of the test only. *)
  Lemma select_Err (e0 : exn) : In name (t_names t) -> (forall c e, test c = Err e -> e = e0) -> forall e, select t name test = Err e -> e = e0.
  Proof.
    intros I T e. unfold select, column. replace (has_col t name) with true by (symmetry; now apply has_col_In). cbn [bind].
    assert (C : exists cs, mapM (row_cell t name) (t_rows t) = Ok cs).
    { assert (D : forall r, In r (t_rows t) -> exists c, row_cell t name r = Ok c). { intros r Hr. destruct (row_cell_total t name r W Hr I) as (c & Hc & _). now exists c. }
      clear -D. induction (t_rows t) as [|x l IH]; [now exists []|]. destruct (D x (or_introl eq_refl)) as (b & Hb). destruct IH as (m & Hm); [intros; apply D; now right|].
      exists (b :: m). cbn [mapM]. rewrite Hb, Hm. reflexivity. }
    destruct C as (cs & ->). cbn [bind]. destruct (mapM test cs) as [m|e'] eqn:E; cbn [bind]; [discriminate|]. intros H. injection H as <-.
    exact (mapM_only test (fun e => e = e0) cs e' T E).
  Qed.
End Select.

Lemma cell_gt_spec x c b : cell_gt x c = Ok b <-> exists y, holds c y /\ flt x y = b.
Proof.
  unfold cell_gt. rewrite bind_Ok. split; intros (y & H1 & H2); exists y; rewrite holds_num in *; (split; [exact H1|congruence]).
Qed.
Lemma flt_zero x : flt fzero x = true <-> pos_value x.
Proof.
  unfold pos_value. destruct x as [s|s| |s m e].
  - split; [destruct s; discriminate|]. intros [H|(? & ? & H)]; discriminate.
  - destruct s; split; intros H; try discriminate; auto. destruct H as [H|(? & ? & H)]; discriminate.
  - split; [discriminate|]. intros [H|(? & ? & H)]; discriminate.
  - destruct s; split; intros H; try discriminate; eauto. destruct H as [H|(? & ? & H)]; discriminate.
Qed.

(** Rows above a value. *)
Lemma select_gt t name x t' : well_formed t -> select t name (cell_gt x) = Ok t' <-> numeric t name /\ rows_where t (exceeds name x t) t'.
Proof.
  intros W. rewrite (select_spec t W).
  assert (Q : forall r, (exists c, at_col t name r c /\ cell_gt x c = Ok true) <-> exceeds name x t r).
  { intros r. unfold exceeds, number_at. split.
    - intros (c & A & H). apply cell_gt_spec in H. destruct H as (y & Hy & E). exists y. split; [now exists c|exact E].
    - intros (y & (c & A & Hy) & E). exists c. split; [exact A|]. apply cell_gt_spec. now exists y. }
  unfold numeric, rows_where. split.
  - intros (I & T & N & P). split; [split; [exact I|]|split; [exact N|]].
    + intros r Hr. destruct (T r Hr) as (c & b & A & H). apply cell_gt_spec in H. destruct H as (y & Hy & _). exists y, c. auto.
    + eapply picked_iff; [|exact P]. intros r _. symmetry. apply Q.
  - intros ((I & T) & N & P). split; [exact I|]. split; [|split; [exact N|]].
    + intros r Hr. destruct (T r Hr) as (y & c & A & Hy). exists c, (flt x y). split; [exact A|]. apply cell_gt_spec. now exists y.
    + eapply picked_iff; [|exact P]. intros r _. apply Q.
Qed.
Lemma select_gt_text t name x : well_formed t -> In name (t_names t) -> ~ numeric t name -> select t name (cell_gt x) = Err TypeError.
Proof.
  intros W I N. destruct (select t name (cell_gt x)) as [t'|e] eqn:E; [elim N; now apply select_gt in E|]. f_equal.
  refine (select_Err t W name (cell_gt x) TypeError I _ e E). intros c e' H. unfold cell_gt in H. destruct (cell_num c) as [y|e''] eqn:Ec; cbn in H; [discriminate|]. apply cell_num_Err in Ec. congruence.
Qed.
Lemma rows_where_wf t P t' : well_formed t -> rows_where t P t' -> well_formed t'.
Proof.
  intros (ND & F) (N & G). split; rewrite N; [exact ND|]. apply Forall_forall. intros r Hr. apply (picked_In P) with (1 := G) in Hr. rewrite Forall_forall in F. apply F. apply Hr.
Qed.
Lemma same_names_at t t' name r c : t_names t' = t_names t -> at_col t' name r c <-> at_col t name r c.
Proof. unfold at_col. now intros ->. Qed.
Lemma same_names_number t t' name r x : t_names t' = t_names t -> number_at t' name r x <-> number_at t name r x.
Proof. intros N. unfold number_at. split; intros (c & H1 & H2); exists c; (split; [|exact H2]); now apply (same_names_at t t' name r c N). Qed.
Lemma rows_where_numeric t P t' name : rows_where t P t' -> numeric t name -> numeric t' name.
Proof.
  intros (N & G) (I & T). split; [now rewrite N|]. intros r Hr. apply (picked_In P) with (1 := G) in Hr. destruct (T r (proj1 Hr)) as (x & Hx). exists x. now apply (same_names_number t t').
Qed.

(** The four filters. *)
Lemma emits_exceeds name t r : emits name t r <-> exceeds name fzero t r.
Proof. unfold emits, exceeds. split; intros (x & H1 & H2); exists x; (split; [exact H1|]); now apply flt_zero. Qed.
Lemma positive_rows_spec t name t' : well_formed t -> positive_rows (DataFrame t) name = Ok t' <-> numeric t name /\ rows_where t (emits name t) t'.
Proof.
  intros W. unfold positive_rows. destruct (has_col t name) eqn:E.
  - rewrite select_gt by exact W. unfold rows_where. split; intros (H1 & H2 & H3); (split; [exact H1|]; split; [exact H2|]);
      (eapply picked_iff; [|exact H3]); intros r _; rewrite emits_exceeds; reflexivity.
  - apply has_col_not in E. split; [discriminate|]. intros ((I & _) & _). contradiction.
Qed.
Lemma positive_rows_missing t name : ~ In name (t_names t) -> positive_rows (DataFrame t) name = Err ValueError.
Proof. intros H. unfold positive_rows. apply has_col_not in H. now rewrite H. Qed.
Lemma positive_rows_text t name : well_formed t -> In name (t_names t) -> ~ numeric t name -> positive_rows (DataFrame t) name = Err TypeError.
Proof. intros W I N. unfold positive_rows. replace (has_col t name) with true by (symmetry; now apply has_col_In). now apply select_gt_text. Qed.
Lemma emits_same t t' name r : t_names t' = t_names t -> emits name t' r <-> emits name t r.
Proof. intros N. unfold emits. split; intros (x & H1 & H2); exists x; (split; [|exact H2]); now apply (same_names_number t t' name r x N). Qed.
Lemma positive_rows_idem t name t' : well_formed t -> positive_rows (DataFrame t) name = Ok t' -> positive_rows (DataFrame t') name = Ok t'.
Proof.
  intros W H. apply positive_rows_spec in H; [|exact W]. destruct H as (Nu & RW). pose proof (rows_where_wf _ _ _ W RW) as W'.
  apply positive_rows_spec; [exact W'|]. split; [eapply rows_where_numeric; eassumption|]. destruct RW as (N & P). split; [reflexivity|].
  apply picked_all. apply Forall_forall. intros r Hr. apply (emits_same t t' name r N). apply (picked_In _ _ _ r P). exact Hr.
Qed.
Lemma positive_rows_comm t n1 n2 a b : well_formed t -> positive_rows (DataFrame t) n1 = Ok a -> positive_rows (DataFrame t) n2 = Ok b ->
  exists c, positive_rows (DataFrame a) n2 = Ok c /\ positive_rows (DataFrame b) n1 = Ok c /\ rows_where t (fun r => emits n1 t r /\ emits n2 t r) c.
Proof.
  intros W H1 H2. apply positive_rows_spec in H1; [|exact W]. apply positive_rows_spec in H2; [|exact W].
  destruct H1 as (Nu1 & R1), H2 as (Nu2 & R2). pose proof (rows_where_wf _ _ _ W R1) as Wa. pose proof (rows_where_wf _ _ _ W R2) as Wb.
  assert (Na : numeric a n2) by (eapply rows_where_numeric; eassumption). assert (Nb : numeric b n1) by (eapply rows_where_numeric; eassumption).
  assert (D : forall (t0 : table) n r, well_formed t0 -> numeric t0 n -> In r (t_rows t0) -> emits n t0 r \/ ~ emits n t0 r).
  { intros t0 n r W0 (_ & T) Hr. destruct (T r Hr) as (x & Hx). destruct (flt fzero x) eqn:E; [left; exists x; split; [exact Hx|now apply flt_zero]|right].
    intros He. apply emits_exceeds in He. destruct He as (y & Hy & Ey). destruct Hx as (c & Ac & Hc), Hy as (d & Ad & Hd).
    assert (c = d) by (eapply at_col_fun; [apply W0|exact Ac|exact Ad]). subst d. assert (x = y) by (eapply holds_fun; eassumption). congruence. }
  destruct (picked_exists (emits n2 a) (t_rows a)) as (l & Pl); [intros; now apply D|].
  destruct R1 as (E1 & P1), R2 as (E2 & P2).
  assert (Q : picked (fun r => emits n1 t r /\ emits n2 t r) (t_rows t) l).
  { refine (proj2 (proj1 (picked_picked (emits n1 t) (emits n2 t) _ _ l P1) _)). eapply picked_iff; [|exact Pl]. intros r _. symmetry. apply emits_same. exact E1. }
  exists (Table (t_names t) l). split; [|split].
  - apply positive_rows_spec; [exact Wa|]. split; [exact Na|]. split; [now rewrite E1|exact Pl].
  - apply positive_rows_spec; [exact Wb|]. split; [exact Nb|]. split; [now rewrite E2|]. cbn [t_rows].
    destruct (picked_exists (emits n1 b) (t_rows b)) as (l' & Pl'); [intros; now apply D|].
    replace l with l'; [exact Pl'|]. eapply picked_fun; [|exact Q].
    assert (Q' : picked (fun r => emits n2 t r /\ emits n1 t r) (t_rows t) l').
    { refine (proj2 (proj1 (picked_picked (emits n2 t) (emits n1 t) _ _ l' P2) _)). eapply picked_iff; [|exact Pl']. intros r _. symmetry. apply emits_same. exact E2. }
    eapply picked_iff; [|exact Q']. intros r _. tauto.
  - split; [reflexivity|exact Q].
Qed.
