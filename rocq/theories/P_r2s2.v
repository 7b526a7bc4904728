(** Lemmas for r2s_cell: the folders of cells. *)
From Verif Require Import PyBase PyFloat PyFs PyIo PyFacts M_util M_ptrac M_input M_mcout M_r2s SpecUtil SpecInput SpecR2s P_util P_r2s.
From Coq Require Import Permutation Lia.

(** * Computations that only change some paths *)
Definition touches {A} (P : path -> Prop) (m : io A) : Prop := forall f q, ~ P q -> fst (m f) q = f q.
Lemma touch_bind {A B} P (m : io A) (k : A -> io B) : touches P m -> (forall a, touches P (k a)) -> touches P (io_bind m k).
Proof.
  intros H K f q N. unfold io_bind. specialize (H f q N). destruct (m f) as [f' [a|e]]; cbn in *; [|exact H].
  rewrite (K a f' q N). exact H.
Qed.
Lemma touch_pure {A} P (r : fs -> res A) : touches P (fun f => (f, r f)).
Proof. intros f q _. reflexivity. Qed.
Lemma touch_read {A} P (r : fs -> res A) : touches P (io_read r).
Proof. apply touch_pure. Qed.
Lemma touch_lift {A} P (r : res A) : touches P (io_lift r).
Proof. intros f q _. reflexivity. Qed.
Lemma touch_ret {A} P (a : A) : touches P (io_ret a).
Proof. intros f q _. reflexivity. Qed.
Lemma touch_raise {A} P e : touches P (@io_raise A e).
Proof. intros f q _. reflexivity. Qed.
Lemma touch_lines (P : path -> Prop) p ls : P p -> touches P (io_write (fun f => write_lines f p ls)).
Proof.
  intros H f q N. unfold io_write. destruct (write_lines f p ls) as [f'|e] eqn:E; cbn; [|reflexivity].
  apply write_lines_Ok in E. destruct E as (_ & ->). rewrite write_lines_run. destruct (path_eqb_spec q p); [congruence|reflexivity].
Qed.
Lemma touch_mkdir (P : path -> Prop) p : P p -> touches P (io_write (fun f => os_mkdir f p)).
Proof.
  intros H f q N. unfold io_write, os_mkdir. destruct (walk f [] p); cbn [bind]; [|reflexivity]. destruct p; [reflexivity|].
  destruct (f (s :: p)); cbn; [reflexivity|]. apply fs_set_other. congruence.
Qed.
Lemma touch_copy (P : path -> Prop) src dst : P dst -> touches P (copyfile src dst).
Proof.
  intros H f q N. unfold copyfile. destruct (path_eqb src dst && path_exists f src); [reflexivity|]. destruct (walk f [] src); [|reflexivity].
  destruct (is_dir f src); [reflexivity|]. destruct (f src) as [[c|]|]; try reflexivity. destruct (can_open_w f dst); [|reflexivity].
  cbn. apply fs_set_other. congruence.
Qed.
Lemma touch_mono {A} (P Q : path -> Prop) (m : io A) : (forall q, P q -> Q q) -> touches P m -> touches Q m.
Proof. intros H T f q N. apply T. auto. Qed.
Lemma touch_makedirs_rev rp : touches (fun q => exists r, rev rp = q ++ r) (makedirs_rev rp).
Proof.
  induction rp as [|x rh IH]; [apply touch_raise|]. intros f q N. cbn [makedirs_rev].
  assert (M : touches (fun q => exists r, rev (x :: rh) = q ++ r) (io_write (fun f => os_mkdir f (rev (x :: rh))))) by (apply touch_mkdir; exists []; now rewrite app_nil_r).
  destruct rh as [|y rh]; [apply M; exact N|]. destruct (path_exists f (rev (y :: rh))); [apply M; exact N|].
  assert (N' : ~ exists r, rev (y :: rh) = q ++ r). { intros (r & E). apply N. exists (r ++ [x]). cbn [rev] in *. rewrite E. now rewrite <- app_assoc. }
  specialize (IH f q N'). destruct (makedirs_rev (y :: rh) f) as [f' [u|e]]; cbn [fst] in IH.
  - rewrite (M f' q N). exact IH.
  - destruct e; cbn [fst]; try exact IH. rewrite (M f' q N). exact IH.
Qed.
Lemma touch_makedirs p : touches (fun q => exists r, p = q ++ r) (makedirs p).
Proof.
  unfold makedirs. pose proof (touch_makedirs_rev (rev p)) as H. rewrite rev_involutive in H. exact H.
Qed.
(** fispact_setup changes its folder, what is below it, and missing parents. *)
Definition along (p q : path) : Prop := (exists r, q = p ++ r) \/ (exists r, p = q ++ r).
Lemma touch_setup p v : touches (along p) (fispact_setup p v).
Proof.
  assert (B : forall r, along p (p ++ r)) by (intros r; left; now exists r).
  unfold fispact_setup. apply touch_bind; [apply touch_read|]. intros ex. apply touch_bind.
  { destruct ex; cbn [negb]; [apply touch_ret|]. eapply touch_mono; [|apply touch_makedirs]. intros q H. now right. }
  intros _. repeat (apply touch_bind; [apply touch_lines, B|intros _]). apply touch_bind.
  { unfold copy_files_file. apply touch_bind; [apply touch_lift|]. intros src. apply touch_bind; [apply touch_read|]. intros []; cbn [negb]; [apply touch_copy, B|apply touch_raise]. }
  intros _. apply touch_bind; [|intros _; apply touch_lines, B]. unfold check_files_file. apply touch_bind; [apply touch_read|]. intros []; cbn [negb]; [apply touch_ret|apply touch_raise].
Qed.
Lemma along1 name q : along [name] q -> q = [] \/ inside name q.
Proof.
  intros [(r & ->)|(r & E)]; [right; now exists r|]. destruct q as [|x q]; [now left|]. right. injection E as <- E. now exists q.
Qed.
Lemma setup_frame name v f q : q <> [] -> ~ inside name q -> fst (fispact_setup [name] v f) q = f q.
Proof. intros H N. apply touch_setup. intros A. destruct (along1 name q A); contradiction. Qed.

(** * One folder *)
Lemma lines_ok f p ls : openable f p -> exists f', io_write (fun f => write_lines f p ls) f = (f', Ok tt) /\
  forall q, f' q = if path_eqb q p then Some (File (full_text ls)) else f q.
Proof.
  intros O. destruct (proj2 (write_lines_ok_iff f p ls) O) as (f' & E). exists f'. unfold io_write. rewrite E. split; [reflexivity|].
  apply write_lines_Ok in E. destruct E as (_ & ->). apply write_lines_run.
Qed.
Lemma lines_inv f p ls f' : io_write (fun f => write_lines f p ls) f = (f', Ok tt) -> openable f p /\
  forall q, f' q = if path_eqb q p then Some (File (full_text ls)) else f q.
Proof.
  unfold io_write. destruct (write_lines f p ls) as [g|e] eqn:E; [|discriminate]. intros X. injection X as <-. split.
  - apply (write_lines_ok_iff f p ls). eauto.
  - apply write_lines_Ok in E. destruct E as (_ & ->). apply write_lines_run.
Qed.
Lemma open2 f n x : openable f [n; x] <-> f [n] = Some Dir /\ f [n; x] <> Some Dir.
Proof.
  unfold openable. split.
  - intros (_ & H & A). split; [|exact H]. apply (A [n] [x] eq_refl); discriminate.
  - intros (A & H). split; [discriminate|]. split; [exact H|]. intros [|a [|b [|c r]]] t E Ha Hb; [contradiction| | |]; try (injection E as <- E; exact A).
    + injection E as <- <- <-. contradiction.
    + injection E as <- <- E. discriminate.
Qed.
Lemma have1 f n : path_exists f [n] = match f [n] with Some _ => true | None => false end.
Proof. reflexivity. Qed.
Lemma have2 f n x : f [n] = Some Dir -> path_exists f [n; x] = match f [n; x] with Some _ => true | None => false end.
Proof. intros H. unfold path_exists. cbn. now rewrite H. Qed.
Lemma file_walk f p c : file_at f p c -> walk f [] p = Ok tt /\ is_dir f p = false /\ path_exists f p = true.
Proof.
  intros (N & H & A). assert (W : walk f [] p = Ok tt) by (apply walk_spec; intros a b E Ha Hb; exact (A a b E Ha Hb)).
  split; [exact W|]. destruct p; [contradiction|]. unfold is_dir, path_exists. rewrite W, H. auto.
Qed.
Lemma file_frame f g name p c : (forall q, q <> [] -> ~ inside name q -> g q = f q) -> ~ inside name p -> file_at f p c -> file_at g p c.
Proof.
  intros H I (N & F & A). split; [exact N|]. split; [rewrite H; auto|]. intros a b E Ha Hb. rewrite H; [eauto|exact Ha|].
  intros (r & ->). apply I. exists (r ++ b). exact E.
Qed.
Lemma exists_ext f g p : p <> [] -> (forall a b, p = a ++ b -> a <> [] -> g a = f a) -> path_exists g p = path_exists f p.
Proof.
  intros N H. unfold path_exists.
  assert (W : forall q, (forall a b, q = a ++ b -> a <> [] -> g a = f a) -> walk f [] q = Ok tt <-> walk g [] q = Ok tt).
  { intros q K. rewrite !walk_spec. split; intros X a b E Ha Hb; cbn in *; [rewrite (K a b E Ha)|rewrite <- (K a b E Ha)]; eauto. }
  specialize (W p H). destruct p as [|x p]; [contradiction|]. rewrite <- (H (x :: p) [] (eq_sym (app_nil_r _))) by discriminate.
  destruct (walk f [] (x :: p)) as [[]|], (walk g [] (x :: p)) as [[]|]; try reflexivity; [destruct W as (W & _)|destruct W as (_ & W)]; specialize (W eq_refl); discriminate.
Qed.
Lemma exists_frame f g name p : (forall q, q <> [] -> ~ inside name q -> g q = f q) -> ~ inside name p -> path_exists g p = path_exists f p.
Proof.
  intros H I. destruct p as [|x p]; [reflexivity|]. apply exists_ext; [discriminate|]. intros a b E Ha. apply H; [exact Ha|].
  intros (r & ->). apply I. exists (r ++ b). exact E.
Qed.
Lemma app_len_inj {A} (l1 r1 l2 r2 : list A) : l1 ++ r1 = l2 ++ r2 -> List.length l1 = List.length l2 -> l1 = l2.
Proof.
  revert l2. induction l1 as [|x l1 IH]; intros [|y l2] E L; try discriminate; [reflexivity|]. injection E as -> E. injection L as L. f_equal. eauto.
Qed.
Lemma nothing_exists f p : nothing_at f p <-> path_exists f p = false.
Proof.
  unfold nothing_at, path_exists. destruct p as [|x p]; [cbn; split; [intros (N & _); contradiction|discriminate]|].
  destruct (walk f [] (x :: p)) as [[]|e] eqn:W.
  - pose proof (proj1 (walk_spec f [] (x :: p)) W) as K. split.
    + intros (_ & [->|(a & b & E & Ha & Hb & D)]); [reflexivity|]. elim D. exact (K a b E Ha Hb).
    + intros H. split; [discriminate|]. left. now destruct (f (x :: p)).
  - split; [reflexivity|]. intros _. split; [discriminate|]. right.
    assert (X : ~ forall a b, x :: p = a ++ b -> a <> [] -> b <> [] -> f a = Some Dir). { intros X. assert (walk f [] (x :: p) = Ok tt) by (apply walk_spec; exact X). congruence. }
    revert X. generalize (x :: p). clear. intros q X.
    assert (D : forall pre rest, q = pre ++ rest -> (forall a b, q = a ++ b -> List.length a <= List.length pre -> a <> [] -> b <> [] -> f a = Some Dir) ->
              exists a b, q = a ++ b /\ a <> [] /\ b <> [] /\ f a <> Some Dir).
    { intros pre rest. revert pre. induction rest as [|y rest IH]; intros pre E H.
      - elim X. intros a b E' Ha Hb. apply (H a b E'); [|exact Ha|exact Hb]. rewrite app_nil_r in E. subst pre. rewrite E', app_length. lia.
      - assert (De : f (pre ++ [y]) = Some Dir \/ f (pre ++ [y]) <> Some Dir) by (destruct (f (pre ++ [y])) as [[|]|]; [right; discriminate|now left|right; discriminate]).
        assert (E2 : q = (pre ++ [y]) ++ rest) by (rewrite <- app_assoc; exact E).
        destruct rest as [|z rest].
        + elim X. intros a b E' Ha Hb. apply (H a b E'); [|exact Ha|exact Hb]. apply (f_equal (@List.length str)) in E'. rewrite E, !app_length in E'. destruct b; [contradiction|]. cbn in E'. lia.
        + destruct De as [De|De]; [|exists (pre ++ [y]), (z :: rest); repeat split; try assumption; [destruct pre; discriminate|discriminate]].
          apply (IH (pre ++ [y]) E2). intros a b E' L Ha Hb. rewrite app_length in L. cbn in L.
          destruct (Nat.eq_dec (List.length a) (S (List.length pre))) as [Le|Le]; [|apply (H a b E'); [lia|exact Ha|exact Hb]].
          assert (a = pre ++ [y]) as ->; [|exact De]. rewrite E2 in E'. symmetry. apply (app_len_inj _ _ _ _ E'). rewrite app_length. cbn. lia. }
    apply (D [] q eq_refl). intros a b E L Ha. destruct a; [contradiction|cbn in L; lia].
Qed.
