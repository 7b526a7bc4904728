(** Facts about the Python runtime model of [PyBase]. *)
From Coq Require Import Lia ZifyBool.
From Verif Require Import PyBase SpecStr.

(** * Monad *)
Lemma mapM_Ok_map {A B} (f : A -> B) (l : list A) : mapM (fun x => Ok (f x)) l = Ok (map f l).
Proof. induction l as [|x l IH]; cbn; [reflexivity|]. now rewrite IH. Qed.

Lemma mapM_ext {A B} (f g : A -> res B) l :
  (forall x, In x l -> f x = g x) -> mapM f l = mapM g l.
Proof.
  induction l as [|x l IH]; cbn; intros H; [reflexivity|].
  rewrite H by now left. destruct (g x); [|reflexivity].
  rewrite IH; [reflexivity|]. intros y Hy. apply H. now right.
Qed.

Lemma mapM_Ok_iff {A B} (f : A -> res B) l ys :
  mapM f l = Ok ys <-> Forall2 (fun x y => f x = Ok y) l ys.
Proof.
  revert ys; induction l as [|x l IH]; intros ys; cbn.
  - split; intros H; [injection H as <-; constructor | inversion H; reflexivity].
  - split.
    + destruct (f x) as [y|e] eqn:E; [|discriminate].
      destruct (mapM f l) as [zs|e] eqn:E'; [|discriminate].
      intros H; injection H as <-. constructor; [assumption|]. now apply IH.
    + intros H; inversion H as [|? y ? zs H1 H2]; subst. rewrite H1.
      apply IH in H2. now rewrite H2.
Qed.

Lemma mapM_length {A B} (f : A -> res B) l ys : mapM f l = Ok ys -> length ys = length l.
Proof. intros H. apply mapM_Ok_iff in H. induction H; cbn; auto. Qed.

Lemma mapM_app {A B} (f : A -> res B) l1 l2 :
  mapM f (l1 ++ l2) = bind (mapM f l1) (fun a => bind (mapM f l2) (fun b => Ok (a ++ b))).
Proof.
  induction l1 as [|x l1 IH]; cbn.
  - destruct (mapM f l2); reflexivity.
  - destruct (f x); [|reflexivity]. rewrite IH.
    destruct (mapM f l1); cbn; [|reflexivity]. destruct (mapM f l2); reflexivity.
Qed.

Lemma mapM_map {A B C} (f : B -> res C) (g : A -> B) l :
  mapM f (map g l) = mapM (fun x => f (g x)) l.
Proof. induction l as [|x l IH]; cbn; [reflexivity|]. now rewrite IH. Qed.

Lemma mapM_Err_iff {A B} (f : A -> res B) l e :
  mapM f l = Err e <->
  exists a x b, l = a ++ x :: b /\ f x = Err e /\ Forall (fun y => exists z, f y = Ok z) a.
Proof.
  induction l as [|x l IH]; cbn.
  - split; [discriminate|]. intros (a & x & b & H & _). destruct a; discriminate.
  - split.
    + destruct (f x) as [y|e'] eqn:E.
      * destruct (mapM f l) as [ys|e''] eqn:E'; [discriminate|].
        intros H; injection H as ->. destruct IH as [IH _]. specialize (IH eq_refl).
        destruct IH as (a & z & b & -> & H1 & H2).
        exists (x :: a), z, b. repeat split; auto. constructor; eauto.
      * intros H; injection H as ->. exists [], x, l. auto.
    + intros (a & z & b & H & H1 & H2). destruct a as [|w a]; cbn in H.
      * injection H as -> ->. now rewrite H1.
      * injection H as -> ->. inversion H2 as [|? ? [y Hy] H3]; subst. rewrite Hy.
        destruct IH as [_ IH]. rewrite IH; [reflexivity|]. exists a, z, b. auto.
Qed.

Lemma foldM_app {A S} (f : S -> A -> res S) l1 l2 s :
  foldM f (l1 ++ l2) s = bind (foldM f l1 s) (foldM f l2).
Proof.
  revert s; induction l1 as [|x l1 IH]; intros s; cbn; [reflexivity|].
  destruct (f s x); [apply IH|reflexivity].
Qed.

Lemma foldM_Ok_fold {A S} (f : S -> A -> res S) (g : S -> A -> S) l s :
  (forall s x, In x l -> f s x = Ok (g s x)) -> foldM f l s = Ok (fold_left g l s).
Proof.
  revert s; induction l as [|x l IH]; intros s H; cbn; [reflexivity|].
  rewrite H by now left. apply IH. intros s' y Hy. apply H. now right.
Qed.

(** * enumerate *)
Lemma enum_from_length {A} n (l : list A) : length (enum_from n l) = length l.
Proof. revert n; induction l as [|x l IH]; intros n; cbn; auto. Qed.

Lemma enum_from_app {A} n (a b : list A) :
  enum_from n (a ++ b) = enum_from n a ++ enum_from (n + length a) b.
Proof.
  revert n; induction a as [|x a IH]; intros n; cbn.
  - now rewrite Nat.add_0_r.
  - rewrite IH. now replace (S n + length a) with (n + S (length a)) by lia.
Qed.

Lemma enum_from_In {A} n (l : list A) i x :
  In (i, x) (enum_from n l) <-> n <= i /\ nth_error l (i - n) = Some x.
Proof.
  revert n; induction l as [|y l IH]; intros n; cbn.
  - split; [tauto|]. intros [_ H]. destruct (i - n); discriminate.
  - split.
    + intros [H|H].
      * injection H as <- <-. rewrite Nat.sub_diag. cbn. auto.
      * apply IH in H. destruct H as [H1 H2]. split; [lia|].
        replace (i - n) with (S (i - S n)) by lia. exact H2.
    + intros [H1 H2]. destruct (Nat.eq_dec i n) as [->|Hn].
      * rewrite Nat.sub_diag in H2. cbn in H2. injection H2 as ->. now left.
      * right. apply IH. split; [lia|]. replace (i - n) with (S (i - S n)) in H2 by lia. exact H2.
Qed.

Lemma enumerate_In {A} (l : list A) i x :
  In (i, x) (enumerate l) <-> nth_error l i = Some x.
Proof.
  unfold enumerate. rewrite enum_from_In. rewrite Nat.sub_0_r. split; [tauto|].
  intros H; split; [lia|assumption].
Qed.

Lemma enum_from_map_snd {A} n (l : list A) : map snd (enum_from n l) = l.
Proof. revert n; induction l as [|x l IH]; intros n; cbn; [reflexivity|]. now rewrite IH. Qed.
Lemma enum_from_map_fst {A} n (l : list A) : map fst (enum_from n l) = seq n (length l).
Proof. revert n; induction l as [|x l IH]; intros n; cbn; [reflexivity|]. now rewrite IH. Qed.

(** * Characters and strings *)
Lemma str_eqb_refl s : str_eqb s s = true.
Proof. induction s as [|c s IH]; cbn; [reflexivity|]. now rewrite Ascii.eqb_refl. Qed.
Lemma str_eqb_eq a b : str_eqb a b = true <-> a = b.
Proof.
  split; [|intros ->; apply str_eqb_refl].
  revert b; induction a as [|c a IH]; intros [|d b]; cbn; try congruence.
  intros H. apply andb_prop in H. destruct H as [H1 H2].
  apply Ascii.eqb_eq in H1. subst. f_equal. now apply IH.
Qed.
Lemma str_eqb_neq a b : str_eqb a b = false <-> a <> b.
Proof.
  split.
  - intros H E. subst. rewrite str_eqb_refl in H. discriminate.
  - intros H. destruct (str_eqb a b) eqn:E; [|reflexivity]. apply str_eqb_eq in E. contradiction.
Qed.
Lemma str_eqb_spec a b : reflect (a = b) (str_eqb a b).
Proof. destruct (str_eqb a b) eqn:E; constructor; [now apply str_eqb_eq | now apply str_eqb_neq]. Qed.
Lemma str_eqb_sym a b : str_eqb a b = str_eqb b a.
Proof.
  destruct (str_eqb_spec a b) as [->|H]; [now rewrite str_eqb_refl|].
  symmetry. apply str_eqb_neq. congruence.
Qed.
Definition str_eq_dec (a b : str) : {a = b} + {a <> b} := list_eq_dec ascii_dec a b.

Lemma code_chr n : (n < 256)%N -> code (chr n) = n.
Proof. intros H. unfold code, chr. now apply N_ascii_embedding. Qed.
Lemma chr_code c : chr (code c) = c.
Proof. apply ascii_N_embedding. Qed.
Lemma code_inj a b : code a = code b -> a = b.
Proof. intros H. rewrite <- (chr_code a), <- (chr_code b). now rewrite H. Qed.
Lemma code_lt c : (code c < 256)%N.
Proof. unfold code. apply N_ascii_bounded. Qed.

(** Prove a fact about every character by computation on all 256. *)
Lemma ascii_all (P : ascii -> bool) :
  forallb (fun n => P (ascii_of_nat n)) (seq 0 256) = true -> forall c, P c = true.
Proof.
  intros H c. rewrite forallb_forall in H.
  rewrite <- (ascii_nat_embedding c). apply H. apply in_seq.
  pose proof (nat_ascii_bounded c). lia.
Qed.
Ltac by_ascii c :=
  revert c;
  match goal with
  | |- forall c, @?f c = true => apply (ascii_all f); vm_compute; reflexivity
  end.

Lemma starts_with_spec p s : starts_with p s = true <-> prefix_of p s.
Proof.
  revert s; induction p as [|c p IH]; intros s; cbn.
  - split; [|reflexivity]. intros _. now exists s.
  - destruct s as [|d s]; cbn.
    + split; [discriminate|]. intros [t H]. discriminate.
    + rewrite andb_true_iff, Ascii.eqb_eq, IH. split.
      * intros [-> [t ->]]. now exists t.
      * intros [t H]. injection H as -> ->. split; [reflexivity|]. now exists t.
Qed.
Lemma starts_with_app p t : starts_with p (p ++ t) = true.
Proof. apply starts_with_spec. now exists t. Qed.
Lemma starts_with_length p s : starts_with p s = true -> length p <= length s.
Proof. intros H. apply starts_with_spec in H. destruct H as [t ->]. rewrite app_length. lia. Qed.
Lemma starts_with_app_l p s t : starts_with p s = true -> starts_with p (s ++ t) = true.
Proof. rewrite !starts_with_spec. intros [u ->]. exists (u ++ t). now rewrite app_assoc. Qed.

Lemma ends_with_spec p s : ends_with p s = true <-> exists t, s = t ++ p.
Proof.
  unfold ends_with. rewrite starts_with_spec. split; intros [t H].
  - exists (rev t). rewrite <- (rev_involutive s), H, rev_app_distr, rev_involutive. reflexivity.
  - exists (rev t). now rewrite H, rev_app_distr.
Qed.

Lemma contains_spec sub s : contains sub s = true <-> occurs sub s.
Proof.
  induction s as [|c s IH]; cbn [contains].
  - rewrite orb_false_r, starts_with_spec. split.
    + intros [t H]. exists [], t. exact H.
    + intros (a & b & H). destruct a; [|discriminate]. exists b. exact H.
  - rewrite orb_true_iff, starts_with_spec, IH. split.
    + intros [[t H]|(a & b & H)].
      * exists [], t. exact H.
      * exists (c :: a), b. now rewrite H.
    + intros (a & b & H). destruct a as [|d a].
      * left. exists b. exact H.
      * right. injection H as -> ->. now exists a, b.
Qed.
Lemma contains_false sub s : contains sub s = false <-> ~ occurs sub s.
Proof.
  rewrite <- contains_spec. destruct (contains sub s); split; intros H; try congruence.
  all: intros H'; discriminate.
Qed.
Lemma contains_char c s : contains [c] s = existsb (Ascii.eqb c) s.
Proof.
  induction s as [|d s IH]; [reflexivity|].
  cbn [contains starts_with existsb]. rewrite IH, andb_true_r. reflexivity.
Qed.

(** * Stripping *)
Lemma lstrip_by_decomp p s :
  exists a, s = a ++ lstrip_by p s /\ Forall (fun c => p c = true) a.
Proof.
  induction s as [|c s IH]; cbn.
  - exists []. auto.
  - destruct (p c) eqn:E.
    + destruct IH as (a & H1 & H2). exists (c :: a). cbn. split; [congruence|]. constructor; auto.
    + exists []. auto.
Qed.
Lemma lstrip_by_head p s c t : lstrip_by p s = c :: t -> p c = false.
Proof.
  induction s as [|d s IH]; cbn; [discriminate|].
  destruct (p d) eqn:E; [apply IH|]. intros H; injection H as <- _. exact E.
Qed.
Lemma lstrip_by_id p c s : p c = false -> lstrip_by p (c :: s) = c :: s.
Proof. cbn. now intros ->. Qed.
Lemma lstrip_by_all p s : Forall (fun c => p c = true) s -> lstrip_by p s = [].
Proof. induction 1 as [|c s H _ IH]; cbn; [reflexivity|]. now rewrite H. Qed.
Lemma lstrip_by_app p a s : Forall (fun c => p c = true) a -> lstrip_by p (a ++ s) = lstrip_by p s.
Proof. induction 1 as [|c a H _ IH]; cbn; [reflexivity|]. now rewrite H. Qed.
Lemma lstrip_by_nil_iff p s : lstrip_by p s = [] <-> Forall (fun c => p c = true) s.
Proof.
  split; [|apply lstrip_by_all]. intros H.
  destruct (lstrip_by_decomp p s) as (a & H1 & H2). rewrite H1, H, app_nil_r. exact H2.
Qed.

Lemma rstrip_by_decomp p s :
  exists a, s = rstrip_by p s ++ a /\ Forall (fun c => p c = true) a.
Proof.
  induction s as [|c s (a & H1 & H2)]; cbn.
  - exists []. auto.
  - destruct (rstrip_by p s) as [|d t] eqn:E.
    + destruct (p c) eqn:Ec.
      * exists (c :: s). split; [reflexivity|]. cbn in H1. subst a. constructor; auto.
      * exists a. cbn in *. split; [congruence|assumption].
    + exists a. cbn in *. split; [congruence|assumption].
Qed.
Lemma rstrip_by_all p s : Forall (fun c => p c = true) s -> rstrip_by p s = [].
Proof. induction 1 as [|c s H _ IH]; cbn; [reflexivity|]. now rewrite IH, H. Qed.
Lemma rstrip_by_last p s c : p c = false -> rstrip_by p (s ++ [c]) = s ++ [c].
Proof.
  intros H. induction s as [|d s IH]; cbn.
  - now rewrite H.
  - rewrite IH. destruct (s ++ [c]) eqn:E; [destruct s; discriminate|]. reflexivity.
Qed.
Lemma rstrip_by_app p s a : Forall (fun c => p c = true) a -> rstrip_by p (s ++ a) = rstrip_by p s.
Proof.
  intros H. induction s as [|d s IH]; cbn.
  - now apply rstrip_by_all.
  - now rewrite IH.
Qed.
Lemma rstrip_by_snoc_ws p s c : p c = true -> rstrip_by p (s ++ [c]) = rstrip_by p s.
Proof. intros H. apply rstrip_by_app. auto. Qed.
Lemma rstrip_by_lasts p s : rstrip_by p s = [] \/ exists t c, rstrip_by p s = t ++ [c] /\ p c = false.
Proof.
  induction s as [|c s IH]; cbn; [auto|].
  destruct IH as [->|(t & d & -> & H)].
  - destruct (p c) eqn:E; [auto|]. right. exists [], c. auto.
  - right. exists (c :: t), d. split; [|assumption]. destruct (t ++ [d]) eqn:E; [destruct t; discriminate|].
    rewrite <- E. reflexivity.
Qed.
Lemma rstrip_by_idem p s : rstrip_by p (rstrip_by p s) = rstrip_by p s.
Proof.
  destruct (rstrip_by_lasts p s) as [->|(t & c & -> & H)]; [reflexivity|].
  now apply rstrip_by_last.
Qed.
Lemma rstrip_by_nil_iff p s : rstrip_by p s = [] <-> Forall (fun c => p c = true) s.
Proof.
  split; [|apply rstrip_by_all]. intros H.
  destruct (rstrip_by_decomp p s) as (a & H1 & H2). rewrite H1, H. exact H2.
Qed.
Lemma rstrip_by_length p s : length (rstrip_by p s) <= length s.
Proof.
  destruct (rstrip_by_decomp p s) as (a & H & _).
  rewrite H at 2. rewrite app_length. lia.
Qed.

(** * Words *)
Lemma is_ws_space : is_ws c_space = true.
Proof. reflexivity. Qed.

Lemma split_ws_cons_ws c s : is_ws c = true -> split_ws (c :: s) = split_ws s.
Proof. cbn. now intros ->. Qed.

Lemma split_ws_blank s : blank s -> split_ws s = [].
Proof. induction 1 as [|c s H _ IH]; [reflexivity|]. now rewrite split_ws_cons_ws. Qed.

Lemma split_ws_pre a s : blank a -> split_ws (a ++ s) = split_ws s.
Proof. induction 1 as [|c a H _ IH]; [reflexivity|]. cbn [app]. now rewrite split_ws_cons_ws. Qed.

Lemma split_ws_word w : word w -> split_ws w = [w].
Proof.
  intros [H0 H]. induction H as [|c w Hc Hw IH]; [now elim H0|].
  cbn. rewrite Hc. destruct w as [|d w]; [reflexivity|].
  inversion Hw as [|? ? Hd _]; subst. rewrite Hd.
  rewrite IH by discriminate. reflexivity.
Qed.

Lemma split_ws_word_app w c s : word w -> is_ws c = true ->
  split_ws (w ++ c :: s) = w :: split_ws s.
Proof.
  intros [H0 H] Hc. induction H as [|d w Hd Hw IH]; [now elim H0|].
  destruct w as [|e w].
  - cbn [app]. cbn. rewrite Hd, Hc. reflexivity.
  - cbn [app] in *. inversion Hw as [|? ? He _]; subst.
    change (split_ws (d :: e :: w ++ c :: s)) with
      (if is_ws d then split_ws (e :: w ++ c :: s)
       else if is_ws e then [d] :: split_ws (e :: w ++ c :: s)
            else match split_ws (e :: w ++ c :: s) with x :: xs => (d :: x) :: xs | [] => [[d]] end).
    rewrite Hd, He, IH by discriminate. reflexivity.
Qed.

Lemma words_sound s ws : words s ws -> split_ws s = ws.
Proof.
  induction 1 as [s H | pre w rest ws Hp Hw Hr _ IH].
  - now apply split_ws_blank.
  - rewrite split_ws_pre by assumption. destruct Hr as [->|(c & r & -> & Hc)].
    + rewrite app_nil_r in *. cbn in IH. subst ws. now apply split_ws_word.
    + rewrite split_ws_word_app by assumption. rewrite split_ws_cons_ws in IH by assumption. congruence.
Qed.

Lemma span_word (s : str) : exists w r, s = w ++ r /\ Forall (fun c => is_ws c = false) w /\
  (r = [] \/ exists c r', r = c :: r' /\ is_ws c = true).
Proof.
  induction s as [|c s (w & r & -> & H1 & H2)].
  - exists [], []. auto.
  - destruct (is_ws c) eqn:E.
    + exists [], (c :: w ++ r). repeat split; auto. right. eauto.
    + exists (c :: w), r. repeat split; auto.
Qed.

Lemma words_total s : words s (split_ws s).
Proof.
  remember (length s) as n eqn:Hn. revert s Hn.
  induction n as [n IH] using lt_wf_ind. intros s ->.
  destruct (lstrip_by_decomp is_ws s) as (a & Hs & Ha).
  destruct (lstrip_by is_ws s) as [|c t] eqn:E.
  - rewrite app_nil_r in Hs. subst a. rewrite split_ws_blank by exact Ha. now constructor.
  - apply lstrip_by_head in E.
    destruct (span_word (c :: t)) as (w & r & Hw & H1 & H2).
    assert (Hww : word w).
    { split; [|assumption]. intros ->. cbn in Hw.
      destruct H2 as [->|(d & r' & -> & Hd)]; [discriminate|]. injection Hw as -> _. congruence. }
    rewrite Hs, Hw. rewrite split_ws_pre by exact Ha.
    assert (Hlen : length r < length s).
    { rewrite Hs, Hw, !app_length. destruct w; [now destruct Hww|]. cbn. lia. }
    specialize (IH _ Hlen r eq_refl).
    destruct H2 as [->|(d & r' & -> & Hd)].
    + assert (Esp : split_ws (w ++ []) = [w]) by (rewrite app_nil_r; now apply split_ws_word).
      rewrite Esp. constructor 2; auto.
    + rewrite split_ws_word_app by assumption.
      rewrite split_ws_cons_ws in IH by assumption.
      constructor 2; eauto.
Qed.

Lemma words_split s ws : words s ws <-> split_ws s = ws.
Proof. split; [apply words_sound|]. intros <-. apply words_total. Qed.

Lemma split_ws_words s : Forall word (split_ws s).
Proof. pose proof (words_total s) as H. induction H; constructor; auto. Qed.

Lemma split_ws_app_ws a c b : is_ws c = true -> split_ws (a ++ c :: b) = split_ws a ++ split_ws b.
Proof.
  intros Hc. pose proof (words_total a) as Ha.
  induction Ha as [s H | pre w rest ws Hp Hw Hr _ IH].
  - rewrite split_ws_pre by assumption. now rewrite split_ws_cons_ws.
  - rewrite <- !app_assoc. rewrite split_ws_pre by assumption.
    destruct Hr as [->|(d & r & -> & Hd)].
    + cbn [app] in *. rewrite split_ws_word_app by assumption.
      rewrite split_ws_cons_ws in IH by assumption. f_equal. exact IH.
    + cbn [app] in *. rewrite split_ws_word_app by assumption.
      rewrite split_ws_cons_ws in IH by assumption. now rewrite IH.
Qed.

Lemma split_ws_post s a : blank a -> split_ws (s ++ a) = split_ws s.
Proof.
  intros Ha. destruct a as [|c a]; [now rewrite app_nil_r|].
  inversion Ha as [|? ? Hc Ha']; subst.
  rewrite split_ws_app_ws by assumption. rewrite (split_ws_blank a) by exact Ha'. apply app_nil_r.
Qed.
Lemma split_ws_app_blank s b t : blank b -> b <> [] -> split_ws (s ++ b ++ t) = split_ws s ++ split_ws t.
Proof.
  intros Hb H0. destruct b as [|c b]; [now elim H0|]. inversion Hb as [|? ? Hc Hb']; subst.
  cbn [app]. rewrite split_ws_app_ws by assumption. now rewrite split_ws_pre.
Qed.
Lemma split_ws_nil_iff s : split_ws s = [] <-> blank s.
Proof.
  split; [|apply split_ws_blank]. intros H. pose proof (words_total s) as Hw.
  rewrite H in Hw. now inversion Hw.
Qed.

Lemma split_ws_lstrip s : split_ws (lstrip s) = split_ws s.
Proof.
  destruct (lstrip_by_decomp is_ws s) as (a & Hs & Ha). unfold lstrip.
  rewrite Hs at 2. now rewrite split_ws_pre.
Qed.
Lemma split_ws_rstrip s : split_ws (rstrip s) = split_ws s.
Proof.
  destruct (rstrip_by_decomp is_ws s) as (a & Hs & Ha). unfold rstrip.
  rewrite Hs at 2. now rewrite split_ws_post.
Qed.
Lemma split_ws_strip s : split_ws (strip s) = split_ws s.
Proof. unfold strip. now rewrite split_ws_rstrip, split_ws_lstrip. Qed.

Lemma join_cons sep w w' l : join sep (w :: w' :: l) = w ++ sep ++ join sep (w' :: l).
Proof. reflexivity. Qed.
Lemma join_app sep a b : a <> [] -> b <> [] -> join sep (a ++ b) = join sep a ++ sep ++ join sep b.
Proof.
  intros Ha Hb. induction a as [|w a IH]; [now elim Ha|].
  destruct a as [|w' a].
  - destruct b as [|v b]; [now elim Hb|]. reflexivity.
  - cbn [app] in *. rewrite !join_cons. rewrite IH by discriminate. now rewrite <- !app_assoc.
Qed.

Lemma split_ws_join ws : Forall word ws -> split_ws (join [c_space] ws) = ws.
Proof.
  induction 1 as [|w ws Hw Hws IH]; [reflexivity|].
  destruct ws as [|w' ws].
  - now apply split_ws_word.
  - rewrite join_cons. cbn [app]. rewrite split_ws_word_app by (auto; reflexivity). now rewrite IH.
Qed.

Lemma word_head w : word w -> exists c t, w = c :: t /\ is_ws c = false.
Proof. intros [H0 H]. destruct H; [now elim H0|]. eauto. Qed.
Lemma word_last w : word w -> exists t c, w = t ++ [c] /\ is_ws c = false.
Proof.
  intros [H0 H]. destruct (exists_last H0) as (t & c & ->). exists t, c. split; [reflexivity|].
  apply Forall_app in H. destruct H as [_ H]. now inversion H.
Qed.

Lemma join_words_last ws : Forall word ws -> ws <> [] ->
  exists t c, join [c_space] ws = t ++ [c] /\ is_ws c = false.
Proof.
  induction 1 as [|w ws Hw Hws IH]; intros H0; [now elim H0|].
  destruct ws as [|w' ws].
  - destruct (word_last w Hw) as (t & c & H & Hc). exists t, c. auto.
  - destruct IH as (t & c & H & Hc); [discriminate|].
    rewrite join_cons, H. exists (w ++ [c_space] ++ t), c. split; [|assumption].
    now rewrite !app_assoc.
Qed.
Lemma join_words_head ws : Forall word ws -> ws <> [] ->
  exists c t, join [c_space] ws = c :: t /\ is_ws c = false.
Proof.
  intros H H0. destruct H as [|w ws Hw Hws]; [now elim H0|].
  destruct (word_head w Hw) as (c & t & -> & Hc). exists c.
  destruct ws as [|w' ws]; [exists t; auto|]. rewrite join_cons. cbn. eauto.
Qed.

Lemma strip_join_words ws : Forall word ws -> strip (join [c_space] ws) = join [c_space] ws.
Proof.
  intros H. destruct ws as [|w ws]; [reflexivity|].
  destruct (join_words_head _ H) as (c & t & E & Hc); [discriminate|].
  destruct (join_words_last _ H) as (t' & c' & E' & Hc'); [discriminate|].
  unfold strip, lstrip. rewrite E, lstrip_by_id by assumption. rewrite <- E, E'.
  now apply rstrip_by_last.
Qed.
Lemma strip_word w : word w -> strip w = w.
Proof. intros H. apply (strip_join_words [w]). auto. Qed.

(** * split(sep) *)
Lemma split_on_ne sep s : split_on sep s <> [].
Proof. destruct s as [|c s]; cbn; [discriminate|]. destruct (Ascii.eqb c sep); [discriminate|]. destruct (split_on sep s); discriminate. Qed.

Definition lacks (c : ascii) (s : str) : Prop := ~ In c s.

Lemma split_on_lacks sep s : lacks sep s -> split_on sep s = [s].
Proof.
  induction s as [|c s IH]; intros H; [reflexivity|]. cbn.
  destruct (Ascii.eqb_spec c sep) as [->|Hn]; [elim H; now left|].
  rewrite IH; [reflexivity|]. intros Hi. apply H. now right.
Qed.
Lemma split_on_app sep a b : lacks sep a -> split_on sep (a ++ sep :: b) = a :: split_on sep b.
Proof.
  induction a as [|c a IH]; intros H; cbn.
  - now rewrite Ascii.eqb_refl.
  - destruct (Ascii.eqb_spec c sep) as [->|Hn]; [elim H; now left|].
    rewrite IH; [reflexivity|]. intros Hi. apply H. now right.
Qed.
Lemma join_split_on sep s : join [sep] (split_on sep s) = s.
Proof.
  induction s as [|c s IH]; cbn; [reflexivity|].
  pose proof (split_on_ne sep s) as Hne.
  destruct (Ascii.eqb_spec c sep) as [->|Hn].
  - destruct (split_on sep s) as [|w ws]; [now elim Hne|]. rewrite join_cons, IH. reflexivity.
  - destruct (split_on sep s) as [|w ws]; [now elim Hne|]. destruct ws as [|w' ws].
    + cbn in *. now rewrite IH.
    + rewrite join_cons in *. cbn in *. now rewrite IH.
Qed.
Lemma split_on_lacks_all sep s : Forall (lacks sep) (split_on sep s).
Proof.
  induction s as [|c s IH]; cbn.
  - constructor; [intros []|constructor].
  - destruct (Ascii.eqb_spec c sep) as [->|Hn].
    + constructor; [intros []|assumption].
    + destruct (split_on sep s) as [|w ws]; inversion IH; subst.
      * constructor; [|constructor]. intros [H|[]]; congruence.
      * constructor; [|assumption]. intros [H|H]; [congruence|]. contradiction.
Qed.
Lemma split_on_join sep ws : ws <> [] -> Forall (lacks sep) ws -> split_on sep (join [sep] ws) = ws.
Proof.
  intros H0 H. induction H as [|w ws Hw Hws IH]; [now elim H0|].
  destruct ws as [|w' ws].
  - now apply split_on_lacks.
  - rewrite join_cons. cbn [app]. rewrite split_on_app by assumption. now rewrite IH.
Qed.
Lemma word_lacks_space w : word w -> lacks c_space w.
Proof. intros [_ H] Hi. rewrite Forall_forall in H. apply H in Hi. discriminate. Qed.

(** * Slices and indexing *)
Lemma slice_to_nat {A} (n : nat) (l : list A) : slice_to (Z.of_nat n) l = firstn n l.
Proof. unfold slice_to, slice, clamp_ix. cbn. destruct (Z.ltb_spec (Z.of_nat n) 0); [lia|]. now rewrite Nat2Z.id. Qed.
Lemma slice_from_nat {A} (n : nat) (l : list A) : slice_from (Z.of_nat n) l = skipn n l.
Proof.
  unfold slice_from, slice, clamp_ix. destruct (Z.ltb_spec (Z.of_nat n) 0); [lia|].
  rewrite firstn_all. now rewrite Nat2Z.id.
Qed.
Lemma slice_to_pos {A} (z : Z) (l : list A) : (0 <= z)%Z -> slice_to z l = firstn (Z.to_nat z) l.
Proof. intros H. rewrite <- slice_to_nat. now rewrite Z2Nat.id. Qed.
Lemma slice_from_pos {A} (z : Z) (l : list A) : (0 <= z)%Z -> slice_from z l = skipn (Z.to_nat z) l.
Proof. intros H. rewrite <- slice_from_nat. now rewrite Z2Nat.id. Qed.
Lemma slice_btw_nat {A} (a b : nat) (l : list A) :
  slice_btw (Z.of_nat a) (Z.of_nat b) l = skipn a (firstn b l).
Proof.
  unfold slice_btw, slice, clamp_ix. destruct (Z.ltb_spec (Z.of_nat a) 0); [lia|].
  destruct (Z.ltb_spec (Z.of_nat b) 0); [lia|]. now rewrite !Nat2Z.id.
Qed.
Lemma py_nth_nat {A} (l : list A) (n : nat) :
  py_nth l (Z.of_nat n) = match nth_error l n with Some x => Ok x | None => Err IndexError end.
Proof. unfold py_nth. destruct (Z.ltb_spec (Z.of_nat n) 0); [lia|]. rewrite Nat2Z.id. destruct (Z.ltb_spec (Z.of_nat n) 0); [lia|]. reflexivity. Qed.
Lemma py_nth_last {A} (l : list A) x : py_nth (l ++ [x]) (-1) = Ok x.
Proof.
  unfold py_nth, zlen. rewrite app_length. cbn [Z.ltb Z.compare length].
  destruct (Z.ltb_spec (-1 + Z.of_nat (length l + 1)) 0); [lia|].
  replace (Z.to_nat (-1 + Z.of_nat (length l + 1))) with (length l) by lia.
  rewrite nth_error_app2 by lia. now rewrite Nat.sub_diag.
Qed.

(** * First match searches *)
Fixpoint find_from {A} (p : A -> bool) (n : nat) (l : list A) : option nat :=
  match l with
  | [] => None
  | x :: l' => if p x then Some n else find_from p (S n) l'
  end.

Lemma find_from_Some {A} (p : A -> bool) n l i :
  find_from p n l = Some i <->
  n <= i /\ first_index (fun x => p x = true) l (i - n).
Proof.
  revert n; induction l as [|x l IH]; intros n; cbn.
  - split; [discriminate|]. intros (_ & (x & H & _) & _). destruct (i - n); discriminate.
  - destruct (p x) eqn:E.
    + split.
      * intros H; injection H as <-. split; [lia|]. rewrite Nat.sub_diag. split; [exists x; auto|]. intros j y Hj; lia.
      * intros (H & (y & Hy & Py) & Hf). destruct (i - n) as [|k] eqn:Ek.
        -- f_equal; lia.
        -- exfalso. apply (Hf 0 x); [lia|reflexivity|assumption].
    + rewrite IH. split.
      * intros (H & (y & Hy & Py) & Hf). split; [lia|]. replace (i - n) with (S (i - S n)) by lia.
        split; [exists y; auto|]. intros [|j] z Hj Hz; cbn in Hz; [injection Hz as <-; congruence|].
        apply (Hf j); [lia|assumption].
      * intros (H & (y & Hy & Py) & Hf). destruct (i - n) as [|k] eqn:Ek.
        -- cbn in Hy. injection Hy as ->. congruence.
        -- split; [lia|]. replace (i - S n) with k by lia. split; [exists y; auto|].
           intros j z Hj Hz. apply (Hf (S j)); [lia|assumption].
Qed.
Lemma find_from_None {A} (p : A -> bool) n l :
  find_from p n l = None <-> forall x, In x l -> p x = false.
Proof.
  revert n; induction l as [|x l IH]; intros n; cbn.
  - split; [tauto|reflexivity].
  - destruct (p x) eqn:E.
    + split; [discriminate|]. intros H. specialize (H x (or_introl eq_refl)). congruence.
    + rewrite IH. split; [|auto]. intros H y [->|Hy]; auto.
Qed.

(** * Dictionaries *)
Section Dict.
  Context {K V : Type} (eqb : K -> K -> bool).
  Hypothesis eqb_spec : forall a b, reflect (a = b) (eqb a b).

  Lemma dict_get_set k k' v (d : list (K * V)) :
    dict_get eqb k (dict_set eqb k' v d) = if eqb k k' then Some v else dict_get eqb k d.
  Proof.
    induction d as [|[k1 v1] d IH]; cbn.
    - reflexivity.
    - destruct (eqb_spec k' k1) as [<-|Hn]; cbn.
      + destruct (eqb_spec k k'); reflexivity.
      + rewrite IH. destruct (eqb_spec k k1) as [->|]; [|reflexivity].
        destruct (eqb_spec k1 k'); [congruence|reflexivity].
  Qed.
  Lemma dict_get_In k v (d : list (K * V)) : dict_get eqb k d = Some v -> In (k, v) d.
  Proof.
    induction d as [|[k1 v1] d IH]; cbn; [discriminate|].
    destruct (eqb_spec k k1) as [->|]; [|auto]. intros H; injection H as ->. now left.
  Qed.
  Lemma dict_get_NoDup k v (d : list (K * V)) :
    NoDup (map fst d) -> In (k, v) d -> dict_get eqb k d = Some v.
  Proof.
    induction d as [|[k1 v1] d IH]; cbn; [tauto|]. intros H [E|Hi].
    - injection E as -> ->. destruct (eqb_spec k k); congruence.
    - inversion H as [|? ? Hn Hd]; subst. destruct (eqb_spec k k1) as [->|]; [|auto].
      elim Hn. apply in_map_iff. now exists (k1, v).
  Qed.
  Lemma dict_get_None k (d : list (K * V)) : dict_get eqb k d = None <-> ~ In k (map fst d).
  Proof.
    induction d as [|[k1 v1] d IH]; cbn; [tauto|].
    destruct (eqb_spec k k1) as [->|Hn]; [|rewrite IH]; split; intros H.
    - discriminate.
    - elim H; auto.
    - intros [->|]; auto.
    - tauto.
  Qed.
  Lemma dict_has_In k (d : list (K * V)) : dict_has eqb k d = true <-> In k (map fst d).
  Proof.
    unfold dict_has. destruct (dict_get eqb k d) eqn:E.
    - split; [|reflexivity]. intros _. apply dict_get_In in E. apply in_map_iff. now exists (k, v).
    - apply dict_get_None in E. split; [discriminate|contradiction].
  Qed.
  Lemma dict_set_fresh k v (d : list (K * V)) :
    ~ In k (map fst d) -> dict_set eqb k v d = d ++ [(k, v)].
  Proof.
    induction d as [|[k1 v1] d IH]; cbn; intros H; [reflexivity|].
    destruct (eqb_spec k k1) as [->|]; [elim H; auto|]. rewrite IH; tauto.
  Qed.
  Lemma dict_set_keys k v (d : list (K * V)) :
    map fst (dict_set eqb k v d) = if dict_has eqb k d then map fst d else map fst d ++ [k].
  Proof.
    induction d as [|[k1 v1] d IH]; cbn; [reflexivity|].
    unfold dict_has in *. cbn. destruct (eqb_spec k k1) as [->|]; [reflexivity|].
    cbn. rewrite IH. destruct (dict_get eqb k d); reflexivity.
  Qed.
End Dict.

Lemma NoDup_snoc {A} (l : list A) x : NoDup l -> ~ In x l -> NoDup (l ++ [x]).
Proof.
  intros H Hn. induction H as [|y l Hy Hl IH]; cbn.
  - constructor; [auto|constructor].
  - constructor.
    + rewrite in_app_iff. cbn. intros [|[->|[]]]; [contradiction|]. apply Hn. now left.
    + apply IH. intros Hi. apply Hn. now right.
Qed.

Lemma dict_set_NoDup {K V} (eqb : K -> K -> bool) (eqb_spec : forall a b, reflect (a = b) (eqb a b))
  k v (d : list (K * V)) : NoDup (map fst d) -> NoDup (map fst (dict_set eqb k v d)).
Proof.
  intros H. rewrite dict_set_keys by assumption. destruct (dict_has eqb k d) eqn:E; [assumption|].
  apply NoDup_snoc; [assumption|]. rewrite <- (dict_has_In eqb eqb_spec). congruence.
Qed.
