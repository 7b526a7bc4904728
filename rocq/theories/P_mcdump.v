(** Proofs about the debug copies of mcnp_output_reader.py. *)
From Coq Require Import Permutation Lia.
From Verif Require Import PyBase PyFloat PyFs SpecStr PyFacts M_util PyIo SpecUtil P_util SpecInput TextFacts SpecOutput P_output P_output3 M_mcout SpecMcout P_mcout P_mcout2 M_mcdump.

Definition copy_path (cwd : path) (t : str) : path := cwd ++ [lit "tally_test" ++ t ++ lit ".txt"].

Lemma bind_assoc {A B C} (m : res A) (k : A -> res B) (h : B -> res C) : bind (bind m k) h = bind m (fun a => bind (k a) h).
Proof. now destruct m. Qed.
Lemma bind_ext {A B} (m : res A) (k k' : A -> res B) : (forall a, k a = k' a) -> bind m k = bind m k'.
Proof. intros H. destruct m; cbn; [apply H|reflexivity]. Qed.

Lemma read_tally_split order lines t : read_tally order lines t =
  bind (tally_head lines t) (fun h => let '(n, ty, pa, nps, ls) := h in bind (tally_body order ty ls) (fun b => Ok (Tally n ty pa nps b))).
Proof.
  unfold read_tally, tally_head. cbv zeta.
  repeat (rewrite bind_assoc; apply bind_ext; intros ?). reflexivity.
Qed.

Lemma head_section data t hdr body n ty pa nps ls : tally_section data t hdr body ->
  tally_head data t = Ok (n, ty, pa, nps, ls) -> ls = removelast body.
Proof.
  intros (pre & a & nxt & post & Hd & Hs & Ha & Hh & Hb & Hn & Hlen).
  pose proof (results_of_start _ _ Hs) as Hr. rewrite Hd in Hr at 2.
  rewrite skipn_app, skipn_all, Nat.sub_diag in Hr. cbn [skipn app] in Hr.
  unfold tally_head. fold (results_of data). rewrite Hr. cbv zeta.
  destruct Hh as (Ht & Hh). destruct (title_text t Ht) as (E1 & E2). rewrite <- !app_assoc. rewrite E1.
  assert (Ha' : none_of (prefix_of (lit "1tally" ++ repeat (chr 32) (9 - List.length t) ++ t)) a).
  { intros l Hl Hp. apply (Ha l Hl). split; assumption. }
  rewrite (find_line_app _ 15 a hdr (body ++ nxt :: post) (eq_sym E2) Ha' Hh). cbn [bind].
  destruct body as [|b1 bs]; [cbn in Hlen; lia|].
  assert (Hf : find_line (lit "1tally") ((b1 :: bs) ++ nxt :: post) 6 = Ok (List.length (b1 :: bs))).
  { apply find_line_app; [reflexivity|exact Hb|exact Hn]. }
  rewrite (slice_from_app a _ 1%Z) by lia.
  assert (Hsl : slice_from 1 (hdr :: (b1 :: bs) ++ nxt :: post) = (b1 :: bs) ++ nxt :: post) by apply slice_from_1. rewrite Hsl, Hf. cbn [bind].
  repeat match goal with |- bind ?m _ = _ -> _ => destruct m; [cbn [bind]|discriminate] end.
  replace (slice_to (Z.of_nat (List.length (b1 :: bs)) - 1) ((b1 :: bs) ++ nxt :: post)) with (removelast (b1 :: bs)).
  { intros H. now injection H as <- <- <- <- <-. }
  rewrite slice_to_pos by (cbn [List.length]; lia). rewrite removelast_firstn by discriminate.
  rewrite firstn_app. replace (Z.to_nat (Z.of_nat (List.length (b1 :: bs)) - 1)) with (List.length (b1 :: bs) - 1) by lia.
  replace (List.length (b1 :: bs) - 1 - List.length (b1 :: bs)) with 0 by lia. now rewrite firstn_O, app_nil_r.
Qed.

Lemma copy_path_inj cwd t u : copy_path cwd t = copy_path cwd u -> t = u.
Proof.
  unfold copy_path. intros H. apply app_inv_head in H. injection H as H. now apply app_inv_tail in H.
Qed.

(** A copy is made or not, and no other file changes. *)
Lemma write_lines_at f p lines f' : write_lines f p lines = Ok f' -> f' p = Some (File (full_text lines)) /\ forall q, q <> p -> f' q = f q.
Proof.
  unfold write_lines, write_lines_effects. destruct (can_open_w f p) as [[]|e]; [|discriminate]. cbn [bind].
  intros H. assert (E : f' = run_ops f (write_lines_ops p lines)) by congruence. rewrite E. split; [|intros q Hq]; rewrite write_lines_run; destruct (path_eqb_spec p p); try congruence.
  destruct (path_eqb_spec q p); congruence.
Qed.
(** Opening a sibling file does not change whether another can be opened. *)
Lemma openable_sibling f f' cwd (x y : str) c : f' (cwd ++ [x]) = Some (File c) -> (forall q, q <> cwd ++ [x] -> f' q = f q) -> openable f (cwd ++ [x]) ->
  (openable f' (cwd ++ [y]) <-> openable f (cwd ++ [y])).
Proof.
  intros Hx Hq Ho.
  assert (Hanc : forall a b, cwd ++ [y] = a ++ b -> a <> [] -> b <> [] -> f' a = f a).
  { intros a b E _ Hb. apply Hq. intros ->. apply (f_equal (@List.length str)) in E. rewrite !app_length in E. cbn in E.
    destruct b; [congruence|cbn in E; lia]. }
  destruct (list_eq_dec (list_eq_dec Ascii.ascii_dec) (cwd ++ [y]) (cwd ++ [x])) as [E|N].
  - rewrite E. split; [intros _; exact Ho|]. intros (H1 & H2 & H3). split; [exact H1|]. split; [congruence|].
    intros a b Eab Ha Hb. rewrite (Hanc a b) by (congruence || assumption). now apply (H3 a b).
  - unfold openable. rewrite (Hq _ N). split; intros (H1 & H2 & H3); (split; [exact H1|]; split; [exact H2|]); intros a b Eab Ha Hb.
    + rewrite <- (Hanc a b) by assumption. now apply (H3 a b).
    + rewrite (Hanc a b) by assumption. now apply (H3 a b).
Qed.

Lemma quiet_tally cwd so lines t f : read_tally_io false cwd so lines t f = (f, read_tally so lines t).
Proof.
  rewrite read_tally_split. unfold read_tally_io, io_bind, io_lift, debug_copy, io_ret.
  destruct (tally_head lines t) as [[[[[n ty] pa] nps] ls]|e]; [|reflexivity]. cbn [bind].
  now destruct (tally_body so ty ls).
Qed.
Lemma quiet_tallies cwd so lines ts f : read_tallies_io false cwd so lines ts f = (f, mapM (read_tally so lines) ts).
Proof.
  revert f. induction ts as [|t ts IH]; intros f; [reflexivity|]. cbn [read_tallies_io mapM]. unfold io_bind at 1. rewrite quiet_tally.
  destruct (read_tally so lines t) as [r|e]; [|reflexivity]. cbn [bind]. unfold io_bind. rewrite IH. now destruct (mapM (read_tally so lines) ts).
Qed.
Lemma io_bind_lift {A B} (r : res A) (k : A -> io B) f : io_bind (io_lift r) k f = match r with Ok a => k a f | Err e => (f, Err e) end.
Proof. reflexivity. Qed.
Lemma quiet_file cwd to so p f : read_output_file_io false cwd to so p f = (f, read_output_file to so f p).
Proof.
  unfold read_output_file_io, read_output_file. unfold io_bind at 1, io_read.
  destruct (get_lines f p) as [data|e]; [|reflexivity]. cbn [bind]. rewrite io_bind_lift.
  destruct (read_run_date data) as [dt|e]; [|reflexivity]. cbn [bind]. destruct (read_comments_warnings data) as [cs ws]. cbv zeta. rewrite io_bind_lift.
  match goal with |- match ?x with _ => _ end = _ => destruct x as [t60|e]; [|reflexivity] end. cbn [bind]. rewrite io_bind_lift.
  match goal with |- match ?x with _ => _ end = _ => destruct x as [t101|e]; [|reflexivity] end. cbn [bind]. rewrite io_bind_lift.
  destruct (get_tally_nums data) as [tls|e]; [|reflexivity]. cbn [bind].
  unfold io_bind. rewrite quiet_tallies. now destruct (mapM (read_tally so data) (to tls)).
Qed.

(** One tally at debug level. *)
Lemma debug_tally cwd so lines t f f' r : read_tally_io true cwd so lines t f = (f', r) ->
  (forall q, q <> copy_path cwd t -> f' q = f q) /\
  (f' = f \/ openable f (copy_path cwd t) /\ exists n ty pa nps ls, tally_head lines t = Ok (n, ty, pa, nps, ls) /\ f' (copy_path cwd t) = Some (File (full_text ls))) /\
  (forall x, r = Ok x <-> read_tally so lines t = Ok x /\ openable f (copy_path cwd t)) /\
  (forall x, r = Ok x -> exists n ty pa nps ls, tally_head lines t = Ok (n, ty, pa, nps, ls) /\ f' (copy_path cwd t) = Some (File (full_text ls))).
Proof.
  rewrite read_tally_split. unfold read_tally_io, io_bind, io_lift, debug_copy, io_ret, io_write. fold (copy_path cwd t).
  destruct (tally_head lines t) as [[[[[n ty] pa] nps] ls]|e]; cbn [bind].
  2:{ intros H. injection H as <- <-. split; [reflexivity|]. split; [now left|]. split; [|discriminate]. intros x. split; [discriminate|intros (H & _); discriminate]. }
  destruct (write_lines f (copy_path cwd t) ls) as [g|e] eqn:W.
  - destruct (write_lines_at _ _ _ _ W) as (W1 & W2). assert (O : openable f (copy_path cwd t)) by (apply (write_lines_ok_iff f _ ls); eauto).
    destruct (tally_body so ty ls) as [b|e]; cbn [bind]; intros H; injection H as <- <-;
      (split; [exact W2|]; split; [right; split; [exact O|]; do 5 eexists; split; [reflexivity|exact W1]|]; split).
    + intros x. split; [intros H; now injection H as <-|intros (H & _); now injection H as <-].
    + intros x _. do 5 eexists. split; [reflexivity|exact W1].
    + intros x. split; [discriminate|intros (H & _); discriminate].
    + discriminate.
  - intros H. injection H as <- <-. split; [reflexivity|]. split; [now left|]. split; [|discriminate].
    intros x. split; [discriminate|]. intros (_ & O). apply (write_lines_ok_iff f _ ls) in O. destruct O as (g & O). congruence.
Qed.
Lemma openable_after cwd so lines t f f' r u : read_tally_io true cwd so lines t f = (f', r) ->
  (openable f' (copy_path cwd u) <-> openable f (copy_path cwd u)).
Proof.
  intros H. destruct (debug_tally _ _ _ _ _ _ _ H) as (Hq & [->|(O & n & ty & pa & nps & ls & _ & Hc)] & _); [reflexivity|].
  apply (openable_sibling f f' cwd _ _ _ Hc Hq O).
Qed.

Lemma debug_tallies cwd so lines ts f f' r : NoDup ts -> read_tallies_io true cwd so lines ts f = (f', r) ->
  (forall q, (forall t, In t ts -> q <> copy_path cwd t) -> f' q = f q) /\
  (forall xs, r = Ok xs <-> mapM (read_tally so lines) ts = Ok xs /\ forall t, In t ts -> openable f (copy_path cwd t)) /\
  (forall xs t, r = Ok xs -> In t ts -> exists n ty pa nps ls, tally_head lines t = Ok (n, ty, pa, nps, ls) /\ f' (copy_path cwd t) = Some (File (full_text ls))).
Proof.
  intros ND. revert f f' r. induction ts as [|t ts IH]; intros f f' r.
  - intros H. injection H as <- <-. split; [reflexivity|]. split; [|intros xs t _ []]. intros xs. split; [intros H; injection H as <-; split; [reflexivity|intros t []]|intros (H & _); exact H].
  - inversion ND as [|? ? Nt ND']; subst. specialize (IH ND'). cbn [read_tallies_io mapM]. unfold io_bind at 1.
    destruct (read_tally_io true cwd so lines t f) as [g rt] eqn:E. pose proof (fun u => openable_after cwd so lines t f g rt u E) as Hop.
    destruct (debug_tally _ _ _ _ _ _ _ E) as (Hq & _ & Hok & Hc). destruct rt as [x|e].
    + destruct (proj1 (Hok x) eq_refl) as (Hrt & Ho). rewrite Hrt. cbn [bind]. unfold io_bind at 1.
      destruct (read_tallies_io true cwd so lines ts g) as [g' rs] eqn:E'. destruct (IH _ _ _ E') as (Hq' & Hok' & Hc').
      assert (Hfr : forall q, (forall u, t = u \/ In u ts -> q <> copy_path cwd u) -> g' q = f q).
      { intros q Hn. rewrite Hq' by auto. apply Hq. auto. }
      destruct rs as [xs|e]; cbn [io_ret]; unfold io_ret; intros H; injection H as <- <-; (split; [exact Hfr|]).
      * destruct (proj1 (Hok' xs) eq_refl) as (Hm & Ho'). split.
        -- intros ys. rewrite Hm. cbn [bind]. split; [intros H; injection H as <-; split; [reflexivity|]|intros (H & _); exact H].
           intros u [<-|Hu]; [exact Ho|]. apply Hop. now apply Ho'.
        -- intros ys u _ [<-|Hu]; [|exact (Hc' xs u eq_refl Hu)].
           destruct (Hc x eq_refl) as (n & ty & pa & nps & ls & H1 & H2). exists n, ty, pa, nps, ls. split; [exact H1|].
           rewrite Hq'; [exact H2|]. intros u Hu X. apply copy_path_inj in X. congruence.
      * split; [|discriminate]. intros ys. split; [discriminate|]. intros (Hm & Ho'). exfalso.
        destruct (mapM (read_tally so lines) ts) as [xs|e'] eqn:Em; [|discriminate].
        assert (X : @Err (list tally) e = Ok xs) by (apply Hok'; split; [reflexivity|intros u Hu; apply Hop, Ho'; now right]). discriminate X.
    + intros H. injection H as <- <-. split; [intros q Hn; apply Hq, Hn; now left|]. split; [|discriminate].
      intros ys. split; [discriminate|]. intros (Hm & Ho'). exfalso.
      destruct (read_tally so lines t) as [x|e'] eqn:Er; [|discriminate].
      assert (X : @Err tally e = Ok x) by (apply Hok; split; [reflexivity|apply Ho'; now left]). discriminate X.
Qed.

(** The whole file at debug level. *)
Lemma debug_file cwd to so p f f' r data : rearranges to -> get_lines f p = Ok data ->
  read_output_file_io true cwd to so p f = (f', r) ->
  (forall q, (forall t l, In l data -> listed_tally l t -> q <> copy_path cwd t) -> f' q = f q) /\
  (forall a, r = Ok a <-> read_output_file to so f p = Ok a /\ forall t l, In l data -> listed_tally l t -> openable f (copy_path cwd t)) /\
  (forall a t l hdr body, r = Ok a -> In l data -> listed_tally l t -> tally_section data t hdr body ->
     f' (copy_path cwd t) = Some (File (full_text (removelast body)))).
Proof.
  intros R Hg. unfold read_output_file_io, read_output_file. unfold io_bind at 1, io_read. rewrite Hg. cbn [bind]. rewrite io_bind_lift.
  assert (Hbad : forall e : exn, (f, @Err mcnp_output e) = (f', r) ->
    (forall q, (forall t l, In l data -> listed_tally l t -> q <> copy_path cwd t) -> f' q = f q) /\
    (forall a, r = Ok a <-> @Err mcnp_output e = Ok a /\ forall t l, In l data -> listed_tally l t -> openable f (copy_path cwd t)) /\
    (forall a t l hdr body, r = Ok a -> In l data -> listed_tally l t -> tally_section data t hdr body ->
       f' (copy_path cwd t) = Some (File (full_text (removelast body))))).
  { intros e H. injection H as <- <-. split; [reflexivity|]. split; [|discriminate]. intros a. split; [discriminate|intros (H & _); discriminate H]. }
  destruct (read_run_date data) as [dt|e]; [|exact (Hbad e)]. cbn [bind]. destruct (read_comments_warnings data) as [cs ws]. cbv zeta. rewrite io_bind_lift.
  match goal with |- match ?x with _ => _ end = _ -> _ => destruct x as [t60|e]; [|exact (Hbad e)] end. cbn [bind]. rewrite io_bind_lift.
  match goal with |- match ?x with _ => _ end = _ -> _ => destruct x as [t101|e]; [|exact (Hbad e)] end. cbn [bind]. rewrite io_bind_lift.
  destruct (get_tally_nums data) as [tls|e] eqn:En; [|exact (Hbad e)]. cbn [bind]. clear Hbad.
  destruct (tally_nums_Ok _ _ En) as (ND & HI).
  assert (HI' : forall t, In t (to tls) <-> exists l, In l data /\ listed_tally l t).
  { intros t. rewrite <- HI. split; intros H; [apply (Permutation_in t (Permutation_sym (R tls)) H)|apply (Permutation_in t (R tls) H)]. }
  assert (ND' : NoDup (to tls)) by (apply (Permutation_NoDup (R tls) ND)).
  unfold io_bind. destruct (read_tallies_io true cwd so data (to tls) f) as [g rs] eqn:E.
  destruct (debug_tallies _ _ _ _ _ _ _ ND' E) as (Hq & Hok & Hc).
  assert (Hfr : forall q, (forall t l, In l data -> listed_tally l t -> q <> copy_path cwd t) -> g q = f q).
  { intros q Hn. apply Hq. intros t Ht. apply HI' in Ht. destruct Ht as (l & H1 & H2). exact (Hn t l H1 H2). }
  destruct rs as [xs|e]; unfold io_ret; intros H; injection H as <- <-; (split; [exact Hfr|]).
  - destruct (proj1 (Hok xs) eq_refl) as (Hm & Ho). rewrite Hm. cbn [bind]. split.
    + intros a. split; [intros H; split; [exact H|]|intros (H & _); exact H]. intros t l H1 H2. apply Ho, HI'. eauto.
    + intros a t l hdr body _ H1 H2 Hsec. destruct (Hc xs t eq_refl) as (n & ty & pa & nps & ls & H3 & H4); [apply HI'; eauto|].
      now rewrite <- (head_section _ _ _ _ _ _ _ _ _ Hsec H3).
  - split; [|discriminate]. intros a. split; [discriminate|]. intros (Hm & Ho). exfalso.
    destruct (mapM (read_tally so data) (to tls)) as [xs|e'] eqn:Em; [|discriminate].
    assert (X : @Err (list tally) e = Ok xs); [|discriminate X]. apply Hok. split; [reflexivity|]. intros t Ht. apply HI' in Ht. destruct Ht as (l & H1 & H2). exact (Ho t l H1 H2).
Qed.
