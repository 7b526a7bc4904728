(** Facts about letter case, lines of words and first-character splits. *)
From Coq Require Import Lia.
From Verif Require Import PyBase PyFloat SpecStr PyFacts M_util P_util M_input SpecInput PyNumFacts.

Lemma nthb {A} (P : A -> Prop) l : Forall P l <-> forall x, In x l -> P x.
Proof. apply Forall_forall. Qed.

(** * Letter case *)
Lemma lower_ws c : is_ws (lower_c c) = is_ws c.
Proof. apply eqb_prop. apply (ascii_all (fun c => eqb (is_ws (lower_c c)) (is_ws c))). vm_compute. reflexivity. Qed.
Lemma lower_digit c : is_digit (lower_c c) = is_digit c.
Proof. apply eqb_prop. apply (ascii_all (fun c => eqb (is_digit (lower_c c)) (is_digit c))). vm_compute. reflexivity. Qed.
Lemma lower_idem c : lower_c (lower_c c) = lower_c c.
Proof. apply Ascii.eqb_eq. apply (ascii_all (fun c => Ascii.eqb (lower_c (lower_c c)) (lower_c c))). vm_compute. reflexivity. Qed.
(** Characters that are the lower case of themselves only. *)
Definition caseless (d : ascii) : bool :=
  forallb (fun n => eqb (Ascii.eqb (lower_c (chr (N.of_nat n))) d) (Ascii.eqb (chr (N.of_nat n)) d)) (seq 0 256).
Lemma ascii_seq (P : ascii -> bool) : forallb (fun n => P (chr (N.of_nat n))) (seq 0 256) = true -> forall c, P c = true.
Proof.
  intros H c. rewrite forallb_forall in H. specialize (H (N.to_nat (code c))).
  rewrite N2Nat.id, chr_code in H. apply H. apply in_seq. pose proof (code_lt c). lia.
Qed.
Lemma caseless_eq d c : caseless d = true -> lower_c c = d <-> c = d.
Proof.
  intros H. pose proof (ascii_seq (fun c => eqb (Ascii.eqb (lower_c c) d) (Ascii.eqb c d)) H c) as E.
  apply eqb_prop in E. split; intros G.
  - apply Ascii.eqb_eq. rewrite <- E. now apply Ascii.eqb_eq.
  - apply Ascii.eqb_eq. rewrite E. now apply Ascii.eqb_eq.
Qed.
Lemma lower_space c : lower_c c = chr 32 <-> c = chr 32.
Proof. apply caseless_eq. vm_compute. reflexivity. Qed.
Lemma lower_colon c : lower_c c = chr 58 <-> c = chr 58.
Proof. apply caseless_eq. vm_compute. reflexivity. Qed.
Lemma lower_dollar c : lower_c c = chr 36 <-> c = chr 36.
Proof. apply caseless_eq. vm_compute. reflexivity. Qed.
Lemma lower_letter_c c : lower_c c = chr 99 <-> c = chr 99 \/ c = chr 67.
Proof.
  pose proof (ascii_seq (fun c => eqb (Ascii.eqb (lower_c c) (chr 99)) (Ascii.eqb c (chr 99) || Ascii.eqb c (chr 67))) ltac:(vm_compute; reflexivity) c) as E.
  apply eqb_prop in E. rewrite <- (Ascii.eqb_eq (lower_c c)), E, orb_true_iff, !Ascii.eqb_eq. tauto.
Qed.
Lemma lower_app a b : lower (a ++ b) = lower a ++ lower b.
Proof. apply map_app. Qed.
Lemma lower_length s : length (lower s) = length s.
Proof. apply map_length. Qed.
Lemma lower_lower s : lower (lower s) = lower s.
Proof. unfold lower. rewrite map_map. apply map_ext, lower_idem. Qed.
Lemma lower_nil s : lower s = [] <-> s = [].
Proof. split; [destruct s; [reflexivity|discriminate]|intros ->; reflexivity]. Qed.
Lemma lower_blank s : blank (lower s) <-> blank s.
Proof.
  unfold blank. induction s as [|c s IH]; [cbn; tauto|]. cbn. rewrite !Forall_cons_iff, lower_ws. unfold lower in IH. tauto.
Qed.
Lemma lower_word w : word w -> word (lower w).
Proof.
  intros [H0 H]. split; [now rewrite lower_nil|]. clear H0. induction H; cbn; constructor; [now rewrite lower_ws|assumption].
Qed.
Lemma split_ws_lower s : split_ws (lower s) = map lower (split_ws s).
Proof.
  apply words_sound. induction (words_total s) as [s Hb|pre w rest ws Hp Hw Hr Hws IH].
  - constructor. now apply lower_blank.
  - cbn [map]. rewrite !lower_app. constructor; [now apply lower_blank|now apply lower_word| |assumption].
    destruct Hr as [->|(c & r & -> & Hc)]; [now left|]. right. exists (lower_c c), (lower r). split; [reflexivity|now rewrite lower_ws].
Qed.

(** * Prefixes *)
Lemma starts_with_lit_space5 s : starts_with (rep_chr c_space 5) s = true <-> continuation s.
Proof. rewrite starts_with_spec. reflexivity. Qed.
Lemma lower_prefix p l : starts_with (lower p) (lower l) = true <-> exists q r, l = q ++ r /\ lower q = lower p.
Proof.
  rewrite starts_with_spec. split.
  - intros [t Ht]. unfold lower in Ht at 1. exists (firstn (length p) l), (skipn (length p) l). split; [now rewrite firstn_skipn|].
    unfold lower at 1. rewrite <- firstn_map, Ht. rewrite firstn_app, firstn_all2 by (rewrite lower_length; lia).
    rewrite lower_length, Nat.sub_diag. cbn. now rewrite app_nil_r.
  - intros (q & r & -> & Hq). exists (lower r). now rewrite lower_app, Hq.
Qed.
Lemma continue_lower l : is_continue_line (lower l) = is_continue_line l.
Proof.
  apply eq_true_iff_eq. unfold is_continue_line. rewrite !starts_with_lit_space5. split.
  - intros [r Hr]. 
    destruct l as [|a [|b [|c [|d [|e l]]]]]; try discriminate. cbn in Hr. injection Hr as Ea Eb Ec Ed Ee _.
    apply (proj1 (lower_space _)) in Ea, Eb, Ec, Ed, Ee. subst. exists l. reflexivity.
  - intros [r ->]. exists (lower r). reflexivity.
Qed.
Lemma continue_spec l : is_continue_line l = true <-> continuation l.
Proof. apply starts_with_lit_space5. Qed.
Lemma continue_specF l : is_continue_line l = false <-> ~ continuation l.
Proof. rewrite <- continue_spec. destruct (is_continue_line l); split; congruence. Qed.
Lemma comment_lower l : starts_with (lit "c ") (lower l) = true <-> full_comment l.
Proof.
  rewrite starts_with_spec. split.
  - intros [r Hr]. destruct l as [|a [|b l]]; try discriminate. cbn in Hr. injection Hr as Ea Eb _.
    apply (proj1 (lower_letter_c _)) in Ea. apply (proj1 (lower_space _)) in Eb. subst b. exists l. destruct Ea as [->| ->]; auto.
  - intros (r & [->| ->]); exists (lower r); reflexivity.
Qed.
Lemma comment_lowerF l : starts_with (lit "c ") (lower l) = false <-> ~ full_comment l.
Proof. rewrite <- comment_lower. destruct (starts_with _ _); split; congruence. Qed.
Lemma blank_strip l : str_eqb (strip l) [] = true <-> blank l.
Proof.
  rewrite str_eqb_eq. unfold strip, rstrip, lstrip. rewrite rstrip_by_nil_iff. split.
  - intros H. destruct (lstrip_by is_ws l) as [|c t] eqn:E; [now apply lstrip_by_nil_iff in E|].
    inversion H; subst. apply lstrip_by_head in E. congruence.
  - intros H. apply lstrip_by_nil_iff in H. rewrite H. constructor.
Qed.
Lemma blank_stripF l : str_eqb (strip l) [] = false <-> ~ blank l.
Proof. rewrite <- blank_strip. destruct (str_eqb _ _); split; congruence. Qed.

(** * First-character splits *)
Lemma upto_fun c s r r' : upto c s r -> upto c s r' -> r = r'.
Proof.
  intros [Hn H] [Hn' H'].
  assert (G : forall a b t, s = a -> ~ In c a -> s = b ++ c :: t -> False).
  { intros a b t -> Ha E. apply Ha. rewrite E. apply in_elt. }
  destruct H as [->|[t Ht]], H' as [E'|[t' Ht']]; try congruence.
  - exfalso. eapply G; [| |exact Ht']; auto.
  - exfalso. eapply G; [exact E'|exact Hn'|exact Ht].
  - subst s. clear G. revert r' Hn' Ht'. induction r as [|x r IH]; intros r' Hn' Ht'.
    + destruct r' as [|y r']; [reflexivity|]. cbn in Ht'. injection Ht' as <- _. elim Hn'. now left.
    + destruct r' as [|y r']; cbn in Ht'; injection Ht' as E1 E2.
      * subst x. elim Hn. now left.
      * subst y. f_equal. apply IH; [firstorder|firstorder|assumption].
Qed.
Lemma lacks_In c s : lacks c s <-> ~ In c s.
Proof. reflexivity. Qed.
Lemma upto_split c s : upto c s (hd [] (split_on c s)).
Proof.
  pose proof (split_on_lacks_all c s) as H. pose proof (join_split_on c s) as J.
  destruct (split_on c s) as [|w ws] eqn:E; [now apply split_on_ne in E|]. cbn [hd].
  split; [apply lacks_In; now inversion H|]. destruct ws as [|v ws].
  - left. symmetry. exact J.
  - right. rewrite join_cons in J. eexists. symmetry. exact J.
Qed.
Lemma upto_iff c s r : upto c s r <-> hd [] (split_on c s) = r.
Proof.
  split.
  - intros H. eapply upto_fun; [apply upto_split|exact H].
  - intros <-. apply upto_split.
Qed.

(** * Words over several lines *)
Lemma all_words_fun ls ws : all_words ls ws <-> ws = concat (map split_ws ls).
Proof.
  split.
  - induction 1 as [|l ls ws vs Hw Hl IH]; [reflexivity|]. cbn. apply words_sound in Hw. congruence.
  - intros ->. induction ls as [|l ls IH]; cbn; constructor; [apply words_total|assumption].
Qed.
Lemma split_ws_join_lines ls : split_ws (join (lit " ") ls) = concat (map split_ws ls).
Proof.
  induction ls as [|l ls IH]; [reflexivity|]. destruct ls as [|l' ls].
  - cbn. now rewrite app_nil_r.
  - rewrite join_cons. change (lit " ") with [c_space] in *. cbn [app]. rewrite split_ws_app_ws by reflexivity. cbn [map concat] in *. now rewrite IH.
Qed.
Lemma cleaner_lines ls : string_cleaner (join (lit " ") ls) = join [c_space] (concat (map split_ws ls)).
Proof. now rewrite string_cleaner_words, split_ws_join_lines. Qed.
Lemma split_on_words ws : ws <> [] -> Forall word ws -> split_on c_space (join [c_space] ws) = ws.
Proof. intros H0 H. apply split_on_join; [assumption|]. eapply Forall_impl; [|exact H]. apply word_lacks_space. Qed.
Lemma spaced_fun ws s : spaced ws s <-> s = join [c_space] ws.
Proof.
  split.
  - induction 1 as [|w|w v ws s H IH]; [reflexivity|reflexivity|]. rewrite join_cons, <- IH. reflexivity.
  - intros ->. apply spaced_join.
Qed.
Lemma concat_words ls : Forall word (concat (map split_ws ls)).
Proof. induction ls as [|l ls IH]; cbn; [constructor|]. apply Forall_app. split; [apply split_ws_words|assumption]. Qed.

(** * Lists *)
Lemma slice_from_1 {A} (x : A) l : slice_from 1 (x :: l) = l.
Proof. now rewrite (slice_from_nat 1). Qed.
Lemma Forall_or_split {A} (p : A -> bool) l :
  Forall (fun x => p x = false) l \/ exists a x r, l = a ++ x :: r /\ Forall (fun x => p x = false) a /\ p x = true.
Proof.
  induction l as [|y l IH]; [left; constructor|]. destruct (p y) eqn:E.
  - right. exists [], y, l. repeat split; [constructor|assumption].
  - destruct IH as [H|(a & x & r & -> & Ha & Hx)]; [left; now constructor|].
    right. exists (y :: a), x, r. repeat split; [now constructor|assumption].
Qed.
Lemma filter_enum_none {A} (p : A -> bool) n l :
  Forall (fun x => p x = false) l -> filter (fun il => p (snd il)) (enum_from n l) = [].
Proof. intros H. revert n. induction H as [|x l Hx Hl IH]; intros n; cbn; [reflexivity|]. now rewrite Hx. Qed.
Lemma filter_enum_hit {A} (p : A -> bool) n a x r :
  Forall (fun x => p x = false) a -> p x = true ->
  filter (fun il => p (snd il)) (enum_from n (a ++ x :: r)) = (n + length a, x) :: filter (fun il => p (snd il)) (enum_from (S (n + length a)) r).
Proof.
  intros Ha Hx. rewrite enum_from_app, filter_app, filter_enum_none by assumption. cbn. now rewrite Hx.
Qed.
