(** Proofs about output_utilities, ofile_reduce, lost_points and xsdir_reader. *)
From Coq Require Import Lia.
From Verif Require Import PyBase PyFloat PyFs SpecStr PyFacts SpecUtil M_util P_util M_input SpecInput TextFacts P_input PyIo M_output SpecOutput.

(** * Trimming *)
Lemma lstrip_no_lead s c r : lstrip s = c :: r -> is_ws c = false.
Proof. apply lstrip_by_head. Qed.
Lemma rstrip_no_trail s r c : rstrip s = r ++ [c] -> is_ws c = false.
Proof.
  intros H. unfold rstrip in H. destruct (rstrip_by_lasts is_ws s) as [E|(t & d & E & Hd)]; rewrite E in H.
  - destruct r; discriminate.
  - apply app_inj_tail in H. now destruct H as [_ ->].
Qed.
Lemma strip_trimmed s : trimmed s (strip s).
Proof.
  unfold strip. destruct (lstrip_by_decomp is_ws s) as (a & Ha & Ba).
  destruct (rstrip_by_decomp is_ws (lstrip s)) as (b & Hb & Bb). exists a, b.
  split; [|split; [exact Ba|split; [exact Bb|split]]].
  - unfold rstrip, lstrip in *. congruence.
  - intros c r E. unfold rstrip in E. apply (lstrip_no_lead s c (r ++ b)). rewrite E in Hb. exact Hb.
  - intros r c. apply rstrip_no_trail.
Qed.
Lemma lstrip_pre a s : blank a -> lstrip (a ++ s) = lstrip s.
Proof. apply lstrip_by_app. Qed.
Lemma rstrip_post s b : blank b -> rstrip (s ++ b) = rstrip s.
Proof. apply rstrip_by_app. Qed.
Lemma lstrip_id s : (forall c r, s = c :: r -> is_ws c = false) -> lstrip s = s.
Proof. intros H. destruct s as [|c r]; [reflexivity|]. apply lstrip_by_id. now apply (H c r). Qed.
Lemma rstrip_id s : (forall r c, s = r ++ [c] -> is_ws c = false) -> rstrip s = s.
Proof. intros H. destruct (snoc_cases s) as [->|(r & c & ->)]; [reflexivity|]. apply rstrip_by_last. now apply (H r c). Qed.
Lemma trimmed_strip s t : trimmed s t <-> strip s = t.
Proof.
  split; [|intros <-; apply strip_trimmed]. intros (a & b & -> & Ha & Hb & H1 & H2). unfold strip.
  rewrite lstrip_pre by assumption. destruct t as [|c t].
  - cbn [app]. unfold lstrip. rewrite lstrip_by_all by assumption. reflexivity.
  - rewrite lstrip_id.
    + rewrite rstrip_post by assumption. now apply rstrip_id.
    + intros d r E. injection E as E _. subst d. now apply (H1 c t).
Qed.
Lemma rtrimmed_rstrip s t : rtrimmed s t <-> rstrip s = t.
Proof.
  split.
  - intros (b & -> & Hb & H). rewrite rstrip_post by assumption. now apply rstrip_id.
  - intros <-. destruct (rstrip_by_decomp is_ws s) as (b & Hb & Bb). exists b. split; [exact Hb|]. split; [exact Bb|]. apply rstrip_no_trail.
Qed.
Lemma strip_nil s : strip s = [] <-> blank s.
Proof. unfold strip, rstrip. rewrite rstrip_by_nil_iff. split.
  - intros H. destruct (lstrip s) as [|c r] eqn:E; [now apply lstrip_by_nil_iff|]. inversion H as [|? ? H1 ?]; subst.
    apply lstrip_no_lead in E. congruence.
  - intros H. unfold lstrip. rewrite lstrip_by_all by assumption. constructor. Qed.
Lemma blank_space : blank [c_space].
Proof. constructor; [reflexivity|constructor]. Qed.

(** * wrap_tokens *)
Lemma norm_width cont n : cont_width cont n <-> zlen (norm_cont_prefix cont) = n.
Proof.
  unfold cont_width, norm_cont_prefix, zlen. split.
  - intros [[-> ->]|[(r & -> & ->)|(H1 & H2 & ->)]]; [reflexivity| |].
    + destruct (r ++ [chr 32]) as [|a l] eqn:E; [destruct r; discriminate|]. rewrite <- E.
      assert (Ee : ends_with [c_space] (r ++ [chr 32]) = true) by (apply ends_with_spec; now exists r). rewrite Ee. reflexivity.
    + destruct cont as [|a l]; [contradiction|]. destruct (ends_with [c_space] (a :: l)) eqn:E.
      * apply ends_with_spec in E. destruct E as (r & E). exfalso. now apply (H2 r).
      * rewrite app_length. cbn [List.length]. lia.
  - intros <-. destruct cont as [|a l]; [now left|right]. destruct (ends_with [c_space] (a :: l)) eqn:E.
    + left. apply ends_with_spec in E. destruct E as (r & E). now exists r.
    + right. split; [discriminate|]. split.
      * intros r Hr. assert (ends_with [c_space] (a :: l) = true) by (apply ends_with_spec; now exists r). congruence.
      * rewrite app_length. cbn [List.length]. lia.
Qed.
Lemma wrap_loop_err max c toks : forall st e, foldM (wrap_step max c) toks st = Err e <->
  e = ValueError /\ exists tok, In tok toks /\ strip tok <> [] /\ (max < zlen (strip tok))%Z.
Proof.
  induction toks as [|tok toks IH]; intros [ls cur] e; cbn [foldM].
  - split; [discriminate|]. intros (_ & x & [] & _).
  - unfold wrap_step at 1. cbn zeta. destruct (strip tok) as [|d t] eqn:E.
    + rewrite IH. split; intros (H & x & Hi & H1 & H2); (split; [assumption|]); exists x; (split; [|split; assumption]); [now right|].
      destruct Hi as [<-|Hi]; [congruence|assumption].
    + destruct (max <? zlen (d :: t))%Z eqn:Em.
      * split; [|intros (-> & _); reflexivity]. intros H. injection H as <-. split; [reflexivity|]. exists tok.
        split; [now left|]. rewrite E. split; [discriminate|]. apply Z.ltb_lt. exact Em.
      * assert (Hstep : forall st', foldM (wrap_step max c) toks st' = Err e <->
            e = ValueError /\ exists x, In x (tok :: toks) /\ strip x <> [] /\ (max < zlen (strip x))%Z).
        { intros st'. rewrite IH. split; intros (H & x & Hi & H1 & H2); (split; [assumption|]); exists x; (split; [|split; assumption]); [now right|].
          destruct Hi as [<-|Hi]; [|assumption]. rewrite E in H2. apply Z.ltb_ge in Em. lia. }
        destruct (max <? zlen cur + zlen (d :: t) + 1)%Z; [apply Hstep|]. destruct (ends_with [c_space] cur); apply Hstep.
Qed.
Lemma wrap_err prefix tokens max cont e : wrap_tokens prefix tokens max cont = Err e <->
  e = ValueError /\ exists tok t, In tok tokens /\ trimmed tok t /\ t <> [] /\ (max < Z.of_nat (List.length t))%Z.
Proof.
  assert (Heq : (exists tok t, In tok tokens /\ trimmed tok t /\ t <> [] /\ (max < Z.of_nat (List.length t))%Z) <->
                exists tok, In tok tokens /\ strip tok <> [] /\ (max < zlen (strip tok))%Z).
  { split.
    - intros (tok & t & H1 & H2 & H3 & H4). apply trimmed_strip in H2. subst t. now exists tok.
    - intros (tok & H1 & H2 & H3). exists tok, (strip tok). split; [assumption|]. split; [apply strip_trimmed|]. now split. }
  rewrite Heq. clear Heq. unfold wrap_tokens. destruct tokens as [|tok toks].
  - split; [discriminate|]. intros (_ & x & [] & _).
  - remember (tok :: toks) as ts. rewrite <- (wrap_loop_err max (norm_cont_prefix cont) ts ([], prefix ++ [c_space])).
    destruct (foldM _ ts _) as [[ls cur]|e']; cbn [bind].
    + split; [|discriminate]. destruct (strip cur); discriminate.
    + split; congruence.
Qed.
Lemma wrap_loop_bound max c toks : forall ls cur ls' cur',
  foldM (wrap_step max c) toks (ls, cur) = Ok (ls', cur') ->
  (forall tok, In tok toks -> strip tok <> [] -> (zlen c + zlen (strip tok) <= max)%Z) ->
  Forall (fun l => (zlen l <= max)%Z) ls -> (zlen (rstrip cur) <= max)%Z ->
  Forall (fun l => (zlen l <= max)%Z) ls' /\ (zlen (rstrip cur') <= max)%Z.
Proof.
  assert (Hr : forall s, (zlen (rstrip s) <= zlen s)%Z) by (intros s; unfold zlen; pose proof (rstrip_by_length is_ws s); unfold rstrip; lia).
  assert (Happ : forall a b : str, zlen (a ++ b) = (zlen a + zlen b)%Z) by (intros a b; unfold zlen; rewrite app_length; lia).
  induction toks as [|tok toks IH]; intros ls cur ls' cur' H Ht Hls Hc; cbn [foldM] in H.
  - injection H as <- <-. now split.
  - revert H. unfold wrap_step at 1. cbn zeta. pose proof (Ht tok (or_introl eq_refl)) as Htok.
    assert (Ht' : forall t, In t toks -> strip t <> [] -> (zlen c + zlen (strip t) <= max)%Z) by (intros t Hi; apply Ht; now right).
    destruct (strip tok) as [|d t] eqn:E; [intros H; now apply (IH ls cur)|].
    destruct (max <? zlen (d :: t))%Z eqn:Em; [discriminate|].
    destruct (max <? zlen cur + zlen (d :: t) + 1)%Z eqn:Em2; [|apply Z.ltb_ge in Em2; destruct (ends_with [c_space] cur)]; intros H.
    + apply (IH (ls ++ [rstrip cur]) (c ++ d :: t)); try assumption.
      * apply Forall_app. split; [assumption|]. now constructor.
      * specialize (Hr (c ++ d :: t)). rewrite Happ in Hr. specialize (Htok ltac:(discriminate)). lia.
    + apply (IH ls (cur ++ d :: t)); try assumption. specialize (Hr (cur ++ d :: t)). rewrite Happ in Hr. lia.
    + apply (IH ls (cur ++ [c_space] ++ d :: t)); try assumption. specialize (Hr (cur ++ [c_space] ++ d :: t)).
      rewrite !Happ in Hr. change (zlen [c_space]) with 1%Z in Hr. lia.
Qed.
Lemma wrap_bound prefix tokens max cont lines : wrap_tokens prefix tokens max cont = Ok lines ->
  (exists p, rtrimmed prefix p /\ (Z.of_nat (List.length p) <= max)%Z) ->
  (forall w tok t, cont_width cont w -> In tok tokens -> trimmed tok t -> t <> [] -> (w + Z.of_nat (List.length t) <= max)%Z) ->
  Forall (fun l => (Z.of_nat (List.length l) <= max)%Z) lines.
Proof.
  intros H (p & Hp & Hpm) Ht. apply rtrimmed_rstrip in Hp. subst p. unfold wrap_tokens in H.
  assert (Hp2 : (zlen (rstrip (prefix ++ [c_space])) <= max)%Z) by (rewrite rstrip_post by apply blank_space; exact Hpm).
  destruct tokens as [|tok toks].
  - injection H as <-. now constructor.
  - remember (tok :: toks) as ts. destruct (foldM _ ts _) as [[ls cur]|e'] eqn:E; cbn [bind] in H; [|discriminate].
    apply wrap_loop_bound in E; [|  |constructor|assumption].
    + destruct E as [E1 E2]. destruct (strip cur); injection H as <-; [exact E1|]. apply Forall_app. split; [exact E1|]. now constructor.
    + intros x Hx Hs. apply (Ht (zlen (norm_cont_prefix cont)) x (strip x)); try assumption; [now apply norm_width|apply strip_trimmed].
Qed.
(** Without the room for a continuation line the bound is exceeded silently. *)
Lemma strip_last tok r c : strip tok = r ++ [c] -> is_ws c = false.
Proof. apply rstrip_no_trail. Qed.
Lemma strip_rstrip tok s : strip tok <> [] -> rstrip (s ++ strip tok) = s ++ strip tok.
Proof.
  intros H. destruct (snoc_cases (strip tok)) as [E|(r & c & E)]; [contradiction|]. rewrite E, app_assoc. apply rstrip_by_last.
  now apply (strip_last tok r).
Qed.
Lemma strip_cons_ws s tok : strip tok <> [] -> strip (s ++ strip tok) <> [].
Proof.
  intros H E. apply strip_nil in E. apply Forall_app in E. destruct E as [_ E].
  destruct (snoc_cases (strip tok)) as [E'|(r & c & E')]; [contradiction|]. rewrite E' in E. apply Forall_app in E. destruct E as [_ E].
  inversion E; subst. apply strip_last in E'. congruence.
Qed.
Lemma wrap_overflow prefix tok t w max cont : trimmed tok t -> t <> [] -> cont_width cont w ->
  (Z.of_nat (List.length t) <= max)%Z -> (max < w + Z.of_nat (List.length t))%Z ->
  (max < Z.of_nat (List.length prefix) + Z.of_nat (List.length t) + 2)%Z ->
  exists lines l, wrap_tokens prefix [tok] max cont = Ok lines /\ In l lines /\ (max < Z.of_nat (List.length l))%Z.
Proof.
  intros Ht Hn Hw H1 H2 H3. apply trimmed_strip in Ht. apply norm_width in Hw. unfold wrap_tokens. cbn [foldM]. unfold wrap_step. cbn zeta.
  destruct (strip tok) as [|d s] eqn:E; [congruence|]. subst t.
  assert (Em : (max <? zlen (d :: s))%Z = false) by (apply Z.ltb_ge; exact H1). rewrite Em.
  assert (Em2 : (max <? zlen (prefix ++ [c_space]) + zlen (d :: s) + 1)%Z = true).
  { apply Z.ltb_lt. unfold zlen. rewrite app_length. cbn [List.length] in *. lia. } rewrite Em2. cbn [bind].
  rewrite <- E. assert (Hne : strip tok <> []) by (rewrite E; discriminate).
  pose proof (strip_cons_ws (norm_cont_prefix cont) tok Hne) as Hs. destruct (strip (norm_cont_prefix cont ++ strip tok)) eqn:E2; [contradiction|].
  eexists _, _. split; [reflexivity|]. split; [apply in_app_iff; right; now left|]. rewrite strip_rstrip by assumption.
  rewrite app_length. rewrite E. unfold zlen in *. lia.
Qed.

(** ** Words *)
Lemma norm_cont_words cont tok : split_ws (norm_cont_prefix cont ++ tok) = split_ws cont ++ split_ws tok.
Proof.
  unfold norm_cont_prefix. destruct cont as [|a l]; [reflexivity|]. destruct (ends_with [c_space] (a :: l)) eqn:E.
  - apply ends_with_spec in E. destruct E as (r & ->). rewrite <- app_assoc. cbn [app]. rewrite split_ws_app_ws by reflexivity.
    rewrite split_ws_post by apply blank_space. reflexivity.
  - rewrite <- app_assoc. cbn [app]. change (split_ws ((a :: l) ++ c_space :: tok) = split_ws (a :: l) ++ split_ws tok). now rewrite split_ws_app_ws.
Qed.
Lemma wrap_loop_words max cont toks : forall ls cur ls' cur',
  foldM (wrap_step max (norm_cont_prefix cont)) toks (ls, cur) = Ok (ls', cur') ->
  exists ts0 tss, concat (map split_ws toks) = ts0 ++ concat tss /\
    map split_ws (ls' ++ [rstrip cur']) = map split_ws ls ++ (split_ws cur ++ ts0) :: map (app (split_ws cont)) tss /\
    (tss = [] -> cur' = cur \/ ~ blank cur') /\ (tss <> [] -> ~ blank cur').
Proof.
  induction toks as [|tok toks IH]; intros ls cur ls' cur' H; cbn [foldM] in H.
  - injection H as <- <-. exists [], []. cbn [concat map app]. rewrite map_app, app_nil_r. cbn [map]. rewrite split_ws_rstrip.
    repeat split; [now left|congruence].
  - revert H. unfold wrap_step at 1. cbn zeta. cbn [concat map]. rewrite <- (split_ws_strip tok).
    assert (Hnb : forall s, strip tok <> [] -> ~ blank (s ++ strip tok)).
    { intros s Hs Hb. apply (strip_cons_ws s) in Hs. apply Hs. now apply strip_nil. }
    destruct (strip tok) as [|d t] eqn:E.
    + intros H. apply IH in H. destruct H as (ts0 & tss & H1 & H2 & H3). exists ts0, tss. cbn [split_ws app]. now rewrite H1.
    + destruct (max <? zlen (d :: t))%Z eqn:Em; [discriminate|]. rewrite <- E in *. assert (Hne : strip tok <> []) by (rewrite E; discriminate).
      destruct (max <? zlen cur + zlen (strip tok) + 1)%Z; [|destruct (ends_with [c_space] cur) eqn:Ee]; intros H; apply IH in H;
        destruct H as (ts0 & tss & H1 & H2 & H3 & H4).
      * exists [], ((split_ws (strip tok) ++ ts0) :: tss). cbn [app concat map]. rewrite H1, H2. split; [now rewrite app_assoc|].
        rewrite map_app, <- app_assoc. cbn [map app]. rewrite split_ws_rstrip, norm_cont_words, app_nil_r, <- app_assoc.
        split; [reflexivity|]. split; [discriminate|]. intros _. destruct tss as [|t0 tss].
        -- destruct (H3 eq_refl) as [->|H]; [now apply Hnb|exact H].
        -- now apply H4.
      * exists (split_ws (strip tok) ++ ts0), tss. rewrite H1, H2. split; [now rewrite <- app_assoc|].
        apply ends_with_spec in Ee. destruct Ee as (r & ->). rewrite <- app_assoc. cbn [app].
        rewrite !split_ws_app_ws by reflexivity. cbn [split_ws]. rewrite app_nil_r, <- app_assoc.
        split; [reflexivity|]. split; [|exact H4]. intros Hz. right. destruct (H3 Hz) as [->|H]; [now apply Hnb|exact H].
      * exists (split_ws (strip tok) ++ ts0), tss. rewrite H1, H2. split; [now rewrite <- app_assoc|]. cbn [app].
        rewrite !split_ws_app_ws by reflexivity. rewrite <- app_assoc.
        split; [reflexivity|]. split; [|exact H4]. intros Hz. right. destruct (H3 Hz) as [->|H]; [|exact H].
        rewrite app_assoc. now apply Hnb.
Qed.
Lemma wrap_words prefix tokens max cont lines pw cw tw : wrap_tokens prefix tokens max cont = Ok lines ->
  words prefix pw -> words cont cw -> all_words tokens tw ->
  (lines = [] /\ pw = [] /\ tw = []) \/
  exists ts0 tss, tw = ts0 ++ concat tss /\ Forall2 words lines ((pw ++ ts0) :: map (app cw) tss).
Proof.
  intros H Hp Hc Ht. apply words_split in Hp. apply words_split in Hc. apply all_words_fun in Ht. subst pw cw tw.
  assert (F2 : forall ls wss, map split_ws ls = wss -> Forall2 words ls wss).
  { induction ls as [|l ls IH]; intros wss <-; constructor; [now apply words_split|now apply IH]. }
  unfold wrap_tokens in H. destruct tokens as [|tok toks].
  - injection H as <-. right. exists [], []. split; [reflexivity|]. apply F2. cbn [map]. now rewrite split_ws_rstrip, split_ws_app_ws by reflexivity.
  - remember (tok :: toks) as ts. destruct (foldM _ ts _) as [[ls cur]|e'] eqn:E; cbn [bind] in H; [|discriminate].
    apply wrap_loop_words in E. destruct E as (ts0 & tss & H1 & H2 & H3 & H4). cbn [map app] in H2. rewrite split_ws_app_ws in H2 by reflexivity.
    cbn [split_ws] in H2. rewrite app_nil_r in H2. destruct (strip cur) as [|d t] eqn:Es; injection H as <-.
    + apply strip_nil in Es. destruct tss as [|t0 tss]; [|exfalso; now apply H4]. rewrite map_app in H2. cbn [map] in H2.
      assert (Hls : ls = []). { destruct ls as [|x ls]; [reflexivity|]. cbn in H2. destruct (map split_ws ls); discriminate H2. }
      subst ls. left. split; [reflexivity|]. cbn [map app] in H2. injection H2 as H2. rewrite split_ws_rstrip, split_ws_blank in H2 by assumption.
      symmetry in H2. apply app_eq_nil in H2. destruct H2 as [-> ->]. split; [reflexivity|]. rewrite H1. reflexivity.
    + right. exists ts0, tss. split; [exact H1|]. now apply F2.
Qed.
Lemma wrap_words_blank prefix tokens max cont lines pw tw : wrap_tokens prefix tokens max cont = Ok lines -> blank cont ->
  words prefix pw -> all_words tokens tw -> all_words lines (pw ++ tw).
Proof.
  intros H Hc Hp Ht. destruct (wrap_words _ _ _ _ _ pw [] tw H Hp (words_none _ Hc) Ht) as [(-> & -> & ->)|(ts0 & tss & -> & HF)].
  - constructor.
  - rewrite app_assoc. replace (map (app []) tss) with tss in HF by (rewrite <- (map_id tss) at 1; now apply map_ext).
    change ((pw ++ ts0) ++ concat tss) with (concat ((pw ++ ts0) :: tss)). revert HF. generalize ((pw ++ ts0) :: tss).
    clear. intros wss HF. induction HF; cbn [concat]; constructor; assumption.
Qed.

(** ** Reading a wrapped card back *)
Definition ends_word (s : str) : Prop := exists r c, s = r ++ [c] /\ is_ws c = false.
Lemma ends_word_rstrip s : ends_word s -> rstrip s = s.
Proof. intros (r & c & -> & H). now apply rstrip_by_last. Qed.
Lemma ends_word_strip s tok : strip tok <> [] -> ends_word (s ++ strip tok).
Proof.
  intros H. destruct (snoc_cases (strip tok)) as [E|(r & c & E)]; [contradiction|]. exists (s ++ r), c. rewrite E, app_assoc.
  split; [reflexivity|]. now apply (strip_last tok r).
Qed.
Lemma strip_sub tok c : In c (strip tok) -> In c tok.
Proof. destruct (strip_trimmed tok) as (a & b & E & _). intros H. rewrite E. apply in_app_iff. right. apply in_app_iff. now left. Qed.
(** Shape of the lines: the first starts with the text present before, all later ones with
    the continuation prefix. *)
Lemma wrap_loop_shape max c toks : ~ In (chr 36) c -> (forall tok, In tok toks -> ~ In (chr 36) tok) -> forall ls cur ls' cur',
  foldM (wrap_step max c) toks (ls, cur) = Ok (ls', cur') -> ends_word cur -> ~ In (chr 36) cur ->
  exists l new, ls' ++ [cur'] = ls ++ l :: new /\ prefix_of cur l /\ Forall (prefix_of c) new /\
    ends_word cur' /\ Forall (fun l => ~ In (chr 36) l) (l :: new).
Proof.
  intros Hc. induction toks as [|tok toks IH]; intros Ht ls cur ls' cur' H Hw Hd; cbn [foldM] in H.
  - injection H as <- <-. exists cur, []. split; [reflexivity|]. split; [exists []; now rewrite app_nil_r|]. split; [constructor|].
    split; [assumption|]. now constructor.
  - revert H. unfold wrap_step at 1. cbn zeta. assert (Ht' : forall t, In t toks -> ~ In (chr 36) t) by (intros t Hi; apply Ht; now right).
    assert (Hd' : ~ In (chr 36) (strip tok)) by (intros Hi; apply strip_sub in Hi; revert Hi; apply Ht; now left).
    destruct (strip tok) as [|d t] eqn:E; [intros H; now apply (IH Ht' ls cur)|].
    destruct (max <? zlen (d :: t))%Z; [discriminate|]. rewrite <- E in *. assert (Hne : strip tok <> []) by (rewrite E; discriminate).
    destruct (max <? zlen cur + zlen (strip tok) + 1)%Z; [|destruct (ends_with [c_space] cur) eqn:Ee]; intros H;
      (apply (IH Ht') in H; [|try rewrite app_assoc; now apply ends_word_strip|rewrite ?in_app_iff]).
    + destruct H as (l & new & H1 & H2 & H3 & H4 & H5). exists cur, (l :: new). rewrite H1, <- app_assoc. cbn [app].
      rewrite ends_word_rstrip by assumption. split; [reflexivity|]. split; [exists []; now rewrite app_nil_r|].
      split; [|split; [assumption|now constructor]]. constructor; [|assumption]. destruct H2 as (r & ->). exists (strip tok ++ r). now rewrite app_assoc.
    + tauto.
    + exfalso. apply ends_with_spec in Ee. destruct Ee as (r & ->). destruct Hw as (r' & x & Hx & Hx2). apply app_inj_tail in Hx. destruct Hx as [_ <-]. discriminate.
    + tauto.
    + destruct H as (l & new & H1 & (r & H2) & H3). exists l, new. split; [assumption|]. split; [|exact H3]. subst l.
      exists (([c_space] ++ strip tok) ++ r). now rewrite <- !app_assoc.
    + intros [H0|[H0|H0]]; [contradiction| |contradiction]. destruct H0 as [H0|[]]. discriminate.
Qed.
Lemma default_cont : norm_cont_prefix (lit "     ") = lit "     ".
Proof. reflexivity. Qed.
Lemma no_dollar_kept l : ~ In (chr 36) l -> kept l (lower l).
Proof.
  intros H. split; [|now left]. intros Hi. apply in_map_iff in Hi. destruct Hi as (c & E & Hi). apply (proj1 (lower_dollar _)) in E. now subst c.
Qed.
Lemma wrap_shape (card tok t : str) (toks lines : list str) : (exists r c, card = r ++ [c] /\ is_ws c = false) -> ~ In (chr 36) card ->
  Forall (fun x => ~ In (chr 36) x) (tok :: toks) -> trimmed tok t -> t <> [] ->
  List.length card + List.length t + 2 <= 80 ->
  wrap_default card (tok :: toks) = Ok lines ->
  exists l new, lines = l :: new /\ prefix_of (card ++ [chr 32]) l /\ Forall continuation new /\ Forall (fun l => ~ In (chr 36) l) lines.
Proof.
  intros Hcw Hcd Hd Ht Hne Hlen H. apply trimmed_strip in Ht. unfold wrap_default, wrap_tokens in H. rewrite default_cont in H.
  cbn [foldM] in H. unfold wrap_step at 1 in H. cbn zeta in H. inversion Hd as [|? ? Hd1 Hd2]; subst x l.
  destruct (strip tok) as [|d s] eqn:E; [congruence|]. rewrite Ht in H, E.
  assert (Em : (80 <? zlen t)%Z = false) by (apply Z.ltb_ge; unfold zlen; lia). rewrite Em in H.
  assert (Em2 : (80 <? zlen (card ++ [c_space]) + zlen t + 1)%Z = false).
  { apply Z.ltb_ge. unfold zlen. rewrite app_length. cbn [List.length]. lia. } rewrite Em2 in H.
  assert (Ee : ends_with [c_space] (card ++ [c_space]) = true) by (apply ends_with_spec; now exists card). rewrite Ee in H.
  destruct (foldM _ toks _) as [[ls cur]|e'] eqn:Ef; cbn [bind] in H; [|discriminate].
  assert (Hs : strip tok <> []) by congruence.
  rewrite <- E in Ef. apply wrap_loop_shape in Ef.
  - destruct Ef as (l & new & H1 & (r & H2) & H3 & H4 & H5). cbn [app] in H1.
    assert (Hl : lines = ls ++ [cur]).
    { destruct (strip cur) eqn:Es.
      - exfalso. apply strip_nil in Es. destruct H4 as (q & c & -> & Hc). apply Forall_app in Es. destruct Es as [_ Es]. inversion Es. congruence.
      - injection H as <-. now rewrite ends_word_rstrip. }
    rewrite Hl, H1. exists l, new. split; [reflexivity|]. split; [exists (strip tok ++ r); rewrite H2, <- !app_assoc; reflexivity|].
    split; [|exact H5]. apply (Forall_impl continuation (P := prefix_of (lit "     "))); [|exact H3]. intros x (y & Hy). now exists y.
  - intros Hi. cbn in Hi. repeat (destruct Hi as [Hi|Hi]; [discriminate|]). exact Hi.
  - intros x Hx. revert x Hx. now apply Forall_forall.
  - now apply ends_word_strip.
  - intros Hi. apply in_app_iff in Hi. destruct Hi as [Hi|Hi].
    + apply in_app_iff in Hi. destruct Hi as [Hi|[Hi|[]]]; [contradiction|discriminate].
    + now apply strip_sub in Hi.
Qed.
Lemma card_tail_conts new post : Forall continuation new -> Forall (fun l => ~ In (chr 36) l) new -> card_tail post [] -> card_tail (new ++ post) (map lower new).
Proof.
  induction new as [|l new IH]; intros H1 H2 H3; cbn [app map]; [assumption|]. inversion H1; subst. inversion H2; subst.
  apply ct_cont; [assumption|now apply no_dollar_kept|now apply IH].
Qed.
Lemma wrap_read_back (card tok t : str) (toks lines pre post cw tw : list str) :
  (exists a r, card = a :: r /\ a <> chr 32) -> (exists r c, card = r ++ [c] /\ is_ws c = false) ->
  Forall (fun x => ~ In (chr 36) x) (card :: tok :: toks) -> trimmed tok t -> t <> [] ->
  List.length card + List.length t + 2 <= 80 ->
  words card cw -> all_words (tok :: toks) tw ->
  (forall l, In l pre -> ~ card_head card l) -> card_tail post [] ->
  wrap_default card (tok :: toks) = Ok lines ->
  exists out, get_card_lines (pre ++ lines ++ post) card = out /\ all_words out (map lower (cw ++ tw)).
Proof.
  intros Hc1 Hc2 Hd Ht Hne Hlen Hcw Htw Hpre Hpost H. inversion Hd as [|x y Hd1 Hd2]; subst x y.
  destruct (wrap_shape card tok t toks lines Hc2 Hd1 Hd2 Ht Hne Hlen H) as (l & new & -> & (r & Hl) & Hn & Hnd).
  exists (map lower (l :: new)). split.
  - apply (get_card_iff _ _ _ Hc1). cbn [app map]. inversion Hnd; subst. apply cf_some; [assumption| |now apply no_dollar_kept|now apply card_tail_conts].
    exists card, (chr 32 :: r). split; [now rewrite <- app_assoc|]. split; [reflexivity|]. exists (chr 32), r. split; [reflexivity|now left].
  - assert (Hb : blank (lit "     ")) by (repeat constructor).
    pose proof (wrap_words_blank _ _ _ _ _ cw tw H Hb Hcw Htw) as Hw. apply all_words_fun in Hw. rewrite Hw.
    apply all_words_fun. rewrite concat_map, !map_map. f_equal. apply map_ext. intros x. now rewrite split_ws_lower.
Qed.
(** When the first token does not fit after the name, or there is none, the card is not found. *)
Lemma card_alone card : ~ card_head card card.
Proof.
  intros (name & r & E & Hs & c & r' & -> & _). apply (f_equal (@List.length ascii)) in Hs. rewrite !lower_length in Hs.
  apply (f_equal (@List.length ascii)) in E. rewrite app_length in E. cbn [List.length] in E. lia.
Qed.
Lemma cont_not_head a r l : a <> chr 32 -> continuation l -> ~ card_head (a :: r) l.
Proof.
  intros Ha (s & ->) (name & q & E & Hs & _). destruct name as [|b name]; [discriminate|]. cbn in E. injection E as E _. subst b.
  unfold same_case in Hs. cbn [lower map] in Hs. injection Hs as Hs _. change (lower_c " "%char) with (chr 32) in Hs. symmetry in Hs.
  apply (proj1 (lower_space _)) in Hs. contradiction.
Qed.
Lemma wrap_loop_conts max c toks : forall ls cur ls' cur',
  foldM (wrap_step max c) toks (ls, cur) = Ok (ls', cur') -> ends_word cur -> 
  exists l new, ls' ++ [cur'] = ls ++ l :: new /\ prefix_of cur l /\ Forall (prefix_of c) new /\ ends_word cur'.
Proof.
  induction toks as [|tok toks IH]; intros ls cur ls' cur' H Hw; cbn [foldM] in H.
  - injection H as <- <-. exists cur, []. split; [reflexivity|]. split; [exists []; now rewrite app_nil_r|]. split; [constructor|assumption].
  - revert H. unfold wrap_step at 1. cbn zeta.
    destruct (strip tok) as [|d t] eqn:E; [intros H; now apply (IH ls cur)|].
    destruct (max <? zlen (d :: t))%Z; [discriminate|]. rewrite <- E in *. assert (Hne : strip tok <> []) by (rewrite E; discriminate).
    destruct (max <? zlen cur + zlen (strip tok) + 1)%Z; [|destruct (ends_with [c_space] cur) eqn:Ee]; intros H;
      (apply IH in H; [|try rewrite app_assoc; now apply ends_word_strip]).
    + destruct H as (l & new & H1 & H2 & H3 & H4). exists cur, (l :: new). rewrite H1, <- app_assoc. cbn [app].
      rewrite ends_word_rstrip by assumption. split; [reflexivity|]. split; [exists []; now rewrite app_nil_r|].
      split; [|assumption]. constructor; [|assumption]. destruct H2 as (r & ->). exists (strip tok ++ r). now rewrite app_assoc.
    + exfalso. apply ends_with_spec in Ee. destruct Ee as (r & ->). destruct Hw as (r' & x & Hx & Hx2). apply app_inj_tail in Hx. destruct Hx as [_ <-]. discriminate.
    + destruct H as (l & new & H1 & (r & H2) & H3). exists l, new. split; [assumption|]. split; [|exact H3]. subst l.
      exists (([c_space] ++ strip tok) ++ r). now rewrite <- !app_assoc.
Qed.
Lemma wrap_lost (card : str) (tokens lines : list str) :
  (exists a r, card = a :: r /\ a <> chr 32) -> (exists r c, card = r ++ [c] /\ is_ws c = false) ->
  (tokens = [] \/ exists tok t toks, tokens = tok :: toks /\ trimmed tok t /\ t <> [] /\ 80 < List.length card + List.length t + 2) ->
  wrap_default card tokens = Ok lines -> get_card_lines lines card = [].
Proof.
  intros (a & r & Hc & Ha) Hw Ht H. apply (get_card_iff _ _ _ (ex_intro _ a (ex_intro _ r (conj Hc Ha)))). apply cf_none.
  assert (Hcs : rstrip (card ++ [c_space]) = card) by (rewrite rstrip_post by apply blank_space; now apply ends_word_rstrip).
  destruct Ht as [->|(tok & t & toks & -> & Ht & Hne & Hlen)].
  - unfold wrap_default, wrap_tokens in H. injection H as <-. rewrite Hcs. intros l [<-|[]]. apply card_alone.
  - apply trimmed_strip in Ht. unfold wrap_default, wrap_tokens in H. rewrite default_cont in H.
    cbn [foldM] in H. unfold wrap_step at 1 in H. cbn zeta in H.
    destruct (strip tok) as [|d s] eqn:E; [congruence|]. rewrite Ht in H, E.
    destruct (80 <? zlen t)%Z eqn:Em; [discriminate|].
    assert (Em2 : (80 <? zlen (card ++ [c_space]) + zlen t + 1)%Z = true).
    { apply Z.ltb_lt. unfold zlen. rewrite app_length. cbn [List.length]. lia. } rewrite Em2 in H. rewrite Hcs in H.
    assert (Hs : strip tok <> []) by (rewrite E; exact Hne). rewrite <- E in H.
    destruct (foldM _ toks _) as [[ls cur]|e'] eqn:Ef; cbn [bind] in H; [|discriminate].
    apply wrap_loop_conts in Ef; [|now apply ends_word_strip]. destruct Ef as (l & new & H1 & (r' & H2) & H3 & H4).
    assert (Hl : lines = ls ++ [cur]).
    { destruct (strip cur) eqn:Es.
      - exfalso. apply strip_nil in Es. destruct H4 as (q & c & -> & Hc4). apply Forall_app in Es. destruct Es as [_ Es]. inversion Es. congruence.
      - injection H as <-. now rewrite ends_word_rstrip. }
    rewrite Hl, H1. cbn [app]. intros x [<-|Hx]; [apply card_alone|]. rewrite Hc. apply cont_not_head; [assumption|].
    destruct Hx as [<-|Hx].
    + exists (strip tok ++ r'). rewrite H2, <- app_assoc. reflexivity.
    + revert x Hx. apply Forall_forall. apply (Forall_impl continuation (P := prefix_of (lit "     "))); [|exact H3]. intros x (y & Hy). now exists y.
Qed.
