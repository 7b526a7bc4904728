(** Proofs about the sections of an xsdir file. *)
From Coq Require Import Lia ZArith.
From Verif Require Import PyBase PyFloat PyFs SpecStr PyFacts M_util SpecUtil P_util FloatFacts SpecInput TextFacts SpecOutput SpecMcout M_output P_output P_output3 P_ptrac.
Local Open Scope nat_scope.

Lemma datapath_total lines : (forall x, In x lines -> datapath_line x -> In (chr 61) x) -> exists o, process_datapath lines = Ok o.
Proof.
  intros He. induction lines as [|l ls IH]; cbn [process_datapath]; [now exists None|]. destruct (starts_with _ _) eqn:E.
  - apply datapath_bool in E. specialize (He l (or_introl eq_refl) E). apply in_split in He. destruct He as (a & b & ->). rewrite lower_app. cbn [lower map].
    change (lower_c (chr 61)) with (chr 61). set (s := lower a ++ _). assert (Hn : exists x y zs, split_on (chr 61) s = x :: y :: zs).
    { subst s. clear. induction (lower a) as [|c s IH]; cbn [app split_on].
      - change (Ascii.eqb (chr 61) (chr 61)) with true. cbn iota. destruct (split_on (chr 61) (map lower_c b)) as [|y zs] eqn:E; [now apply split_on_ne in E|]. now exists [], y, zs.
      - destruct (Ascii.eqb c (chr 61)).
        + destruct IH as (x & y & zs & ->). now exists [], x, (y :: zs).
        + destruct IH as (x & y & zs & ->). now exists (c :: x), y, zs. }
    destruct Hn as (x & y & zs & Hn). change (map lower_c b) with (lower b) in *. rewrite Hn. rewrite P_input2.py_nth_1. cbn [bind]. eexists. reflexivity.
  - apply IH. intros x Hx. apply He. now right.
Qed.
Lemma set_key {V} k' k (v : V) d : In k' (map fst (dict_set str_eqb k v d)) <-> k' = k \/ In k' (map fst d).
Proof.
  rewrite <- !(dict_has_In str_eqb str_eqb_spec). unfold dict_has. rewrite (dict_get_set str_eqb str_eqb_spec). destruct (str_eqb_spec k' k) as [->|H].
  - split; [now left|reflexivity].
  - split; [now right|intros [?|?]; [contradiction|assumption]].
Qed.
Lemma awr_bad sec es l w k v rest post : awr_entries sec es -> none_of (heads (lit "directory")) sec ->
  words l (w :: k :: v :: rest) -> ~ heads (lit "atomic") l -> ~ heads (lit "directory") l -> (forall x, ~ reads v x) ->
  forall d, awr_loop true (sec ++ l :: post) d = Err ValueError.
Proof.
  intros H Hd Hw Ha Hn Hv. induction H as [|l' ls w' k' v' x' rest' es Hw' Ha' Hx' H IH|l' ls es Ha' H IH|l' ls ws es Hw' Hlen H IH]; intros d; cbn [app awr_loop].
  - assert (E : starts_with (lit "atomic") (strip l) = false) by now apply headsF. rewrite E.
    assert (E2 : starts_with (lit "directory") (strip l) = false) by now apply headsF. rewrite E2.
    rewrite split_ws_strip. apply words_split in Hw. rewrite Hw.
    destruct (py_float v) as [x|e] eqn:Ev; [elim (Hv x); exact Ev|]. cbn [bind]. now rewrite (py_float_err _ _ Ev).
  - assert (E : starts_with (lit "atomic") (strip l') = false) by now apply headsF. rewrite E.
    assert (E2 : starts_with (lit "directory") (strip l') = false) by (apply headsF, Hd; now left). rewrite E2.
    rewrite split_ws_strip. apply words_split in Hw'. rewrite Hw'. rewrite Hx'. cbn [bind]. apply IH. intros y Hy. apply Hd. now right.
  - apply heads_spec in Ha'. rewrite Ha'. apply IH. intros y Hy. apply Hd. now right.
  - destruct (starts_with (lit "atomic") (strip l')) eqn:E; [apply IH; intros y Hy; apply Hd; now right|].
    assert (E2 : starts_with (lit "directory") (strip l') = false) by (apply headsF, Hd; now left). rewrite E2.
    rewrite split_ws_strip. apply words_split in Hw'. rewrite Hw'. destruct ws as [|w1 [|w2 [|w3 ws]]]; cbn in Hlen; try lia; apply IH; intros y Hy; apply Hd; now right.
Qed.
Lemma bad_weight f p lines pre h sec l w k v rest post es : get_lines f p = Ok lines -> (forall x, In x lines -> datapath_line x -> In (chr 61) x) ->
  lines = pre ++ h :: sec ++ l :: post -> none_of (heads (lit "atomic")) pre -> heads (lit "atomic") h -> none_of (heads (lit "directory")) sec -> awr_entries sec es ->
  words l (w :: k :: v :: rest) -> ~ heads (lit "atomic") l -> ~ heads (lit "directory") l -> (forall x, ~ reads v x) -> read_xsdir f p = Err ValueError.
Proof.
  intros Hg He -> Hp Hh Hs Ha Hw Hl1 Hl2 Hv. unfold read_xsdir. rewrite Hg. cbn [bind].
  destruct (datapath_total _ He) as (d & ->). cbn [bind]. rewrite awr_section by assumption. now rewrite (awr_bad sec es l w k v rest post).
Qed.
(** Keys only grow. *)
Lemma dir_keeps b ls d k : In k (map fst d) -> In k (map fst (dir_loop b ls d)).
Proof.
  revert b d. induction ls as [|l ls IH]; intros b d H; cbn [dir_loop]; [exact H|]. destruct (starts_with _ _); [now apply IH|]. destruct b; [|now apply IH].
  destruct (split_ws l) as [|w [|v vs]]; try (now apply IH). apply IH. apply set_key. now right.
Qed.
Lemma dir_on ls d k v vs l post : words l (k :: v :: vs) -> ~ heads (lit "directory") l -> In k (map fst (dir_loop true (ls ++ l :: post) d)).
Proof.
  intros Hw Hl. revert d.
  induction ls as [|y ls IH]; intros d; cbn [app dir_loop].
  - rewrite (proj2 (headsF _ _) Hl). apply words_split in Hw. rewrite Hw. apply dir_keeps, set_key. now left.
  - destruct (starts_with _ _); [apply IH|]. destruct (split_ws y) as [|w [|z zs]]; apply IH.
Qed.
Lemma dir_after pre d ls b : heads (lit "directory") d -> forall acc, exists acc', dir_loop b (pre ++ d :: ls) acc = dir_loop true ls acc'.
Proof.
  intros Hd. revert b. induction pre as [|y pre IH]; intros b acc; cbn [app dir_loop].
  - rewrite (proj1 (heads_spec _ _) Hd). eauto.
  - destruct (starts_with _ _); [apply IH|]. destruct b; [|apply IH]. destruct (split_ws y) as [|w [|z zs]]; apply IH.
Qed.
Lemma thermal_keeps b ls d k : In k (map fst d) -> In k (map fst (thermal_loop b ls d)).
Proof.
  revert b d. induction ls as [|l ls IH]; intros b d H; [exact H|]. rewrite thermal_step. destruct (_ || _); [now apply IH|]. destruct (starts_with _ _); [now apply IH|]. destruct b; [|now apply IH].
  destruct (split_ws l) as [|w [|v vs]]; try (now apply IH). apply IH. apply set_key. now right.
Qed.
Lemma thermal_on ls d k v vs l post : words l (k :: v :: vs) -> ~ thermal_skip l -> In k (map fst (thermal_loop true (ls ++ l :: post) d)).
Proof.
  intros Hw Hl. revert d. induction ls as [|y ls IH]; intros d; cbn [app]; rewrite thermal_step.
  - destruct (_ || _) eqn:E1; [apply thermal_bool in E1; exfalso; apply Hl; now right|].
    destruct (starts_with (lit "#") (strip l)) eqn:E2; [exfalso; apply Hl; left; now apply heads_spec|]. apply words_split in Hw. rewrite Hw. apply thermal_keeps, set_key. now left.
  - destruct (_ || _); [apply IH|]. destruct (starts_with _ _); [apply IH|]. destruct (split_ws y) as [|w [|z zs]]; apply IH.
Qed.
Lemma thermal_after pre d ls b : thermal_head d -> forall acc, exists acc', thermal_loop b (pre ++ d :: ls) acc = thermal_loop true ls acc'.
Proof.
  intros Hd. revert b. induction pre as [|y pre IH]; intros b acc; cbn [app]; rewrite thermal_step.
  - rewrite (proj1 (thermal_bool _) Hd). eauto.
  - destruct (_ || _); [apply IH|]. destruct (starts_with _ _); [apply IH|]. destruct b; [|apply IH]. destruct (split_ws y) as [|w [|z zs]]; apply IH.
Qed.
Lemma both_sections f p x lines : get_lines f p = Ok lines -> read_xsdir f p = Ok x -> forall pre d mid h sec l k v vs post, lines = pre ++ d :: mid ++ h :: sec ++ l :: post ->
  heads (lit "directory") d -> thermal_head h -> words l (k :: v :: vs) -> ~ heads (lit "directory") l -> ~ thermal_skip l ->
  In k (map fst (xs_directory x)) /\ In k (map fst (xs_thermal x)).
Proof.
  intros Hg Hr pre d mid h sec l k v vs post -> Hd Hh Hw Hl Ht. revert Hr. unfold read_xsdir. rewrite Hg. cbn [bind].
  destruct (process_datapath _) as [dp|e]; [|discriminate]. cbn [bind]. destruct (process_awr _) as [aw|e]; [|discriminate]. cbn [bind]. intros E. injection E as <-. cbn [xs_directory xs_thermal].
  unfold process_directory, process_thermal. split.
  - destruct (dir_after pre d (mid ++ h :: sec ++ l :: post) false Hd []) as (acc & ->).
    replace (mid ++ h :: sec ++ l :: post) with ((mid ++ h :: sec) ++ l :: post) by (now rewrite <- app_assoc). apply (dir_on _ _ k v vs); assumption.
  - replace (pre ++ d :: mid ++ h :: sec ++ l :: post) with ((pre ++ d :: mid) ++ h :: sec ++ l :: post) by (now rewrite <- app_assoc).
    destruct (thermal_after (pre ++ d :: mid) h (sec ++ l :: post) false Hh []) as (acc & ->). now apply (thermal_on _ _ k v vs).
Qed.
Lemma weights_to_end lines pre h sec es : lines = pre ++ h :: sec -> none_of (heads (lit "atomic")) pre -> heads (lit "atomic") h -> none_of (heads (lit "directory")) sec ->
  awr_entries sec es -> exists d, process_awr lines = Ok d /\ bindings str_eqb d es.
Proof.
  intros -> Hp Hh Hs He. apply (awr_spec _ sec sec es); [right; exists pre, h; repeat split; assumption|split; [exact Hs|now left]|exact He].
Qed.
