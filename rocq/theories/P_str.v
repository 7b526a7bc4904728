(** Proofs about the text forms and the weights of a cross section directory. *)
From Coq Require Import Lia.
From Verif Require Import PyBase PyFloat PyFs PyFrame SpecStr PyFacts SpecUtil M_util P_util M_input SpecInput PyNumFacts TextFacts P_input P_input2 P_input3 P_input4 M_output SpecOutput P_output3 M_mesh SpecMesh SpecMesh2 P_mesh P_mesh6 SpecInput2 P_mcout3 M_str.

Lemma tally_text_form n lines out w ws card : (0 <= n)%Z -> card_found (tally_head n) lines out -> all_words out (w :: ws) -> spaced (w :: ws) card ->
  exists e t fm,
    let present k := exists l q r, In l lines /\ l = q ++ chr 32 :: r /\ same_case q (lit k ++ str_of_Z n) in
    (e = true <-> present "e"%string) /\ (t = true <-> present "t"%string) /\ (fm = true <-> present "fm"%string) /\
    tally_str (read_tally_lines n lines) =
      join [chr 10] ([lit "Tally number: " ++ str_of_Z n; lit "Tally card: " ++ card] ++ (if e then [lit "Has energy bins"] else []) ++
        (if t then [lit "Has time bins"] else []) ++ (if fm then [lit "Is modified by a flux modifed card"] else [])).
Proof.
  intros Hn Hc Hw Hs. destruct (tally_recovers n lines out w ws Hn Hc Hw) as (t & Et & E1 & _ & E2). destruct (tally_flags n lines Hn) as (F1 & F2 & F3 & _).
  rewrite Et in *. exists (ti_has_ebins t), (ti_has_tbins t), (ti_has_fm t). split; [assumption|]. split; [assumption|]. split; [assumption|].
  unfold tally_str. rewrite E1. apply spaced_fun in E2, Hs. rewrite E2, Hs. reflexivity.
Qed.

Lemma zdigits_no_nl n : ~ In (chr 10) (str_of_Z n).
Proof.
  intros H. destruct n as [|p|p].
  - destruct H as [H|[]]. discriminate.
  - destruct (str_of_N_spec (N.pos p)) as (_ & Hd & _). rewrite Forall_forall in Hd. apply Hd in H. discriminate.
  - destruct H as [H|H]; [discriminate|]. destruct (str_of_N_spec (N.pos p)) as (_ & Hd & _). rewrite Forall_forall in Hd. apply Hd in H. discriminate.
Qed.
Lemma xsdir_text_form fpath x : ~ In (chr 10) fpath -> (forall p, xs_datapath x = Some p -> ~ In (chr 10) p) ->
  exists ls last, xsdir_str fpath x = join [chr 10] (ls ++ [last]) /\ List.length ls = 3 /\ Forall (fun l => ~ In (chr 10) l) (ls ++ [last]) /\
    last = lit "Number of directory entries: " ++ str_of_Z (Z.of_nat (List.length (xs_directory x))) ++ lit "Number of TSL entries: " ++ str_of_Z (Z.of_nat (List.length (xs_thermal x))) /\
    ~ In (lit "Number of TSL entries: " ++ str_of_Z (Z.of_nat (List.length (xs_thermal x)))) (ls ++ [last]).
Proof.
  intros Hf Hd.
  exists [lit "Filename: " ++ fpath; lit "Datapath: " ++ (match xs_datapath x with Some p => p | None => lit "None" end); lit "Number of AWR entries: " ++ str_of_nat (List.length (xs_awr x))].
  eexists. split; [|split; [reflexivity|split; [|split; [reflexivity|]]]].
  - unfold xsdir_str, str_of_nat, nl. cbn [app join]. now rewrite <- !app_assoc.
  - assert (G : forall s t, forallb (fun c => negb (Ascii.eqb c (chr 10))) s = true -> ~ In (chr 10) t -> ~ In (chr 10) (s ++ t)).
    { intros s t Hs Ht Hi. apply in_app_iff in Hi. destruct Hi as [Hi|Hi]; [|contradiction]. rewrite forallb_forall in Hs. apply Hs in Hi. discriminate. }
    cbn [app]. repeat apply Forall_cons; try apply Forall_nil.
    + now apply G.
    + apply G; [reflexivity|]. destruct (xs_datapath x) as [p|]; [auto|]. intros H. repeat (destruct H as [H|H]; [discriminate|]). destruct H.
    + apply G; [reflexivity|apply zdigits_no_nl].
    + apply G; [reflexivity|]. intros H. apply in_app_iff in H. destruct H as [H|H]; [now apply zdigits_no_nl in H|]. revert H. apply G; [reflexivity|apply zdigits_no_nl].
  - cbn [app]. intros [H|[H|[H|[H|[]]]]]; try discriminate H.
Qed.

Lemma mesh_text_uniform show m xs ys zs a1 b1 l1 a2 b2 l2 a3 b3 l3 :
  numbers (x_bounds m) xs -> numbers (y_bounds m) ys -> numbers (z_bounds m) zs ->
  evenly_spaced xs -> evenly_spaced ys -> evenly_spaced zs ->
  xs = a1 :: b1 :: l1 -> ys = a2 :: b2 :: l2 -> zs = a3 :: b3 :: l3 ->
  mesh_str show m = Ok (join [chr 10]
    [lit "Number of voxels: " ++ str_of_Z (Z.of_nat (List.length (x_mids m) * List.length (y_mids m) * List.length (z_mids m)));
     lit "Number of bins in:"; lit "  x-dimension: " ++ str_of_Z (Z.of_nat (List.length (x_mids m)));
     lit "  y-dimension: " ++ str_of_Z (Z.of_nat (List.length (y_mids m))); lit "  z-dimension: " ++ str_of_Z (Z.of_nat (List.length (z_mids m)));
     lit "voxel volume: " ++ show (fmul (fmul (fabs (fsub b1 a1)) (fabs (fsub b2 a2))) (fabs (fsub b3 a3))) ++ lit " cm^3"]).
Proof. intros. unfold mesh_str. erewrite uniform_volume by eassumption. reflexivity. Qed.
Lemma mesh_text_other show m xs ys zs : numbers (x_bounds m) xs -> numbers (y_bounds m) ys -> numbers (z_bounds m) zs ->
  2 <= List.length xs -> 2 <= List.length ys -> 2 <= List.length zs ->
  ~ (evenly_spaced xs /\ evenly_spaced ys /\ evenly_spaced zs) -> mesh_str show m = Err TypeError.
Proof. intros. unfold mesh_str. erewrite nonuniform_volume by eassumption. reflexivity. Qed.

(** * Weights given as pairs, several on a line *)
Lemma awr_keys sec pl tail : Forall2 pair_line sec pl -> forall d0 d, awr_loop true (sec ++ tail) d0 = Ok d ->
  (tail = [] \/ exists t r, tail = t :: r /\ heads (lit "directory") t) ->
  forall k, In k (map fst d) -> In k (map fst d0) \/ exists p q ps, In (p :: q :: ps) pl /\ k = snd p.
Proof.
  intros H. induction H as [|l ps sec pl Hl H IH]; intros d0 d Hd Ht k Hk.
  - cbn [app] in Hd. destruct Ht as [->|(t & r & -> & Hh)].
    + cbn in Hd. injection Hd as <-. now left.
    + cbn [awr_loop] in Hd. assert (E : starts_with (lit "atomic") (strip t) = false) by (apply headsF; intros Ha; now apply (heads_excl t)).
      rewrite E in Hd. apply heads_spec in Hh. rewrite Hh in Hd. injection Hd as <-. now left.
  - cbn [app awr_loop] in Hd.
    assert (IH' : forall d1, awr_loop true (sec ++ tail) d1 = Ok d -> In k (map fst d1) \/ exists p q ps0, In (p :: q :: ps0) (ps :: pl) /\ k = snd p).
    { intros d1 E. destruct (IH d1 d E Ht k Hk) as [G|(p & q & ps0 & G1 & G2)]; [now left|]. right. exists p, q, ps0. split; [now right|assumption]. }
    destruct (starts_with (lit "atomic") (strip l)); [now apply IH'|]. destruct (starts_with (lit "directory") (strip l)); [injection Hd as <-; now left|].
    unfold pair_line in Hl. apply words_strip in Hl. apply words_split in Hl. rewrite Hl in Hd.
    destruct ps as [|p [|q ps]]; cbn [map concat app] in Hd; try (now apply IH').
    destruct (py_float (fst q)) as [x|]; [|discriminate]. cbn [bind] in Hd. destruct (IH' _ Hd) as [G|G]; [|now right].
    rewrite (dict_set_keys _ str_eqb_spec) in G. assert (G' : k = snd p \/ In k (map fst d0)).
    { destruct (dict_has str_eqb (snd p) d0); [now right|]. apply in_app_iff in G. destruct G as [G|[G|[]]]; [now right|now left]. }
    destruct G' as [->|G']; [|now left]. right. exists p, q, ps. split; [now left|reflexivity].
Qed.
Lemma awr_pairs lines rest sec pl d : after_first (heads (lit "atomic")) lines rest -> before_first (heads (lit "directory")) rest sec -> Forall2 pair_line sec pl ->
  process_awr lines = Ok d -> forall k, In k (map fst d) -> exists p q ps, In (p :: q :: ps) pl /\ k = snd p.
Proof.
  intros Ha Hb Hp Hd k Hk. destruct Ha as [[-> Hn]|(pre & h & -> & Hh & Hpre)].
  - rewrite awr_none in Hd by assumption. injection Hd as <-. destruct Hk.
  - rewrite awr_section in Hd by assumption. destruct Hb as [_ Hb].
    assert (Et : exists tail, rest = sec ++ tail /\ (tail = [] \/ exists t r, tail = t :: r /\ heads (lit "directory") t)).
    { destruct Hb as [->|(l & post & -> & Hl)]; [exists []; rewrite app_nil_r; auto|]. exists (l :: post). split; [reflexivity|]. right. eauto. }
    destruct Et as (tail & -> & Ht). destruct (awr_keys sec pl tail Hp [] d Hd Ht k Hk) as [[]|G]. exact G.
Qed.
