(** Proofs about the MCNP output reader: general information and tally sections. *)
From Coq Require Import Lia ZArith Permutation.
From Verif Require Import PyBase PyFloat PyFs SpecStr PyFacts M_util SpecUtil P_util SpecInput TextFacts SpecOutput P_output P_output3 M_mcout SpecMcout.

(** * Lists and lines *)
Lemma head_prefix (t l : str) : head_chars (Z.of_nat (List.length t)) l = t <-> prefix_of t l.
Proof.
  unfold head_chars. destruct (Z.ltb_spec (Z.of_nat (List.length t)) 0); [lia|].
  rewrite Nat2Z.id. split.
  - intros E. exists (skipn (List.length t) l). rewrite <- E at 1. symmetry. apply firstn_skipn.
  - intros (r & ->). rewrite firstn_app, Nat.sub_diag, firstn_O, app_nil_r. apply firstn_all.
Qed.
Lemma find_line_pre_Ok text lines n i : n = zlen text ->
  find_line text lines n = Ok i <-> first_index (prefix_of text) lines i.
Proof.
  intros ->. rewrite find_line_Ok. apply first_index_iff. intros x. apply head_prefix.
Qed.
Lemma find_line_pre_Err text lines n e : n = zlen text ->
  find_line text lines n = Err e <-> e = ValueError /\ none_of (prefix_of text) lines.
Proof.
  intros ->. rewrite find_line_Err. split; intros [A B]; (split; [exact A|]); intros l Hl Hp; apply (B l Hl); now apply head_prefix.
Qed.
Lemma first_index_app {A} (P : A -> Prop) a h b :
  (forall l, In l a -> ~ P l) -> P h -> first_index P (a ++ h :: b) (List.length a).
Proof.
  intros Ha Hh. split.
  - exists h. split; [|exact Hh]. now rewrite nth_error_app2, Nat.sub_diag by lia.
  - intros j x Hj Hx. rewrite nth_error_app1 in Hx by lia. apply nth_error_In in Hx. auto.
Qed.
Lemma find_line_app text n a h b : n = zlen text -> none_of (prefix_of text) a -> prefix_of text h ->
  find_line text (a ++ h :: b) n = Ok (List.length a).
Proof. intros Hn Ha Hh. apply find_line_pre_Ok; [exact Hn|]. now apply first_index_app. Qed.
Lemma find_line_none text n a : n = zlen text -> none_of (prefix_of text) a -> find_line text a n = Err ValueError.
Proof. intros Hn Ha. apply find_line_pre_Err; auto. Qed.
Lemma find_ind_app sub a h b : none_of (occurs sub) a -> occurs sub h ->
  find_ind (a ++ h :: b) sub = Ok (List.length a).
Proof. intros Ha Hh. apply find_ind_Ok. now apply first_index_app. Qed.
Lemma first_index_split {A} (P : A -> Prop) l i : first_index P l i ->
  exists a h b, l = a ++ h :: b /\ List.length a = i /\ (forall x, In x a -> ~ P x) /\ P h.
Proof.
  intros ((x & Hx & Px) & Hf). destruct (nth_error_split l i Hx) as (a & b & -> & Hl).
  exists a, x, b. repeat split; auto. intros y Hy Py. apply In_nth_error in Hy. destruct Hy as (j & Hj).
  assert (Hlt : j < List.length a) by (apply nth_error_Some; congruence).
  apply (Hf j y); [lia| |exact Py]. now rewrite nth_error_app1 by lia.
Qed.
Lemma py_nth_app {A} (a l : list A) (k : Z) : (0 <= k)%Z ->
  py_nth (a ++ l) (Z.of_nat (List.length a) + k) = py_nth l k.
Proof.
  intros Hk. replace (Z.of_nat (List.length a) + k)%Z with (Z.of_nat (List.length a + Z.to_nat k)) by lia.
  replace k with (Z.of_nat (Z.to_nat k)) at 2 by lia. rewrite !py_nth_nat.
  rewrite nth_error_app2 by lia. now replace (List.length a + Z.to_nat k - List.length a) with (Z.to_nat k) by lia.
Qed.
Lemma py_nth_app0 {A} (a l : list A) : py_nth (a ++ l) (Z.of_nat (List.length a)) = py_nth l 0%Z.
Proof. rewrite <- (py_nth_app a l 0%Z) by lia. f_equal. lia. Qed.
Lemma slice_from_app {A} (a l : list A) (k : Z) : (0 <= k)%Z ->
  slice_from (Z.of_nat (List.length a) + k) (a ++ l) = slice_from k l.
Proof.
  intros Hk. rewrite !slice_from_pos by lia. rewrite skipn_app, skipn_all2 by lia. cbn [app].
  f_equal. lia.
Qed.
Lemma slice_from_app0 {A} (a l : list A) : slice_from (Z.of_nat (List.length a)) (a ++ l) = l.
Proof. rewrite slice_from_nat, skipn_app, skipn_all, Nat.sub_diag. reflexivity. Qed.

(** * Rendezvous *)
Lemma rendezvous_In data i : In i (get_rendevous_index data) <-> line_at rendezvous data i.
Proof.
  unfold get_rendevous_index, line_at, rendezvous. rewrite (enum_filter_In (fun l => contains (lit "master set rendezvous nps") l) data i).
  split; intros (l & H1 & H2); exists l; (split; [exact H1|]); now apply contains_spec.
Qed.
Lemma rendezvous_increasing data : increasing (get_rendevous_index data).
Proof. apply (enum_filter_increasing (fun l => contains (lit "master set rendezvous nps") l) 0 data). Qed.
Lemma increasing_app_lt a b : increasing (a ++ b) -> forall x y, In x a -> In y b -> x < y.
Proof.
  revert b; induction a as [|n a IH]; intros b H x y Hx Hy; [destruct Hx|].
  assert (Hall : forall l n, increasing (n :: l) -> forall z, In z l -> n < z).
  { clear. intros l; induction l as [|m l IH]; intros n H z Hz; [destruct Hz|].
    inversion H; subst. destruct Hz as [<-|Hz]; [assumption|]. specialize (IH m ltac:(assumption) z Hz). lia. }
  destruct Hx as [<-|Hx].
  - apply (Hall _ _ H). apply in_or_app. now right.
  - apply (IH b); auto. cbn in H. inversion H as [|m E|? m l Hlt Hi E]; subst; [destruct a; [destruct Hx|discriminate]|].
    destruct a as [|m' a]; cbn in *; [destruct Hx|]. congruence.
Qed.
Lemma snoc2_cases {A} (l : list A) : l = [] \/ (exists x, l = [x]) \/ exists a x y, l = a ++ [x; y].
Proof.
  destruct (snoc_cases l) as [->|(a & y & ->)]; [now left|]. right.
  destruct (snoc_cases a) as [->|(b & x & ->)]; [left; now exists y|]. right. exists b, x, y. now rewrite <- app_assoc.
Qed.
Lemma find_last_spec data :
  (exists i, find_last_rendevous data = Some i /\ second_last rendezvous data i) \/
  (find_last_rendevous data = None /\ at_most_one rendezvous data).
Proof.
  unfold find_last_rendevous. pose proof (rendezvous_In data) as HI. pose proof (rendezvous_increasing data) as Hinc.
  destruct (snoc2_cases (get_rendevous_index data)) as [E|[(x & E)|(a & x & y & E)]]; rewrite E in *.
  - right. split; [reflexivity|]. intros i j Hi Hj. now apply HI in Hi.
  - right. split; [reflexivity|]. intros i j Hi Hj. apply HI in Hi, Hj. cbn in Hi, Hj. lia.
  - left. exists x. split.
    + unfold zlen. rewrite app_length. cbn [List.length].
      destruct (Z.ltb_spec (Z.of_nat (List.length a + 2)) 2); [lia|].
      assert (Hp : py_nth (a ++ [x; y]) (-2)%Z = Ok x); [|rewrite Hp; reflexivity].
      unfold py_nth, zlen. rewrite app_length. cbn [List.length].
      replace (-2 <? 0)%Z with true by reflexivity.
      destruct (Z.ltb_spec (-2 + Z.of_nat (List.length a + 2)) 0); [lia|].
      replace (Z.to_nat (-2 + Z.of_nat (List.length a + 2))) with (List.length a) by lia.
      rewrite nth_error_app2, Nat.sub_diag by lia. reflexivity.
    + split; [apply HI; apply in_or_app; cbn; auto|]. exists y.
      assert (Hxy : x < y).
      { change (a ++ [x; y]) with (a ++ [x] ++ [y]) in Hinc. rewrite app_assoc in Hinc.
        apply (increasing_app_lt _ _ Hinc); [apply in_or_app; cbn; auto|cbn; auto]. }
      split; [exact Hxy|]. split; [apply HI; apply in_or_app; cbn; auto|].
      intros k Hk Hlt. apply HI in Hk. apply in_app_or in Hk. destruct Hk as [Hk|[Hk|[Hk|[]]]]; [|lia|lia].
      assert (k < x); [|lia]. apply (increasing_app_lt a [x; y] Hinc); cbn; auto.
Qed.
Lemma second_last_fun P data i j : second_last P data i -> second_last P data j -> i = j.
Proof.
  intros (Hi & i' & Hi1 & Hi2 & Hi3) (Hj & j' & Hj1 & Hj2 & Hj3).
  destruct (Nat.lt_trichotomy i j) as [L|[L|L]]; [|exact L|].
  - pose proof (Hi3 j Hj L). pose proof (Hi3 j' Hj2 ltac:(lia)). lia.
  - pose proof (Hj3 i Hi L). pose proof (Hj3 i' Hi2 ltac:(lia)). lia.
Qed.
Lemma find_last_Some data i : find_last_rendevous data = Some i <-> second_last rendezvous data i.
Proof.
  destruct (find_last_spec data) as [(x & E & H)|(E & H)]; rewrite E.
  - split; [intros H'; injection H' as <-; exact H|]. intros H'. f_equal. eapply second_last_fun; eauto.
  - split; [discriminate|]. intros (Hi & j & Hlt & Hj & _). pose proof (H i j Hi Hj). lia.
Qed.
Lemma find_last_None data : find_last_rendevous data = None <-> at_most_one rendezvous data.
Proof.
  destruct (find_last_spec data) as [(x & E & H)|(E & H)]; rewrite E; [|tauto].
  split; [discriminate|]. intros H'. destruct H as (Hi & j & Hlt & Hj & _). pose proof (H' x j Hi Hj). lia.
Qed.

(** * Tally numbers *)
Lemma existsb_str_In x l : existsb (str_eqb x) l = true <-> In x l.
Proof.
  rewrite existsb_exists. split.
  - intros (y & Hy & E). apply str_eqb_eq in E. now subst.
  - intros H. exists x. split; [exact H|]. apply str_eqb_refl.
Qed.
Lemma set_of_spec l : NoDup (set_of l) /\ forall x, In x (set_of l) <-> In x l.
Proof.
  unfold set_of. enough (H : forall acc, NoDup acc ->
    NoDup (fold_left (fun acc x => if existsb (str_eqb x) acc then acc else acc ++ [x]) l acc) /\
    forall x, In x (fold_left (fun acc x => if existsb (str_eqb x) acc then acc else acc ++ [x]) l acc) <-> In x acc \/ In x l).
  { destruct (H [] (NoDup_nil _)) as (A & B). split; [exact A|]. intros x. rewrite B. cbn. tauto. }
  induction l as [|y l IH]; intros acc Ha; cbn [fold_left].
  - split; [exact Ha|]. intros x. cbn. tauto.
  - destruct (existsb (str_eqb y) acc) eqn:E.
    + destruct (IH acc Ha) as (A & B). split; [exact A|]. intros x. rewrite B. cbn.
      apply existsb_str_In in E. split; [tauto|]. intros [?|[<-|?]]; auto.
    + assert (Hn : ~ In y acc) by (rewrite <- existsb_str_In; congruence).
      destruct (IH (acc ++ [y]) (NoDup_snoc _ _ Ha Hn)) as (A & B). split; [exact A|].
      intros x. rewrite B, in_app_iff. cbn. tauto.
Qed.
Lemma listed_head l : str_eqb (slice_btw 0 11 l) (lit "1tally     ") = true <-> prefix_of (lit "1tally     ") l.
Proof.
  rewrite str_eqb_eq. change (slice_btw 0 11 l) with (slice_to 11 l).
  rewrite slice_to_head. apply (head_prefix (lit "1tally     ") l).
Qed.
Lemma word_second l a t ws : words l (a :: t :: ws) -> py_nth (string_clean_and_split l) 1%Z = Ok t.
Proof. intros H. apply clean_split_words in H; [|discriminate]. rewrite H. reflexivity. Qed.
Lemma word_second_err l a : words l [a] -> py_nth (string_clean_and_split l) 1%Z = Err IndexError.
Proof. intros H. apply clean_split_words in H; [|discriminate]. rewrite H. reflexivity. Qed.
Lemma Forall2_In_r {A B} (R : A -> B -> Prop) l ys y : Forall2 R l ys -> In y ys -> exists x, In x l /\ R x y.
Proof. induction 1 as [|a b l ys H1 H2 IH]; cbn; [tauto|]. intros [<-|Hi]; [eauto|]. destruct (IH Hi) as (x & ? & ?). eauto. Qed.
Lemma Forall2_In_l {A B} (R : A -> B -> Prop) l ys x : Forall2 R l ys -> In x l -> exists y, In y ys /\ R x y.
Proof. induction 1 as [|a b l ys H1 H2 IH]; cbn; [tauto|]. intros [<-|Hi]; [eauto|]. destruct (IH Hi) as (z & ? & ?). eauto. Qed.
Lemma head_words l : prefix_of (lit "1tally     ") l -> (exists a, words l [a]) \/ exists a t ws, words l (a :: t :: ws).
Proof.
  intros (r & ->). pose proof (words_total (lit "1tally     " ++ r)) as H.
  destruct (split_ws (lit "1tally     " ++ r)) as [|a [|t ws]]; [exfalso|eauto|right; eauto].
  inversion H as [s Hb|]; subst. unfold blank in Hb. apply Forall_app in Hb. destruct Hb as [Hb _].
  inversion Hb; subst. discriminate.
Qed.
Lemma tally_nums_Ok lines ns : get_tally_nums lines = Ok ns ->
  NoDup ns /\ forall t, In t ns <-> exists l, In l lines /\ listed_tally l t.
Proof.
  unfold get_tally_nums. destruct (mapM _ _) as [l|e] eqn:E; cbn [bind]; [|discriminate].
  intros H; injection H as <-. destruct (set_of_spec l) as (A & B). split; [exact A|].
  intros t. rewrite B. apply mapM_Ok_iff in E. split.
  - intros Ht. destruct (Forall2_In_r _ _ _ _ E Ht) as (x & Hx & Hf). cbv beta in Hf.
    apply filter_In in Hx. destruct Hx as (Hx & Hp). exists x. split; [exact Hx|].
    apply listed_head in Hp. split; [exact Hp|]. destruct (head_words x Hp) as [(a & Hw)|(a & t' & ws & Hw)].
    + rewrite (word_second_err x a Hw) in Hf. discriminate.
    + rewrite (word_second x a t' ws Hw) in Hf. injection Hf as ->. eauto.
  - intros (x & Hx & Hp & a & ws & Hw).
    assert (Hf : In x (filter (fun line => str_eqb (slice_btw 0 11 line) (lit "1tally     ")) lines)).
    { apply filter_In. split; [exact Hx|]. now apply listed_head. }
    destruct (Forall2_In_l _ _ _ _ E Hf) as (y & Hy & Hfy). cbv beta in Hfy.
    rewrite (word_second x a t ws Hw) in Hfy. injection Hfy as ->. exact Hy.
Qed.
Lemma tally_nums_Err lines e : get_tally_nums lines = Err e <->
  e = IndexError /\ exists l a, In l lines /\ prefix_of (lit "1tally     ") l /\ words l [a].
Proof.
  unfold get_tally_nums. destruct (mapM _ _) as [l|e'] eqn:E; cbn [bind].
  - split; [discriminate|]. intros (_ & x & a & Hx & Hp & Hw). apply mapM_Ok_iff in E.
    assert (Hf : In x (filter (fun line => str_eqb (slice_btw 0 11 line) (lit "1tally     ")) lines)).
    { apply filter_In. split; [exact Hx|]. now apply listed_head. }
    destruct (Forall2_In_l _ _ _ _ E Hf) as (y & Hy & Hfy). cbv beta in Hfy.
    rewrite (word_second_err x a Hw) in Hfy. discriminate.
  - apply mapM_Err_iff in E. destruct E as (a & x & b & Hl & Hf & _). cbv beta in Hf.
    assert (Hx : In x (filter (fun line => str_eqb (slice_btw 0 11 line) (lit "1tally     ")) lines)).
    { rewrite Hl. apply in_or_app. cbn. auto. }
    apply filter_In in Hx. destruct Hx as (Hx & Hp). apply listed_head in Hp.
    destruct (head_words x Hp) as [(w & Hw)|(w & t' & ws & Hw)].
    + rewrite (word_second_err x w Hw) in Hf. injection Hf as <-. split.
      * intros H; injection H as <-. split; [reflexivity|]. eauto.
      * intros (-> & _). reflexivity.
    + rewrite (word_second x w t' ws Hw) in Hf. discriminate.
Qed.
(** A title as printed for a number of five characters or more is not recognised. *)
Lemma long_number_missed l t : tally_title t l -> 5 <= List.length t -> word t -> ~ prefix_of (lit "1tally     ") l.
Proof.
  intros (Hl & r & ->) H5 [_ Hw] (r' & E).
  assert (E' : nth_error ((lit "1tally" ++ repeat (chr 32) (9 - List.length t) ++ t) ++ r) (6 + (9 - List.length t)) = nth_error (lit "1tally     " ++ r') (6 + (9 - List.length t))) by now rewrite E.
  rewrite <- !app_assoc in E'. rewrite nth_error_app2 in E' by (change (List.length (lit "1tally")) with 6; lia).
  change (List.length (lit "1tally")) with 6 in E'. replace (6 + (9 - List.length t) - 6) with (9 - List.length t) in E' by lia.
  rewrite nth_error_app2 in E' by (rewrite repeat_length; lia). rewrite repeat_length, Nat.sub_diag in E'.
  destruct t as [|c t]; [cbn in H5; lia|]. cbn [app nth_error] in E'. inversion Hw; subst.
  assert (Hc : nth_error (lit "1tally     " ++ r') (6 + (9 - List.length (c :: t))) = Some (chr 32)).
  { cbn [List.length] in *. assert (9 - S (List.length t) <= 4) by lia.
    destruct (9 - S (List.length t)) as [|[|[|[|[|]]]]]; try reflexivity. lia. }
  rewrite Hc in E'. injection E' as ->. discriminate.
Qed.

(** * Print tables *)
Lemma last_piece_iff l k : last_piece l k <-> last (split_on c_space l) [] = k.
Proof.
  split.
  - intros (Hn & [->|(a & ->)]).
    + rewrite split_on_lacks; [reflexivity|]. now apply lacks_In.
    + assert (E : exists ws, split_on c_space (a ++ chr 32 :: k) = ws ++ [k]); [|destruct E as (ws & ->); now rewrite last_last].
      clear -Hn. remember (List.length a) as n eqn:En. revert a En. induction n as [n IH] using lt_wf_ind; intros a ->.
      destruct (in_dec Ascii.ascii_dec (chr 32) a) as [Hi|Hi].
      * apply in_split in Hi. (* take the first space *)
        assert (Hs : exists p q, a = p ++ chr 32 :: q /\ ~ In (chr 32) p).
        { clear -Hi. destruct Hi as (p & q & ->). clear -p q. induction p as [|c p IH].
          - exists [], q. cbn. auto.
          - destruct (Ascii.ascii_dec c (chr 32)) as [->|Hc].
            + exists [], (p ++ chr 32 :: q). cbn. auto.
            + destruct IH as (p' & q' & E & Hn'). exists (c :: p'), q'. cbn. rewrite E. split; [reflexivity|]. intros [|]; auto. }
        destruct Hs as (p & q & -> & Hp). rewrite <- app_assoc. cbn [app].
        rewrite (split_on_app c_space p) by now apply lacks_In.
        destruct (IH (List.length q)) with (a := q) as (ws & E); [rewrite app_length; cbn; lia|reflexivity|].
        unfold c_space in *. rewrite E. exists (p :: ws). reflexivity.
      * rewrite (split_on_app c_space a) by now apply lacks_In. rewrite split_on_lacks by now apply lacks_In.
        exists [a]. reflexivity.
  - intros <-. assert (Hl : Forall (lacks c_space) (split_on c_space l)) by apply split_on_lacks_all.
    pose proof (join_split_on c_space l) as Hj. pose proof (split_on_ne c_space l) as Hne.
    destruct (snoc_cases (split_on c_space l)) as [E|(ws & k & E)]; [contradiction|]. rewrite E in *.
    rewrite last_last. apply Forall_app in Hl. destruct Hl as (_ & Hk). apply Forall_inv in Hk.
    split; [now apply lacks_In|]. destruct ws as [|w ws]; [left; rewrite <- Hj; reflexivity|].
    right. exists (join [c_space] (w :: ws)). rewrite <- Hj. rewrite join_app by discriminate. reflexivity.
Qed.
Definition table_key (l : str) : option str :=
  if contains (lit "print table") l then
    let key := last (split_on c_space l) [] in
    if str_eqb key (lit "160") || str_eqb key (lit "161") || (3 <? zlen key)%Z then None else Some key
  else None.
Lemma table_key_iff l k : table_key l = Some k <-> table_line k l.
Proof.
  unfold table_key, table_line. destruct (contains (lit "print table") l) eqn:Ec.
  - apply contains_spec in Ec. cbv zeta.
    destruct (str_eqb_spec (last (split_on c_space l) []) (lit "160")) as [E|E1]; cbn [orb].
    { split; [discriminate|]. intros (_ & Hp & H1 & _). apply last_piece_iff in Hp. congruence. }
    destruct (str_eqb_spec (last (split_on c_space l) []) (lit "161")) as [E|E2]; cbn [orb].
    { split; [discriminate|]. intros (_ & Hp & _ & H1 & _). apply last_piece_iff in Hp. congruence. }
    unfold zlen. destruct (Z.ltb_spec 3 (Z.of_nat (List.length (last (split_on c_space l) [])))) as [L|L].
    { split; [discriminate|]. intros (_ & Hp & _ & _ & H1). apply last_piece_iff in Hp. rewrite Hp in L. lia. }
    split.
    + intros H; injection H as <-. split; [exact Ec|]. split; [now apply last_piece_iff|]. split; [exact E1|]. split; [exact E2|lia].
    + intros (_ & Hp & _). apply last_piece_iff in Hp. now rewrite Hp.
  - apply contains_false in Ec. split; [discriminate|]. tauto.
Qed.
Lemma enumerate_snoc {A} (l : list A) x : enumerate (l ++ [x]) = enumerate l ++ [(List.length l, x)].
Proof. unfold enumerate. rewrite enum_from_app. reflexivity. Qed.
Lemma table_dict_snoc data l : get_table_dict (data ++ [l]) =
  match table_key l with Some k => dict_set str_eqb k (List.length data) (get_table_dict data) | None => get_table_dict data end.
Proof.
  unfold get_table_dict. rewrite enumerate_snoc, fold_left_app. cbn [fold_left fst snd]. unfold table_key.
  destruct (contains (lit "print table") l); [|reflexivity]. cbv zeta.
  destruct (str_eqb (last (split_on c_space l) []) (lit "160") || str_eqb (last (split_on c_space l) []) (lit "161") || (3 <? zlen (last (split_on c_space l) []))%Z); reflexivity.
Qed.
Lemma line_at_snoc P data l i : line_at P (data ++ [l]) i <-> line_at P data i \/ (i = List.length data /\ P l).
Proof.
  unfold line_at. split.
  - intros (x & Hx & Px). destruct (Nat.lt_ge_cases i (List.length data)) as [L|L].
    + left. exists x. rewrite nth_error_app1 in Hx by lia. auto.
    + right. rewrite nth_error_app2 in Hx by lia. destruct (i - List.length data) as [|n] eqn:E.
      * cbn in Hx. injection Hx as ->. split; [lia|exact Px].
      * cbn in Hx. destruct n; discriminate.
  - intros [(x & Hx & Px)|(-> & Px)].
    + exists x. split; [|exact Px]. rewrite nth_error_app1; [exact Hx|]. apply nth_error_Some. congruence.
    + exists l. split; [|exact Px]. now rewrite nth_error_app2, Nat.sub_diag by lia.
Qed.
Lemma line_at_lt P data i : line_at P data i -> i < List.length data.
Proof. intros (x & Hx & _). apply nth_error_Some. congruence. Qed.
Lemma table_dict_spec data k i : dict_get str_eqb k (get_table_dict data) = Some i <-> last_at (table_line k) data i.
Proof.
  revert i; induction data as [|l data IH] using rev_ind; intros i.
  - cbn. split; [discriminate|]. intros ((x & Hx & _) & _). destruct i; discriminate.
  - rewrite table_dict_snoc. destruct (table_key l) as [k'|] eqn:Ek.
    + rewrite (dict_get_set str_eqb str_eqb_spec). apply table_key_iff in Ek.
      destruct (str_eqb_spec k k') as [->|Hn].
      * split.
        { intros H; injection H as <-. split.
          - apply line_at_snoc. auto.
          - intros j Hj. apply line_at_lt in Hj. rewrite app_length in Hj. cbn in Hj. lia. }
        { intros (Hi & Hmax). f_equal. assert (Hd : line_at (table_line k') (data ++ [l]) (List.length data)) by (apply line_at_snoc; auto).
          apply Hmax in Hd. apply line_at_lt in Hi. rewrite app_length in Hi. cbn in Hi. lia. }
      * rewrite IH. assert (Hl : ~ table_line k l).
        { intros (_ & H1 & _). destruct Ek as (_ & H2 & _). apply last_piece_iff in H1, H2. congruence. }
        split; intros (H1 & H2); split.
        { apply line_at_snoc. auto. }
        { intros j Hj. apply line_at_snoc in Hj. destruct Hj as [Hj|[_ Hj]]; [auto|contradiction]. }
        { apply line_at_snoc in H1. destruct H1 as [|[_ H1]]; [assumption|contradiction]. }
        { intros j Hj. apply H2. apply line_at_snoc. auto. }
    + rewrite IH. assert (Hl : ~ table_line k l) by (rewrite <- table_key_iff; congruence).
      split; intros (H1 & H2); split.
      * apply line_at_snoc. auto.
      * intros j Hj. apply line_at_snoc in Hj. destruct Hj as [Hj|[_ Hj]]; [auto|contradiction].
      * apply line_at_snoc in H1. destruct H1 as [|[_ H1]]; [assumption|contradiction].
      * intros j Hj. apply H2. apply line_at_snoc. auto.
Qed.
Lemma table_dict_NoDup data : NoDup (map fst (get_table_dict data)).
Proof.
  induction data as [|l data IH] using rev_ind; [constructor|]. rewrite table_dict_snoc.
  destruct (table_key l); [|exact IH]. now apply (dict_set_NoDup str_eqb str_eqb_spec).
Qed.

(** * Comments, warnings, fatal errors *)
Lemma comments_warnings_spec lines :
  picked (prefix_of (lit "  comment.")) lines (fst (read_comments_warnings lines)) /\
  picked (prefix_of (lit "  warning.")) lines (snd (read_comments_warnings lines)).
Proof.
  unfold read_comments_warnings. cbn [fst snd]. split; (eapply picked_filter; [intros l; apply starts_with_spec|reflexivity]).
Qed.
Lemma fatal_spec data : check_fatal data = true <-> exists l a w b, In l data /\ l = a ++ w ++ b /\ lower w = lit "fatal".
Proof.
  unfold check_fatal. rewrite existsb_exists. split.
  - intros (l & Hl & Hc). apply contains_spec in Hc. destruct Hc as (a & b & E).
    exists l, (firstn (List.length a) l), (firstn 5 (skipn (List.length a) l)), (skipn 5 (skipn (List.length a) l)).
    split; [exact Hl|]. split.
    + rewrite (firstn_skipn 5). symmetry. apply firstn_skipn.
    + unfold lower in *. rewrite <- firstn_map, <- skipn_map, E. rewrite skipn_app, skipn_all, Nat.sub_diag. reflexivity.
  - intros (l & a & w & b & Hl & -> & Hw). exists (a ++ w ++ b). split; [exact Hl|]. apply contains_spec.
    exists (lower a), (lower b). now rewrite !lower_app, Hw.
Qed.

(** * Version and date *)
Lemma version_spec lines v : read_version lines = Some v <->
  exists l rest a t, lines = l :: rest /\ prefix_of (lit "          Code Name & Version") l /\
    ~ In (chr 61) a /\ (exists r, l = a ++ chr 61 :: r /\ upto (chr 61) r t) /\ trimmed t v.
Proof.
  destruct lines as [|l rest]; cbn [read_version].
  - split; [discriminate|]. intros (l & r & a & t & E & _). discriminate.
  - rewrite slice_to_head. destruct (str_eqb_spec (head_chars 29 l) (lit "          Code Name & Version")) as [E|E].
    + apply (head_prefix (lit "          Code Name & Version")) in E.
      destruct (in_dec Ascii.ascii_dec (chr 61) l) as [Hi|Hi].
      * assert (Hs : exists a r, l = a ++ chr 61 :: r /\ ~ In (chr 61) a).
        { clear -Hi. induction l as [|c l IH]; [destruct Hi|]. destruct (Ascii.ascii_dec c (chr 61)) as [->|Hc].
          - exists [], l. cbn. auto.
          - destruct Hi as [|Hi]; [contradiction|]. destruct (IH Hi) as (a & r & -> & Hn). exists (c :: a), r. cbn. split; [reflexivity|]. intros [|]; auto. }
        destruct Hs as (a & r & -> & Ha).
        change c_eq with (chr 61). rewrite (split_on_app (chr 61) a) by now apply lacks_In.
        assert (Hp : @py_nth str (a :: split_on (chr 61) r) 1%Z = Ok (hd [] (split_on (chr 61) r))).
        { pose proof (split_on_ne (chr 61) r) as Hne. destruct (split_on (chr 61) r); [contradiction|reflexivity]. }
        match goal with |- (match ?x with Ok _ => _ | Err _ => _ end = _) <-> _ => change x with (@py_nth str (a :: split_on (chr 61) r) 1%Z) end.
        rewrite Hp. split.
        -- intros H; injection H as <-. exists (a ++ chr 61 :: r), rest, a, (hd [] (split_on (chr 61) r)).
           repeat split; auto.
           ++ exists r. split; [reflexivity|]. apply upto_split.
           ++ apply trimmed_strip. reflexivity.
        -- intros (l & r' & a' & t & El & _ & Ha' & (r1 & Er & Hu) & Ht). injection El as <- <-.
           f_equal. apply trimmed_strip in Ht. rewrite <- Ht. f_equal.
           assert (Hsp : split_on (chr 61) (a ++ chr 61 :: r) = split_on (chr 61) (a' ++ chr 61 :: r1)) by now rewrite Er.
           rewrite !split_on_app in Hsp by now apply lacks_In. injection Hsp as _ Hsp.
           rewrite Hsp. apply upto_iff. exact Hu.
      * change c_eq with (chr 61). rewrite split_on_lacks by now apply lacks_In.
        split; [discriminate|]. intros (l' & r' & a' & t & El & _ & Ha' & (r1 & Er & Hu) & Ht). injection El as <- <-.
        elim Hi. rewrite Er. apply in_or_app. cbn. auto.
    + split; [discriminate|]. intros (l' & r' & a' & t & El & Hp & _). injection El as <- <-.
      apply (head_prefix (lit "          Code Name & Version")) in Hp. contradiction.
Qed.
