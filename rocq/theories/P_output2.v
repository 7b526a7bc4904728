(** Proofs about the writers of output_utilities, ofile_reduce and lost_points. *)
From Coq Require Import Lia.
From Verif Require Import PyBase PyFloat PyFs SpecStr PyFacts SpecUtil M_util P_util M_input SpecInput TextFacts PyIo M_output SpecOutput P_output.

(** * Writing *)
Lemma io_write_lines_ok f p lines : openable f p ->
  exists f', io_write (fun f => write_lines f p lines) f = (f', Ok tt) /\ f' p = Some (File (full_text lines)) /\ forall q, q <> p -> f' q = f q.
Proof.
  intros H. unfold io_write. destruct (proj2 (write_lines_ok_iff f p lines) H) as (f' & E). rewrite E.
  exists f'. split; [reflexivity|]. apply write_lines_Ok in E. destruct E as [_ ->]. split.
  - rewrite write_lines_run. destruct (path_eqb_spec p p); [reflexivity|congruence].
  - intros q Hq. rewrite write_lines_run. destruct (path_eqb_spec q p); [contradiction|reflexivity].
Qed.
Lemma io_write_lines_err f p lines : ~ openable f p -> exists e, io_write (fun f => write_lines f p lines) f = (f, Err e) /\ e <> ValueError /\ e <> IndexError.
Proof.
  intros H. unfold io_write. destruct (write_lines f p lines) as [f'|e] eqn:E.
  - exfalso. apply H. apply (write_lines_ok_iff f p lines). now exists f'.
  - exists e. split; [reflexivity|]. unfold write_lines, write_lines_effects in E. destruct (can_open_w f p) as [u|e'] eqn:E2; [discriminate|].
    cbn [bind] in E. injection E as <-. unfold can_open_w in E2. destruct (walk f [] p) as [u|e''] eqn:E3; cbn [bind] in E2.
    + destruct (is_dir f p); [|discriminate]. injection E2 as <-. split; discriminate.
    + injection E2 as <-. apply walk_err in E3. destruct E3 as [[-> _]|[-> _]]; split; discriminate.
Qed.
Lemma add_ext_last d n ext : add_ext (d ++ [n]) ext = d ++ [n ++ ext].
Proof. unfold add_ext. rewrite rev_app_distr. cbn [rev app]. now rewrite rev_involutive. Qed.

(** * output_points *)
Section Show.
  Context {V : Type}.
  Variable show : V -> str.
  Lemma point_rows_spec x : forall y z d : list V, length x = length y -> length x = length z -> length d = length x ->
    rows_of show x y z (fun i s => exists v, nth_error d i = Some v /\ s = show v) (point_rows show x y z d).
  Proof.
    induction x as [|a x IH]; intros [|b y] [|c z] [|v d] H1 H2 H3; try discriminate.
    - split; [reflexivity|]. intros [|i] a b c H; discriminate.
    - cbn [point_rows]. injection H1 as H1. injection H2 as H2. injection H3 as H3. destruct (IH y z d H1 H2 H3) as [I1 I2]. split; [cbn; now rewrite I1|].
      intros [|i] a' b' c' Ha Hb Hc; cbn [nth_error] in *.
      + injection Ha as <-. injection Hb as <-. injection Hc as <-. exists (show v). eexists. split; [now exists v|]. split; [reflexivity|].
        apply spaced_fun. reflexivity.
      + now apply I2.
  Qed.
  Lemma point_rows1_spec x : forall y z : list V, length x = length y -> length x = length z ->
    rows_of show x y z (fun i s => s = lit "1") (point_rows1 show x y z).
  Proof.
    induction x as [|a x IH]; intros [|b y] [|c z] H1 H2; try discriminate.
    - split; [reflexivity|]. intros [|i] a b c H; discriminate.
    - cbn [point_rows1]. injection H1 as H1. injection H2 as H2. destruct (IH y z H1 H2) as [I1 I2]. split; [cbn; now rewrite I1|].
      intros [|i] a' b' c' Ha Hb Hc; cbn [nth_error] in *.
      + injection Ha as <-. injection Hb as <-. injection Hc as <-. exists (lit "1"). eexists. split; [reflexivity|]. split; [reflexivity|].
        apply spaced_fun. reflexivity.
      + now apply I2.
  Qed.
  Lemma output_points_err f x y z d p : (~ same_lengths x y z d -> output_points show x y z d p f = (f, Err ValueError)) /\
    (same_lengths x y z d -> snd (output_points show x y z d p f) <> Err ValueError).
  Proof.
    unfold same_lengths, output_points.
    destruct (Nat.eqb_spec (length x) (length y)) as [E1|E1]; cbn [negb orb]; [|split; [reflexivity|tauto]].
    destruct (Nat.eqb_spec (length x) (length z)) as [E2|E2]; cbn [negb orb]; [|split; [reflexivity|tauto]].
    destruct d as [d|].
    - destruct (Nat.eqb_spec (length d) (length x)) as [E3|E3]; cbn [negb]; [|split; [reflexivity|tauto]].
      split; [tauto|]. intros _. unfold io_write. destruct (write_lines f _ _) as [f'|e] eqn:E; [discriminate|]. cbn [snd].
      intros H. injection H as ->. destruct (io_write_lines_err f (add_ext p (lit ".3d")) (lit "x y z temp" :: point_rows show x y z d)) as (e & He & H1 & _).
      { intros Ho. apply (write_lines_ok_iff _ _ (lit "x y z temp" :: point_rows show x y z d)) in Ho. destruct Ho as (f' & Ho). congruence. }
      unfold io_write in He. rewrite E in He. injection He as <-. contradiction.
    - split; [tauto|]. intros _. unfold io_write. destruct (write_lines f _ _) as [f'|e] eqn:E; [discriminate|]. cbn [snd].
      intros H. injection H as ->. destruct (io_write_lines_err f (add_ext p (lit ".3d")) (lit "x y z temp" :: point_rows1 show x y z)) as (e & He & H1 & _).
      { intros Ho. apply (write_lines_ok_iff _ _ (lit "x y z temp" :: point_rows1 show x y z)) in Ho. destruct Ho as (f' & Ho). congruence. }
      unfold io_write in He. rewrite E in He. injection He as <-. contradiction.
  Qed.
  Lemma output_points_ok f x y z d dir name : same_lengths x y z d -> openable f (dir ++ [name ++ lit ".3d"]) ->
    exists f' rows, output_points show x y z d (dir ++ [name]) f = (f', Ok tt) /\
      f' (dir ++ [name ++ lit ".3d"]) = Some (File (full_text (lit "x y z temp" :: rows))) /\
      rows_of show x y z (last_field show d) rows /\ forall q, q <> dir ++ [name ++ lit ".3d"] -> f' q = f q.
  Proof.
    intros (H1 & H2 & H3) Ho. unfold output_points. rewrite (proj2 (Nat.eqb_eq _ _) H1), (proj2 (Nat.eqb_eq _ _) H2). cbn [negb orb].
    rewrite add_ext_last. destruct d as [d|].
    - rewrite (proj2 (Nat.eqb_eq _ _) H3). cbn [negb]. destruct (io_write_lines_ok f _ (lit "x y z temp" :: point_rows show x y z d) Ho) as (f' & E & Hf & Hq).
      exists f', (point_rows show x y z d). split; [exact E|]. split; [exact Hf|]. split; [now apply point_rows_spec|exact Hq].
    - destruct (io_write_lines_ok f _ (lit "x y z temp" :: point_rows1 show x y z) Ho) as (f' & E & Hf & Hq).
      exists f', (point_rows1 show x y z). split; [exact E|]. split; [exact Hf|]. split; [now apply point_rows1_spec|exact Hq].
  Qed.

  (** * csv_out and html_f4_tab_out *)
  (** Both row builders are instances of this one. *)
  Fixpoint rows_gen (row : V -> V -> V -> V -> str) (t : out_tally V) (i : nat) (cells : list V) : res (list str) :=
    match cells with
    | [] => Ok []
    | c :: cells' =>
        do r <- py_nth (ot_result t) (Z.of_nat i);
        do e <- py_nth (ot_err t) (Z.of_nat i);
        do rest <- rows_gen row t (S i) cells';
        Ok (row (ot_number t) c r e :: rest)
    end.
  Lemma csv_rows_gen t cells : forall i, csv_rows show t i cells = rows_gen (csv_row show) t i cells.
  Proof. induction cells as [|c cells IH]; intros i; cbn [csv_rows rows_gen]; [reflexivity|]. now rewrite IH. Qed.
  Lemma html_rows_gen t cells : forall i, html_rows show t i cells = rows_gen (html_row show) t i cells.
  Proof.
    induction cells as [|c cells IH]; intros i; cbn [html_rows rows_gen]; [reflexivity|]. now rewrite IH.
  Qed.
  Lemma rows_gen_ok row t cells : forall i, i + length cells <= length (ot_result t) -> i + length cells <= length (ot_err t) ->
    exists rows, rows_gen row t i cells = Ok rows /\ length rows = length cells /\
      forall j c r e, nth_error cells j = Some c -> nth_error (ot_result t) (i + j) = Some r -> nth_error (ot_err t) (i + j) = Some e ->
        nth_error rows j = Some (row (ot_number t) c r e).
  Proof.
    induction cells as [|c cells IH]; intros i H1 H2; cbn [rows_gen length] in *.
    - exists []. split; [reflexivity|]. split; [reflexivity|]. intros [|j]; discriminate.
    - rewrite !py_nth_nat. destruct (nth_error (ot_result t) i) as [r|] eqn:Er; [|apply nth_error_None in Er; lia].
      destruct (nth_error (ot_err t) i) as [e|] eqn:Ee; [|apply nth_error_None in Ee; lia]. cbn [bind].
      destruct (IH (S i)) as (rows & E & HL & HR); [lia|lia|]. rewrite E. cbn [bind]. eexists. split; [reflexivity|]. split; [cbn; now rewrite HL|].
      intros [|j] c' r' e' Hc Hr He.
      + cbn [nth_error] in Hc. injection Hc as <-. rewrite Nat.add_0_r in *. rewrite Er in Hr. rewrite Ee in He. injection Hr as <-. injection He as <-. reflexivity.
      + cbn [nth_error] in *. apply HR; [assumption| |]; now rewrite <- Nat.add_succ_comm in *.
  Qed.
  Lemma rows_gen_err row t cells : forall i, (length (ot_result t) < i + length cells \/ length (ot_err t) < i + length cells) -> i <= length (ot_result t) -> i <= length (ot_err t) ->
    rows_gen row t i cells = Err IndexError.
  Proof.
    induction cells as [|c cells IH]; intros i H1 H2 H3; cbn [rows_gen length] in *; [lia|].
    rewrite !py_nth_nat. destruct (nth_error (ot_result t) i) as [r|] eqn:Er; [|reflexivity].
    destruct (nth_error (ot_err t) i) as [e|] eqn:Ee; [|reflexivity]. cbn [bind].
    assert (i < length (ot_result t)) by (apply nth_error_Some; congruence). assert (i < length (ot_err t)) by (apply nth_error_Some; congruence).
    rewrite IH; [reflexivity|lia|lia|lia].
  Qed.
  Lemma rows_all row data : Forall enough data ->
    exists rss, mapM (fun t => rows_gen row t 0 (ot_cells t)) data = Ok rss /\
      Forall2 (fun t rs => tally_rows (ot_cells t) (ot_result t) (ot_err t) (row (ot_number t)) rs) data rss.
  Proof.
    induction 1 as [|t data [H1 H2] HF IH]; cbn [mapM].
    - exists []. split; [reflexivity|constructor].
    - destruct IH as (rss & E & HF2). destruct (rows_gen_ok row t (ot_cells t) 0) as (rows & Er & HL & HR); [lia|lia|]. rewrite Er, E.
      exists (rows :: rss). split; [reflexivity|]. constructor; [|assumption]. split; [exact HL|]. intros i c r e. apply HR.
  Qed.
  Lemma enough_dec (t : out_tally V) : {enough t} + {~ enough t}.
  Proof. unfold enough. destruct (le_dec (length (ot_cells t)) (length (ot_result t))), (le_dec (length (ot_cells t)) (length (ot_err t))); [left|right|right|right]; tauto. Qed.
  Lemma rows_some_err row data : ~ Forall enough data -> mapM (fun t => rows_gen row t 0 (ot_cells t)) data = Err IndexError.
  Proof.
    induction data as [|t data IH]; intros H; [exfalso; apply H; constructor|]. cbn [mapM]. destruct (enough_dec t) as [Ht|Ht].
    - destruct Ht as [H1 H2]. destruct (rows_gen_ok row t (ot_cells t) 0) as (rows & Er & _); [lia|lia|]. rewrite Er. rewrite IH; [reflexivity|].
      intros HF. apply H. constructor; [now split|assumption].
    - rewrite rows_gen_err; [reflexivity| |lia|lia]. unfold enough in Ht. lia.
  Qed.
  Lemma csv_ok f data p : Forall enough data -> openable f p ->
    exists f' rss, csv_out show data p f = (f', Ok tt) /\ f' p = Some (File (full_text (concat rss))) /\
      Forall2 (fun t rs => tally_rows (ot_cells t) (ot_result t) (ot_err t) ((csv_row show) (ot_number t)) rs) data rss /\
      forall q, q <> p -> f' q = f q.
  Proof.
    intros H Ho. destruct (rows_all (csv_row show) data H) as (rss & E & HF). unfold csv_out, io_bind, io_lift.
    rewrite (mapM_ext _ (fun t => rows_gen (csv_row show) t 0 (ot_cells t))) by (intros; apply csv_rows_gen). rewrite E.
    destruct (io_write_lines_ok f p (concat rss) Ho) as (f' & E' & Hf & Hq). exists f', rss. now rewrite E'.
  Qed.
  Lemma csv_err f data p : ~ Forall enough data -> csv_out show data p f = (f, Err IndexError).
  Proof.
    intros H. unfold csv_out, io_bind, io_lift. rewrite (mapM_ext _ (fun t => rows_gen (csv_row show) t 0 (ot_cells t))) by (intros; apply csv_rows_gen).
    now rewrite rows_some_err.
  Qed.
  Lemma write_text_ok f p s : openable f p ->
    exists f', io_write (fun f => do _ <- can_open_w f p; Ok (run_ops f [OTrunc p; OAppend p s])) f = (f', Ok tt) /\
      f' p = Some (File s) /\ forall q, q <> p -> f' q = f q.
  Proof.
    intros H. apply can_open_w_spec in H. unfold io_write. rewrite H. cbn [bind]. eexists. split; [reflexivity|].
    unfold run_ops. cbn [fold_left run_op]. split.
    - rewrite fs_set_same. unfold content_of. rewrite fs_set_same. reflexivity.
    - intros q Hq. now rewrite !fs_set_other.
  Qed.
  Lemma full_text_app a b : full_text (a ++ b) = full_text a ++ full_text b.
  Proof. unfold full_text. now rewrite map_app, concat_app. Qed.
  Lemma join_nl_full rows : rows <> [] -> join [c_nl] rows ++ [c_nl] = full_text rows.
  Proof.
    induction rows as [|r rows IH]; [contradiction|]. intros _. destruct rows as [|r' rows].
    - cbn [join full_text map concat]. now rewrite app_nil_r.
    - rewrite join_cons, <- !app_assoc. rewrite IH by discriminate. unfold full_text. cbn [map concat]. now rewrite <- !app_assoc.
  Qed.
  Lemma html_text rows : (html_header ++ [c_nl] ++ join [c_nl] rows ++ [c_nl] ++ lit "</table></html>") ++ [c_nl] = full_text (html_table_lines rows).
  Proof.
    unfold html_table_lines. change (lit "<html><table><tr><th>Tally Number</th><th>CellNumber</th><th>Result</th><th>Relative error</th></tr>") with html_header.
    set (R := match rows with [] => [[]] | _ => rows end).
    assert (H : join [c_nl] rows ++ [c_nl] = full_text R) by (unfold R; destruct rows; [reflexivity|now apply join_nl_full]).
    change (html_header :: R ++ [lit "</table></html>"]) with ([html_header] ++ R ++ [lit "</table></html>"]).
    rewrite !full_text_app, <- H. unfold full_text. cbn [map concat]. rewrite !app_nil_r. rewrite <- !app_assoc. reflexivity.
  Qed.
  Lemma html_ok f data p : Forall enough data -> openable f p ->
    exists f' rss t, html_f4_tab_out show data p f = (f', Ok tt) /\ f' p = Some (File t) /\ t ++ [chr 10] = full_text (html_table_lines (concat rss)) /\
      Forall2 (fun t rs => tally_rows (ot_cells t) (ot_result t) (ot_err t) ((html_row show) (ot_number t)) rs) data rss /\
      forall q, q <> p -> f' q = f q.
  Proof.
    intros H Ho. destruct (rows_all (html_row show) data H) as (rss & E & HF). unfold html_f4_tab_out, io_bind, io_lift.
    rewrite (mapM_ext _ (fun t => rows_gen (html_row show) t 0 (ot_cells t))) by (intros; apply html_rows_gen). rewrite E. cbn zeta.
    destruct (write_text_ok f p (html_header ++ [c_nl] ++ join [c_nl] (concat rss) ++ [c_nl] ++ lit "</table></html>") Ho) as (f' & E' & Hf & Hq).
    exists f', rss. eexists. split; [exact E'|]. split; [exact Hf|]. split; [apply html_text|]. now split.
  Qed.
  Lemma html_err f data p : ~ Forall enough data -> html_f4_tab_out show data p f = (f, Err IndexError).
  Proof.
    intros H. unfold html_f4_tab_out, io_bind, io_lift. rewrite (mapM_ext _ (fun t => rows_gen (html_row show) t 0 (ot_cells t))) by (intros; apply html_rows_gen).
    now rewrite rows_some_err.
  Qed.
End Show.

(** * reduce_ofile *)
Lemma final_head l : final_results l <-> head_chars 25 l = lit "      run terminated when".
Proof.
  unfold final_results, prefix_of, head_chars. change (25 <? 0)%Z with false. cbn iota. change (Z.to_nat 25) with 25%nat. split.
  - intros (t & ->). reflexivity.
  - intros H. exists (skipn 25 l). rewrite <- H. symmetry. apply firstn_skipn.
Qed.
Lemma reduce_found f inf out pre l post : get_lines f inf = Ok (pre ++ l :: post) -> (forall x, In x pre -> ~ final_results x) -> final_results l ->
  openable f out -> exists f', reduce_ofile inf out f = (f', Ok tt) /\ f' out = Some (File (full_text (l :: post))) /\ forall q, q <> out -> f' q = f q.
Proof.
  intros Hg Hp Hl Ho. unfold reduce_ofile, io_bind, io_read, io_lift. rewrite Hg.
  assert (E : find_line (lit "      run terminated when") (pre ++ l :: post) 25 = Ok (length pre)).
  { apply find_line_Ok. split.
    - exists l. rewrite nth_error_app2 by lia. rewrite Nat.sub_diag. split; [reflexivity|]. now apply final_head.
    - intros j x Hj Hx He. rewrite nth_error_app1 in Hx by assumption. apply nth_error_In in Hx. apply (Hp x Hx). now apply final_head. }
  rewrite E. rewrite slice_from_nat, skipn_app, skipn_all, Nat.sub_diag. cbn [app skipn]. now apply io_write_lines_ok.
Qed.
Lemma reduce_missing f inf out lines : get_lines f inf = Ok lines -> (forall x, In x lines -> ~ final_results x) ->
  reduce_ofile inf out f = (f, Err ValueError).
Proof.
  intros Hg Hp. unfold reduce_ofile, io_bind, io_read, io_lift. rewrite Hg.
  assert (E : find_line (lit "      run terminated when") lines 25 = Err ValueError).
  { apply find_line_Err. split; [reflexivity|]. intros l Hl He. apply (Hp l Hl). now apply final_head. }
  now rewrite E.
Qed.
Lemma get_lines_of_write f p lines : openable f p -> f p = Some (File (full_text lines)) -> Forall no_break lines -> get_lines f p = Ok lines.
Proof.
  intros Ho Hf Hn. rewrite (get_lines_conv f p [c_nl] lines []); [now rewrite app_nil_r|now left|assumption|constructor| |assumption].
  rewrite app_nil_r. exact Hf.
Qed.
Lemma openable_same f f' p q : openable f q -> (forall r, r <> p -> f' r = f r) -> (exists c, f' p = Some (File c)) -> openable f p -> (p = q \/ forall b, q <> p ++ b) -> openable f' q.
Proof.
  intros (H1 & H2 & H3) Hs (c & Hc) Hp Hor. split; [assumption|]. split.
  - destruct (path_eqb_spec q p) as [->|Hq]; [rewrite Hc; discriminate|]. now rewrite Hs.
  - intros a b E Ha Hb. destruct (path_eqb_spec a p) as [->|Hq].
    + exfalso. destruct Hor as [Hor|Hor]; [|now apply (Hor b)]. rewrite E in Hor. apply (f_equal (@length str)) in Hor. rewrite app_length in Hor. destruct b; [contradiction|cbn in Hor; lia].
    + rewrite Hs by assumption. now apply (H3 a b).
Qed.
(** The reduced file reduces to itself. *)
Lemma reduce_again f inf out f' : reduce_ofile inf out f = (f', Ok tt) ->
  exists f'', reduce_ofile out out f' = (f'', Ok tt) /\ forall q, f'' q = f' q.
Proof.
  intros H. unfold reduce_ofile, io_bind, io_read, io_lift in H. destruct (get_lines f inf) as [lines|e] eqn:Eg; [|discriminate].
  destruct (find_line _ lines 25) as [i|e] eqn:Ef; [|discriminate]. rewrite slice_from_nat in H.
  apply find_line_Ok in Ef. destruct Ef as [(l & Hl & Hh) Hmin].
  pose proof (get_lines_no_break _ _ _ Eg) as Hnb. apply nth_error_split in Hl. destruct Hl as (pre & post & -> & <-).
  rewrite skipn_app, skipn_all, Nat.sub_diag in H. cbn [app skipn] in H.
  assert (Ho : openable f out).
  { unfold io_write in H. destruct (write_lines f out (l :: post)) as [f1|e1] eqn:Ew; [|discriminate]. apply (write_lines_ok_iff f out (l :: post)). eauto. }
  destruct (io_write_lines_ok f out (l :: post) Ho) as (f1 & E1 & Hf1 & Hq1). rewrite E1 in H. injection H as <-.
  assert (Ho1 : openable f1 out) by (apply (openable_same f f1 out out); eauto).
  apply Forall_app in Hnb. destruct Hnb as [_ Hnb].
  destruct (reduce_found f1 out out [] l post) as (f2 & E2 & Hf2 & Hq2).
  - now apply get_lines_of_write.
  - intros x [].
  - now apply final_head.
  - assumption.
  - exists f2. split; [exact E2|]. intros q. destruct (path_eqb_spec q out) as [->|Hq]; [congruence|now apply Hq2].
Qed.
