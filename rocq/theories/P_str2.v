(** Lemmas about the text forms of surfaces, cells and materials: they can be read back. *)
From Coq Require Import Lia.
From Verif Require Import PyBase PyFacts PyFloat PyFs PyFrame PyRepr PyNumFacts TextFacts M_util M_input M_output M_mesh M_str M_str2 SpecStr2.
Import ListNotations.

Definition stops : list ascii := [chr 44; chr 58; chr 93; chr 125; chr 10].
Definition stop (x : str) : Prop := exists c r, x = c :: r /\ In c stops.
(** Texts that can be read back when followed by a stop character. *)
Definition coded {A} (f : A -> str) : Prop := forall a b x y, stop x -> stop y -> f a ++ x = f b ++ y -> a = b /\ x = y.

Lemma until s1 : forall s2 x y, (forall c, In c s1 -> ~ In c stops) -> (forall c, In c s2 -> ~ In c stops) -> stop x -> stop y ->
  s1 ++ x = s2 ++ y -> s1 = s2 /\ x = y.
Proof.
  induction s1 as [|c s1 IH]; intros [|d s2] x y H1 H2 (a & r & -> & Ha) (b & q & -> & Hb) E.
  - split; [reflexivity|exact E].
  - injection E as -> E. exfalso. apply (H2 d); [now left|exact Ha].
  - injection E as -> E. exfalso. apply (H1 b); [now left|exact Hb].
  - injection E as -> E.
    destruct (IH s2 (a :: r) (b :: q) (fun z Hz => H1 z (or_intror Hz)) (fun z Hz => H2 z (or_intror Hz)) (ex_intro _ a (ex_intro _ r (conj eq_refl Ha))) (ex_intro _ b (ex_intro _ q (conj eq_refl Hb))) E) as [-> E'].
    split; [reflexivity|exact E'].
Qed.
Lemma coded_free {A} (f : A -> str) : (forall x y, f x = f y -> x = y) -> (forall x c, In c (f x) -> ~ In c stops) -> coded f.
Proof. intros I F a b x y Sx Sy E. destruct (until (f a) (f b) x y) as [E1 E2]; eauto. Qed.

(** * Strings *)
Definition quotes : list ascii := [chr 39; chr 34].
Definition all_chars : list ascii := map (fun n => chr (N.of_nat n)) (seq 0 256).
Lemma all_chars_In c : In c all_chars.
Proof.
  unfold all_chars. apply in_map_iff. exists (N.to_nat (code c)). rewrite N2Nat.id. split; [apply ascii_N_embedding|].
  apply in_seq. split; [lia|]. pose proof (N_ascii_bounded c). unfold code. lia.
Qed.
Definition esc_prefix_free (q c d : ascii) : bool :=
  Ascii.eqb c d || negb (starts_with (esc q c) (esc q d)).
Definition esc_first (q c : ascii) : bool := match esc q c with [] => false | x :: _ => negb (Ascii.eqb x q) end.
Lemma esc_table : forallb (fun q => forallb (fun c => esc_first q c && forallb (esc_prefix_free q c) all_chars) all_chars) quotes = true.
Proof. vm_compute. reflexivity. Qed.
Lemma prefix_cases {A} (a b : list A) : forall x y, a ++ x = b ++ y -> (exists r, b = a ++ r) \/ (exists r, a = b ++ r).
Proof.
  revert b. induction a as [|c a IH]; intros b x y E; [left; now exists b|]. destruct b as [|d b]; [right; now exists (c :: a)|].
  injection E as -> E. destruct (IH b x y E) as [[r ->]|[r ->]]; [left|right]; now exists r.
Qed.
Lemma esc_inj q c d x y : In q quotes -> esc q c ++ x = esc q d ++ y -> c = d /\ x = y.
Proof.
  intros Q E. pose proof esc_table as T. rewrite forallb_forall in T. specialize (T q Q). rewrite forallb_forall in T.
  assert (P : forall c d, esc_prefix_free q c d = true).
  { intros a b. specialize (T a (all_chars_In a)). apply andb_prop in T. destruct T as [_ T]. rewrite forallb_forall in T. apply T, all_chars_In. }
  assert (c = d).
  { destruct (prefix_cases _ _ _ _ E) as [[r H]|[r H]].
    - specialize (P c d). unfold esc_prefix_free in P. apply Bool.orb_prop in P. destruct P as [P|P]; [now apply Ascii.eqb_eq|].
      rewrite H in P. apply Bool.negb_true_iff in P. rewrite (proj2 (starts_with_spec (esc q c) (esc q c ++ r))) in P by (now exists r). discriminate.
    - specialize (P d c). unfold esc_prefix_free in P. apply Bool.orb_prop in P. destruct P as [P|P]; [symmetry; now apply Ascii.eqb_eq|].
      rewrite H in P. apply Bool.negb_true_iff in P. rewrite (proj2 (starts_with_spec (esc q d) (esc q d ++ r))) in P by (now exists r). discriminate. }
  subst d. split; [reflexivity|]. now apply app_inv_head in E.
Qed.
Lemma esc_quote q c x y : In q quotes -> esc q c ++ x <> q :: y.
Proof.
  intros Q E. pose proof esc_table as T. rewrite forallb_forall in T. specialize (T q Q). rewrite forallb_forall in T. specialize (T c (all_chars_In c)).
  apply andb_prop in T. destruct T as [T _]. unfold esc_first in T. destruct (esc q c) as [|z s]; [discriminate|]. injection E as -> _.
  rewrite Ascii.eqb_refl in T. discriminate.
Qed.
Lemma quote_of_In s : In (quote_of s) quotes.
Proof. unfold quote_of. destruct (_ && _)%bool; cbn; auto. Qed.
Lemma repr_str_inj a b x y : repr_str a ++ x = repr_str b ++ y -> a = b /\ x = y.
Proof.
  unfold repr_str. intros E. cbn [app] in E. injection E as Q E. rewrite <- Q in E. pose proof (quote_of_In a) as I. set (q := quote_of a) in *. clearbody q. clear Q.
  rewrite <- !app_assoc in E. cbn [app] in E. revert b x y E. induction a as [|c a IH]; intros [|d b] x y E; cbn [map concat app] in E.
  - injection E as E. auto.
  - rewrite <- app_assoc in E. symmetry in E. now apply esc_quote in E.
  - rewrite <- app_assoc in E. now apply esc_quote in E.
  - rewrite <- !app_assoc in E. apply esc_inj in E; [|exact I]. destruct E as [-> E]. destruct (IH b x y E) as [-> ->]. auto.
Qed.
Lemma coded_repr_str : coded repr_str.
Proof. intros a b x y _ _. apply repr_str_inj. Qed.

(** * Lists and dicts *)
Lemma join_coded {A} (f : A -> str) (e : ascii) (l1 : list A) : coded f -> In e stops -> e <> chr 44 -> (forall a x, f a ++ x <> e :: tl (f a ++ x)) ->
  forall l2 x y, join (lit ", ") (map f l1) ++ e :: x = join (lit ", ") (map f l2) ++ e :: y -> l1 = l2 /\ x = y.
Proof.
  intros C I N F. assert (Se : forall x, stop (e :: x)) by (intros x; exists e, x; auto).
  assert (Sc : forall x, stop (lit ", " ++ x)) by (intros x; exists (chr 44), (chr 32 :: x); split; [reflexivity|now left]).
  induction l1 as [|a l1 IH]; intros [|b l2] x y E.
  - cbn in E. injection E as E. auto.
  - exfalso. cbn [map] in E. destruct l2 as [|b' l2].
    + cbn [map join app] in E. symmetry in E. apply (F b (e :: y)). rewrite E. reflexivity.
    + cbn [map join] in E. rewrite <- app_assoc in E. symmetry in E. cbn [app] in E.
      match type of E with f b ++ ?z = _ => apply (F b z) end. rewrite E. reflexivity.
  - exfalso. cbn [map] in E. destruct l1 as [|a' l1].
    + cbn [map join app] in E. apply (F a (e :: x)). rewrite E. reflexivity.
    + cbn [map join] in E. rewrite <- app_assoc in E. cbn [app] in E.
      match type of E with f a ++ ?z = _ => apply (F a z) end. rewrite E. reflexivity.
  - destruct l1 as [|a' l1]; destruct l2 as [|b' l2].
    + cbn [map join] in E. destruct (C a b (e :: x) (e :: y)) as [-> E']; auto. injection E' as ->. auto.
    + exfalso. cbn [map join] in E. rewrite <- !app_assoc in E. destruct (C a b _ _ (Se x) (Sc _) E) as [_ E']. injection E' as E' _. apply N. exact E'.
    + exfalso. cbn [map join] in E. rewrite <- !app_assoc in E. destruct (C a b _ _ (Sc _) (Se y) E) as [_ E']. injection E' as E' _. apply N. symmetry. exact E'.
    + cbn [map join] in E. rewrite <- !app_assoc in E. destruct (C a b _ _ (Sc _) (Sc _) E) as [-> E']. apply app_inv_head in E'.
      destruct (IH (b' :: l2) x y E') as [-> ->]. auto.
Qed.
Lemma repr_list_inj {A} (f : A -> str) : coded f -> (forall a x, f a ++ x <> chr 93 :: tl (f a ++ x)) ->
  forall l1 l2 x y, repr_list f l1 ++ x = repr_list f l2 ++ y -> l1 = l2 /\ x = y.
Proof.
  intros C F l1 l2 x y E. unfold repr_list in E. rewrite <- !app_assoc in E. apply app_inv_head in E.
  apply (join_coded f (chr 93)) in E; auto; [cbn; auto|discriminate].
Qed.
Lemma coded_pair {K V} (f : K -> str) (g : V -> str) : coded f -> coded g -> coded (fun kv => f (fst kv) ++ lit ": " ++ g (snd kv)).
Proof.
  intros Cf Cg [k v] [k' v'] x y Sx Sy E. cbn [fst snd] in E. rewrite <- !app_assoc in E.
  assert (Sc : forall x, stop (lit ": " ++ x)) by (intros z; exists (chr 58), (chr 32 :: z); split; [reflexivity|cbn; auto]).
  destruct (Cf k k' _ _ (Sc _) (Sc _) E) as [-> E']. apply app_inv_head in E'. destruct (Cg v v' x y Sx Sy E') as [-> ->]. auto.
Qed.
Lemma repr_dict_inj {K V} (f : K -> str) (g : V -> str) : coded f -> coded g -> (forall a x, f a ++ x <> chr 125 :: tl (f a ++ x)) ->
  forall l1 l2 x y, repr_dict f g l1 ++ x = repr_dict f g l2 ++ y -> l1 = l2 /\ x = y.
Proof.
  intros Cf Cg F l1 l2 x y E. unfold repr_dict in E. rewrite <- !app_assoc in E. apply app_inv_head in E.
  apply (join_coded (fun kv => f (fst kv) ++ lit ": " ++ g (snd kv)) (chr 125)) in E; auto; [now apply coded_pair|cbn; auto|discriminate|].
  intros a z. cbv beta. rewrite <- app_assoc. apply F.
Qed.
Lemma repr_str_first c : In c stops -> forall a x, repr_str a ++ x <> c :: tl (repr_str a ++ x).
Proof.
  intros I a x E. unfold repr_str in E. cbn [app] in E. injection E as Q. pose proof (quote_of_In a) as J. rewrite Q in J.
  cbn in I, J. repeat (destruct I as [<-|I]; [destruct J as [J|[J|[]]]; discriminate|]). destruct I.
Qed.
Lemma free_first {A} (f : A -> str) c : In c stops -> (forall x d, In d (f x) -> ~ In d stops) -> (forall x, f x <> []) -> forall a x, f a ++ x <> c :: tl (f a ++ x).
Proof. intros I F N a x E. destruct (f a) as [|d s] eqn:Q; [now apply (N a)|]. cbn [app] in E. injection E as ->. apply (F a c); [rewrite Q; now left|exact I]. Qed.

(** * Objects *)
Lemma line_inj a b x y : one_line a -> one_line b -> a ++ nl ++ x = b ++ nl ++ y -> a = b /\ x = y.
Proof.
  unfold one_line. revert b. induction a as [|c a IH]; intros [|d b] Ha Hb E; cbn [app nl] in E.
  - injection E as E. auto.
  - injection E as <- _. exfalso. apply Hb. now left.
  - injection E as -> _. exfalso. apply Ha. now left.
  - injection E as -> E. destruct (IH b) as [-> ->]; auto; intros H; [apply Ha|apply Hb]; now right.
Qed.
Lemma str_of_Z_line z : one_line (str_of_Z z).
Proof.
  intros H. destruct z as [|p|p]; cbn [str_of_Z] in H.
  - cbn in H. destruct H as [H|[]]. discriminate.
  - pose proof (proj1 (proj2 (str_of_N_spec (N.pos p)))) as D. rewrite Forall_forall in D. apply D in H. discriminate.
  - destruct H as [H|H]; [discriminate|]. pose proof (proj1 (proj2 (str_of_N_spec (N.pos p)))) as D. rewrite Forall_forall in D. apply D in H. discriminate.
Qed.
Lemma esc_line : forallb (fun q => forallb (fun c => negb (existsb (Ascii.eqb (chr 10)) (esc q c))) all_chars) quotes = true.
Proof. vm_compute. reflexivity. Qed.
Lemma one_line_app a b : one_line a -> one_line b -> one_line (a ++ b).
Proof. unfold one_line. intros A B H. apply in_app_or in H. tauto. Qed.
Lemma one_line_cons c a : c <> chr 10 -> one_line a -> one_line (c :: a).
Proof. intros N A [H|H]; auto. Qed.
Lemma one_line_lit (s : String.string) : existsb (Ascii.eqb (chr 10)) (lit s) = false -> one_line (lit s).
Proof.
  intros E H. assert (X : existsb (Ascii.eqb (chr 10)) (lit s) = true) by (apply existsb_exists; exists (chr 10); split; [exact H|reflexivity]).
  rewrite E in X. discriminate.
Qed.
Lemma repr_str_line s : one_line (repr_str s).
Proof.
  unfold repr_str. pose proof (quote_of_In s) as I. set (q := quote_of s) in *. clearbody q.
  assert (Nq : q <> chr 10) by (intros ->; destruct I as [H|[H|[]]]; discriminate).
  apply one_line_cons; [exact Nq|]. apply one_line_app; [|now apply one_line_cons].
  pose proof esc_line as T. rewrite forallb_forall in T. specialize (T q I). rewrite forallb_forall in T.
  induction s as [|c s IH]; [intros []|]. cbn [map concat]. apply one_line_app; [|exact IH].
  specialize (T c (all_chars_In c)). apply Bool.negb_true_iff in T. intros H.
  assert (X : existsb (Ascii.eqb (chr 10)) (esc q c) = true) by (apply existsb_exists; exists (chr 10); split; [exact H|reflexivity]). congruence.
Qed.
Lemma join_line sep l : one_line sep -> Forall one_line l -> one_line (join sep l).
Proof.
  intros S. induction 1 as [|w l W F IH]; [intros []|]. cbn [join]. destruct l as [|w' l]; [exact W|]. apply one_line_app; [exact W|]. apply one_line_app; [exact S|exact IH].
Qed.
Lemma repr_list_line {A} (f : A -> str) l : (forall a, one_line (f a)) -> one_line (repr_list f l).
Proof.
  intros F. unfold repr_list. apply one_line_app; [now apply one_line_lit|]. apply one_line_app; [|now apply one_line_lit].
  apply join_line; [now apply one_line_lit|]. apply Forall_map, Forall_forall. auto.
Qed.
Lemma repr_dict_line {K V} (f : K -> str) (g : V -> str) l : (forall a, one_line (f a)) -> (forall a, one_line (g a)) -> one_line (repr_dict f g l).
Proof.
  intros F G. unfold repr_dict. apply one_line_app; [now apply one_line_lit|]. apply one_line_app; [|now apply one_line_lit].
  apply join_line; [now apply one_line_lit|]. apply Forall_map, Forall_forall. intros kv _. apply one_line_app; [apply F|]. apply one_line_app; [now apply one_line_lit|apply G].
Qed.
Lemma count_one_line s : one_line s -> count_occ Ascii.ascii_dec s (chr 10) = 0.
Proof. intros H. now apply count_occ_not_In. Qed.
Lemma lines_of_join l : l <> [] -> Forall one_line l -> lines_of (join nl l) (length l).
Proof.
  unfold lines_of. intros N F. induction F as [|w l W F IH]; [contradiction|]. cbn [join]. destruct l as [|w' l].
  - cbn [length]. now rewrite count_one_line.
  - rewrite !count_occ_app, (count_one_line w W). change (count_occ Ascii.ascii_dec nl (chr 10)) with 1.
    cbn [length] in IH |- *. rewrite <- IH by discriminate. reflexivity.
Qed.
Lemma lines_of_join' l n : l <> [] -> length l = n -> Forall one_line l -> lines_of (join nl l) n.
Proof. intros N <- F. now apply lines_of_join. Qed.
Lemma lit_inj (s : String.string) x y : lit s ++ x = lit s ++ y -> x = y.
Proof. apply app_inv_head. Qed.
Lemma titled_line (t : String.string) v : existsb (Ascii.eqb (chr 10)) (lit t) = false -> one_line v -> one_line (lit t ++ v).
Proof. intros T V. apply one_line_app; [now apply one_line_lit|exact V]. Qed.

Lemma join2 sep a l : l <> [] -> join sep (a :: l) = a ++ sep ++ join sep l.
Proof. intros N. cbn [join]. destruct l; [contradiction|reflexivity]. Qed.

Lemma surface_str_inj s1 s2 : surface_read s1 -> surface_read s2 -> surface_str s1 = surface_str s2 -> s1 = s2.
Proof.
  destruct s1 as [n1 t1 p1 h1 r1], s2 as [n2 t2 p2 h2 r2]. unfold surface_read, surface_str. cbn [s_number s_type s_params s_has_transform s_transform].
  intros [T1 R1] [T2 R2] E. cbn [app] in E. rewrite !(join2 nl (lit "Surface number: " ++ _)) in E by discriminate. rewrite !(join2 nl (lit "Surface type: " ++ _)) in E by discriminate.
  apply line_inj in E; [|apply titled_line; [reflexivity|apply str_of_Z_line]..]. destruct E as [E1 E]. apply lit_inj in E1. apply str_of_Z_inj in E1. subst n2.
  apply line_inj in E; [|apply titled_line; [reflexivity|assumption]..]. destruct E as [E1 E]. apply lit_inj in E1. subst t2.
  assert (J : forall a l, join nl (a :: l) = a ++ match l with [] => [] | _ => nl ++ join nl l end) by (intros a [|b l]; cbn [join]; [now rewrite app_nil_r|reflexivity]).
  rewrite !J in E. rewrite <- !app_assoc in E. apply lit_inj in E. apply repr_list_inj in E; [|exact coded_repr_str|apply repr_str_first; cbn; auto].
  destruct E as [-> E]. destruct r1 as [r1|]; [destruct R1 as [-> R1]|subst h1]; (destruct r2 as [r2|]; [destruct R2 as [-> R2]|subst h2]); try discriminate E; [|reflexivity].
  cbn [join] in E. apply app_inv_head in E. apply lit_inj in E. now subst.
Qed.
Lemma surface_str_lines s : surface_read s -> lines_of (surface_str s) (if s_has_transform s then 4 else 3).
Proof.
  destruct s as [n t p h r]. unfold surface_read, surface_str. cbn [s_number s_type s_params s_has_transform s_transform]. intros [T R].
  assert (F : Forall one_line [lit "Surface number: " ++ str_of_Z n; lit "Surface type: " ++ t; lit "Surface parameters: " ++ repr_list repr_str p]).
  { repeat constructor; (apply titled_line; [reflexivity|]); [apply str_of_Z_line|exact T|apply repr_list_line, repr_str_line]. }
  destruct h.
  - apply lines_of_join'; [discriminate|reflexivity|]. apply Forall_app. split; [exact F|]. constructor; [|constructor]. apply titled_line; [reflexivity|].
    destruct r as [r|]; [exact (proj2 R)|discriminate R].
  - rewrite app_nil_r. apply lines_of_join'; [discriminate|reflexivity|exact F].
Qed.

Section S.
  Variable show : float -> str.
  Hypothesis HS : repr_float show.
  Lemma coded_show : coded show.
  Proof. destruct HS as (I & _ & F). now apply coded_free. Qed.
  Lemma show_line x : one_line (show x).
  Proof. destruct HS as (_ & _ & F). intros H. apply (F x _ H). cbn. auto 8. Qed.
  Lemma cell_str_inj c1 c2 : cell_str show c1 = cell_str show c2 -> c1 = c2.
  Proof.
    destruct c1 as [n1 m1 d1 i1 g1 s1 k1], c2 as [n2 m2 d2 i2 g2 s2 k2]. unfold cell_str. cbn [c_number c_mat c_density c_imp c_geom c_surfaces c_comment].
    intros E. cbn [app] in E. rewrite !(join2 nl (lit "Cell number: " ++ _)) in E by discriminate.
    apply line_inj in E; [|apply titled_line; [reflexivity|apply str_of_Z_line]..]. destruct E as [E1 E]. apply lit_inj in E1. apply str_of_Z_inj in E1. subst n2.
    rewrite !(join2 nl (lit "Cell material: " ++ _)) in E by (destruct d1, d2; discriminate).
    apply line_inj in E; [|apply titled_line; [reflexivity|apply str_of_Z_line]..]. destruct E as [E1 E]. apply lit_inj in E1. apply str_of_Z_inj in E1. subst m2.
    assert (D : d1 = d2 /\ g1 = g2 /\ s1 = s2 /\ i1 = i2 /\ k1 = k2).
    { assert (G : forall x y, join nl [lit "Cell geom: " ++ repr_list repr_str g1; lit "Cell surfaces: " ++ repr_list show s1; lit "Cell importances: " ++ repr_dict (fun k => repr_str [k]) show i1; lit "Cell comments: " ++ repr_list repr_str k1; x]
        = join nl [lit "Cell geom: " ++ repr_list repr_str g2; lit "Cell surfaces: " ++ repr_list show s2; lit "Cell importances: " ++ repr_dict (fun k => repr_str [k]) show i2; lit "Cell comments: " ++ repr_list repr_str k2; y] ->
        g1 = g2 /\ s1 = s2 /\ i1 = i2 /\ k1 = k2).
      { clear E. intros x y E. destruct HS as (_ & Ne & Fr). cbn [join] in E.
        rewrite <- !app_assoc in E. apply lit_inj in E. apply repr_list_inj in E; [|exact coded_repr_str|apply repr_str_first; cbn; auto]. destruct E as [-> E].
        apply app_inv_head in E. apply lit_inj in E. apply repr_list_inj in E; [|exact coded_show|apply free_first; [cbn; auto|exact Fr|exact Ne]]. destruct E as [-> E].
        apply app_inv_head in E. apply lit_inj in E.
        apply repr_dict_inj in E; [|intros a b u v Su Sv Q; apply repr_str_inj in Q; destruct Q as [Q ->]; injection Q as ->; auto|exact coded_show|intros a u; apply repr_str_first; cbn; auto 6].
        destruct E as [-> E]. apply app_inv_head in E. apply lit_inj in E. apply repr_list_inj in E; [|exact coded_repr_str|apply repr_str_first; cbn; auto]. destruct E as [-> E]. auto. }
      destruct d1 as [d1|], d2 as [d2|]; cbn [app] in E.
      - rewrite !(join2 nl (lit "Cell density: " ++ _)) in E by discriminate. rewrite <- !app_assoc in E. apply lit_inj in E.
        apply coded_show in E; [|eexists _, _; split; [reflexivity|cbn; auto 6]..]. destruct E as [-> E]. apply app_inv_head in E. split; [reflexivity|]. exact (G _ _ E).
      - discriminate E.
      - discriminate E.
      - split; [reflexivity|]. exact (G _ _ E). }
    destruct D as (-> & -> & -> & -> & ->). reflexivity.
  Qed.
  Lemma cell_str_lines c : lines_of (cell_str show c) (match c_density c with Some _ => 8 | None => 7 end).
  Proof.
    destruct c as [n m d i g s k]. unfold cell_str. cbn [c_number c_mat c_density c_imp c_geom c_surfaces c_comment].
    assert (F : forall D, Forall one_line D -> Forall one_line ([lit "Cell number: " ++ str_of_Z n; lit "Cell material: " ++ str_of_Z m] ++ D ++
      [lit "Cell geom: " ++ repr_list repr_str g; lit "Cell surfaces: " ++ repr_list show s; lit "Cell importances: " ++ repr_dict (fun k => repr_str [k]) show i; lit "Cell comments: " ++ repr_list repr_str k; lit "Cell parameters: []"])).
    { intros D HD. apply Forall_app. split; [repeat constructor; (apply titled_line; [reflexivity|apply str_of_Z_line])|]. apply Forall_app. split; [exact HD|].
      repeat constructor; try (apply titled_line; [reflexivity|]); [apply repr_list_line, repr_str_line|apply repr_list_line, show_line|apply repr_dict_line; [intros a; apply repr_str_line|apply show_line]|apply repr_list_line, repr_str_line|now apply one_line_lit]. }
    destruct d as [d|].
    - apply lines_of_join'; [discriminate|reflexivity|]. apply F. constructor; [|constructor]. apply titled_line; [reflexivity|apply show_line].
    - apply lines_of_join'; [discriminate|reflexivity|]. now apply F.
  Qed.
  Lemma kwval_coded : coded repr_kwval.
  Proof.
    intros [a|a] [b|b] x y _ _ E; cbn [repr_kwval] in E.
    - apply repr_str_inj in E. destruct E as [-> ->]. auto.
    - exfalso. unfold repr_str in E. cbn [app] in E. injection E as Q _. pose proof (quote_of_In a) as I. rewrite Q in I. destruct I as [I|[I|[]]]; discriminate.
    - exfalso. unfold repr_str in E. cbn [app] in E. injection E as Q _. pose proof (quote_of_In b) as I. rewrite <- Q in I. destruct I as [I|[I|[]]]; discriminate.
    - apply repr_list_inj in E; [|exact coded_repr_str|apply repr_str_first; cbn; auto]. destruct E as [-> ->]. auto.
  Qed.
  Lemma material_str_inj a b : material_str show a = material_str show b ->
    m_number a = m_number b /\ m_num_nuclides a = m_num_nuclides b /\ m_composition a = m_composition b /\ m_keywords a = m_keywords b.
  Proof.
    destruct a as [n1 u1 c1 k1 t1 x1], b as [n2 u2 c2 k2 t2 x2]. unfold material_str. cbn [m_number m_num_nuclides m_composition m_keywords].
    intros E. cbn [app] in E. rewrite !(join2 nl (lit "Material number: " ++ _)) in E by discriminate. rewrite !(join2 nl (lit "Number of Nuclides: " ++ _)) in E by discriminate.
    apply line_inj in E; [|apply titled_line; [reflexivity|apply str_of_Z_line]..]. destruct E as [E1 E]. apply lit_inj in E1. apply str_of_Z_inj in E1. subst n2.
    apply line_inj in E; [|apply titled_line; [reflexivity|apply str_of_Z_line]..]. destruct E as [E1 E]. apply lit_inj in E1. apply str_of_Z_inj in E1. apply Nat2Z.inj in E1. subst u2.
    assert (J : forall a l, join nl (a :: l) = a ++ match l with [] => [] | _ => nl ++ join nl l end) by (intros a [|b l]; cbn [join]; [now rewrite app_nil_r|reflexivity]).
    rewrite !J in E. rewrite <- !app_assoc in E. apply lit_inj in E. apply repr_dict_inj in E; [|exact coded_repr_str|exact coded_show|apply repr_str_first; cbn; auto 6].
    destruct E as [-> E]. do 3 (split; [reflexivity|]).
    destruct k1 as [|p1 k1], k2 as [|p2 k2]; try discriminate E; [reflexivity|].
    cbn [join] in E. apply app_inv_head in E. apply lit_inj in E. rewrite <- (app_nil_r (repr_dict _ _ (p1 :: k1))), <- (app_nil_r (repr_dict _ _ (p2 :: k2))) in E.
    apply repr_dict_inj in E; [exact (proj1 E)|exact coded_repr_str|exact kwval_coded|apply repr_str_first; cbn; auto 6].
  Qed.
  Lemma material_str_only a b : m_number a = m_number b -> m_num_nuclides a = m_num_nuclides b -> m_composition a = m_composition b -> m_keywords a = m_keywords b ->
    material_str show a = material_str show b.
  Proof. unfold material_str. intros -> -> -> ->. reflexivity. Qed.
End S.

(** * Surfaces read from a deck *)
Lemma types_line : forallb (fun t => negb (existsb (Ascii.eqb (chr 10)) t)) (surface_types ++ macro_types) = true.
Proof. vm_compute. reflexivity. Qed.
Lemma surface_line_read l s : process_surface_line l = Ok s -> surface_read s.
Proof.
  unfold process_surface_line. set (ws := split_on c_space (lower l)). intros H.
  destruct (py_nth ws 0) as [n0|]; [|discriminate]. cbn [bind] in H. destruct (py_int n0) as [n|]; [|discriminate]. cbn [bind] in H.
  unfold check_surf_transform in H. destruct (py_nth ws 1) as [w1|]; [|discriminate]. cbn [bind] in H.
  assert (V : forall t, is_surface_type_valid t = true -> one_line t).
  { intros t V I. pose proof types_line as T. rewrite forallb_forall in T.
    assert (J : In t (surface_types ++ macro_types)).
    { unfold is_surface_type_valid in V. apply in_or_app. apply Bool.orb_prop in V. destruct V as [V|V]; [left|right]; apply existsb_exists in V; destruct V as (u & Hu & E); apply str_eqb_eq in E; now subst. }
    specialize (T t J). apply Bool.negb_true_iff in T. assert (X : existsb (Ascii.eqb (chr 10)) t = true) by (apply existsb_exists; exists (chr 10); split; [exact I|reflexivity]). congruence. }
  destruct (is_digit_str w1) eqn:D.
  - destruct (py_nth ws 2) as [ty|]; [|discriminate]. cbn [bind] in H. cbn [s_type] in H. destruct (is_surface_type_valid ty) eqn:Y; [|discriminate]. injection H as <-.
    split; [now apply V|]. cbn [s_transform s_has_transform]. split; [reflexivity|]. intros I. destruct w1 as [|c w]; [discriminate|]. unfold is_digit_str in D.
    rewrite forallb_forall in D. apply D in I. discriminate.
  - cbn [bind] in H. cbn [s_type] in H. destruct (is_surface_type_valid w1) eqn:Y; [|discriminate]. injection H as <-. split; [now apply V|reflexivity].
Qed.
Lemma dict_set_Forall {K V} (eqb : K -> K -> bool) (P : V -> Prop) k v d : P v -> Forall (fun kv => P (snd kv)) d -> Forall (fun kv : K * V => P (snd kv)) (dict_set eqb k v d).
Proof. intros Hv. induction 1 as [|[k' v'] d H F IH]; cbn [dict_set]; [now repeat constructor|]. destruct (eqb k k'); constructor; auto. Qed.
Lemma flush_read l d d' : flush_surface l d = Ok d' -> Forall (fun kv => surface_read (snd kv)) d -> Forall (fun kv => surface_read (snd kv)) d'.
Proof.
  unfold flush_surface. destruct (process_surface_line l) as [s|] eqn:E; [|discriminate]. cbn [bind]. intros H; injection H as <-. intros F.
  apply dict_set_Forall; [eapply surface_line_read; eassumption|exact F].
Qed.
Lemma surface_block_read b d : process_surface_block b = Ok d -> Forall (fun kv => surface_read (snd kv)) d.
Proof.
  unfold process_surface_block. destruct (foldM surface_step b ([], [])) as [[l d0]|] eqn:E; [|discriminate]. cbn [bind]. intros H.
  assert (G : Forall (fun kv => surface_read (snd kv)) d0).
  { clear H. assert (G : forall b st st', foldM surface_step b st = Ok st' -> Forall (fun kv => surface_read (snd kv)) (snd st) -> Forall (fun kv => surface_read (snd kv)) (snd st')).
    { clear. induction b as [|line b IH]; intros [l d] st' E F; cbn [foldM] in E; [injection E as <-; exact F|].
      destruct (surface_step (l, d) line) as [st1|] eqn:S; [|discriminate]. cbn [bind] in E. apply (IH st1 st' E). clear E IH. unfold surface_step in S.
      destruct (is_continue_line line); [injection S as <-; exact F|]. destruct (str_eqb (strip line) []); [injection S as <-; exact F|].
      destruct (starts_with (lit "c") (lower line)); [injection S as <-; exact F|]. destruct l as [|c l]; [injection S as <-; exact F|].
      destruct (flush_surface (c :: l) d) as [d1|] eqn:Fl; [|discriminate]. injection S as <-. cbn [snd]. eapply flush_read; eassumption. }
    apply (G b ([], []) (l, d0) E). constructor. }
  destruct l as [|c l]; [injection H as <-; exact G|]. eapply flush_read; eassumption.
Qed.
Lemma deck_surface_inj b1 b2 d1 d2 k1 k2 s1 s2 : process_surface_block b1 = Ok d1 -> process_surface_block b2 = Ok d2 -> In (k1, s1) d1 -> In (k2, s2) d2 ->
  surface_str s1 = surface_str s2 -> s1 = s2.
Proof.
  intros B1 B2 I1 I2. apply surface_block_read in B1, B2. rewrite Forall_forall in B1, B2. exact (surface_str_inj s1 s2 (B1 _ I1) (B2 _ I2)).
Qed.
Lemma deck_surface_lines b d k s : process_surface_block b = Ok d -> In (k, s) d -> lines_of (surface_str s) (if s_has_transform s then 4 else 3).
Proof. intros B I. apply surface_block_read in B. rewrite Forall_forall in B. exact (surface_str_lines s (B _ I)). Qed.

(** * A function that satisfies [repr_float] *)
From Coq Require Import Floats.SpecFloat.
Definition show_me (x : float) : str :=
  match x with
  | S754_zero s => if s then lit "-0.0" else lit "0.0"
  | S754_infinity s => if s then lit "-inf" else lit "inf"
  | S754_nan => lit "nan"
  | S754_finite s m e => str_of_Z (if s then Z.neg m else Z.pos m) ++ lit "e" ++ str_of_Z e
  end.
Lemma str_of_Z_chars z c : In c (str_of_Z z) -> is_decimal c = true \/ c = chr 45.
Proof.
  assert (D : forall p, In c (str_of_N (N.pos p)) -> is_decimal c = true) by (intros p H; pose proof (proj1 (proj2 (str_of_N_spec (N.pos p)))) as D; rewrite Forall_forall in D; now apply D).
  destruct z as [|p|p]; cbn [str_of_Z]; intros H.
  - destruct H as [<-|[]]. now left.
  - left. now apply (D p).
  - destruct H as [<-|H]; [now right|]. left. now apply (D p).
Qed.
Lemma show_me_ok : repr_float show_me.
Proof.
  assert (L : forall z, ~ In (chr 101) (str_of_Z z)) by (intros z H; apply str_of_Z_chars in H; destruct H; discriminate).
  assert (Sp : forall z e, split_on (chr 101) (str_of_Z z ++ lit "e" ++ str_of_Z e) = [str_of_Z z; str_of_Z e]).
  { intros z e. change (lit "e" ++ str_of_Z e) with (chr 101 :: str_of_Z e). rewrite split_on_app by (now apply lacks_In). f_equal. now apply split_on_lacks, lacks_In. }
  split; [|split].
  - intros x y E. apply (f_equal (split_on (chr 101))) in E.
    destruct x as [[]|[]| |s m e], y as [[]|[]| |s' m' e']; cbn [show_me] in E; try reflexivity; try (vm_compute in E; discriminate E); rewrite ?Sp in E; try discriminate E.
    injection E as E1 E2. apply str_of_Z_inj in E1, E2. subst e'. destruct s, s'; congruence.
  - intros [[]|[]| |s m e]; try discriminate. cbn [show_me]. intros H. apply app_eq_nil in H. destruct H as [_ H]. discriminate.
  - intros x c I J. assert (C : forall z, ~ In c (str_of_Z z)).
    { intros z H. apply str_of_Z_chars in H. cbn in J. repeat (destruct J as [<-|J]; [destruct H; discriminate|]). destruct J. }
    destruct x as [[]|[]| |s m e]; cbn [show_me] in I; try (cbn in I, J; repeat (destruct I as [<-|I]; [repeat (destruct J as [J|J]; [discriminate|]); destruct J|]); destruct I).
    apply in_app_or in I. destruct I as [I|I]; [now apply C in I|]. apply in_app_or in I. destruct I as [I|I]; [|now apply C in I].
    destruct I as [<-|[]]. cbn in J. repeat (destruct J as [J|J]; [discriminate|]). destruct J.
Qed.
