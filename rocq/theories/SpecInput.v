(** Specifications used by the properties of mcnp_input_reader: what a line is in an MCNP
    deck, and how cards are laid out over lines. *)
From Verif Require Import PyBase PyFloat SpecStr M_input.

(** [upto c s r]: [r] is [s] up to the first [c], or all of [s] if there is none. *)
Definition upto (c : ascii) (s r : str) : Prop :=
  ~ In c r /\ (s = r \/ exists t, s = r ++ c :: t).

(** Same letters up to case. *)
Definition same_case (a b : str) : Prop := lower a = lower b.

(** Full-line comment: a 'c' or 'C' followed by a space. *)
Definition full_comment (l : str) : Prop := exists r, l = lit "c " ++ r \/ l = lit "C " ++ r.
(** Continuation line: at least five leading spaces. *)
Definition continuation (l : str) : Prop := exists r, l = lit "     " ++ r.

(** [card_head card l]: [l] starts with the card name, in any case, followed by a space
    or a colon. *)
Definition card_head (card l : str) : Prop :=
  exists name r, l = name ++ r /\ same_case name card /\
    exists c r', r = c :: r' /\ (c = chr 32 \/ c = chr 58).

(** The text of a card line as the reader keeps it: lower case, without inline comment. *)
Definition kept (l r : str) : Prop := upto (chr 36) (lower l) r.

(** [card_tail ls out]: after a card line, [out] are the kept continuation lines among
    [ls]; comment lines and empty lines are passed over and any other line ends the
    card. *)
Inductive card_tail : list str -> list str -> Prop :=
| ct_end : card_tail [] []
| ct_cont l r ls out : continuation l -> kept l r -> card_tail ls out -> card_tail (l :: ls) (r :: out)
| ct_comment l ls out : full_comment l -> card_tail ls out -> card_tail (l :: ls) out
| ct_empty ls out : card_tail ls out -> card_tail ([] :: ls) out
| ct_stop l ls : ~ continuation l -> ~ full_comment l -> l <> [] -> card_tail (l :: ls) [].

(** [card_found is_head ls out]: the first line of [ls] that starts the wanted card, with
    its continuation lines. *)
Inductive card_found (is_head : str -> Prop) : list str -> list str -> Prop :=
| cf_none ls : (forall l, In l ls -> ~ is_head l) -> card_found is_head ls []
| cf_some pre h r post out :
    (forall l, In l pre -> ~ is_head l) -> is_head h -> kept h r -> card_tail post out ->
    card_found is_head (pre ++ h :: post) (r :: out).

(** Words of several lines, in order. *)
Inductive all_words : list str -> list str -> Prop :=
| aw_nil : all_words [] []
| aw_cons l ls ws vs : words l ws -> all_words ls vs -> all_words (l :: ls) (ws ++ vs).

(** A material / tally card: the letter in either case, the number, and an end. *)
Definition numbered (letter : ascii) (l : str) : Prop :=
  exists a d r, l = a :: d :: r /\ lower_c a = letter /\ is_digit d = true.

(** Numbers of the cards with a given letter, in order.  [sep] optionally ends the number
    (the colon of a tally card). *)
Inductive card_numbers (letter : ascii) (sep : option ascii) : list str -> list Z -> Prop :=
| cn_nil : card_numbers letter sep [] []
| cn_skip l ls ns : ~ numbered letter l -> card_numbers letter sep ls ns -> card_numbers letter sep (l :: ls) ns
| cn_take l ls a w w' ws n ns :
    numbered letter l -> words l ((a :: w) :: ws) ->
    match sep with None => w' = w | Some c => upto c w w' end ->
    py_int w' = Ok n -> card_numbers letter sep ls ns ->
    card_numbers letter sep (l :: ls) (n :: ns).

(** Surface mnemonics the reader knows: planes, spheres, cylinders, cones, quadrics, tori
    and macrobodies. *)
Definition surface_mnemonics : list str := map lit
  ["p"; "px"; "py"; "pz"; "so"; "s"; "sx"; "sy"; "sz"; "c/x"; "c/y"; "c/z"; "cx"; "cy"; "cz";
   "k/x"; "k/y"; "k/z"; "kx"; "ky"; "kz"; "sq"; "gq"; "tx"; "ty"; "tz";
   "box"; "rpp"; "sph"; "rcc"; "rhp"; "hex"; "rec"; "trc"; "ell"; "wed"; "arb"]%string.
(** Material keywords. *)
Definition library_keywords : list str := map lit
  ["gas"; "estep"; "hstep"; "nlib"; "plib"; "pnlib"; "elib"; "hlib"; "alib"; "slib"; "tlib"; "dlib";
   "cond"; "refi"; "refc"; "refs"]%string.
(** Surface cards. *)
Definition surface_words (s : surface) : list str :=
  str_of_Z (s_number s) ::
  match s_transform s with Some t => [t] | None => [] end ++ s_type s :: s_params s.
Definition digits (s : str) : Prop := s <> [] /\ Forall (fun c => is_digit c = true) s.
Definition wf_surface (s : surface) : Prop :=
  In (s_type s) surface_mnemonics /\
  (s_has_transform s = match s_transform s with Some _ => true | None => false end) /\
  (forall t, s_transform s = Some t -> digits t).

(** Lines of a surface block that carry no card: blank lines (of fewer than five leading
    spaces) and lines starting with c. *)
Definition surf_noise (l : str) : Prop :=
  ~ continuation l /\ (blank l \/ exists a r, l = a :: r /\ lower_c a = chr 99).
(** A line starting a surface card. *)
Definition surf_first (l : str) : Prop :=
  ~ continuation l /\ ~ blank l /\ ~ (exists a r, l = a :: r /\ lower_c a = chr 99).
Inductive surf_body : list str -> list str -> Prop :=
| sb_nil : surf_body [] []
| sb_noise l ls ws : surf_noise l -> surf_body ls ws -> surf_body (l :: ls) ws
| sb_cont l w ls ws : continuation l -> words l w -> w <> [] -> surf_body ls ws -> surf_body (l :: ls) (w ++ ws).
(** [surf_layout cards lines]: the cards (as word lists) laid out over lines. *)
Inductive surf_layout : list (list str) -> list str -> Prop :=
| sl_nil ls : Forall surf_noise ls -> surf_layout [] ls
| sl_card pre l w ls ws cards rest :
    Forall surf_noise pre -> surf_first l -> words l w -> surf_body ls ws ->
    surf_layout cards rest ->
    surf_layout ((w ++ ws) :: cards) (pre ++ l :: ls ++ rest).

(** Geometry entries of a cell card. *)
Inductive gtok : Type :=
| GSurf (left : str) (n : Z) (right : str)     (* brackets and sense around one surface *)
| GUnion (left : str) (n : Z) (rest : list Z) (right : str)  (* n1:n2:... *)
| GImp (name : str) (p : ascii) (v : str) (x : float).      (* imp:p=v *)
Definition gtok_text (t : gtok) : str :=
  match t with
  | GSurf l n r => l ++ str_of_Z n ++ r
  | GUnion l n ns r => l ++ str_of_Z n ++ concat (map (fun m => chr 58 :: str_of_Z m) ns) ++ r
  | GImp name p v _ => name ++ chr 58 :: p :: chr 61 :: v
  end.
Definition brackets (s : str) : Prop := Forall (fun c => In c (lit "()-")) s.
Definition imp_char (c : ascii) : Prop :=
  is_ws c = false /\ c <> chr 36 /\ c <> chr 58 /\ c <> chr 61 /\ ~ In c (lit "()-").
Definition wf_gtok (t : gtok) : Prop :=
  match t with
  | GSurf l n r => brackets l /\ (0 <= n)%Z /\ brackets r
  | GUnion l n ns r => brackets l /\ (0 <= n)%Z /\ Forall (fun m => 0 <= m)%Z ns /\ brackets r
  | GImp name p v x => same_case name (lit "imp") /\ imp_char p /\ py_float v = Ok x /\ v <> [] /\
      Forall (fun c => is_ws c = false /\ c <> chr 36 /\ c <> chr 58 /\ c <> chr 61) v /\
      (exists u c, v = u ++ [c] /\ ~ In c (lit "()-"))
  end.
Definition gtok_surfaces (t : gtok) : list Z :=
  match t with GSurf _ n _ => [n] | GUnion _ n ns _ => n :: ns | GImp _ _ _ _ => [] end.
(** Importances, a later entry for the same particle replacing an earlier one. *)
Definition gtok_imp (d : list (ascii * float)) (t : gtok) : list (ascii * float) :=
  match t with GImp _ p _ x => dict_set Ascii.eqb p x d | _ => d end.

(** A one-line cell card. *)
Record cell_card : Type := CellCard {
  cc_number : Z; cc_mat : Z; cc_density : option (str * float); cc_geom : list gtok }.
Definition wf_cell_card (c : cell_card) : Prop :=
  (0 <= cc_number c)%Z /\
  match cc_density c with
  | None => cc_mat c = 0%Z
  | Some (t, x) => cc_mat c <> 0%Z /\ py_float t = Ok x /\ word t
  end /\ Forall wf_gtok (cc_geom c).
Definition cell_card_words (c : cell_card) : list str :=
  str_of_Z (cc_number c) :: str_of_Z (cc_mat c) ::
  match cc_density c with Some (t, _) => [t] | None => [] end ++ map gtok_text (cc_geom c).
(** The cell a card describes. *)
Definition cell_of_card (c : cell_card) : cell :=
  Cell (cc_number c) (cc_mat c) (match cc_density c with Some (_, x) => Some x | None => None end)
    (fold_left gtok_imp (cc_geom c) []) (map gtok_text (cc_geom c))
    (map f_of_Z (concat (map gtok_surfaces (cc_geom c)))) [].
(** A non-empty line that is neither a card nor a continuation, e.g. a comment. *)
Definition cell_noise (l : str) : Prop :=
  ~ continuation l /\ exists a r, l = a :: r /\ is_digit a = false.
(** Cells laid out one card per line, starting in column one, with comment lines
    anywhere. *)
Inductive cell_layout : list cell_card -> list str -> Prop :=
| cl_nil ls : Forall cell_noise ls -> cell_layout [] ls
| cl_card pre l c cards rest :
    Forall cell_noise pre -> words l (cell_card_words c) ->
    (exists a r, l = a :: r /\ is_ws a = false) ->
    cell_layout cards rest -> cell_layout (c :: cards) (pre ++ l :: rest).

(** Materials. *)
Definition is_keyword_entry (w : str) : Prop := In (chr 61) w.
(** [material_words pairs kws ws]: [ws] interleaves the zaid / fraction entries of
    [pairs] with the entries key=value of [kws]. *)
Inductive interleave {A} : list A -> list A -> list A -> Prop :=
| il_nil : interleave [] [] []
| il_left x a b c : interleave a b c -> interleave (x :: a) b (x :: c)
| il_right x a b c : interleave a b c -> interleave a (x :: b) (x :: c).
Definition pair_words (pairs : list (str * (str * float))) : list str :=
  concat (map (fun p => [fst p; fst (snd p)]) pairs).
Definition kw_words (kws : list (str * str)) : list str :=
  map (fun kv => fst kv ++ chr 61 :: snd kv) kws.
Definition wf_pairs (pairs : list (str * (str * float))) : Prop :=
  NoDup (map fst pairs) /\
  Forall (fun p => ~ In (chr 61) (fst p) /\ ~ In (chr 61) (fst (snd p)) /\
                   py_float (fst (snd p)) = Ok (snd (snd p))) pairs.
Definition wf_kws (kws : list (str * str)) : Prop :=
  NoDup (map fst kws) /\
  Forall (fun kv => In (fst kv) library_keywords /\ ~ In (chr 61) (snd kv)) kws.
(** The line starting material [n]. *)
Definition mat_head (n : Z) (l : str) : Prop :=
  (0 <= n)%Z /\ exists a r, l = a :: str_of_Z n ++ r /\ lower_c a = chr 109 /\
    (r = [] \/ exists r', r = chr 32 :: r').
Definition tally_head (n : Z) (l : str) : Prop :=
  (0 <= n)%Z /\ exists a r, l = a :: str_of_Z n ++ r /\ lower_c a = chr 102 /\
    (r = [] \/ exists c r', r = c :: r' /\ (c = chr 32 \/ c = chr 58)).

(** [selects P l r]: [r] are the members of [l] satisfying [P], in order. *)
Inductive selects {A} (P : A -> Prop) : list A -> list A -> Prop :=
| sel_nil : selects P [] []
| sel_take x l r : P x -> selects P l r -> selects P (x :: l) (x :: r)
| sel_drop x l r : ~ P x -> selects P l r -> selects P (x :: l) r.
