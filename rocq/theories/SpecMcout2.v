(** Specifications of the printed surface flux tallies and of table 60. *)
From Verif Require Import PyBase PyFloat SpecStr SpecOutput SpecMcout.

(** The surfaces and their areas: a title, a line with the surface numbers after a word
    ending with a colon, and a line with the areas. *)
Definition areas_title (l : str) : Prop := prefix_of (lit "           areas") l.
Definition surfaces_line (l : str) (ss : list str) : Prop :=
  exists k, words l ((k ++ [chr 58]) :: ss) /\ ~ In (chr 58) k /\ (forall s, In s ss -> ~ In (chr 58) s).
Definition areas_printed (lines ss areas : list str) : Prop :=
  exists pre h s a rest, lines = pre ++ h :: s :: a :: rest /\ none_of areas_title pre /\ areas_title h /\
    surfaces_line s ss /\ words a areas /\ areas <> [].
Definition titles_surface (l : str) : Prop := prefix_of (lit " surface ") l.
Definition plain_value (l : str) : Prop :=
  ~ occurs (lit "energy") l /\ ~ occurs (lit "angle") l /\ ~ occurs (lit "time") l.
Definition end_rule (l : str) : Prop := prefix_of (lit " ===") l.

(** One block of times for each surface: title, lines up to the one with the total, the
    line of values after it, and a line before the next title. *)
Inductive time_tables (ts : list str) : list str -> list (str * list (float * float)) -> Prop :=
| tt_last h s a t v ps rest :
    surface_title h s -> none_of (occurs (lit "total")) (h :: a) -> occurs (lit "total") t ->
    time_block (a ++ [t; v]) ts ps -> time_tables ts (h :: a ++ t :: v :: rest) [(s, ps)]
| tt_one h s a t v ps gap ls rs :
    surface_title h s -> none_of (occurs (lit "total")) (h :: a) -> occurs (lit "total") t ->
    time_block (a ++ [t; v]) ts ps -> time_tables ts ls rs ->
    time_tables ts (h :: a ++ t :: v :: gap :: ls) ((s, ps) :: rs).

(** One table of energies and times for each surface. *)
Definition et_table : Type := list (list float * list (list (float * float))).
Inductive et_tables (ts es : list float) : list str -> list (str * et_table) -> Prop :=
| ett_last h s body parts fin :
    surface_title h s -> none_of titles_surface (body ++ [fin]) -> et_listing es body parts -> parts <> [] ->
    concat (map fst parts) = ts -> et_tables ts es (h :: body ++ [fin]) [(s, parts)]
| ett_one h s body parts ls rs :
    surface_title h s -> none_of titles_surface body -> et_listing es body parts -> parts <> [] ->
    concat (map fst parts) = ts -> et_tables ts es ls rs -> et_tables ts es (h :: body ++ ls) ((s, parts) :: rs).
(** The lines after the first title: times, then (or not) energies. *)
Definition time_then (energies : bool) (lines : list str) : Prop :=
  exists h l1 l2 rest, lines = h :: l1 :: l2 :: rest /\ occurs (lit "time") l1 /\ ~ occurs (lit "energy") l1 /\ ~ occurs (lit "angle") l1 /\
    if energies then occurs (lit "energy") l2 else ~ occurs (lit "energy") l2.

(** The surfaces named by the lines of a tally: the last words of the lines with the word
    surface, in the printed order. *)
Inductive named_surfaces : list str -> list str -> Prop :=
| ns_end : named_surfaces [] []
| ns_other l ls ss : ~ occurs (lit "surface") l -> named_surfaces ls ss -> named_surfaces (l :: ls) ss
| ns_named l s ls ss : names_surface l s -> named_surfaces ls ss -> named_surfaces (l :: ls) (s :: ss).
