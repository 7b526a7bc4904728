(** The text forms (__str__) of surfaces, cells and materials.  [show] is repr() of a float. *)
From Verif Require Import PyBase PyFloat PyFs PyFrame PyRepr M_util M_input M_output M_mesh M_str.

(** mcnp_input_reader.py:54-64; the comment is None for every surface read. *)
Definition surface_str (s : surface) : str :=
  join nl ([lit "Surface number: " ++ str_of_Z (s_number s); lit "Surface type: " ++ s_type s;
            lit "Surface parameters: " ++ repr_list repr_str (s_params s)]
           ++ (if s_has_transform s
               then [lit "Surface transform: " ++ match s_transform s with Some t => t | None => lit "None" end]
               else [])).

(** mcnp_input_reader.py:80-91; param_list keeps its initial value. *)
Definition cell_str (show : float -> str) (c : cell) : str :=
  join nl ([lit "Cell number: " ++ str_of_Z (c_number c); lit "Cell material: " ++ str_of_Z (c_mat c)]
           ++ (match c_density c with Some d => [lit "Cell density: " ++ show d] | None => [] end)
           ++ [lit "Cell geom: " ++ repr_list repr_str (c_geom c);
               lit "Cell surfaces: " ++ repr_list show (c_surfaces c);
               lit "Cell importances: " ++ repr_dict (fun k => repr_str [k]) show (c_imp c);
               lit "Cell comments: " ++ repr_list repr_str (c_comment c);
               lit "Cell parameters: []"]).

(** mcnp_input_reader.py:105-113 *)
Definition repr_kwval (v : kwval) : str := match v with KStr s => repr_str s | KList l => repr_list repr_str l end.
Definition material_str (show : float -> str) (m : material) : str :=
  join nl ([lit "Material number: " ++ str_of_Z (m_number m); lit "Number of Nuclides: " ++ str_of_nat (m_num_nuclides m);
            lit "Composition: " ++ repr_dict repr_str show (m_composition m)]
           ++ (match m_keywords m with [] => [] | kw => [lit "Keywords: " ++ repr_dict repr_str repr_kwval kw] end)).
