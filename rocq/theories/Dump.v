(** Dump.v -- commands/dump/dump.py and its template
    commands/dump/templates/index.jinja.html *)
From Verif Require Import Base Xml Lxml Py Models BundleModel SpecTraversal.

(** The fixed text of the template between its tags; the tag that follows each
    piece is quoted with its line number.  Jinja runs with its defaults: no
    autoescaping, no trimming of blocks, one final newline dropped; comments
    ({# ... #}) vanish. *)
Definition t0 : str := "<!DOCTYPE html>
<html lang=""en"">

<head>
  <meta charset=""UTF-8""/>
  
  
  
  <title>...</title>

  <style>
    table {
      margin: 10px;
      border-collapse: collapse;
    }
    td {
      border: 1px #bbb solid;
    }
    .level-2 {
      margin-left: 20px;
    }
    .level-3 {
      margin-left: 40px;
    }
    .level-4 {
      margin-left: 60px;
    }
    .level-5 {
      margin-left: 80px;
    }
  </style>
</head>

<body class="""">

<h1>&lt;REQ-IF&gt;</h1>
  <h2 class=""level-2"">&lt;THE-HEADER&gt;</h2>
  ".
(* 38: {% if reqif_bundle.req_if_header %} *)
Definition t1 : str := "
    <h3 class=""level-3"">&lt;REQ-IF-HEADER&gt;</h3>
    <table class=""level-4"">
      <tr>
        <td>TITLE:</td>
        <td>".
(* 43: {{ reqif_bundle.req_if_header.title }} *)
Definition t2 : str := "</td>
      </tr>
      <tr>
        <td>CREATION-TIME:</td>
        <td>".
(* 47: {{ reqif_bundle.req_if_header.creation_time }} *)
Definition t3 : str := "</td>
      </tr>
    </table>
  ".
(* 50: {% endif %} *)
Definition t4 : str := "

<h2 class=""level-2"">&lt;CORE-CONTENT&gt;</h2>
<h3 class=""level-3"">&lt;REQ-IF-CONTENT&gt;</h3>

<h4 class=""level-4"">&lt;DATATYPES&gt;</h4>
  ".
(* 56: {% if reqif_bundle.core_content %} *)
Definition t5 : str := "
  ".
(* 57: {% if reqif_bundle.core_content.req_if_content %} *)
Definition t6 : str := "
  ".
(* 58: {% for data_type in reqif_bundle.core_content.req_if_content.data_types %} *)
Definition t7 : str := "
  <table class=""level-5"">
    <tr>
      <td>TITLE:</td>
      <td>".
(* 62: {{ data_type.identifier }} *)
Definition t8 : str := "</td>
    </tr>
  </table>
  ".
(* 65: {% endfor %} *)
Definition t9 : str := "
  ".
(* 66: {% endif %} *)
Definition t10 : str := "
  ".
(* 67: {% endif %} *)
Definition t11 : str := "

<h4 class=""level-4"">&lt;SPEC-TYPES&gt;</h4>
  ".
(* 70: {% if reqif_bundle.core_content %} *)
Definition t12 : str := "
  ".
(* 71: {% if reqif_bundle.core_content.req_if_content %} *)
Definition t13 : str := "
  ".
(* 72: {% for spec_type in reqif_bundle.core_content.req_if_content.spec_types %} *)
Definition t14 : str := "
    <table class=""level-5"">
      <tr>
        <td>TITLE:</td>
        <td>".
(* 76: {{ spec_type.identifier }} *)
Definition t15 : str := "</td>
      </tr>
    </table>
  ".
(* 79: {% endfor %} *)
Definition t16 : str := "
  ".
(* 80: {% endif %} *)
Definition t17 : str := "
  ".
(* 81: {% endif %} *)
Definition t18 : str := "

<h4 class=""level-4"">&lt;SPEC-OBJECTS&gt;</h4>
<h4 class=""level-4"">&lt;SPEC-RELATIONS&gt;</h4>
<h4 class=""level-4"">&lt;SPECIFICATIONS&gt;</h4>

<h2 class=""level-2"">&lt;TOOL-EXTENSIONS&gt;</h2>

<hr/>

".
(* 91: {% if reqif_bundle.core_content %} *)
Definition t19 : str := "
".
(* 92: {% if reqif_bundle.core_content.req_if_content %} *)
Definition t20 : str := "

".
(* 94: {% for specification in reqif_bundle.core_content.req_if_content.specifications %} *)
Definition t21 : str := "
  <h1>".
(* 95: {{ specification.long_name }} *)
Definition t22 : str := "</h1>

  ".
(* 97: {% for current_hierarchy in reqif_bundle.iterate_specification_hierarchy(specification) %} *)
Definition t23 : str := "

    ".
(* 99: {% set spec_object = reqif_bundle.get_spec_object_by_ref(current_hierarchy.spec_object) %} *)
Definition t24 : str := "

    <table>
      <tr>
        <td style=""text-align: center;"" colspan=""2"">
          &lt;SPEC-OBJECT&gt;
        </td>
      </tr>
      <tr>
        <td>
          &lt;SPEC-OBJECT-TYPE&gt;
        </td>
        <td>
          ".
(* 112: {{ spec_object.spec_object_type }} *)
Definition t25 : str := "
        </td>
      </tr>
      <tr>
        <td>
          IDENTIFIER
        </td>
        <td>
          ".
(* 120: {{ spec_object.identifier }} *)
Definition t26 : str := "
        </td>
      </tr>
      <tr>
        <td style=""text-align: center;"" colspan=""2"">
          &lt;VALUES&gt;
        </td>
      </tr>
    ".
(* 128: {% for attribute in spec_object.attributes %} *)
Definition t27 : str := "
      <tr>
        <td>".
(* 130: {{attribute.definition_ref}} *)
Definition t28 : str := "</td>
        <td>".
(* 131: {{attribute.value}} *)
Definition t29 : str := "</td>
      </tr>
    ".
(* 133: {% endfor %} *)
Definition t30 : str := "
    </table>
  ".
(* 135: {% endfor %} *)
Definition t31 : str := "
".
(* 136: {% endfor %} *)
Definition t32 : str := "

".
(* 138: {% endif %} *)
Definition t33 : str := "
".
(* 139: {% endif %} *)
Definition t34 : str := "
</body>
</html>".

(** {{ x }} for a string or None is str(x); a list (the value of an enumeration
    attribute) is printed by Python's repr, given as a parameter. *)
Definition show_value (repr_list : list (option str) -> str) (v : attr_value) : str :=
  match v with VStr s => s | VList l => repr_list l end.
(** {% for x in xs %} over None raises TypeError *)
Definition for_in {A} (l : option (list A)) (body : A -> result str) : result str :=
  match l with
  | None => Raise ETypeError
  | Some l => let! xs := mapM body l in Ok (concat xs)
  end.
(** {% if reqif_bundle.core_content %} {% if ...req_if_content %}: [outer] is the
    text around the inner if *)
Definition if_content (b : bundle) (t_if t_then t_endfor t_endif : str) (body : content -> result str)
  : result str :=
  match b_core_content b with
  | None => Ok []
  | Some None => Ok (t_if ++ t_endif)
  | Some (Some c) => let! s := body c in Ok (t_if ++ t_then ++ s ++ t_endfor ++ t_endif)
  end.
Section Render.
Variable repr_list : list (option str) -> str.
(** index.jinja.html:128-133 *)
Definition attribute_row (a : spec_attr) : str :=
  t27 ++ fmt (sa_definition_ref a) ++ t28 ++ show_value repr_list (sa_value a) ++ t29.
(** index.jinja.html:97-135, one node; get_spec_object_by_ref raises KeyError *)
Definition hierarchy_table (b : bundle) (h : hier) : result str :=
  let! o := get_spec_object_by_ref (b_lookup b) (h_spec_object h) in
  Ok (t23 ++ t24 ++ fmt (so_spec_object_type o) ++ t25 ++ so_identifier o ++ t26
      ++ concat (map attribute_row (so_attributes o)) ++ t30).
(** the loop over the generator; the fuel is the number of nodes plus one *)
Fixpoint hierarchy_tables (k : nat) (g : gen) (b : bundle) : result str :=
  match k with
  | O => Ok []
  | S k' =>
      match gen_next g with
      | None => Ok []
      | Some (h, g') =>
          let! t := hierarchy_table b h in
          let! ts := hierarchy_tables k' g' b in
          Ok (t ++ ts)
      end
  end.
(** index.jinja.html:94-136; [idx]: position of the first specification of [l] *)
Fixpoint specification_sections (l : list specification) (idx : nat) (b : bundle) : result str :=
  match l with
  | [] => Ok []
  | sp :: l' =>
      let! g := iterate_specification_hierarchy b idx in
      let! ts := hierarchy_tables (S (fsize (resume g))) g b in
      let! rest := specification_sections l' (S idx) b in
      Ok (t21 ++ fmt (sp_long_name sp) ++ t22 ++ ts ++ t31 ++ rest)
  end.
(** template.render(reqif_bundle=b), dump.py:20.  Jinja renders from top to
    bottom; the first exception ends it. *)
Definition render (b : bundle) : result str :=
  let hdr := match b_header b with
             | None => []
             | Some h => t1 ++ fmt (hd_title h) ++ t2 ++ fmt (hd_creation_time h) ++ t3
             end in
  let! dts := if_content b t5 t6 t9 t10
                (fun c => for_in (rc_data_types c) (fun d => Ok (t7 ++ dt_id d ++ t8))) in
  let! sts := if_content b t12 t13 t16 t17
                (fun c => for_in (rc_spec_types c) (fun d => Ok (t14 ++ st_identifier d ++ t15))) in
  let! sps := if_content b t19 t20 t32 t33
                (fun c => match rc_specifications c with
                          | None => Raise ETypeError
                          | Some l => specification_sections l 0 b
                          end) in
  Ok (t0 ++ hdr ++ t4 ++ dts ++ t11 ++ sts ++ t18 ++ sps ++ t34).
(** the text written, dump.py:20-21 *)
Definition dump_html (b : bundle) : result str := let! s := render b in Ok (s ++ nl).
End Render.
