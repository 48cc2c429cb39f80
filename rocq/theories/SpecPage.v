(** SpecPage.v -- the HTML tree of the page the dump command writes, up to
    white space.  Trees are those of the grammar of SpecXml. *)
From Verif Require Import Base Xml SpecXml SpecDump.

Definition blank (x : xnode) : bool := match x with XChar c => existsb (N.eqb c) [0x20; 0x9; 0xD; 0xA]%N | _ => false end.
Fixpoint without_blanks (x : xnode) : xnode :=
  match x with XElem n a k => XElem n a (flat_map (fun y => if blank y then [] else [without_blanks y]) k) | _ => x end.
Definition compact (l : list xnode) : list xnode := flat_map (fun y => if blank y then [] else [without_blanks y]) l.
Definition words (s : str) : list xnode := compact (map XChar s).

(** the texts that come from the document *)
Definition shown_in_table (t : table) : list str := tb_type t :: tb_identifier t :: flat_map (fun r => [fst r; snd r]) (tb_values t).
Definition shown (p : page) : list str :=
  match pg_header p with Some (a, b) => [a; b] | None => [] end
  ++ match pg_content p with
     | Some (Some (ds, ss, sps)) => ds ++ ss ++ flat_map (fun s => fst s :: flat_map shown_in_table (snd s)) sps
     | _ => []
     end.

(** [tree v]: the nodes that stand for the text [v] *)
Section Page.
Variable tree : str -> list xnode.
Definition tr (cells : list xnode) : xnode := XElem "tr" [] cells.
Definition row (label : list xnode) (v : str) : xnode := tr [XElem "td" [] label; XElem "td" [] (compact (tree v))].
Definition caption (s : str) : xnode :=
  tr [XElem "td" [("style", "text-align: center;"); ("colspan", "2")] (words s)].
Definition level (n : str) : list (str * str) := [("class", "level-" ++ n)].
Definition title_table (n : str) (v : str) : xnode := XElem "table" (level n) [row (words "TITLE:") v].
Definition object_table (t : table) : xnode :=
  XElem "table" []
    ([caption "<SPEC-OBJECT>"; row (words "<SPEC-OBJECT-TYPE>") (tb_type t); row (words "IDENTIFIER") (tb_identifier t);
      caption "<VALUES>"]
     ++ map (fun r => row (compact (tree (fst r))) (snd r)) (tb_values t)).
Definition specification_part (s : str * list table) : list xnode :=
  XElem "h1" [] (compact (tree (fst s))) :: map object_table (snd s).
Definition style_sheet : str :=
  "table { margin: 10px; border-collapse: collapse; } td { border: 1px #bbb solid; } .level-2 { margin-left: 20px; }"
  ++ ".level-3 { margin-left: 40px; } .level-4 { margin-left: 60px; } .level-5 { margin-left: 80px; }".
Definition html_of (p : page) : xnode :=
  let '(ds, ss, sps) := match pg_content p with Some (Some c) => c | _ => ([], [], []) end in
  XElem "html" [("lang", "en")]
    [XElem "head" [] [XElem "meta" [("charset", "UTF-8")] []; XElem "title" [] (words "..."); XElem "style" [] (words style_sheet)];
     XElem "body" [("class", "")]
       ([XElem "h1" [] (words "<REQ-IF>"); XElem "h2" (level "2") (words "<THE-HEADER>")]
        ++ match pg_header p with
           | Some (a, b) => [XElem "h3" (level "3") (words "<REQ-IF-HEADER>");
                             XElem "table" (level "4") [row (words "TITLE:") a; row (words "CREATION-TIME:") b]]
           | None => []
           end
        ++ [XElem "h2" (level "2") (words "<CORE-CONTENT>"); XElem "h3" (level "3") (words "<REQ-IF-CONTENT>");
            XElem "h4" (level "4") (words "<DATATYPES>")]
        ++ map (title_table "5") ds
        ++ [XElem "h4" (level "4") (words "<SPEC-TYPES>")]
        ++ map (title_table "5") ss
        ++ [XElem "h4" (level "4") (words "<SPEC-OBJECTS>"); XElem "h4" (level "4") (words "<SPEC-RELATIONS>");
            XElem "h4" (level "4") (words "<SPECIFICATIONS>"); XElem "h2" (level "2") (words "<TOOL-EXTENSIONS>"); XElem "hr" [] []]
        ++ flat_map specification_part sps)].
End Page.
