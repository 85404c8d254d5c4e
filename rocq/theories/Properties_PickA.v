(** From which token each attribute is taken, and how (C41). The statements were generated from the syntax trees of
    the from_sexpr methods. Beside each theorem stand expressions to which its parts apply. *)
From Verif Require Import PyBase PyNum PyStr Sexpr S_Leaf S_Tree S_Reader S_Gather S_Pick M_Common M_Lib M_Sym.
From Verif Require L_PickA.

Theorem C41_Position : marks Position_from 0 ["unlocked"]%string "unlocked"%string true po_unlocked.
Proof. exact L_PickA.Position_pick. Qed.
Print Assumptions C41_Position.
Example C41_Position_case : let b := [VStr $"at"; VInt 1; VInt 2] in
  (match Position_from (VList (b ++ [VStr $"unlocked"; node "zzz" [VInt 1]])) with Ok o => po_unlocked o = true | Err _ => False end).
Proof. vm_compute. repeat split. Qed.

Theorem C41_Stroke : picks Stroke_from 0 ["width"]%string "width"%string (arg 1) st_width /\
  picks Stroke_from 0 ["type"]%string "type"%string (arg 1) st_type /\
  picks Stroke_from 0 ["color"]%string "color"%string (as_ Some ColorRGBA_from) st_color.
Proof. exact L_PickA.Stroke_pick. Qed.
Print Assumptions C41_Stroke.
Example C41_Stroke_case : let b := [VStr $"stroke"; node "zzz" [VInt 1]] in
  (match Stroke_from (VList (b ++ [node "width" [VInt 7]; node "zzz" [VInt 1]])) with Ok o => (arg 1) (node "width" [VInt 7]) = Ok (st_width o) | Err _ => False end) /\
  (match Stroke_from (VList (b ++ [node "type" [VInt 7]; node "zzz" [VInt 1]])) with Ok o => (arg 1) (node "type" [VInt 7]) = Ok (st_type o) | Err _ => False end) /\
  (match Stroke_from (VList (b ++ [node "color" [VInt 7; VInt 8; VInt 9; VInt 10]; node "zzz" [VInt 1]])) with Ok o => (as_ Some ColorRGBA_from) (node "color" [VInt 7; VInt 8; VInt 9; VInt 10]) = Ok (st_color o) | Err _ => False end).
Proof. vm_compute. repeat split. Qed.

Theorem C41_Font : marks Font_from 0 ["bold"]%string "bold"%string true fo_bold /\
  marks Font_from 0 ["italic"]%string "italic"%string true fo_italic /\
  picks Font_from 0 ["face"]%string "face"%string (arg 1) fo_face /\
  picks Font_from 0 ["size"]%string "size"%string (arg 1) fo_height /\
  picks Font_from 0 ["size"]%string "size"%string (arg 2) fo_width /\
  picks Font_from 0 ["thickness"]%string "thickness"%string (arg 1) fo_thickness /\
  picks Font_from 0 ["line_spacing"]%string "line_spacing"%string (arg 1) fo_lineSpacing /\
  picks Font_from 0 ["color"]%string "color"%string (as_ Some ColorRGBA_from) fo_color.
Proof. exact L_PickA.Font_pick. Qed.
Print Assumptions C41_Font.
Example C41_Font_case : let b := [VStr $"font"; node "zzz" [VInt 1]] in
  (match Font_from (VList (b ++ [VStr $"bold"; node "zzz" [VInt 1]])) with Ok o => fo_bold o = true | Err _ => False end) /\
  (match Font_from (VList (b ++ [VStr $"italic"; node "zzz" [VInt 1]])) with Ok o => fo_italic o = true | Err _ => False end) /\
  (match Font_from (VList (b ++ [node "face" [VInt 7]; node "zzz" [VInt 1]])) with Ok o => (arg 1) (node "face" [VInt 7]) = Ok (fo_face o) | Err _ => False end) /\
  (match Font_from (VList (b ++ [node "size" [VInt 7; VInt 8]; node "zzz" [VInt 1]])) with Ok o => (arg 1) (node "size" [VInt 7; VInt 8]) = Ok (fo_height o) | Err _ => False end) /\
  (match Font_from (VList (b ++ [node "size" [VInt 7; VInt 8]; node "zzz" [VInt 1]])) with Ok o => (arg 2) (node "size" [VInt 7; VInt 8]) = Ok (fo_width o) | Err _ => False end) /\
  (match Font_from (VList (b ++ [node "thickness" [VInt 7]; node "zzz" [VInt 1]])) with Ok o => (arg 1) (node "thickness" [VInt 7]) = Ok (fo_thickness o) | Err _ => False end) /\
  (match Font_from (VList (b ++ [node "line_spacing" [VInt 7]; node "zzz" [VInt 1]])) with Ok o => (arg 1) (node "line_spacing" [VInt 7]) = Ok (fo_lineSpacing o) | Err _ => False end) /\
  (match Font_from (VList (b ++ [node "color" [VInt 7; VInt 8; VInt 9; VInt 10]; node "zzz" [VInt 1]])) with Ok o => (as_ Some ColorRGBA_from) (node "color" [VInt 7; VInt 8; VInt 9; VInt 10]) = Ok (fo_color o) | Err _ => False end).
Proof. vm_compute. repeat split. Qed.

Theorem C41_Justify : marks Justify_from 0 ["left"; "right"; "center"]%string "left"%string (VStr $"left") ju_horizontally /\
  marks Justify_from 0 ["left"; "right"; "center"]%string "right"%string (VStr $"right") ju_horizontally /\
  marks Justify_from 0 ["left"; "right"; "center"]%string "center"%string (VStr $"center") ju_horizontally /\
  marks Justify_from 0 ["top"; "bottom"]%string "top"%string (VStr $"top") ju_vertically /\
  marks Justify_from 0 ["top"; "bottom"]%string "bottom"%string (VStr $"bottom") ju_vertically /\
  marks Justify_from 0 ["mirror"]%string "mirror"%string true ju_mirror.
Proof. exact L_PickA.Justify_pick. Qed.
Print Assumptions C41_Justify.
Example C41_Justify_case : let b := [VStr $"justify"; node "zzz" [VInt 1]] in
  (match Justify_from (VList (b ++ [VStr $"left"; node "zzz" [VInt 1]])) with Ok o => ju_horizontally o = (VStr $"left") | Err _ => False end) /\
  (match Justify_from (VList (b ++ [VStr $"right"; node "zzz" [VInt 1]])) with Ok o => ju_horizontally o = (VStr $"right") | Err _ => False end) /\
  (match Justify_from (VList (b ++ [VStr $"center"; node "zzz" [VInt 1]])) with Ok o => ju_horizontally o = (VStr $"center") | Err _ => False end) /\
  (match Justify_from (VList (b ++ [VStr $"top"; node "zzz" [VInt 1]])) with Ok o => ju_vertically o = (VStr $"top") | Err _ => False end) /\
  (match Justify_from (VList (b ++ [VStr $"bottom"; node "zzz" [VInt 1]])) with Ok o => ju_vertically o = (VStr $"bottom") | Err _ => False end) /\
  (match Justify_from (VList (b ++ [VStr $"mirror"; node "zzz" [VInt 1]])) with Ok o => ju_mirror o = true | Err _ => False end).
Proof. vm_compute. repeat split. Qed.

Theorem C41_Effects : marks Effects_from 0 ["hide"]%string "hide"%string true ef_hide /\
  picks Effects_from 0 ["font"]%string "font"%string Font_from ef_font /\
  picks Effects_from 0 ["justify"]%string "justify"%string Justify_from ef_justify /\
  picks Effects_from 0 ["href"]%string "href"%string (arg 1) ef_href.
Proof. exact L_PickA.Effects_pick. Qed.
Print Assumptions C41_Effects.
Example C41_Effects_case : let b := [VStr $"effects"; node "zzz" [VInt 1]] in
  (match Effects_from (VList (b ++ [VStr $"hide"; node "zzz" [VInt 1]])) with Ok o => ef_hide o = true | Err _ => False end) /\
  (match Effects_from (VList (b ++ [node "font" [VInt 7]; node "zzz" [VInt 1]])) with Ok o => Font_from (node "font" [VInt 7]) = Ok (ef_font o) | Err _ => False end) /\
  (match Effects_from (VList (b ++ [node "justify" [VInt 7]; node "zzz" [VInt 1]])) with Ok o => Justify_from (node "justify" [VInt 7]) = Ok (ef_justify o) | Err _ => False end) /\
  (match Effects_from (VList (b ++ [node "href" [VInt 7]; node "zzz" [VInt 1]])) with Ok o => (arg 1) (node "href" [VInt 7]) = Ok (ef_href o) | Err _ => False end).
Proof. vm_compute. repeat split. Qed.

Theorem C41_Group : marks Group_from 0 ["locked"]%string "locked"%string true gr_locked /\
  picks Group_from 0 ["id"]%string "id"%string (arg 1) gr_id.
Proof. exact L_PickA.Group_pick. Qed.
Print Assumptions C41_Group.
Example C41_Group_case : let b := [VStr $"group"; VStr $"F"; node "zzz" [VInt 1]] in
  (match Group_from (VList (b ++ [VStr $"locked"; node "zzz" [VInt 1]])) with Ok o => gr_locked o = true | Err _ => False end) /\
  (match Group_from (VList (b ++ [node "id" [VInt 7]; node "zzz" [VInt 1]])) with Ok o => (arg 1) (node "id" [VInt 7]) = Ok (gr_id o) | Err _ => False end).
Proof. vm_compute. repeat split. Qed.

Theorem C41_PageSettings : marks PageSettings_from 0 ["portrait"]%string "portrait"%string true pg_portrait.
Proof. exact L_PickA.PageSettings_pick. Qed.
Print Assumptions C41_PageSettings.
Example C41_PageSettings_case : let b := [VStr $"paper"; VStr $"F"; VStr $"F"; VStr $"F"; node "zzz" [VInt 1]] in
  (match PageSettings_from (VList (b ++ [VStr $"portrait"; node "zzz" [VInt 1]])) with Ok o => pg_portrait o = true | Err _ => False end).
Proof. vm_compute. repeat split. Qed.

Theorem C41_TitleBlock : picks TitleBlock_from 0 ["title"]%string "title"%string (arg 1) tb_title /\
  picks TitleBlock_from 0 ["date"]%string "date"%string (arg 1) tb_date /\
  picks TitleBlock_from 0 ["rev"]%string "rev"%string (arg 1) tb_revision /\
  picks TitleBlock_from 0 ["company"]%string "company"%string (arg 1) tb_company.
Proof. exact L_PickA.TitleBlock_pick. Qed.
Print Assumptions C41_TitleBlock.
Example C41_TitleBlock_case : let b := [VStr $"title_block"; node "zzz" [VInt 1]] in
  (match TitleBlock_from (VList (b ++ [node "title" [VInt 7]; node "zzz" [VInt 1]])) with Ok o => (arg 1) (node "title" [VInt 7]) = Ok (tb_title o) | Err _ => False end) /\
  (match TitleBlock_from (VList (b ++ [node "date" [VInt 7]; node "zzz" [VInt 1]])) with Ok o => (arg 1) (node "date" [VInt 7]) = Ok (tb_date o) | Err _ => False end) /\
  (match TitleBlock_from (VList (b ++ [node "rev" [VInt 7]; node "zzz" [VInt 1]])) with Ok o => (arg 1) (node "rev" [VInt 7]) = Ok (tb_revision o) | Err _ => False end) /\
  (match TitleBlock_from (VList (b ++ [node "company" [VInt 7]; node "zzz" [VInt 1]])) with Ok o => (arg 1) (node "company" [VInt 7]) = Ok (tb_company o) | Err _ => False end).
Proof. vm_compute. repeat split. Qed.

Theorem C41_Property : picks Property_from 3 ["id"]%string "id"%string (arg 1) pr_id /\
  picks Property_from 3 ["at"]%string "at"%string Position_from pr_position /\
  picks Property_from 3 ["effects"]%string "effects"%string (as_ Some Effects_from) pr_effects /\
  picks Property_from 3 ["show_name"]%string "show_name"%string (const true) pr_showName.
Proof. exact L_PickA.Property_pick. Qed.
Print Assumptions C41_Property.
Example C41_Property_case : let b := [VStr $"property"; VStr $"F"; VStr $"F"; node "zzz" [VInt 1]] in
  (match Property_from (VList (b ++ [node "id" [VInt 7]; node "zzz" [VInt 1]])) with Ok o => (arg 1) (node "id" [VInt 7]) = Ok (pr_id o) | Err _ => False end) /\
  (match Property_from (VList (b ++ [node "at" [VInt 7; VInt 8]; node "zzz" [VInt 1]])) with Ok o => Position_from (node "at" [VInt 7; VInt 8]) = Ok (pr_position o) | Err _ => False end) /\
  (match Property_from (VList (b ++ [node "effects" [VInt 7]; node "zzz" [VInt 1]])) with Ok o => (as_ Some Effects_from) (node "effects" [VInt 7]) = Ok (pr_effects o) | Err _ => False end) /\
  (match Property_from (VList (b ++ [node "show_name" [VInt 7]; node "zzz" [VInt 1]])) with Ok o => (const true) (node "show_name" [VInt 7]) = Ok (pr_showName o) | Err _ => False end).
Proof. vm_compute. repeat split. Qed.

Theorem C41_Fill : picks Fill_from 0 ["type"]%string "type"%string (arg 1) fi_type /\
  picks Fill_from 0 ["color"]%string "color"%string (as_ Some ColorRGBA_from) fi_color.
Proof. exact L_PickA.Fill_pick. Qed.
Print Assumptions C41_Fill.
Example C41_Fill_case : let b := [VStr $"fill"; node "zzz" [VInt 1]] in
  (match Fill_from (VList (b ++ [node "type" [VInt 7]; node "zzz" [VInt 1]])) with Ok o => (arg 1) (node "type" [VInt 7]) = Ok (fi_type o) | Err _ => False end) /\
  (match Fill_from (VList (b ++ [node "color" [VInt 7; VInt 8; VInt 9; VInt 10]; node "zzz" [VInt 1]])) with Ok o => (as_ Some ColorRGBA_from) (node "color" [VInt 7; VInt 8; VInt 9; VInt 10]) = Ok (fi_color o) | Err _ => False end).
Proof. vm_compute. repeat split. Qed.

Theorem C41_Image : picks Image_from 0 ["at"]%string "at"%string Position_from im_position /\
  picks Image_from 0 ["scale"]%string "scale"%string (arg 1) im_scale /\
  picks Image_from 0 ["uuid"]%string "uuid"%string (arg 1) im_uuid /\
  picks Image_from 0 ["layer"]%string "layer"%string (arg 1) im_layer.
Proof. exact L_PickA.Image_pick. Qed.
Print Assumptions C41_Image.
Example C41_Image_case : let b := [VStr $"image"; node "zzz" [VInt 1]] in
  (match Image_from (VList (b ++ [node "at" [VInt 7; VInt 8]; node "zzz" [VInt 1]])) with Ok o => Position_from (node "at" [VInt 7; VInt 8]) = Ok (im_position o) | Err _ => False end) /\
  (match Image_from (VList (b ++ [node "scale" [VInt 7]; node "zzz" [VInt 1]])) with Ok o => (arg 1) (node "scale" [VInt 7]) = Ok (im_scale o) | Err _ => False end) /\
  (match Image_from (VList (b ++ [node "uuid" [VInt 7]; node "zzz" [VInt 1]])) with Ok o => (arg 1) (node "uuid" [VInt 7]) = Ok (im_uuid o) | Err _ => False end) /\
  (match Image_from (VList (b ++ [node "layer" [VInt 7]; node "zzz" [VInt 1]])) with Ok o => (arg 1) (node "layer" [VInt 7]) = Ok (im_layer o) | Err _ => False end).
Proof. vm_compute. repeat split. Qed.

Theorem C41_Library : picks Library_from 0 ["name"]%string "name"%string (arg 1) lb_name /\
  picks Library_from 0 ["type"]%string "type"%string (arg 1) lb_type /\
  picks Library_from 0 ["uri"]%string "uri"%string (arg 1) lb_uri /\
  picks Library_from 0 ["options"]%string "options"%string (arg 1) lb_options /\
  picks Library_from 0 ["descr"]%string "descr"%string (arg 1) lb_description /\
  picks Library_from 0 ["disabled"]%string "disabled"%string (const false) lb_active.
Proof. exact L_PickA.Library_pick. Qed.
Print Assumptions C41_Library.
Example C41_Library_case : let b := [VStr $"lib"; node "zzz" [VInt 1]] in
  (match Library_from (VList (b ++ [node "name" [VInt 7]; node "zzz" [VInt 1]])) with Ok o => (arg 1) (node "name" [VInt 7]) = Ok (lb_name o) | Err _ => False end) /\
  (match Library_from (VList (b ++ [node "type" [VInt 7]; node "zzz" [VInt 1]])) with Ok o => (arg 1) (node "type" [VInt 7]) = Ok (lb_type o) | Err _ => False end) /\
  (match Library_from (VList (b ++ [node "uri" [VInt 7]; node "zzz" [VInt 1]])) with Ok o => (arg 1) (node "uri" [VInt 7]) = Ok (lb_uri o) | Err _ => False end) /\
  (match Library_from (VList (b ++ [node "options" [VInt 7]; node "zzz" [VInt 1]])) with Ok o => (arg 1) (node "options" [VInt 7]) = Ok (lb_options o) | Err _ => False end) /\
  (match Library_from (VList (b ++ [node "descr" [VInt 7]; node "zzz" [VInt 1]])) with Ok o => (arg 1) (node "descr" [VInt 7]) = Ok (lb_description o) | Err _ => False end) /\
  (match Library_from (VList (b ++ [node "disabled" [VInt 7]; node "zzz" [VInt 1]])) with Ok o => (const false) (node "disabled" [VInt 7]) = Ok (lb_active o) | Err _ => False end).
Proof. vm_compute. repeat split. Qed.

Theorem C41_Constraint : picks Constraint_from 2 ["min"]%string "min"%string (arg 1) cn_min /\
  picks Constraint_from 2 ["opt"]%string "opt"%string (arg 1) cn_opt /\
  picks Constraint_from 2 ["max"]%string "max"%string (arg 1) cn_max.
Proof. exact L_PickA.Constraint_pick. Qed.
Print Assumptions C41_Constraint.
Example C41_Constraint_case : let b := [VStr $"constraint"; VStr $"F"; node "zzz" [VInt 1]] in
  (match Constraint_from (VList (b ++ [node "min" [VInt 7]; node "zzz" [VInt 1]])) with Ok o => (arg 1) (node "min" [VInt 7]) = Ok (cn_min o) | Err _ => False end) /\
  (match Constraint_from (VList (b ++ [node "opt" [VInt 7]; node "zzz" [VInt 1]])) with Ok o => (arg 1) (node "opt" [VInt 7]) = Ok (cn_opt o) | Err _ => False end) /\
  (match Constraint_from (VList (b ++ [node "max" [VInt 7]; node "zzz" [VInt 1]])) with Ok o => (arg 1) (node "max" [VInt 7]) = Ok (cn_max o) | Err _ => False end).
Proof. vm_compute. repeat split. Qed.

Theorem C41_Rule : picks Rule_from 2 ["condition"]%string "condition"%string (arg 1) ru_condition /\
  picks Rule_from 2 ["layer"]%string "layer"%string (arg 1) ru_layer /\
  picks Rule_from 2 ["severity"]%string "severity"%string (arg 1) ru_severity.
Proof. exact L_PickA.Rule_pick. Qed.
Print Assumptions C41_Rule.
Example C41_Rule_case : let b := [VStr $"rule"; VStr $"F"; node "zzz" [VInt 1]] in
  (match Rule_from (VList (b ++ [node "condition" [VInt 7]; node "zzz" [VInt 1]])) with Ok o => (arg 1) (node "condition" [VInt 7]) = Ok (ru_condition o) | Err _ => False end) /\
  (match Rule_from (VList (b ++ [node "layer" [VInt 7]; node "zzz" [VInt 1]])) with Ok o => (arg 1) (node "layer" [VInt 7]) = Ok (ru_layer o) | Err _ => False end) /\
  (match Rule_from (VList (b ++ [node "severity" [VInt 7]; node "zzz" [VInt 1]])) with Ok o => (arg 1) (node "severity" [VInt 7]) = Ok (ru_severity o) | Err _ => False end).
Proof. vm_compute. repeat split. Qed.

Theorem C41_DesignRules : picks DesignRules_from 0 ["version"]%string "version"%string (arg 1) dr_version.
Proof. exact L_PickA.DesignRules_pick. Qed.
Print Assumptions C41_DesignRules.
Example C41_DesignRules_case : let b := [node "version" [VInt 1]; node "zzz" [VInt 1]] in
  (match DesignRules_from (VList (b ++ [node "version" [VInt 7]; node "zzz" [VInt 1]])) with Ok o => (arg 1) (node "version" [VInt 7]) = Ok (dr_version o) | Err _ => False end).
Proof. vm_compute. repeat split. Qed.

Theorem C41_SyArc : marks SyArc_from 0 ["private"]%string "private"%string true sa_private /\
  picks SyArc_from 0 ["start"]%string "start"%string Position_from sa_start /\
  picks SyArc_from 0 ["mid"]%string "mid"%string Position_from sa_mid /\
  picks SyArc_from 0 ["end"]%string "end"%string Position_from sa_end /\
  picks SyArc_from 0 ["stroke"]%string "stroke"%string Stroke_from sa_stroke /\
  picks SyArc_from 0 ["fill"]%string "fill"%string Fill_from sa_fill.
Proof. exact L_PickA.SyArc_pick. Qed.
Print Assumptions C41_SyArc.
Example C41_SyArc_case : let b := [VStr $"arc"; node "zzz" [VInt 1]] in
  (match SyArc_from (VList (b ++ [VStr $"private"; node "zzz" [VInt 1]])) with Ok o => sa_private o = true | Err _ => False end) /\
  (match SyArc_from (VList (b ++ [node "start" [VInt 7; VInt 8]; node "zzz" [VInt 1]])) with Ok o => Position_from (node "start" [VInt 7; VInt 8]) = Ok (sa_start o) | Err _ => False end) /\
  (match SyArc_from (VList (b ++ [node "mid" [VInt 7; VInt 8]; node "zzz" [VInt 1]])) with Ok o => Position_from (node "mid" [VInt 7; VInt 8]) = Ok (sa_mid o) | Err _ => False end) /\
  (match SyArc_from (VList (b ++ [node "end" [VInt 7; VInt 8]; node "zzz" [VInt 1]])) with Ok o => Position_from (node "end" [VInt 7; VInt 8]) = Ok (sa_end o) | Err _ => False end) /\
  (match SyArc_from (VList (b ++ [node "stroke" [VInt 7]; node "zzz" [VInt 1]])) with Ok o => Stroke_from (node "stroke" [VInt 7]) = Ok (sa_stroke o) | Err _ => False end) /\
  (match SyArc_from (VList (b ++ [node "fill" [VStr $"yes"]; node "zzz" [VInt 1]])) with Ok o => Fill_from (node "fill" [VStr $"yes"]) = Ok (sa_fill o) | Err _ => False end).
Proof. vm_compute. repeat split. Qed.

Theorem C41_SyCircle : marks SyCircle_from 0 ["private"]%string "private"%string true si_private /\
  picks SyCircle_from 0 ["center"]%string "center"%string Position_from si_center /\
  picks SyCircle_from 0 ["radius"]%string "radius"%string (arg 1) si_radius /\
  picks SyCircle_from 0 ["stroke"]%string "stroke"%string Stroke_from si_stroke /\
  picks SyCircle_from 0 ["fill"]%string "fill"%string Fill_from si_fill.
Proof. exact L_PickA.SyCircle_pick. Qed.
Print Assumptions C41_SyCircle.
Example C41_SyCircle_case : let b := [VStr $"circle"; node "zzz" [VInt 1]] in
  (match SyCircle_from (VList (b ++ [VStr $"private"; node "zzz" [VInt 1]])) with Ok o => si_private o = true | Err _ => False end) /\
  (match SyCircle_from (VList (b ++ [node "center" [VInt 7; VInt 8]; node "zzz" [VInt 1]])) with Ok o => Position_from (node "center" [VInt 7; VInt 8]) = Ok (si_center o) | Err _ => False end) /\
  (match SyCircle_from (VList (b ++ [node "radius" [VInt 7]; node "zzz" [VInt 1]])) with Ok o => (arg 1) (node "radius" [VInt 7]) = Ok (si_radius o) | Err _ => False end) /\
  (match SyCircle_from (VList (b ++ [node "stroke" [VInt 7]; node "zzz" [VInt 1]])) with Ok o => Stroke_from (node "stroke" [VInt 7]) = Ok (si_stroke o) | Err _ => False end) /\
  (match SyCircle_from (VList (b ++ [node "fill" [VStr $"yes"]; node "zzz" [VInt 1]])) with Ok o => Fill_from (node "fill" [VStr $"yes"]) = Ok (si_fill o) | Err _ => False end).
Proof. vm_compute. repeat split. Qed.

Theorem C41_SyCurve : picks SyCurve_from 0 ["stroke"]%string "stroke"%string Stroke_from sc_stroke /\
  picks SyCurve_from 0 ["fill"]%string "fill"%string Fill_from sc_fill.
Proof. exact L_PickA.SyCurve_pick. Qed.
Print Assumptions C41_SyCurve.
Example C41_SyCurve_case : let b := [VStr $"curve"; node "zzz" [VInt 1]] in
  (match SyCurve_from (VList (b ++ [node "stroke" [VInt 7]; node "zzz" [VInt 1]])) with Ok o => Stroke_from (node "stroke" [VInt 7]) = Ok (sc_stroke o) | Err _ => False end) /\
  (match SyCurve_from (VList (b ++ [node "fill" [VStr $"yes"]; node "zzz" [VInt 1]])) with Ok o => Fill_from (node "fill" [VStr $"yes"]) = Ok (sc_fill o) | Err _ => False end).
Proof. vm_compute. repeat split. Qed.

Theorem C41_SyPolyLine : picks SyPolyLine_from 0 ["stroke"]%string "stroke"%string Stroke_from sl_stroke /\
  picks SyPolyLine_from 0 ["fill"]%string "fill"%string Fill_from sl_fill.
Proof. exact L_PickA.SyPolyLine_pick. Qed.
Print Assumptions C41_SyPolyLine.
Example C41_SyPolyLine_case : let b := [VStr $"polyline"; node "zzz" [VInt 1]] in
  (match SyPolyLine_from (VList (b ++ [node "stroke" [VInt 7]; node "zzz" [VInt 1]])) with Ok o => Stroke_from (node "stroke" [VInt 7]) = Ok (sl_stroke o) | Err _ => False end) /\
  (match SyPolyLine_from (VList (b ++ [node "fill" [VStr $"yes"]; node "zzz" [VInt 1]])) with Ok o => Fill_from (node "fill" [VStr $"yes"]) = Ok (sl_fill o) | Err _ => False end).
Proof. vm_compute. repeat split. Qed.

Theorem C41_SyRect : marks SyRect_from 0 ["private"]%string "private"%string true sr_private /\
  picks SyRect_from 0 ["start"]%string "start"%string Position_from sr_start /\
  picks SyRect_from 0 ["end"]%string "end"%string Position_from sr_end /\
  picks SyRect_from 0 ["stroke"]%string "stroke"%string Stroke_from sr_stroke /\
  picks SyRect_from 0 ["fill"]%string "fill"%string Fill_from sr_fill.
Proof. exact L_PickA.SyRect_pick. Qed.
Print Assumptions C41_SyRect.
Example C41_SyRect_case : let b := [VStr $"rectangle"; node "zzz" [VInt 1]] in
  (match SyRect_from (VList (b ++ [VStr $"private"; node "zzz" [VInt 1]])) with Ok o => sr_private o = true | Err _ => False end) /\
  (match SyRect_from (VList (b ++ [node "start" [VInt 7; VInt 8]; node "zzz" [VInt 1]])) with Ok o => Position_from (node "start" [VInt 7; VInt 8]) = Ok (sr_start o) | Err _ => False end) /\
  (match SyRect_from (VList (b ++ [node "end" [VInt 7; VInt 8]; node "zzz" [VInt 1]])) with Ok o => Position_from (node "end" [VInt 7; VInt 8]) = Ok (sr_end o) | Err _ => False end) /\
  (match SyRect_from (VList (b ++ [node "stroke" [VInt 7]; node "zzz" [VInt 1]])) with Ok o => Stroke_from (node "stroke" [VInt 7]) = Ok (sr_stroke o) | Err _ => False end) /\
  (match SyRect_from (VList (b ++ [node "fill" [VStr $"yes"]; node "zzz" [VInt 1]])) with Ok o => Fill_from (node "fill" [VStr $"yes"]) = Ok (sr_fill o) | Err _ => False end).
Proof. vm_compute. repeat split. Qed.

Theorem C41_SyText : picks SyText_from 2 ["at"]%string "at"%string Position_from sx_position /\
  picks SyText_from 2 ["effects"]%string "effects"%string Effects_from sx_effects.
Proof. exact L_PickA.SyText_pick. Qed.
Print Assumptions C41_SyText.
Example C41_SyText_case : let b := [VStr $"text"; VStr $"F"; node "zzz" [VInt 1]] in
  (match SyText_from (VList (b ++ [node "at" [VInt 7; VInt 8]; node "zzz" [VInt 1]])) with Ok o => Position_from (node "at" [VInt 7; VInt 8]) = Ok (sx_position o) | Err _ => False end) /\
  (match SyText_from (VList (b ++ [node "effects" [VInt 7]; node "zzz" [VInt 1]])) with Ok o => Effects_from (node "effects" [VInt 7]) = Ok (sx_effects o) | Err _ => False end).
Proof. vm_compute. repeat split. Qed.

Theorem C41_SyTextBox : picks SyTextBox_from 3 ["at"]%string "at"%string Position_from sb_position /\
  picks SyTextBox_from 3 ["size"]%string "size"%string Position_from sb_size /\
  picks SyTextBox_from 3 ["effects"]%string "effects"%string Effects_from sb_effects /\
  picks SyTextBox_from 3 ["stroke"]%string "stroke"%string Stroke_from sb_stroke /\
  picks SyTextBox_from 3 ["fill"]%string "fill"%string Fill_from sb_fill /\
  picks SyTextBox_from 3 ["uuid"]%string "uuid"%string (arg 1) sb_uuid.
Proof. exact L_PickA.SyTextBox_pick. Qed.
Print Assumptions C41_SyTextBox.
Example C41_SyTextBox_case : let b := [VStr $"text_box"; VStr $"F"; VStr $"F"; node "zzz" [VInt 1]] in
  (match SyTextBox_from (VList (b ++ [node "at" [VInt 7; VInt 8]; node "zzz" [VInt 1]])) with Ok o => Position_from (node "at" [VInt 7; VInt 8]) = Ok (sb_position o) | Err _ => False end) /\
  (match SyTextBox_from (VList (b ++ [node "size" [VInt 7; VInt 8]; node "zzz" [VInt 1]])) with Ok o => Position_from (node "size" [VInt 7; VInt 8]) = Ok (sb_size o) | Err _ => False end) /\
  (match SyTextBox_from (VList (b ++ [node "effects" [VInt 7]; node "zzz" [VInt 1]])) with Ok o => Effects_from (node "effects" [VInt 7]) = Ok (sb_effects o) | Err _ => False end) /\
  (match SyTextBox_from (VList (b ++ [node "stroke" [VInt 7]; node "zzz" [VInt 1]])) with Ok o => Stroke_from (node "stroke" [VInt 7]) = Ok (sb_stroke o) | Err _ => False end) /\
  (match SyTextBox_from (VList (b ++ [node "fill" [VStr $"yes"]; node "zzz" [VInt 1]])) with Ok o => Fill_from (node "fill" [VStr $"yes"]) = Ok (sb_fill o) | Err _ => False end) /\
  (match SyTextBox_from (VList (b ++ [node "uuid" [VInt 7]; node "zzz" [VInt 1]])) with Ok o => (arg 1) (node "uuid" [VInt 7]) = Ok (sb_uuid o) | Err _ => False end).
Proof. vm_compute. repeat split. Qed.

Theorem C41_SymbolPin : marks SymbolPin_from 3 ["hide"]%string "hide"%string true sp_hide /\
  picks SymbolPin_from 3 ["at"]%string "at"%string Position_from sp_position /\
  picks SymbolPin_from 3 ["length"]%string "length"%string (arg 1) sp_length /\
  picks SymbolPin_from 3 ["name"]%string "name"%string (arg 1) sp_name /\
  picks SymbolPin_from 3 ["number"]%string "number"%string (arg 1) sp_number.
Proof. exact L_PickA.SymbolPin_pick. Qed.
Print Assumptions C41_SymbolPin.
Example C41_SymbolPin_case : let b := [VStr $"pin"; VStr $"F"; VStr $"F"; node "zzz" [VInt 1]] in
  (match SymbolPin_from (VList (b ++ [VStr $"hide"; node "zzz" [VInt 1]])) with Ok o => sp_hide o = true | Err _ => False end) /\
  (match SymbolPin_from (VList (b ++ [node "at" [VInt 7; VInt 8]; node "zzz" [VInt 1]])) with Ok o => Position_from (node "at" [VInt 7; VInt 8]) = Ok (sp_position o) | Err _ => False end) /\
  (match SymbolPin_from (VList (b ++ [node "length" [VInt 7]; node "zzz" [VInt 1]])) with Ok o => (arg 1) (node "length" [VInt 7]) = Ok (sp_length o) | Err _ => False end) /\
  (match SymbolPin_from (VList (b ++ [node "name" [VInt 7]; node "zzz" [VInt 1]])) with Ok o => (arg 1) (node "name" [VInt 7]) = Ok (sp_name o) | Err _ => False end) /\
  (match SymbolPin_from (VList (b ++ [node "number" [VInt 7]; node "zzz" [VInt 1]])) with Ok o => (arg 1) (node "number" [VInt 7]) = Ok (sp_number o) | Err _ => False end).
Proof. vm_compute. repeat split. Qed.

Theorem C41_Symbol : picks Symbol_from 2 ["extends"]%string "extends"%string (arg 1) sy_extends /\
  picks Symbol_from 2 ["pin_names"]%string "pin_names"%string (const true) sy_pinNames /\
  picks Symbol_from 2 ["in_bom"]%string "in_bom"%string (as_ Some (arg_is 1 "yes"%string)) sy_inBom /\
  picks Symbol_from 2 ["on_board"]%string "on_board"%string (as_ Some (arg_is 1 "yes"%string)) sy_onBoard /\
  picks Symbol_from 2 ["power"]%string "power"%string (const true) sy_isPower.
Proof. exact L_PickA.Symbol_pick. Qed.
Print Assumptions C41_Symbol.
Example C41_Symbol_case : let b := [VStr $"symbol"; VStr $"R"; node "zzz" [VInt 1]] in
  (match Symbol_from (VList (b ++ [node "extends" [VInt 7]; node "zzz" [VInt 1]])) with Ok o => (arg 1) (node "extends" [VInt 7]) = Ok (sy_extends o) | Err _ => False end) /\
  (match Symbol_from (VList (b ++ [node "pin_names" [VInt 7]; node "zzz" [VInt 1]])) with Ok o => (const true) (node "pin_names" [VInt 7]) = Ok (sy_pinNames o) | Err _ => False end) /\
  (match Symbol_from (VList (b ++ [node "in_bom" [VInt 7]; node "zzz" [VInt 1]])) with Ok o => (as_ Some (arg_is 1 "yes"%string)) (node "in_bom" [VInt 7]) = Ok (sy_inBom o) | Err _ => False end) /\
  (match Symbol_from (VList (b ++ [node "on_board" [VInt 7]; node "zzz" [VInt 1]])) with Ok o => (as_ Some (arg_is 1 "yes"%string)) (node "on_board" [VInt 7]) = Ok (sy_onBoard o) | Err _ => False end) /\
  (match Symbol_from (VList (b ++ [node "power" [VInt 7]; node "zzz" [VInt 1]])) with Ok o => (const true) (node "power" [VInt 7]) = Ok (sy_isPower o) | Err _ => False end).
Proof. vm_compute. repeat split. Qed.

Theorem C41_SymbolLib : picks SymbolLib_from 1 ["version"]%string "version"%string (arg 1) sj_version /\
  picks SymbolLib_from 1 ["generator"]%string "generator"%string (arg 1) sj_generator.
Proof. exact L_PickA.SymbolLib_pick. Qed.
Print Assumptions C41_SymbolLib.
Example C41_SymbolLib_case : let b := [VStr $"kicad_symbol_lib"; node "zzz" [VInt 1]] in
  (match SymbolLib_from (VList (b ++ [node "version" [VInt 7]; node "zzz" [VInt 1]])) with Ok o => (arg 1) (node "version" [VInt 7]) = Ok (sj_version o) | Err _ => False end) /\
  (match SymbolLib_from (VList (b ++ [node "generator" [VInt 7]; node "zzz" [VInt 1]])) with Ok o => (arg 1) (node "generator" [VInt 7]) = Ok (sj_generator o) | Err _ => False end).
Proof. vm_compute. repeat split. Qed.
