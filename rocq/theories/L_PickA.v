(** From which tokens the attributes are taken: proofs.  The statements were generated from the
    from_sexpr methods in /repo/src/kiutils, by reading their syntax trees. *)
From Verif Require Import PyBase PyNum PyStr PyRe Sexpr S_Leaf S_Tree S_Reader S_Gather S_Pick L_Lex L_Seq L_Keep L_Swap L_Pick M_Common M_Lib M_Sym.

Lemma Position_pick : marks Position_from 0 ["unlocked"]%string "unlocked"%string true po_unlocked.
Proof. repeat apply conj; pick_in Position_from Position_from. Qed.
Lemma Stroke_pick : picks Stroke_from 0 ["width"]%string "width"%string (arg 1) st_width /\
  picks Stroke_from 0 ["type"]%string "type"%string (arg 1) st_type /\
  picks Stroke_from 0 ["color"]%string "color"%string (as_ Some ColorRGBA_from) st_color.
Proof. repeat apply conj; pick_in Stroke_from Stroke_step. Qed.
Lemma Font_pick : marks Font_from 0 ["bold"]%string "bold"%string true fo_bold /\
  marks Font_from 0 ["italic"]%string "italic"%string true fo_italic /\
  picks Font_from 0 ["face"]%string "face"%string (arg 1) fo_face /\
  picks Font_from 0 ["size"]%string "size"%string (arg 1) fo_height /\
  picks Font_from 0 ["size"]%string "size"%string (arg 2) fo_width /\
  picks Font_from 0 ["thickness"]%string "thickness"%string (arg 1) fo_thickness /\
  picks Font_from 0 ["line_spacing"]%string "line_spacing"%string (arg 1) fo_lineSpacing /\
  picks Font_from 0 ["color"]%string "color"%string (as_ Some ColorRGBA_from) fo_color.
Proof. repeat apply conj; pick_in Font_from Font_step. Qed.
Lemma Justify_pick : marks Justify_from 0 ["left"; "right"; "center"]%string "left"%string (VStr $"left") ju_horizontally /\
  marks Justify_from 0 ["left"; "right"; "center"]%string "right"%string (VStr $"right") ju_horizontally /\
  marks Justify_from 0 ["left"; "right"; "center"]%string "center"%string (VStr $"center") ju_horizontally /\
  marks Justify_from 0 ["top"; "bottom"]%string "top"%string (VStr $"top") ju_vertically /\
  marks Justify_from 0 ["top"; "bottom"]%string "bottom"%string (VStr $"bottom") ju_vertically /\
  marks Justify_from 0 ["mirror"]%string "mirror"%string true ju_mirror.
Proof. repeat apply conj; pick_in Justify_from Justify_step. Qed.
Lemma Effects_pick : marks Effects_from 0 ["hide"]%string "hide"%string true ef_hide /\
  picks Effects_from 0 ["font"]%string "font"%string Font_from ef_font /\
  picks Effects_from 0 ["justify"]%string "justify"%string Justify_from ef_justify /\
  picks Effects_from 0 ["href"]%string "href"%string (arg 1) ef_href.
Proof. repeat apply conj; pick_in Effects_from Effects_step. Qed.
Lemma Group_pick : marks Group_from 0 ["locked"]%string "locked"%string true gr_locked /\
  picks Group_from 0 ["id"]%string "id"%string (arg 1) gr_id.
Proof. repeat apply conj; pick_in Group_from Group_step. Qed.
Lemma PageSettings_pick : marks PageSettings_from 0 ["portrait"]%string "portrait"%string true pg_portrait.
Proof. repeat apply conj; pick_in PageSettings_from PageSettings_step. Qed.
Lemma TitleBlock_pick : picks TitleBlock_from 0 ["title"]%string "title"%string (arg 1) tb_title /\
  picks TitleBlock_from 0 ["date"]%string "date"%string (arg 1) tb_date /\
  picks TitleBlock_from 0 ["rev"]%string "rev"%string (arg 1) tb_revision /\
  picks TitleBlock_from 0 ["company"]%string "company"%string (arg 1) tb_company.
Proof. repeat apply conj; pick_in TitleBlock_from TitleBlock_step. Qed.
Lemma Property_pick : picks Property_from 3 ["id"]%string "id"%string (arg 1) pr_id /\
  picks Property_from 3 ["at"]%string "at"%string Position_from pr_position /\
  picks Property_from 3 ["effects"]%string "effects"%string (as_ Some Effects_from) pr_effects /\
  picks Property_from 3 ["show_name"]%string "show_name"%string (const true) pr_showName.
Proof. repeat apply conj; pick_in Property_from Property_step. Qed.
Lemma Fill_pick : picks Fill_from 0 ["type"]%string "type"%string (arg 1) fi_type /\
  picks Fill_from 0 ["color"]%string "color"%string (as_ Some ColorRGBA_from) fi_color.
Proof. repeat apply conj; pick_in Fill_from Fill_step. Qed.
Lemma Image_pick : picks Image_from 0 ["at"]%string "at"%string Position_from im_position /\
  picks Image_from 0 ["scale"]%string "scale"%string (arg 1) im_scale /\
  picks Image_from 0 ["uuid"]%string "uuid"%string (arg 1) im_uuid /\
  picks Image_from 0 ["layer"]%string "layer"%string (arg 1) im_layer.
Proof. repeat apply conj; pick_in Image_from Image_step. Qed.
Lemma Library_pick : picks Library_from 0 ["name"]%string "name"%string (arg 1) lb_name /\
  picks Library_from 0 ["type"]%string "type"%string (arg 1) lb_type /\
  picks Library_from 0 ["uri"]%string "uri"%string (arg 1) lb_uri /\
  picks Library_from 0 ["options"]%string "options"%string (arg 1) lb_options /\
  picks Library_from 0 ["descr"]%string "descr"%string (arg 1) lb_description /\
  picks Library_from 0 ["disabled"]%string "disabled"%string (const false) lb_active.
Proof. repeat apply conj; pick_in Library_from Library_step. Qed.
Lemma Constraint_pick : picks Constraint_from 2 ["min"]%string "min"%string (arg 1) cn_min /\
  picks Constraint_from 2 ["opt"]%string "opt"%string (arg 1) cn_opt /\
  picks Constraint_from 2 ["max"]%string "max"%string (arg 1) cn_max.
Proof. repeat apply conj; pick_in Constraint_from Constraint_step. Qed.
Lemma Rule_pick : picks Rule_from 2 ["condition"]%string "condition"%string (arg 1) ru_condition /\
  picks Rule_from 2 ["layer"]%string "layer"%string (arg 1) ru_layer /\
  picks Rule_from 2 ["severity"]%string "severity"%string (arg 1) ru_severity.
Proof. repeat apply conj; pick_in Rule_from Rule_step. Qed.
Lemma DesignRules_pick : picks DesignRules_from 0 ["version"]%string "version"%string (arg 1) dr_version.
Proof. repeat apply conj; pick_in DesignRules_from DesignRules_step. Qed.
Lemma SyArc_pick : marks SyArc_from 0 ["private"]%string "private"%string true sa_private /\
  picks SyArc_from 0 ["start"]%string "start"%string Position_from sa_start /\
  picks SyArc_from 0 ["mid"]%string "mid"%string Position_from sa_mid /\
  picks SyArc_from 0 ["end"]%string "end"%string Position_from sa_end /\
  picks SyArc_from 0 ["stroke"]%string "stroke"%string Stroke_from sa_stroke /\
  picks SyArc_from 0 ["fill"]%string "fill"%string Fill_from sa_fill.
Proof. repeat apply conj; pick_in SyArc_from SyArc_step. Qed.
Lemma SyCircle_pick : marks SyCircle_from 0 ["private"]%string "private"%string true si_private /\
  picks SyCircle_from 0 ["center"]%string "center"%string Position_from si_center /\
  picks SyCircle_from 0 ["radius"]%string "radius"%string (arg 1) si_radius /\
  picks SyCircle_from 0 ["stroke"]%string "stroke"%string Stroke_from si_stroke /\
  picks SyCircle_from 0 ["fill"]%string "fill"%string Fill_from si_fill.
Proof. repeat apply conj; pick_in SyCircle_from SyCircle_step. Qed.
Lemma SyCurve_pick : picks SyCurve_from 0 ["stroke"]%string "stroke"%string Stroke_from sc_stroke /\
  picks SyCurve_from 0 ["fill"]%string "fill"%string Fill_from sc_fill.
Proof. repeat apply conj; pick_in SyCurve_from SyCurve_step. Qed.
Lemma SyPolyLine_pick : picks SyPolyLine_from 0 ["stroke"]%string "stroke"%string Stroke_from sl_stroke /\
  picks SyPolyLine_from 0 ["fill"]%string "fill"%string Fill_from sl_fill.
Proof. repeat apply conj; pick_in SyPolyLine_from SyPolyLine_step. Qed.
Lemma SyRect_pick : marks SyRect_from 0 ["private"]%string "private"%string true sr_private /\
  picks SyRect_from 0 ["start"]%string "start"%string Position_from sr_start /\
  picks SyRect_from 0 ["end"]%string "end"%string Position_from sr_end /\
  picks SyRect_from 0 ["stroke"]%string "stroke"%string Stroke_from sr_stroke /\
  picks SyRect_from 0 ["fill"]%string "fill"%string Fill_from sr_fill.
Proof. repeat apply conj; pick_in SyRect_from SyRect_step. Qed.
Lemma SyText_pick : picks SyText_from 2 ["at"]%string "at"%string Position_from sx_position /\
  picks SyText_from 2 ["effects"]%string "effects"%string Effects_from sx_effects.
Proof. repeat apply conj; pick_in SyText_from SyText_step. Qed.
Lemma SyTextBox_pick : picks SyTextBox_from 3 ["at"]%string "at"%string Position_from sb_position /\
  picks SyTextBox_from 3 ["size"]%string "size"%string Position_from sb_size /\
  picks SyTextBox_from 3 ["effects"]%string "effects"%string Effects_from sb_effects /\
  picks SyTextBox_from 3 ["stroke"]%string "stroke"%string Stroke_from sb_stroke /\
  picks SyTextBox_from 3 ["fill"]%string "fill"%string Fill_from sb_fill /\
  picks SyTextBox_from 3 ["uuid"]%string "uuid"%string (arg 1) sb_uuid.
Proof. repeat apply conj; pick_in SyTextBox_from SyTextBox_step. Qed.
Lemma SymbolPin_pick : marks SymbolPin_from 3 ["hide"]%string "hide"%string true sp_hide /\
  picks SymbolPin_from 3 ["at"]%string "at"%string Position_from sp_position /\
  picks SymbolPin_from 3 ["length"]%string "length"%string (arg 1) sp_length /\
  picks SymbolPin_from 3 ["name"]%string "name"%string (arg 1) sp_name /\
  picks SymbolPin_from 3 ["number"]%string "number"%string (arg 1) sp_number.
Proof. repeat apply conj; pick_in SymbolPin_from SymbolPin_step. Qed.
Lemma Symbol_from_cons h id items : Symbol_from (VList (h :: id :: items)) =
  if is_str h "symbol" then let! o := Symbol_set_libId id Symbol_default in foldM (Symbol_step Symbol_from) o items else Err EException.
Proof. reflexivity. Qed.
Ltac symbol_pick :=
  apply picks_by; intros before args after Hn L;
  destruct before as [|h [|id before]]; [cbn in Hn; lia|cbn in Hn; lia|];
  cbn [app]; rewrite Symbol_from_cons; apply Hit_if; [|intros _; apply Hit_err]; intros _;
  apply Hit_pre; intros o _;
  lazymatch goal with |- Hit ?p _ _ => lazymatch type of L with lacks ?keys _ = true =>
    apply (Hit_fold0 p _ keys); [assumption | intros ? ? ?; solve [pkeep] | intros ?; unfold Symbol_step; repeat hit_step] end end.
Lemma Symbol_pick : picks Symbol_from 2 ["extends"]%string "extends"%string (arg 1) sy_extends /\
  picks Symbol_from 2 ["pin_names"]%string "pin_names"%string (const true) sy_pinNames /\
  picks Symbol_from 2 ["in_bom"]%string "in_bom"%string (as_ Some (arg_is 1 "yes"%string)) sy_inBom /\
  picks Symbol_from 2 ["on_board"]%string "on_board"%string (as_ Some (arg_is 1 "yes"%string)) sy_onBoard /\
  picks Symbol_from 2 ["power"]%string "power"%string (const true) sy_isPower.
Proof. repeat apply conj; symbol_pick. Qed.
Lemma SymbolLib_pick : picks SymbolLib_from 1 ["version"]%string "version"%string (arg 1) sj_version /\
  picks SymbolLib_from 1 ["generator"]%string "generator"%string (arg 1) sj_generator.
Proof. repeat apply conj; pick_in SymbolLib_from SymbolLib_step. Qed.
