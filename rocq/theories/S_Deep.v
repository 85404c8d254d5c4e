(** Specification for C57: edits anywhere inside an object *)
From Coq Require Import String.
From Verif Require Import PyBase PyNum PyStr Sexpr RecordSet S_Leaf S_Tree S_Fix S_Edit.
From Verif Require Import M_Common M_Lib M_Sym M_Fp M_Gr M_Zone M_Footprint M_Dim M_Brd M_Board M_Sch M_Schematic M_Wks.
From Verif Require Import S_Common S_Lib S_Sym S_Fp S_Gr S_Zone S_Footprint S_Dim S_Brd S_Board S_Sch S_Schematic S_Wks.

(** A place inside the objects of [A] where an object of [B] may stand: what stands there, and putting another in its place *)
Record place (A B : Type) := Place { view : A -> option B; over : B -> A -> A }.
Arguments Place {A B}. Arguments view {A B}. Arguments over {A B}.
(** the list with its element number [i] replaced *)
Fixpoint replace {A} (i : nat) (x : A) (l : list A) {struct l} : list A :=
  match l, i with
  | [], _ => []
  | _ :: l, 0 => x :: l
  | y :: l, S i => y :: replace i x l
  end.
(** an attribute that holds an object, an object or None, or a list of objects; a class among those of a mixed list *)
Definition whole {A B} (get : A -> B) (put : B -> A -> A) : place A B := Place (fun o => Some (get o)) put.
Definition if_there {A B} (get : A -> option B) (put : option B -> A -> A) : place A B := Place get (fun b => put (Some b)).
Definition nth_of {A B} (get : A -> list B) (put : list B -> A -> A) (i : nat) : place A B :=
  Place (fun o => nth_error (get o) i) (fun b o => put (replace i b (get o)) o).
Definition of_class {A B} (get : A -> option B) (put : B -> A) : place A B := Place get (fun b _ => put b).
(** the object itself, and a place inside what stands at a place *)
Definition itself {A} : place A A := Place Some (fun b _ => b).
Definition within {A B C} (p : place A B) (q : place B C) : place A C :=
  Place (fun a => match view p a with Some b => view q b | None => None end)
        (fun c a => match view p a with Some b => over p (over q c b) a | None => a end).

(** Where the parts of an object stand: one line for each attribute that holds objects of another class, and for each
    class in a mixed list *)
Inductive part : forall A, (A -> bool) -> (A -> A -> bool) -> forall B, (B -> bool) -> (B -> B -> bool) -> place A B -> Prop :=
| part_st_color : part Stroke Stroke_ok Stroke_eqb ColorRGBA ColorRGBA_ok ColorRGBA_eqb (if_there st_color (fun x o => o <| st_color := x |>))
| part_fo_color : part Font Font_ok Font_eqb ColorRGBA ColorRGBA_ok ColorRGBA_eqb (if_there fo_color (fun x o => o <| fo_color := x |>))
| part_ef_font : part Effects Effects_ok Effects_eqb Font Font_ok Font_eqb (whole ef_font (fun x o => o <| ef_font := x |>))
| part_pr_effects : part Property Property_ok Property_eqb Effects Effects_ok Effects_eqb (if_there pr_effects (fun x o => o <| pr_effects := x |>))
| part_rc_polygons i : part RenderCache RenderCache_ok RenderCache_eqb RenderCachePolygon RenderCachePolygon_ok RenderCachePolygon_eqb (nth_of rc_polygons (fun x o => o <| rc_polygons := x |>) i)
| part_fi_color : part Fill Fill_ok Fill_eqb ColorRGBA ColorRGBA_ok ColorRGBA_eqb (if_there fi_color (fun x o => o <| fi_color := x |>))
| part_lt_libs i : part LibTable LibTable_ok LibTable_eqb Library Library_ok Library_eqb (nth_of lt_libs (fun x o => o <| lt_libs := x |>) i)
| part_ru_constraints i : part Rule Rule_ok Rule_eqb Constraint Constraint_ok Constraint_eqb (nth_of ru_constraints (fun x o => o <| ru_constraints := x |>) i)
| part_dr_rules i : part DesignRules DesignRules_ok DesignRules_eqb Rule Rule_ok Rule_eqb (nth_of dr_rules (fun x o => o <| dr_rules := x |>) i)
| part_sa_stroke : part SyArc SyArc_ok SyArc_eqb Stroke Stroke_ok Stroke_eqb (whole sa_stroke (fun x o => o <| sa_stroke := x |>))
| part_sa_fill : part SyArc SyArc_ok SyArc_eqb Fill Fill_ok Fill_eqb (whole sa_fill (fun x o => o <| sa_fill := x |>))
| part_si_stroke : part SyCircle SyCircle_ok SyCircle_eqb Stroke Stroke_ok Stroke_eqb (whole si_stroke (fun x o => o <| si_stroke := x |>))
| part_si_fill : part SyCircle SyCircle_ok SyCircle_eqb Fill Fill_ok Fill_eqb (whole si_fill (fun x o => o <| si_fill := x |>))
| part_sl_stroke : part SyPolyLine SyPolyLine_ok SyPolyLine_eqb Stroke Stroke_ok Stroke_eqb (whole sl_stroke (fun x o => o <| sl_stroke := x |>))
| part_sl_fill : part SyPolyLine SyPolyLine_ok SyPolyLine_eqb Fill Fill_ok Fill_eqb (whole sl_fill (fun x o => o <| sl_fill := x |>))
| part_sr_stroke : part SyRect SyRect_ok SyRect_eqb Stroke Stroke_ok Stroke_eqb (whole sr_stroke (fun x o => o <| sr_stroke := x |>))
| part_sr_fill : part SyRect SyRect_ok SyRect_eqb Fill Fill_ok Fill_eqb (whole sr_fill (fun x o => o <| sr_fill := x |>))
| part_sx_effects : part SyText SyText_ok SyText_eqb Effects Effects_ok Effects_eqb (whole sx_effects (fun x o => o <| sx_effects := x |>))
| part_sb_stroke : part SyTextBox SyTextBox_ok SyTextBox_eqb Stroke Stroke_ok Stroke_eqb (whole sb_stroke (fun x o => o <| sb_stroke := x |>))
| part_sb_fill : part SyTextBox SyTextBox_ok SyTextBox_eqb Fill Fill_ok Fill_eqb (whole sb_fill (fun x o => o <| sb_fill := x |>))
| part_sb_effects : part SyTextBox SyTextBox_ok SyTextBox_eqb Effects Effects_ok Effects_eqb (whole sb_effects (fun x o => o <| sb_effects := x |>))
| part_sp_nameEffects : part SymbolPin SymbolPin_ok SymbolPin_eqb Effects Effects_ok Effects_eqb (if_there sp_nameEffects (fun x o => o <| sp_nameEffects := x |>))
| part_sp_numberEffects : part SymbolPin SymbolPin_ok SymbolPin_eqb Effects Effects_ok Effects_eqb (if_there sp_numberEffects (fun x o => o <| sp_numberEffects := x |>))
| part_sp_alternatePins i : part SymbolPin SymbolPin_ok SymbolPin_eqb SymbolAlternativePin SymbolAlternativePin_ok SymbolAlternativePin_eqb (nth_of sp_alternatePins (fun x o => o <| sp_alternatePins := x |>) i)
| part_sy_properties i : part Symbol Symbol_ok Symbol_eqb Property Property_ok Property_eqb (nth_of sy_properties (fun x o => o <| sy_properties := x |>) i)
| part_sy_graphicItems i : part Symbol Symbol_ok Symbol_eqb SyItem SyItem_ok SyItem_eqb (nth_of sy_graphicItems (fun x o => o <| sy_graphicItems := x |>) i)
| part_sy_pins i : part Symbol Symbol_ok Symbol_eqb SymbolPin SymbolPin_ok SymbolPin_eqb (nth_of sy_pins (fun x o => o <| sy_pins := x |>) i)
| part_sy_units i : part Symbol Symbol_ok Symbol_eqb Symbol Symbol_ok Symbol_eqb (nth_of sy_units (fun x o => o <| sy_units := x |>) i)
| part_sj_symbols i : part SymbolLib SymbolLib_ok SymbolLib_eqb Symbol Symbol_ok Symbol_eqb (nth_of sj_symbols (fun x o => o <| sj_symbols := x |>) i)
| part_ft_effects : part FpText FpText_ok FpText_eqb Effects Effects_ok Effects_eqb (whole ft_effects (fun x o => o <| ft_effects := x |>))
| part_ft_renderCache : part FpText FpText_ok FpText_eqb RenderCache RenderCache_ok RenderCache_eqb (if_there ft_renderCache (fun x o => o <| ft_renderCache := x |>))
| part_fb_effects : part FpTextBox FpTextBox_ok FpTextBox_eqb Effects Effects_ok Effects_eqb (if_there fb_effects (fun x o => o <| fb_effects := x |>))
| part_fb_stroke : part FpTextBox FpTextBox_ok FpTextBox_eqb Stroke Stroke_ok Stroke_eqb (if_there fb_stroke (fun x o => o <| fb_stroke := x |>))
| part_fb_renderCache : part FpTextBox FpTextBox_ok FpTextBox_eqb RenderCache RenderCache_ok RenderCache_eqb (if_there fb_renderCache (fun x o => o <| fb_renderCache := x |>))
| part_gt_effects : part GrText GrText_ok GrText_eqb Effects Effects_ok Effects_eqb (whole gt_effects (fun x o => o <| gt_effects := x |>))
| part_gt_renderCache : part GrText GrText_ok GrText_eqb RenderCache RenderCache_ok RenderCache_eqb (if_there gt_renderCache (fun x o => o <| gt_renderCache := x |>))
| part_gb_effects : part GrTextBox GrTextBox_ok GrTextBox_eqb Effects Effects_ok Effects_eqb (if_there gb_effects (fun x o => o <| gb_effects := x |>))
| part_gb_stroke : part GrTextBox GrTextBox_ok GrTextBox_eqb Stroke Stroke_ok Stroke_eqb (if_there gb_stroke (fun x o => o <| gb_stroke := x |>))
| part_gb_renderCache : part GrTextBox GrTextBox_ok GrTextBox_eqb RenderCache RenderCache_ok RenderCache_eqb (if_there gb_renderCache (fun x o => o <| gb_renderCache := x |>))
| part_zo_keepoutSettings : part Zone Zone_ok Zone_eqb KeepoutSettings KeepoutSettings_ok KeepoutSettings_eqb (if_there zo_keepoutSettings (fun x o => o <| zo_keepoutSettings := x |>))
| part_zo_fillSettings : part Zone Zone_ok Zone_eqb FillSettings FillSettings_ok FillSettings_eqb (if_there zo_fillSettings (fun x o => o <| zo_fillSettings := x |>))
| part_zo_polygons i : part Zone Zone_ok Zone_eqb ZonePolygon ZonePolygon_ok ZonePolygon_eqb (nth_of zo_polygons (fun x o => o <| zo_polygons := x |>) i)
| part_zo_filledPolygons i : part Zone Zone_ok Zone_eqb FilledPolygon FilledPolygon_ok FilledPolygon_eqb (nth_of zo_filledPolygons (fun x o => o <| zo_filledPolygons := x |>) i)
| part_zo_fillSegments : part Zone Zone_ok Zone_eqb FillSegments FillSegments_ok FillSegments_eqb (if_there zo_fillSegments (fun x o => o <| zo_fillSegments := x |>))
| part_mo_pos : part Model Model_ok Model_eqb Coordinate Coordinate_ok Coordinate_eqb (whole mo_pos (fun x o => o <| mo_pos := x |>))
| part_mo_scale : part Model Model_ok Model_eqb Coordinate Coordinate_ok Coordinate_eqb (whole mo_scale (fun x o => o <| mo_scale := x |>))
| part_mo_rotate : part Model Model_ok Model_eqb Coordinate Coordinate_ok Coordinate_eqb (whole mo_rotate (fun x o => o <| mo_rotate := x |>))
| part_pd_drill : part Pad Pad_ok Pad_eqb DrillDefinition DrillDefinition_ok DrillDefinition_eqb (if_there pd_drill (fun x o => o <| pd_drill := x |>))
| part_pd_net : part Pad Pad_ok Pad_eqb Net Net_ok Net_eqb (if_there pd_net (fun x o => o <| pd_net := x |>))
| part_pd_customPadOptions : part Pad Pad_ok Pad_eqb PadOptions PadOptions_ok PadOptions_eqb (if_there pd_customPadOptions (fun x o => o <| pd_customPadOptions := x |>))
| part_pd_customPadPrimitives i : part Pad Pad_ok Pad_eqb PadPrimitive PadPrimitive_ok PadPrimitive_eqb (nth_of pd_customPadPrimitives (fun x o => o <| pd_customPadPrimitives := x |>) i)
| part_fd_graphicItems i : part Footprint Footprint_ok Footprint_eqb FpItem FpItem_ok FpItem_eqb (nth_of fd_graphicItems (fun x o => o <| fd_graphicItems := x |>) i)
| part_fd_pads i : part Footprint Footprint_ok Footprint_eqb Pad Pad_ok Pad_eqb (nth_of fd_pads (fun x o => o <| fd_pads := x |>) i)
| part_fd_zones i : part Footprint Footprint_ok Footprint_eqb Zone Zone_ok Zone_eqb (nth_of fd_zones (fun x o => o <| fd_zones := x |>) i)
| part_fd_groups i : part Footprint Footprint_ok Footprint_eqb Group Group_ok Group_eqb (nth_of fd_groups (fun x o => o <| fd_groups := x |>) i)
| part_fd_models i : part Footprint Footprint_ok Footprint_eqb Model Model_ok Model_eqb (nth_of fd_models (fun x o => o <| fd_models := x |>) i)
| part_di_grText : part Dimension Dimension_ok Dimension_eqb GrText GrText_ok GrText_eqb (if_there di_grText (fun x o => o <| di_grText := x |>))
| part_di_format : part Dimension Dimension_ok Dimension_eqb DimensionFormat DimensionFormat_ok DimensionFormat_eqb (if_there di_format (fun x o => o <| di_format := x |>))
| part_di_style : part Dimension Dimension_ok Dimension_eqb DimensionStyle DimensionStyle_ok DimensionStyle_eqb (whole di_style (fun x o => o <| di_style := x |>))
| part_sk_layers i : part Stackup Stackup_ok Stackup_eqb StackupLayer StackupLayer_ok StackupLayer_eqb (nth_of sk_layers (fun x o => o <| sk_layers := x |>) i)
| part_sd_stackup : part SetupData SetupData_ok SetupData_eqb Stackup Stackup_ok Stackup_eqb (if_there sd_stackup (fun x o => o <| sd_stackup := x |>))
| part_sd_plotSettings : part SetupData SetupData_ok SetupData_eqb PlotSettings PlotSettings_ok PlotSettings_eqb (if_there sd_plotSettings (fun x o => o <| sd_plotSettings := x |>))
| part_bd_general : part Board Board_ok Board_eqb GeneralSettings GeneralSettings_ok GeneralSettings_eqb (whole bd_general (fun x o => o <| bd_general := x |>))
| part_bd_paper : part Board Board_ok Board_eqb PageSettings PageSettings_ok PageSettings_eqb (whole bd_paper (fun x o => o <| bd_paper := x |>))
| part_bd_titleBlock : part Board Board_ok Board_eqb TitleBlock TitleBlock_ok TitleBlock_eqb (if_there bd_titleBlock (fun x o => o <| bd_titleBlock := x |>))
| part_bd_layers i : part Board Board_ok Board_eqb LayerToken LayerToken_ok LayerToken_eqb (nth_of bd_layers (fun x o => o <| bd_layers := x |>) i)
| part_bd_setup : part Board Board_ok Board_eqb SetupData SetupData_ok SetupData_eqb (whole bd_setup (fun x o => o <| bd_setup := x |>))
| part_bd_nets i : part Board Board_ok Board_eqb Net Net_ok Net_eqb (nth_of bd_nets (fun x o => o <| bd_nets := x |>) i)
| part_bd_footprints i : part Board Board_ok Board_eqb Footprint Footprint_ok Footprint_eqb (nth_of bd_footprints (fun x o => o <| bd_footprints := x |>) i)
| part_bd_graphicItems i : part Board Board_ok Board_eqb BdItem BdItem_ok BdItem_eqb (nth_of bd_graphicItems (fun x o => o <| bd_graphicItems := x |>) i)
| part_bd_traceItems i : part Board Board_ok Board_eqb TrItem TrItem_ok TrItem_eqb (nth_of bd_traceItems (fun x o => o <| bd_traceItems := x |>) i)
| part_bd_zones i : part Board Board_ok Board_eqb Zone Zone_ok Zone_eqb (nth_of bd_zones (fun x o => o <| bd_zones := x |>) i)
| part_bd_dimensions i : part Board Board_ok Board_eqb Dimension Dimension_ok Dimension_eqb (nth_of bd_dimensions (fun x o => o <| bd_dimensions := x |>) i)
| part_bd_targets i : part Board Board_ok Board_eqb Target Target_ok Target_eqb (nth_of bd_targets (fun x o => o <| bd_targets := x |>) i)
| part_bd_groups i : part Board Board_ok Board_eqb Group Group_ok Group_eqb (nth_of bd_groups (fun x o => o <| bd_groups := x |>) i)
| part_be_stroke : part BusEntry BusEntry_ok BusEntry_eqb Stroke Stroke_ok Stroke_eqb (whole be_stroke (fun x o => o <| be_stroke := x |>))
| part_cx_stroke : part Connection Connection_ok Connection_eqb Stroke Stroke_ok Stroke_eqb (whole cx_stroke (fun x o => o <| cx_stroke := x |>))
| part_pl_stroke : part PolyLine PolyLine_ok PolyLine_eqb Stroke Stroke_ok Stroke_eqb (whole pl_stroke (fun x o => o <| pl_stroke := x |>))
| part_tx_effects : part Text Text_ok Text_eqb Effects Effects_ok Effects_eqb (whole tx_effects (fun x o => o <| tx_effects := x |>))
| part_bx_stroke : part TextBox TextBox_ok TextBox_eqb Stroke Stroke_ok Stroke_eqb (whole bx_stroke (fun x o => o <| bx_stroke := x |>))
| part_bx_fill : part TextBox TextBox_ok TextBox_eqb Fill Fill_ok Fill_eqb (whole bx_fill (fun x o => o <| bx_fill := x |>))
| part_bx_effects : part TextBox TextBox_ok TextBox_eqb Effects Effects_ok Effects_eqb (whole bx_effects (fun x o => o <| bx_effects := x |>))
| part_ll_effects : part LocalLabel LocalLabel_ok LocalLabel_eqb Effects Effects_ok Effects_eqb (whole ll_effects (fun x o => o <| ll_effects := x |>))
| part_gla_effects : part GlobalLabel GlobalLabel_ok GlobalLabel_eqb Effects Effects_ok Effects_eqb (whole gla_effects (fun x o => o <| gla_effects := x |>))
| part_gla_properties i : part GlobalLabel GlobalLabel_ok GlobalLabel_eqb Property Property_ok Property_eqb (nth_of gla_properties (fun x o => o <| gla_properties := x |>) i)
| part_hl_effects : part HierarchicalLabel HierarchicalLabel_ok HierarchicalLabel_eqb Effects Effects_ok Effects_eqb (whole hl_effects (fun x o => o <| hl_effects := x |>))
| part_spi_paths i : part SymbolProjectInstance SymbolProjectInstance_ok SymbolProjectInstance_eqb SymbolProjectPath SymbolProjectPath_ok SymbolProjectPath_eqb (nth_of spi_paths (fun x o => o <| spi_paths := x |>) i)
| part_ss_properties i : part SchematicSymbol SchematicSymbol_ok SchematicSymbol_eqb Property Property_ok Property_eqb (nth_of ss_properties (fun x o => o <| ss_properties := x |>) i)
| part_ss_instances i : part SchematicSymbol SchematicSymbol_ok SchematicSymbol_eqb SymbolProjectInstance SymbolProjectInstance_ok SymbolProjectInstance_eqb (nth_of ss_instances (fun x o => o <| ss_instances := x |>) i)
| part_hp_effects : part HierarchicalPin HierarchicalPin_ok HierarchicalPin_eqb Effects Effects_ok Effects_eqb (whole hp_effects (fun x o => o <| hp_effects := x |>))
| part_hpi_paths i : part HierarchicalSheetProjectInstance HierarchicalSheetProjectInstance_ok HierarchicalSheetProjectInstance_eqb HierarchicalSheetProjectPath HierarchicalSheetProjectPath_ok HierarchicalSheetProjectPath_eqb (nth_of hpi_paths (fun x o => o <| hpi_paths := x |>) i)
| part_hs_stroke : part HierarchicalSheet HierarchicalSheet_ok HierarchicalSheet_eqb Stroke Stroke_ok Stroke_eqb (whole hs_stroke (fun x o => o <| hs_stroke := x |>))
| part_hs_pins i : part HierarchicalSheet HierarchicalSheet_ok HierarchicalSheet_eqb HierarchicalPin HierarchicalPin_ok HierarchicalPin_eqb (nth_of hs_pins (fun x o => o <| hs_pins := x |>) i)
| part_hs_instances i : part HierarchicalSheet HierarchicalSheet_ok HierarchicalSheet_eqb HierarchicalSheetProjectInstance HierarchicalSheetProjectInstance_ok HierarchicalSheetProjectInstance_eqb (nth_of hs_instances (fun x o => o <| hs_instances := x |>) i)
| part_rct_stroke : part Rectangle Rectangle_ok Rectangle_eqb Stroke Stroke_ok Stroke_eqb (whole rct_stroke (fun x o => o <| rct_stroke := x |>))
| part_rct_fill : part Rectangle Rectangle_ok Rectangle_eqb Fill Fill_ok Fill_eqb (whole rct_fill (fun x o => o <| rct_fill := x |>))
| part_sar_stroke : part SchArc SchArc_ok SchArc_eqb Stroke Stroke_ok Stroke_eqb (whole sar_stroke (fun x o => o <| sar_stroke := x |>))
| part_sar_fill : part SchArc SchArc_ok SchArc_eqb Fill Fill_ok Fill_eqb (whole sar_fill (fun x o => o <| sar_fill := x |>))
| part_cir_stroke : part Circle Circle_ok Circle_eqb Stroke Stroke_ok Stroke_eqb (whole cir_stroke (fun x o => o <| cir_stroke := x |>))
| part_cir_fill : part Circle Circle_ok Circle_eqb Fill Fill_ok Fill_eqb (whole cir_fill (fun x o => o <| cir_fill := x |>))
| part_nf_properties i : part NetclassFlag NetclassFlag_ok NetclassFlag_eqb Property Property_ok Property_eqb (nth_of nf_properties (fun x o => o <| nf_properties := x |>) i)
| part_sc_paper : part Schematic Schematic_ok Schematic_eqb PageSettings PageSettings_ok PageSettings_eqb (whole sc_paper (fun x o => o <| sc_paper := x |>))
| part_sc_titleBlock : part Schematic Schematic_ok Schematic_eqb TitleBlock TitleBlock_ok TitleBlock_eqb (if_there sc_titleBlock (fun x o => o <| sc_titleBlock := x |>))
| part_sc_libSymbols i : part Schematic Schematic_ok Schematic_eqb Symbol Symbol_ok Symbol_eqb (nth_of sc_libSymbols (fun x o => o <| sc_libSymbols := x |>) i)
| part_sc_schematicSymbols i : part Schematic Schematic_ok Schematic_eqb SchematicSymbol SchematicSymbol_ok SchematicSymbol_eqb (nth_of sc_schematicSymbols (fun x o => o <| sc_schematicSymbols := x |>) i)
| part_sc_junctions i : part Schematic Schematic_ok Schematic_eqb Junction Junction_ok Junction_eqb (nth_of sc_junctions (fun x o => o <| sc_junctions := x |>) i)
| part_sc_noConnects i : part Schematic Schematic_ok Schematic_eqb NoConnect NoConnect_ok NoConnect_eqb (nth_of sc_noConnects (fun x o => o <| sc_noConnects := x |>) i)
| part_sc_busEntries i : part Schematic Schematic_ok Schematic_eqb BusEntry BusEntry_ok BusEntry_eqb (nth_of sc_busEntries (fun x o => o <| sc_busEntries := x |>) i)
| part_sc_busAliases i : part Schematic Schematic_ok Schematic_eqb BusAlias BusAlias_ok BusAlias_eqb (nth_of sc_busAliases (fun x o => o <| sc_busAliases := x |>) i)
| part_sc_graphicalItems i : part Schematic Schematic_ok Schematic_eqb ScLine ScLine_ok ScLine_eqb (nth_of sc_graphicalItems (fun x o => o <| sc_graphicalItems := x |>) i)
| part_sc_shapes i : part Schematic Schematic_ok Schematic_eqb ScShape ScShape_ok ScShape_eqb (nth_of sc_shapes (fun x o => o <| sc_shapes := x |>) i)
| part_sc_images i : part Schematic Schematic_ok Schematic_eqb Image Image_ok Image_eqb (nth_of sc_images (fun x o => o <| sc_images := x |>) i)
| part_sc_texts i : part Schematic Schematic_ok Schematic_eqb Text Text_ok Text_eqb (nth_of sc_texts (fun x o => o <| sc_texts := x |>) i)
| part_sc_textBoxes i : part Schematic Schematic_ok Schematic_eqb TextBox TextBox_ok TextBox_eqb (nth_of sc_textBoxes (fun x o => o <| sc_textBoxes := x |>) i)
| part_sc_labels i : part Schematic Schematic_ok Schematic_eqb LocalLabel LocalLabel_ok LocalLabel_eqb (nth_of sc_labels (fun x o => o <| sc_labels := x |>) i)
| part_sc_globalLabels i : part Schematic Schematic_ok Schematic_eqb GlobalLabel GlobalLabel_ok GlobalLabel_eqb (nth_of sc_globalLabels (fun x o => o <| sc_globalLabels := x |>) i)
| part_sc_hierarchicalLabels i : part Schematic Schematic_ok Schematic_eqb HierarchicalLabel HierarchicalLabel_ok HierarchicalLabel_eqb (nth_of sc_hierarchicalLabels (fun x o => o <| sc_hierarchicalLabels := x |>) i)
| part_sc_netclassFlags i : part Schematic Schematic_ok Schematic_eqb NetclassFlag NetclassFlag_ok NetclassFlag_eqb (nth_of sc_netclassFlags (fun x o => o <| sc_netclassFlags := x |>) i)
| part_sc_sheets i : part Schematic Schematic_ok Schematic_eqb HierarchicalSheet HierarchicalSheet_ok HierarchicalSheet_eqb (nth_of sc_sheets (fun x o => o <| sc_sheets := x |>) i)
| part_sc_sheetInstances i : part Schematic Schematic_ok Schematic_eqb HierarchicalSheetInstance HierarchicalSheetInstance_ok HierarchicalSheetInstance_eqb (nth_of sc_sheetInstances (fun x o => o <| sc_sheetInstances := x |>) i)
| part_sc_symbolInstances i : part Schematic Schematic_ok Schematic_eqb SymbolInstance SymbolInstance_ok SymbolInstance_eqb (nth_of sc_symbolInstances (fun x o => o <| sc_symbolInstances := x |>) i)
| part_wu_textSize : part Setup Setup_ok Setup_eqb TextSize TextSize_ok TextSize_eqb (whole wu_textSize (fun x o => o <| wu_textSize := x |>))
| part_wk_setup : part WorkSheet WorkSheet_ok WorkSheet_eqb Setup Setup_ok Setup_eqb (whole wk_setup (fun x o => o <| wk_setup := x |>))
| part_wk_drawingObjects i : part WorkSheet WorkSheet_ok WorkSheet_eqb WkItem WkItem_ok WkItem_eqb (nth_of wk_drawingObjects (fun x o => o <| wk_drawingObjects := x |>) i)
| part_SyItem_SyArc : part SyItem SyItem_ok SyItem_eqb SyArc SyArc_ok SyArc_eqb (of_class (fun u => match u with SyItem_SyArc x => Some x | _ => None end) SyItem_SyArc)
| part_SyItem_SyCircle : part SyItem SyItem_ok SyItem_eqb SyCircle SyCircle_ok SyCircle_eqb (of_class (fun u => match u with SyItem_SyCircle x => Some x | _ => None end) SyItem_SyCircle)
| part_SyItem_SyPolyLine : part SyItem SyItem_ok SyItem_eqb SyPolyLine SyPolyLine_ok SyPolyLine_eqb (of_class (fun u => match u with SyItem_SyPolyLine x => Some x | _ => None end) SyItem_SyPolyLine)
| part_SyItem_SyRect : part SyItem SyItem_ok SyItem_eqb SyRect SyRect_ok SyRect_eqb (of_class (fun u => match u with SyItem_SyRect x => Some x | _ => None end) SyItem_SyRect)
| part_SyItem_SyText : part SyItem SyItem_ok SyItem_eqb SyText SyText_ok SyText_eqb (of_class (fun u => match u with SyItem_SyText x => Some x | _ => None end) SyItem_SyText)
| part_SyItem_SyTextBox : part SyItem SyItem_ok SyItem_eqb SyTextBox SyTextBox_ok SyTextBox_eqb (of_class (fun u => match u with SyItem_SyTextBox x => Some x | _ => None end) SyItem_SyTextBox)
| part_PadPrimitive_GrText : part PadPrimitive PadPrimitive_ok PadPrimitive_eqb GrText GrText_ok GrText_eqb (of_class (fun u => match u with PadPrimitive_GrText x => Some x | _ => None end) PadPrimitive_GrText)
| part_PadPrimitive_GrTextBox : part PadPrimitive PadPrimitive_ok PadPrimitive_eqb GrTextBox GrTextBox_ok GrTextBox_eqb (of_class (fun u => match u with PadPrimitive_GrTextBox x => Some x | _ => None end) PadPrimitive_GrTextBox)
| part_PadPrimitive_GrLine : part PadPrimitive PadPrimitive_ok PadPrimitive_eqb GrLine GrLine_ok GrLine_eqb (of_class (fun u => match u with PadPrimitive_GrLine x => Some x | _ => None end) PadPrimitive_GrLine)
| part_PadPrimitive_GrRect : part PadPrimitive PadPrimitive_ok PadPrimitive_eqb GrRect GrRect_ok GrRect_eqb (of_class (fun u => match u with PadPrimitive_GrRect x => Some x | _ => None end) PadPrimitive_GrRect)
| part_PadPrimitive_GrCircle : part PadPrimitive PadPrimitive_ok PadPrimitive_eqb GrCircle GrCircle_ok GrCircle_eqb (of_class (fun u => match u with PadPrimitive_GrCircle x => Some x | _ => None end) PadPrimitive_GrCircle)
| part_PadPrimitive_GrArc : part PadPrimitive PadPrimitive_ok PadPrimitive_eqb GrArc GrArc_ok GrArc_eqb (of_class (fun u => match u with PadPrimitive_GrArc x => Some x | _ => None end) PadPrimitive_GrArc)
| part_PadPrimitive_GrPoly : part PadPrimitive PadPrimitive_ok PadPrimitive_eqb GrPoly GrPoly_ok GrPoly_eqb (of_class (fun u => match u with PadPrimitive_GrPoly x => Some x | _ => None end) PadPrimitive_GrPoly)
| part_PadPrimitive_GrCurve : part PadPrimitive PadPrimitive_ok PadPrimitive_eqb GrCurve GrCurve_ok GrCurve_eqb (of_class (fun u => match u with PadPrimitive_GrCurve x => Some x | _ => None end) PadPrimitive_GrCurve)
| part_FpItem_FpText : part FpItem FpItem_ok FpItem_eqb FpText FpText_ok FpText_eqb (of_class (fun u => match u with FpItem_FpText x => Some x | _ => None end) FpItem_FpText)
| part_FpItem_FpTextBox : part FpItem FpItem_ok FpItem_eqb FpTextBox FpTextBox_ok FpTextBox_eqb (of_class (fun u => match u with FpItem_FpTextBox x => Some x | _ => None end) FpItem_FpTextBox)
| part_FpItem_FpLine : part FpItem FpItem_ok FpItem_eqb FpLine FpLine_ok FpLine_eqb (of_class (fun u => match u with FpItem_FpLine x => Some x | _ => None end) FpItem_FpLine)
| part_FpItem_FpRect : part FpItem FpItem_ok FpItem_eqb FpRect FpRect_ok FpRect_eqb (of_class (fun u => match u with FpItem_FpRect x => Some x | _ => None end) FpItem_FpRect)
| part_FpItem_FpCircle : part FpItem FpItem_ok FpItem_eqb FpCircle FpCircle_ok FpCircle_eqb (of_class (fun u => match u with FpItem_FpCircle x => Some x | _ => None end) FpItem_FpCircle)
| part_FpItem_FpArc : part FpItem FpItem_ok FpItem_eqb FpArc FpArc_ok FpArc_eqb (of_class (fun u => match u with FpItem_FpArc x => Some x | _ => None end) FpItem_FpArc)
| part_FpItem_FpPoly : part FpItem FpItem_ok FpItem_eqb FpPoly FpPoly_ok FpPoly_eqb (of_class (fun u => match u with FpItem_FpPoly x => Some x | _ => None end) FpItem_FpPoly)
| part_FpItem_FpCurve : part FpItem FpItem_ok FpItem_eqb FpCurve FpCurve_ok FpCurve_eqb (of_class (fun u => match u with FpItem_FpCurve x => Some x | _ => None end) FpItem_FpCurve)
| part_FpItem_Image : part FpItem FpItem_ok FpItem_eqb Image Image_ok Image_eqb (of_class (fun u => match u with FpItem_Image x => Some x | _ => None end) FpItem_Image)
| part_BdItem_GrText : part BdItem BdItem_ok BdItem_eqb GrText GrText_ok GrText_eqb (of_class (fun u => match u with BdItem_GrText x => Some x | _ => None end) BdItem_GrText)
| part_BdItem_GrTextBox : part BdItem BdItem_ok BdItem_eqb GrTextBox GrTextBox_ok GrTextBox_eqb (of_class (fun u => match u with BdItem_GrTextBox x => Some x | _ => None end) BdItem_GrTextBox)
| part_BdItem_GrLine : part BdItem BdItem_ok BdItem_eqb GrLine GrLine_ok GrLine_eqb (of_class (fun u => match u with BdItem_GrLine x => Some x | _ => None end) BdItem_GrLine)
| part_BdItem_GrRect : part BdItem BdItem_ok BdItem_eqb GrRect GrRect_ok GrRect_eqb (of_class (fun u => match u with BdItem_GrRect x => Some x | _ => None end) BdItem_GrRect)
| part_BdItem_GrCircle : part BdItem BdItem_ok BdItem_eqb GrCircle GrCircle_ok GrCircle_eqb (of_class (fun u => match u with BdItem_GrCircle x => Some x | _ => None end) BdItem_GrCircle)
| part_BdItem_GrArc : part BdItem BdItem_ok BdItem_eqb GrArc GrArc_ok GrArc_eqb (of_class (fun u => match u with BdItem_GrArc x => Some x | _ => None end) BdItem_GrArc)
| part_BdItem_GrPoly : part BdItem BdItem_ok BdItem_eqb GrPoly GrPoly_ok GrPoly_eqb (of_class (fun u => match u with BdItem_GrPoly x => Some x | _ => None end) BdItem_GrPoly)
| part_BdItem_GrCurve : part BdItem BdItem_ok BdItem_eqb GrCurve GrCurve_ok GrCurve_eqb (of_class (fun u => match u with BdItem_GrCurve x => Some x | _ => None end) BdItem_GrCurve)
| part_BdItem_Image : part BdItem BdItem_ok BdItem_eqb Image Image_ok Image_eqb (of_class (fun u => match u with BdItem_Image x => Some x | _ => None end) BdItem_Image)
| part_TrItem_Segment : part TrItem TrItem_ok TrItem_eqb Segment Segment_ok Segment_eqb (of_class (fun u => match u with TrItem_Segment x => Some x | _ => None end) TrItem_Segment)
| part_TrItem_Arc : part TrItem TrItem_ok TrItem_eqb Arc Arc_ok Arc_eqb (of_class (fun u => match u with TrItem_Arc x => Some x | _ => None end) TrItem_Arc)
| part_TrItem_Via : part TrItem TrItem_ok TrItem_eqb Via Via_ok Via_eqb (of_class (fun u => match u with TrItem_Via x => Some x | _ => None end) TrItem_Via)
| part_ScLine_Connection : part ScLine ScLine_ok ScLine_eqb Connection Connection_ok Connection_eqb (of_class (fun u => match u with ScLine_Connection x => Some x | _ => None end) ScLine_Connection)
| part_ScLine_PolyLine : part ScLine ScLine_ok ScLine_eqb PolyLine PolyLine_ok PolyLine_eqb (of_class (fun u => match u with ScLine_PolyLine x => Some x | _ => None end) ScLine_PolyLine)
| part_ScShape_SchArc : part ScShape ScShape_ok ScShape_eqb SchArc SchArc_ok SchArc_eqb (of_class (fun u => match u with ScShape_SchArc x => Some x | _ => None end) ScShape_SchArc)
| part_ScShape_Circle : part ScShape ScShape_ok ScShape_eqb Circle Circle_ok Circle_eqb (of_class (fun u => match u with ScShape_Circle x => Some x | _ => None end) ScShape_Circle)
| part_ScShape_Rectangle : part ScShape ScShape_ok ScShape_eqb Rectangle Rectangle_ok Rectangle_eqb (of_class (fun u => match u with ScShape_Rectangle x => Some x | _ => None end) ScShape_Rectangle)
| part_WkItem_Line : part WkItem WkItem_ok WkItem_eqb Line Line_ok Line_eqb (of_class (fun u => match u with WkItem_Line x => Some x | _ => None end) WkItem_Line)
| part_WkItem_Rect : part WkItem WkItem_ok WkItem_eqb Rect Rect_ok Rect_eqb (of_class (fun u => match u with WkItem_Rect x => Some x | _ => None end) WkItem_Rect)
| part_WkItem_Bitmap : part WkItem WkItem_ok WkItem_eqb Bitmap Bitmap_ok Bitmap_eqb (of_class (fun u => match u with WkItem_Bitmap x => Some x | _ => None end) WkItem_Bitmap)
| part_WkItem_TbText : part WkItem WkItem_ok WkItem_eqb TbText TbText_ok TbText_eqb (of_class (fun u => match u with WkItem_TbText x => Some x | _ => None end) WkItem_TbText).

(** Places reached in any number of steps *)
Inductive inside {A} (okA : A -> bool) (sameA : A -> A -> bool) : forall B, (B -> bool) -> (B -> B -> bool) -> place A B -> Prop :=
| inside_here : inside okA sameA A okA sameA itself
| inside_part {B okB sameB C okC sameC p q} : inside okA sameA B okB sameB p -> part B okB sameB C okC sameC q -> inside okA sameA C okC sameC (within p q).

(** The attributes of each class and the values that fit (S_Edit.v) *)
Inductive attributes : forall A, (A -> bool) -> (A -> A -> bool) -> list (edit A) -> Prop :=
| of_Coordinate : attributes Coordinate Coordinate_ok Coordinate_eqb Coordinate_edits
| of_ColorRGBA : attributes ColorRGBA ColorRGBA_ok ColorRGBA_eqb ColorRGBA_edits
| of_Stroke : attributes Stroke Stroke_ok Stroke_eqb Stroke_edits
| of_Font : attributes Font Font_ok Font_eqb Font_edits
| of_Justify : attributes Justify Justify_ok1 Justify_eqb Justify_edits
| of_Effects : attributes Effects Effects_ok Effects_eqb Effects_edits
| of_Net : attributes Net Net_ok Net_eqb Net_edits
| of_Group : attributes Group Group_ok Group_eqb Group_edits
| of_PageSettings : attributes PageSettings PageSettings_ok PageSettings_eqb PageSettings_edits
| of_TitleBlock : attributes TitleBlock TitleBlock_ok TitleBlock_eqb TitleBlock_edits
| of_Property : attributes Property Property_ok Property_eqb Property_edits
| of_RenderCachePolygon : attributes RenderCachePolygon RenderCachePolygon_ok RenderCachePolygon_eqb RenderCachePolygon_edits
| of_RenderCache : attributes RenderCache RenderCache_ok RenderCache_eqb RenderCache_edits
| of_Fill : attributes Fill Fill_ok Fill_eqb Fill_edits
| of_Image : attributes Image Image_ok Image_eqb Image_edits
| of_Library : attributes Library Library_ok Library_eqb Library_edits
| of_LibTable : attributes LibTable LibTable_ok LibTable_eqb LibTable_edits
| of_Constraint : attributes Constraint Constraint_ok Constraint_eqb Constraint_edits
| of_Rule : attributes Rule Rule_ok Rule_eqb Rule_edits
| of_DesignRules : attributes DesignRules DesignRules_ok DesignRules_eqb DesignRules_edits
| of_SyArc : attributes SyArc SyArc_ok SyArc_eqb SyArc_edits
| of_SyCircle : attributes SyCircle SyCircle_ok SyCircle_eqb SyCircle_edits
| of_SyPolyLine : attributes SyPolyLine SyPolyLine_ok SyPolyLine_eqb SyPolyLine_edits
| of_SyRect : attributes SyRect SyRect_ok SyRect_eqb SyRect_edits
| of_SyText : attributes SyText SyText_ok SyText_eqb SyText_edits
| of_SyTextBox : attributes SyTextBox SyTextBox_ok SyTextBox_eqb SyTextBox_edits
| of_SymbolAlternativePin : attributes SymbolAlternativePin SymbolAlternativePin_ok SymbolAlternativePin_eqb SymbolAlternativePin_edits
| of_SymbolPin : attributes SymbolPin SymbolPin_ok SymbolPin_eqb SymbolPin_edits
| of_Symbol : attributes Symbol Symbol_ok Symbol_eqb Symbol_edits
| of_SymbolLib : attributes SymbolLib SymbolLib_ok SymbolLib_eqb SymbolLib_edits
| of_FpText : attributes FpText FpText_ok FpText_eqb FpText_edits
| of_FpLine : attributes FpLine FpLine_ok FpLine_eqb FpLine_edits
| of_FpRect : attributes FpRect FpRect_ok FpRect_eqb FpRect_edits
| of_FpCircle : attributes FpCircle FpCircle_ok FpCircle_eqb FpCircle_edits
| of_FpArc : attributes FpArc FpArc_ok FpArc_eqb FpArc_edits
| of_FpPoly : attributes FpPoly FpPoly_ok FpPoly_eqb FpPoly_edits
| of_FpCurve : attributes FpCurve FpCurve_ok FpCurve_eqb FpCurve_edits
| of_FpTextBox : attributes FpTextBox FpTextBox_ok FpTextBox_eqb FpTextBox_edits
| of_GrText : attributes GrText GrText_ok GrText_eqb GrText_edits
| of_GrLine : attributes GrLine GrLine_ok GrLine_eqb GrLine_edits
| of_GrRect : attributes GrRect GrRect_ok GrRect_eqb GrRect_edits
| of_GrCircle : attributes GrCircle GrCircle_ok GrCircle_eqb GrCircle_edits
| of_GrArc : attributes GrArc GrArc_ok GrArc_eqb GrArc_edits
| of_GrPoly : attributes GrPoly GrPoly_ok GrPoly_eqb GrPoly_edits
| of_GrCurve : attributes GrCurve GrCurve_ok GrCurve_eqb GrCurve_edits
| of_GrTextBox : attributes GrTextBox GrTextBox_ok GrTextBox_eqb GrTextBox_edits
| of_KeepoutSettings : attributes KeepoutSettings KeepoutSettings_ok KeepoutSettings_eqb KeepoutSettings_edits
| of_FillSettings : attributes FillSettings FillSettings_ok FillSettings_eqb FillSettings_edits
| of_ZonePolygon : attributes ZonePolygon ZonePolygon_ok ZonePolygon_eqb ZonePolygon_edits
| of_FilledPolygon : attributes FilledPolygon FilledPolygon_ok FilledPolygon_eqb FilledPolygon_edits
| of_FillSegments : attributes FillSegments FillSegments_ok FillSegments_eqb FillSegments_edits
| of_Zone : attributes Zone Zone_ok Zone_eqb Zone_edits
| of_Attributes : attributes Attributes Attributes_ok1 Attributes_eqb Attributes_edits
| of_Model : attributes Model Model_ok Model_eqb Model_edits
| of_DrillDefinition : attributes DrillDefinition DrillDefinition_ok DrillDefinition_eqb DrillDefinition_edits
| of_PadOptions : attributes PadOptions PadOptions_ok PadOptions_eqb PadOptions_edits
| of_Pad : attributes Pad Pad_ok Pad_eqb Pad_edits
| of_Footprint : attributes Footprint Footprint_ok Footprint_eqb Footprint_edits
| of_DimensionFormat : attributes DimensionFormat DimensionFormat_ok DimensionFormat_eqb DimensionFormat_edits
| of_DimensionStyle : attributes DimensionStyle DimensionStyle_ok DimensionStyle_eqb DimensionStyle_edits
| of_Dimension : attributes Dimension Dimension_ok Dimension_eqb Dimension_edits
| of_GeneralSettings : attributes GeneralSettings GeneralSettings_ok GeneralSettings_eqb GeneralSettings_edits
| of_LayerToken : attributes LayerToken LayerToken_ok LayerToken_eqb LayerToken_edits
| of_StackupLayer : attributes StackupLayer StackupLayer_ok StackupLayer_eqb StackupLayer_edits
| of_Stackup : attributes Stackup Stackup_ok Stackup_eqb Stackup_edits
| of_PlotSettings : attributes PlotSettings PlotSettings_ok PlotSettings_eqb PlotSettings_edits
| of_SetupData : attributes SetupData SetupData_ok SetupData_eqb SetupData_edits
| of_Segment : attributes Segment Segment_ok Segment_eqb Segment_edits
| of_Via : attributes Via Via_ok Via_eqb Via_edits
| of_Arc : attributes Arc Arc_ok Arc_eqb Arc_edits
| of_Target : attributes Target Target_ok Target_eqb Target_edits
| of_Board : attributes Board Board_ok Board_eqb Board_edits
| of_Junction : attributes Junction Junction_ok Junction_eqb Junction_edits
| of_NoConnect : attributes NoConnect NoConnect_ok NoConnect_eqb NoConnect_edits
| of_BusEntry : attributes BusEntry BusEntry_ok BusEntry_eqb BusEntry_edits
| of_BusAlias : attributes BusAlias BusAlias_ok BusAlias_eqb BusAlias_edits
| of_Connection : attributes Connection Connection_ok Connection_eqb Connection_edits
| of_PolyLine : attributes PolyLine PolyLine_ok PolyLine_eqb PolyLine_edits
| of_Text : attributes Text Text_ok Text_eqb Text_edits
| of_TextBox : attributes TextBox TextBox_ok TextBox_eqb TextBox_edits
| of_LocalLabel : attributes LocalLabel LocalLabel_ok LocalLabel_eqb LocalLabel_edits
| of_GlobalLabel : attributes GlobalLabel GlobalLabel_ok GlobalLabel_eqb GlobalLabel_edits
| of_HierarchicalLabel : attributes HierarchicalLabel HierarchicalLabel_ok HierarchicalLabel_eqb HierarchicalLabel_edits
| of_SymbolProjectPath : attributes SymbolProjectPath SymbolProjectPath_ok SymbolProjectPath_eqb SymbolProjectPath_edits
| of_SymbolProjectInstance : attributes SymbolProjectInstance SymbolProjectInstance_ok SymbolProjectInstance_eqb SymbolProjectInstance_edits
| of_SchematicSymbol : attributes SchematicSymbol SchematicSymbol_ok SchematicSymbol_eqb SchematicSymbol_edits
| of_HierarchicalPin : attributes HierarchicalPin HierarchicalPin_ok HierarchicalPin_eqb HierarchicalPin_edits
| of_HierarchicalSheetProjectPath : attributes HierarchicalSheetProjectPath HierarchicalSheetProjectPath_ok HierarchicalSheetProjectPath_eqb HierarchicalSheetProjectPath_edits
| of_HierarchicalSheetProjectInstance : attributes HierarchicalSheetProjectInstance HierarchicalSheetProjectInstance_ok HierarchicalSheetProjectInstance_eqb HierarchicalSheetProjectInstance_edits
| of_HierarchicalSheet : attributes HierarchicalSheet HierarchicalSheet_ok HierarchicalSheet_eqb HierarchicalSheet_edits
| of_HierarchicalSheetInstance : attributes HierarchicalSheetInstance HierarchicalSheetInstance_ok HierarchicalSheetInstance_eqb HierarchicalSheetInstance_edits
| of_SymbolInstance : attributes SymbolInstance SymbolInstance_ok SymbolInstance_eqb SymbolInstance_edits
| of_Rectangle : attributes Rectangle Rectangle_ok Rectangle_eqb Rectangle_edits
| of_SchArc : attributes SchArc SchArc_ok SchArc_eqb SchArc_edits
| of_Circle : attributes Circle Circle_ok Circle_eqb Circle_edits
| of_NetclassFlag : attributes NetclassFlag NetclassFlag_ok NetclassFlag_eqb NetclassFlag_edits
| of_Schematic : attributes Schematic Schematic_ok Schematic_eqb Schematic_edits
| of_WksFontSize : attributes WksFontSize WksFontSize_ok WksFontSize_eqb WksFontSize_edits
| of_WksFont : attributes WksFont WksFont_ok1 WksFont_eqb WksFont_edits
| of_Line : attributes Line Line_ok Line_eqb Line_edits
| of_Rect : attributes Rect Rect_ok Rect_eqb Rect_edits
| of_Bitmap : attributes Bitmap Bitmap_ok Bitmap_eqb Bitmap_edits
| of_TbText : attributes TbText TbText_ok TbText_eqb TbText_edits
| of_TextSize : attributes TextSize TextSize_ok TextSize_eqb TextSize_edits
| of_Setup : attributes Setup Setup_ok Setup_eqb Setup_edits
| of_WorkSheet : attributes WorkSheet WorkSheet_ok WorkSheet_eqb WorkSheet_edits.

(** An attribute of the object [b], which stands somewhere inside a printable object [o], is set to a value that fits;
    [o] is saved and loaded.  Then the attribute of the object that stands in the same place has that value; it
    is the only one that has changed in [b]; and nothing has changed outside [b]. *)
Definition survives_inside {A} (to : A -> nat -> bool -> res str) (from : val -> res A) (ok : A -> bool) (same : A -> A -> bool) : Prop :=
  forall B okB sameB p es, inside ok same B okB sameB p -> attributes B okB sameB es ->
  forall C (get : B -> C) put fit alike, In (Edit get put fit alike) es ->
  forall o b x, ok o = true -> view p o = Some b -> fit b x = true ->
  ok (over p (put x b) o) = true /\ forall indent newline, exists o' b',
    write_read to from (over p (put x b) o) indent newline = Ok o'
    /\ view p o' = Some b' /\ alike x (get b') = true /\ sameB b (put (get b) b') = true /\ same o (over p b o') = true.
