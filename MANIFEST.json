{
 "claims": [
  {
   "property": "C01",
   "status": "proved",
   "theorems": [
    "C01_three_outcomes",
    "C01_assertion_iff_unbalanced",
    "C01_index_iff_empty",
    "C01_value_iff",
    "C01_scan_terminates"
   ],
   "note": ""
  },
  {
   "property": "C02",
   "status": "proved",
   "theorems": [
    "C02_parse_inverts_writing"
   ],
   "note": ""
  },
  {
   "property": "C03",
   "status": "proved",
   "theorems": [
    "C03_layout_irrelevant",
    "C03_newline_behind_number_refuted"
   ],
   "note": ""
  },
  {
   "property": "C04",
   "status": "proved",
   "theorems": [
    "C04_quoted_text",
    "C04_trailing_backslash_refuted"
   ],
   "note": ""
  },
  {
   "property": "C05",
   "status": "proved",
   "theorems": [
    "C05_int",
    "C05_int_rounded"
   ],
   "note": ""
  },
  {
   "property": "C06",
   "status": "proved",
   "theorems": [
    "C06_float",
    "C06_float_exponent"
   ],
   "note": ""
  },
  {
   "property": "C07",
   "status": "proved",
   "theorems": [
    "C07_first_expression"
   ],
   "note": ""
  },
  {
   "property": "C08",
   "status": "proved",
   "theorems": [
    "C08_word",
    "C08_caret_splits",
    "C08_number_word"
   ],
   "note": ""
  },
  {
   "property": "C09",
   "status": "proved",
   "theorems": [
    "C09_Coordinate",
    "C09_ColorRGBA",
    "C09_Stroke",
    "C09_Font",
    "C09_Justify",
    "C09_Effects",
    "C09_Net",
    "C09_Group",
    "C09_PageSettings",
    "C09_TitleBlock",
    "C09_Property",
    "C09_RenderCachePolygon",
    "C09_RenderCache",
    "C09_Fill",
    "C09_Image",
    "C09_group_named_locked_refuted",
    "C09_page_size_lost_refuted",
    "C09_render_cache_id_refuted",
    "C09_render_cache_empty_text_refuted",
    "C09_color_precision_refuted"
   ],
   "note": ""
  },
  {
   "property": "C10",
   "status": "proved",
   "theorems": [
    "C10_Library",
    "C10_LibTable",
    "C10_unknown_type_refuted"
   ],
   "note": ""
  },
  {
   "property": "C11",
   "status": "proved",
   "theorems": [
    "C11_Constraint",
    "C11_Rule",
    "C11_DesignRules",
    "C11_needs_wrapping_refuted",
    "C11_numeric_element_refuted",
    "C11_severity_words_refuted"
   ],
   "note": ""
  },
  {
   "property": "C12",
   "status": "proved",
   "theorems": [
    "C12_SyArc",
    "C12_SyCircle",
    "C12_SyPolyLine",
    "C12_SyRect",
    "C12_SyText",
    "C12_SyTextBox",
    "C12_SymbolAlternativePin",
    "C12_SymbolPin",
    "C12_SyCurve_refuted",
    "C12_SyCurve_read"
   ],
   "note": ""
  },
  {
   "property": "C13",
   "status": "proved",
   "theorems": [
    "C13_Symbol",
    "C13_SymbolLib",
    "C13_curve_refuted",
    "C13_pin_names_refuted",
    "C13_default_lib_refuted"
   ],
   "note": ""
  },
  {
   "property": "C14",
   "status": "proved",
   "theorems": [
    "C14_set_get",
    "C14_set_type",
    "C14_nickname",
    "C14_unit",
    "C14_entry",
    "C14_get_set",
    "C14_plain_ids",
    "C14_lossy_refuted",
    "C14_nickname_with_unit_refuted"
   ],
   "note": ""
  },
  {
   "property": "C15",
   "status": "proved",
   "theorems": [
    "C15_rename"
   ],
   "note": ""
  },
  {
   "property": "C16",
   "status": "proved",
   "theorems": [
    "C16_set_get",
    "C16_oneline",
    "C16_lossy",
    "C16_nickname",
    "C16_entry",
    "C16_entry_names",
    "C16_get_set",
    "C16_parts_refuted"
   ],
   "note": ""
  },
  {
   "property": "C17",
   "status": "proved",
   "theorems": [
    "C17_FpText",
    "C17_FpLine",
    "C17_FpRect",
    "C17_FpTextBox",
    "C17_FpCircle",
    "C17_FpArc",
    "C17_FpPoly",
    "C17_FpCurve",
    "C17_FpLine_locked_refuted",
    "C17_FpRect_both_refuted",
    "C17_FpRect_neither_refuted",
    "C17_FpPoly_empty_refuted",
    "C17_FpCurve_empty_refuted",
    "C17_FpTextBox_refused",
    "C17_FpTextBox_pts_refuted"
   ],
   "note": ""
  },
  {
   "property": "C18",
   "status": "proved",
   "theorems": [
    "C18_Attributes",
    "C18_Attributes_empty",
    "C18_Model",
    "C18_DrillDefinition",
    "C18_PadOptions",
    "C18_Pad",
    "C18_Footprint",
    "C18_Footprint_layer_line",
    "C18_Footprint_module",
    "C18_Footprint_dimension",
    "C18_Attributes_type_refuted",
    "C18_Drill_width_refuted",
    "C18_Drill_offset_refuted",
    "C18_Drill_oval_refuted",
    "C18_Pad_number_refuted",
    "C18_Pad_locked_refuted",
    "C18_Footprint_name_refuted",
    "C18_Footprint_tedit_refuted"
   ],
   "note": ""
  },
  {
   "property": "C19",
   "status": "proved",
   "theorems": [
    "C19_GrText",
    "C19_GrTextBox",
    "C19_GrLine",
    "C19_GrRect",
    "C19_GrCircle",
    "C19_GrArc",
    "C19_GrPoly",
    "C19_GrCurve",
    "C19_GrPoly_pts_newline",
    "C19_GrText_locked_refuted",
    "C19_GrLine_angle_refuted",
    "C19_GrLine_angle_ignored",
    "C19_stroke_ignored_refuted",
    "C19_width_none_refuted",
    "C19_GrText_knockout_refuted",
    "C19_GrPoly_empty_refuted",
    "C19_GrCurve_empty_refuted",
    "C19_GrTextBox_refused"
   ],
   "note": ""
  },
  {
   "property": "C20",
   "status": "proved",
   "theorems": [
    "C20_KeepoutSettings",
    "C20_FillSettings",
    "C20_ZonePolygon",
    "C20_FilledPolygon",
    "C20_FillSegments",
    "C20_Zone",
    "C20_Zone_layers",
    "C20_Zone_no_layers",
    "C20_FillSettings_none_refuted",
    "C20_ZonePolygon_empty_refuted",
    "C20_FilledPolygon_empty_refuted",
    "C20_FillSegments_empty_refuted",
    "C20_Zone_empty_polygons"
   ],
   "note": ""
  },
  {
   "property": "C21",
   "status": "proved",
   "theorems": [
    "C21_DimensionFormat",
    "C21_DimensionStyle",
    "C21_Dimension",
    "C21_Dimension_no_points",
    "C21_Dimension_locked_refuted",
    "C21_Dimension_tstamp_refuted",
    "C21_Dimension_layer_refuted"
   ],
   "note": ""
  },
  {
   "property": "C22",
   "status": "proved",
   "theorems": [
    "C22_GeneralSettings",
    "C22_LayerToken",
    "C22_StackupLayer",
    "C22_Stackup",
    "C22_PlotSettings",
    "C22_SetupData",
    "C22_Segment",
    "C22_Via",
    "C22_Arc",
    "C22_Target",
    "C22_PlotSettings_aux_refuted",
    "C22_PlotSettings_pen_refuted",
    "C22_default_refuted",
    "C22_Target_tstamp_refuted",
    "C22_Stackup_flags_refuted"
   ],
   "note": ""
  },
  {
   "property": "C23",
   "status": "proved",
   "theorems": [
    "C23_Board",
    "C23_module_refuted",
    "C23_default_refuted",
    "C23_version_text"
   ],
   "note": ""
  },
  {
   "property": "C24",
   "status": "proved",
   "theorems": [
    "C24_Junction",
    "C24_NoConnect",
    "C24_BusEntry",
    "C24_BusAlias",
    "C24_Connection",
    "C24_PolyLine",
    "C24_Text",
    "C24_TextBox",
    "C24_LocalLabel",
    "C24_GlobalLabel",
    "C24_HierarchicalLabel",
    "C24_SymbolProjectPath",
    "C24_SymbolProjectInstance",
    "C24_SchematicSymbol",
    "C24_HierarchicalPin",
    "C24_HierarchicalSheetProjectPath",
    "C24_HierarchicalSheetProjectInstance",
    "C24_HierarchicalSheet",
    "C24_HierarchicalSheetInstance",
    "C24_SymbolInstance",
    "C24_Rectangle",
    "C24_SchArc",
    "C24_Circle",
    "C24_NetclassFlag",
    "C24_Junction_diameter_refuted",
    "C24_Junction_order_refuted",
    "C24_NetclassFlag_default_refuted",
    "C24_SchematicSymbol_none_refuted",
    "C24_HierarchicalSheet_precision_refuted",
    "C24_HierarchicalSheet_alpha_refuted",
    "C24_HierarchicalSheet_key_refuted"
   ],
   "note": ""
  },
  {
   "property": "C25",
   "status": "proved",
   "theorems": [
    "C25_Schematic",
    "C25_version_text"
   ],
   "note": ""
  },
  {
   "property": "C26",
   "status": "proved",
   "theorems": [
    "C26_WksFontSize",
    "C26_WksFont",
    "C26_Line",
    "C26_Rect",
    "C26_Bitmap",
    "C26_TbText",
    "C26_TextSize",
    "C26_Setup",
    "C26_WorkSheet",
    "C26_WksPosition",
    "C26_TbText_justify_refuted",
    "C26_polygon_refuted",
    "C26_Bitmap_data_refuted",
    "C26_version_text"
   ],
   "note": ""
  },
  {
   "property": "C27",
   "status": "proved",
   "theorems": [
    "C27_Board",
    "C27_GeneralSettings",
    "C27_StackupLayer",
    "C27_Stackup",
    "C27_PlotSettings",
    "C27_SetupData",
    "C27_Segment",
    "C27_Via",
    "C27_Arc",
    "C27_Target",
    "C27_LayerToken",
    "C27_Coordinate",
    "C27_ColorRGBA",
    "C27_Stroke",
    "C27_Font",
    "C27_Effects",
    "C27_Net",
    "C27_Group",
    "C27_PageSettings",
    "C27_TitleBlock",
    "C27_Property",
    "C27_RenderCachePolygon",
    "C27_RenderCache",
    "C27_Fill",
    "C27_Image",
    "C27_DimensionFormat",
    "C27_DimensionStyle",
    "C27_Dimension",
    "C27_Attributes",
    "C27_Model",
    "C27_DrillDefinition",
    "C27_PadOptions",
    "C27_Pad",
    "C27_Footprint",
    "C27_FpText",
    "C27_FpLine",
    "C27_FpRect",
    "C27_FpTextBox",
    "C27_FpCircle",
    "C27_FpArc",
    "C27_FpPoly",
    "C27_FpCurve",
    "C27_GrText",
    "C27_GrTextBox",
    "C27_GrLine",
    "C27_GrRect",
    "C27_GrCircle",
    "C27_GrArc",
    "C27_GrPoly",
    "C27_GrCurve",
    "C27_Library",
    "C27_LibTable",
    "C27_Constraint",
    "C27_Rule",
    "C27_DesignRules",
    "C27_SyCurve",
    "C27_Justify",
    "C27_Junction",
    "C27_NoConnect",
    "C27_BusEntry",
    "C27_BusAlias",
    "C27_Connection",
    "C27_PolyLine",
    "C27_Text",
    "C27_TextBox",
    "C27_LocalLabel",
    "C27_GlobalLabel",
    "C27_HierarchicalLabel",
    "C27_SymbolProjectPath",
    "C27_SymbolProjectInstance",
    "C27_SchematicSymbol",
    "C27_HierarchicalPin",
    "C27_HierarchicalSheetProjectPath",
    "C27_HierarchicalSheetProjectInstance",
    "C27_HierarchicalSheet",
    "C27_HierarchicalSheetInstance",
    "C27_SymbolInstance",
    "C27_Rectangle",
    "C27_SchArc",
    "C27_Circle",
    "C27_NetclassFlag",
    "C27_BusAlias_shape",
    "C27_Schematic",
    "C27_SyArc",
    "C27_SyCircle",
    "C27_SyPolyLine",
    "C27_SyRect",
    "C27_SyText",
    "C27_SyTextBox",
    "C27_SymbolAlternativePin",
    "C27_SymbolPin",
    "C27_Symbol",
    "C27_SymbolLib",
    "C27_WksFontSize",
    "C27_WksFont",
    "C27_Line",
    "C27_Rect",
    "C27_Bitmap",
    "C27_TbText",
    "C27_TextSize",
    "C27_Setup",
    "C27_WorkSheet",
    "C27_WksPosition",
    "C27_KeepoutSettings",
    "C27_FillSettings",
    "C27_ZonePolygon",
    "C27_FilledPolygon",
    "C27_FillSegments",
    "C27_Zone"
   ],
   "note": ""
  },
  {
   "property": "C28",
   "status": "proved",
   "theorems": [
    "C28_Board",
    "C28_GeneralSettings",
    "C28_Stackup",
    "C28_PlotSettings",
    "C28_SetupData",
    "C28_Segment",
    "C28_Via",
    "C28_Arc",
    "C28_Target",
    "C28_Stroke",
    "C28_Font",
    "C28_Effects",
    "C28_Group",
    "C28_TitleBlock",
    "C28_Property",
    "C28_RenderCachePolygon",
    "C28_RenderCache",
    "C28_Fill",
    "C28_Image",
    "C28_DimensionFormat",
    "C28_DimensionStyle",
    "C28_Dimension",
    "C28_Model",
    "C28_DrillDefinition",
    "C28_PadOptions",
    "C28_Pad",
    "C28_Footprint",
    "C28_FpText",
    "C28_FpLine",
    "C28_FpRect",
    "C28_FpTextBox",
    "C28_FpCircle",
    "C28_FpArc",
    "C28_FpPoly",
    "C28_FpCurve",
    "C28_GrText",
    "C28_GrTextBox",
    "C28_GrLine",
    "C28_GrRect",
    "C28_GrCircle",
    "C28_GrArc",
    "C28_GrPoly",
    "C28_GrCurve",
    "C28_Library",
    "C28_LibTable",
    "C28_Constraint",
    "C28_Rule",
    "C28_Justify",
    "C28_Attributes",
    "C28_PageSettings",
    "C28_SyCurve",
    "C28_DesignRules",
    "C28_StackupLayer",
    "C28_Junction",
    "C28_NoConnect",
    "C28_BusEntry",
    "C28_Connection",
    "C28_PolyLine",
    "C28_Text",
    "C28_TextBox",
    "C28_LocalLabel",
    "C28_GlobalLabel",
    "C28_HierarchicalLabel",
    "C28_SymbolProjectPath",
    "C28_SymbolProjectInstance",
    "C28_SchematicSymbol",
    "C28_HierarchicalPin",
    "C28_HierarchicalSheetProjectPath",
    "C28_HierarchicalSheetProjectInstance",
    "C28_HierarchicalSheet",
    "C28_HierarchicalSheetInstance",
    "C28_SymbolInstance",
    "C28_Rectangle",
    "C28_SchArc",
    "C28_Circle",
    "C28_NetclassFlag",
    "C28_Schematic",
    "C28_SyArc",
    "C28_SyCircle",
    "C28_SyPolyLine",
    "C28_SyRect",
    "C28_SyText",
    "C28_SyTextBox",
    "C28_SymbolPin",
    "C28_Symbol",
    "C28_SymbolLib",
    "C28_WksFont",
    "C28_Line",
    "C28_Rect",
    "C28_Bitmap",
    "C28_TbText",
    "C28_Setup",
    "C28_WorkSheet",
    "C28_KeepoutSettings",
    "C28_FillSettings",
    "C28_ZonePolygon",
    "C28_FilledPolygon",
    "C28_FillSegments",
    "C28_Zone"
   ],
   "note": ""
  },
  {
   "property": "C29",
   "status": "proved",
   "theorems": [
    "C29_Stroke",
    "C29_Font",
    "C29_Justify",
    "C29_Effects",
    "C29_Group",
    "C29_PageSettings",
    "C29_TitleBlock",
    "C29_Property",
    "C29_RenderCachePolygon",
    "C29_RenderCache",
    "C29_Fill",
    "C29_Image",
    "C29_Library",
    "C29_LibTable",
    "C29_Constraint",
    "C29_Rule",
    "C29_DesignRules",
    "C29_SyArc",
    "C29_SyCircle",
    "C29_SyCurve",
    "C29_SyPolyLine",
    "C29_SyRect",
    "C29_SyText",
    "C29_SyTextBox",
    "C29_SymbolPin",
    "C29_Symbol",
    "C29_SymbolLib",
    "C29_FpText",
    "C29_FpLine",
    "C29_FpRect",
    "C29_FpCircle",
    "C29_FpArc",
    "C29_FpPoly",
    "C29_FpCurve",
    "C29_FpTextBox",
    "C29_GrText",
    "C29_GrLine",
    "C29_GrRect",
    "C29_GrCircle",
    "C29_GrArc",
    "C29_GrPoly",
    "C29_GrCurve",
    "C29_GrTextBox",
    "C29_KeepoutSettings",
    "C29_FillSettings",
    "C29_ZonePolygon",
    "C29_FilledPolygon",
    "C29_FillSegments",
    "C29_Zone",
    "C29_DimensionFormat",
    "C29_DimensionStyle",
    "C29_Dimension",
    "C29_GeneralSettings",
    "C29_StackupLayer",
    "C29_Stackup",
    "C29_PlotSettings",
    "C29_SetupData",
    "C29_Segment",
    "C29_Via",
    "C29_Arc",
    "C29_Target",
    "C29_Board",
    "C29_Junction",
    "C29_Junction_refuted",
    "C29_NoConnect",
    "C29_BusEntry",
    "C29_Connection",
    "C29_PolyLine",
    "C29_Text",
    "C29_TextBox",
    "C29_LocalLabel",
    "C29_GlobalLabel",
    "C29_HierarchicalLabel",
    "C29_SymbolProjectPath",
    "C29_SymbolProjectInstance",
    "C29_SchematicSymbol",
    "C29_HierarchicalPin",
    "C29_HierarchicalSheetProjectPath",
    "C29_HierarchicalSheetProjectInstance",
    "C29_HierarchicalSheet",
    "C29_HierarchicalSheetInstance",
    "C29_SymbolInstance",
    "C29_Rectangle",
    "C29_SchArc",
    "C29_Circle",
    "C29_NetclassFlag",
    "C29_Schematic",
    "C29_WksFont",
    "C29_Line",
    "C29_Rect",
    "C29_Bitmap",
    "C29_TbText",
    "C29_Setup",
    "C29_WorkSheet",
    "C29_Attributes",
    "C29_Attributes_refuted",
    "C29_Model",
    "C29_DrillDefinition",
    "C29_PadOptions",
    "C29_Pad",
    "C29_Footprint"
   ],
   "note": "constraint: at least one of the two items is a list; stackup layer: both are lists; C29_Attributes_refuted and C29_Junction_refuted show where the order does matter"
  },
  {
   "property": "C30",
   "status": "proved",
   "theorems": [
    "C30_Board",
    "C30_GeneralSettings",
    "C30_Stackup",
    "C30_PlotSettings",
    "C30_SetupData",
    "C30_Segment",
    "C30_Via",
    "C30_Arc",
    "C30_Target",
    "C30_Stroke",
    "C30_Font",
    "C30_Effects",
    "C30_Group",
    "C30_TitleBlock",
    "C30_Property",
    "C30_Fill",
    "C30_Image",
    "C30_TitleBlock_comments",
    "C30_Board_properties",
    "C30_Footprint_properties",
    "C30_SchematicSymbol_pins",
    "C30_DimensionFormat",
    "C30_DimensionStyle",
    "C30_Dimension",
    "C30_Model",
    "C30_DrillDefinition",
    "C30_PadOptions",
    "C30_Pad",
    "C30_Footprint",
    "C30_FpText",
    "C30_FpLine",
    "C30_FpRect",
    "C30_FpTextBox",
    "C30_FpCircle",
    "C30_FpArc",
    "C30_FpPoly",
    "C30_FpCurve",
    "C30_GrText",
    "C30_GrTextBox",
    "C30_GrLine",
    "C30_GrRect",
    "C30_GrCircle",
    "C30_GrArc",
    "C30_GrPoly",
    "C30_GrCurve",
    "C30_Library",
    "C30_Constraint",
    "C30_Rule",
    "C30_SyCurve",
    "C30_DesignRules",
    "C30_StackupLayer",
    "C30_Junction",
    "C30_NoConnect",
    "C30_BusEntry",
    "C30_Connection",
    "C30_PolyLine",
    "C30_Text",
    "C30_TextBox",
    "C30_LocalLabel",
    "C30_GlobalLabel",
    "C30_HierarchicalLabel",
    "C30_SymbolProjectPath",
    "C30_SchematicSymbol",
    "C30_HierarchicalPin",
    "C30_HierarchicalSheetProjectPath",
    "C30_HierarchicalSheet",
    "C30_HierarchicalSheetInstance",
    "C30_SymbolInstance",
    "C30_Rectangle",
    "C30_SchArc",
    "C30_Circle",
    "C30_NetclassFlag",
    "C30_Schematic",
    "C30_SyArc",
    "C30_SyCircle",
    "C30_SyPolyLine",
    "C30_SyRect",
    "C30_SyText",
    "C30_SyTextBox",
    "C30_SymbolPin",
    "C30_Symbol",
    "C30_SymbolLib",
    "C30_WksFont",
    "C30_Line",
    "C30_Rect",
    "C30_Bitmap",
    "C30_TbText",
    "C30_Setup",
    "C30_WorkSheet",
    "C30_KeepoutSettings",
    "C30_FillSettings",
    "C30_FilledPolygon",
    "C30_FillSegments",
    "C30_Zone"
   ],
   "note": "All classes with single-valued child tokens, and the four dictionary attributes."
  },
  {
   "property": "C31",
   "status": "proved",
   "theorems": [
    "C31_utf8",
    "C31_LibTable",
    "C31_LibTable_needs_file",
    "C31_WorkSheet",
    "C31_WorkSheet_needs_file",
    "C31_Board",
    "C31_Board_needs_file",
    "C31_SymbolLib",
    "C31_SymbolLib_needs_file",
    "C31_Schematic",
    "C31_Schematic_needs_file",
    "C31_DesignRules",
    "C31_DesignRules_needs_file",
    "C31_Footprint",
    "C31_Footprint_needs_file",
    "C31_carriage_return_refuted",
    "C31_WorkSheet_encoding_refuted"
   ],
   "note": "carriage returns and the encoding of work sheets are refuted separately"
  },
  {
   "property": "C32",
   "status": "proved",
   "theorems": [
    "C32_LibTable",
    "C32_LibTable_refuted",
    "C32_WorkSheet",
    "C32_WorkSheet_refuted",
    "C32_Board",
    "C32_Board_refuted",
    "C32_SymbolLib",
    "C32_SymbolLib_refuted",
    "C32_Schematic",
    "C32_Schematic_refuted",
    "C32_DesignRules",
    "C32_DesignRules_refuted",
    "C32_Footprint",
    "C32_Footprint_refuted"
   ],
   "note": "the _refuted theorems state, for every object and file system, that a failing save empties its target"
  },
  {
   "property": "C33",
   "status": "proved",
   "theorems": [
    "C33_LibTable",
    "C33_WorkSheet",
    "C33_Board",
    "C33_SymbolLib",
    "C33_Schematic",
    "C33_DesignRules",
    "C33_Footprint_refuted"
   ],
   "note": "C33_Footprint_refuted: the claim fails for every loaded footprint"
  },
  {
   "property": "C34",
   "status": "proved",
   "theorems": [
    "C34_Board",
    "C34_Board_layers",
    "C34_Footprint",
    "C34_Footprint_type",
    "C34_LibTable",
    "C34_DesignRules",
    "C34_Schematic",
    "C34_Symbol",
    "C34_WorkSheet"
   ],
   "note": "all seven create_new methods"
  },
  {
   "property": "C35",
   "status": "proved",
   "theorems": [
    "C35_Justify",
    "C35_Coordinate",
    "C35_ColorRGBA",
    "C35_Stroke",
    "C35_Font",
    "C35_Effects",
    "C35_Net",
    "C35_Group",
    "C35_PageSettings",
    "C35_TitleBlock",
    "C35_Property",
    "C35_RenderCachePolygon",
    "C35_RenderCache",
    "C35_Fill",
    "C35_Image",
    "C35_Library",
    "C35_LibTable",
    "C35_Constraint",
    "C35_Rule",
    "C35_DesignRules",
    "C35_SyArc",
    "C35_SyCircle",
    "C35_SyPolyLine",
    "C35_SyRect",
    "C35_SyText",
    "C35_SyTextBox",
    "C35_SymbolAlternativePin",
    "C35_SymbolPin",
    "C35_Symbol",
    "C35_SymbolLib",
    "C35_FpText",
    "C35_FpLine",
    "C35_FpRect",
    "C35_FpTextBox",
    "C35_FpCircle",
    "C35_FpArc",
    "C35_FpPoly",
    "C35_FpCurve",
    "C35_GrText",
    "C35_GrTextBox",
    "C35_GrLine",
    "C35_GrRect",
    "C35_GrCircle",
    "C35_GrArc",
    "C35_GrPoly",
    "C35_GrCurve",
    "C35_KeepoutSettings",
    "C35_FillSettings",
    "C35_ZonePolygon",
    "C35_FilledPolygon",
    "C35_FillSegments",
    "C35_Zone",
    "C35_Attributes",
    "C35_Model",
    "C35_DrillDefinition",
    "C35_PadOptions",
    "C35_Pad",
    "C35_Footprint",
    "C35_DimensionFormat",
    "C35_DimensionStyle",
    "C35_Dimension",
    "C35_GeneralSettings",
    "C35_LayerToken",
    "C35_StackupLayer",
    "C35_Stackup",
    "C35_PlotSettings",
    "C35_SetupData",
    "C35_Segment",
    "C35_Via",
    "C35_Arc",
    "C35_Target",
    "C35_Board",
    "C35_Junction",
    "C35_NoConnect",
    "C35_BusEntry",
    "C35_BusAlias",
    "C35_Connection",
    "C35_PolyLine",
    "C35_Text",
    "C35_TextBox",
    "C35_LocalLabel",
    "C35_GlobalLabel",
    "C35_HierarchicalLabel",
    "C35_SymbolProjectPath",
    "C35_SymbolProjectInstance",
    "C35_SchematicSymbol",
    "C35_HierarchicalPin",
    "C35_HierarchicalSheetProjectPath",
    "C35_HierarchicalSheetProjectInstance",
    "C35_HierarchicalSheet",
    "C35_HierarchicalSheetInstance",
    "C35_SymbolInstance",
    "C35_Rectangle",
    "C35_SchArc",
    "C35_Circle",
    "C35_NetclassFlag",
    "C35_Schematic",
    "C35_WksFontSize",
    "C35_WksFont",
    "C35_Line",
    "C35_Rect",
    "C35_Bitmap",
    "C35_TbText",
    "C35_TextSize",
    "C35_Setup",
    "C35_WorkSheet",
    "C35_Font_first_save_refuted"
   ],
   "note": "All classes with a round trip theorem; C35_Font_first_save_refuted shows that the first save may change the spelling of numbers."
  },
  {
   "property": "C36",
   "status": "proved",
   "theorems": [
    "C36_Board",
    "C36_GeneralSettings",
    "C36_LayerToken",
    "C36_StackupLayer",
    "C36_Stackup",
    "C36_PlotSettings",
    "C36_SetupData",
    "C36_Segment",
    "C36_Via",
    "C36_Arc",
    "C36_Target",
    "C36_Coordinate",
    "C36_ColorRGBA",
    "C36_Stroke",
    "C36_Font",
    "C36_Effects",
    "C36_Net",
    "C36_Group",
    "C36_PageSettings",
    "C36_TitleBlock",
    "C36_Property",
    "C36_RenderCachePolygon",
    "C36_RenderCache",
    "C36_Fill",
    "C36_Image",
    "C36_DimensionFormat",
    "C36_DimensionStyle",
    "C36_Dimension",
    "C36_Attributes",
    "C36_Model",
    "C36_DrillDefinition",
    "C36_PadOptions",
    "C36_Pad",
    "C36_Footprint",
    "C36_FpText",
    "C36_FpLine",
    "C36_FpRect",
    "C36_FpTextBox",
    "C36_FpCircle",
    "C36_FpArc",
    "C36_FpPoly",
    "C36_FpCurve",
    "C36_GrText",
    "C36_GrTextBox",
    "C36_GrLine",
    "C36_GrRect",
    "C36_GrCircle",
    "C36_GrArc",
    "C36_GrPoly",
    "C36_GrCurve",
    "C36_Library",
    "C36_LibTable",
    "C36_Constraint",
    "C36_Rule",
    "C36_DesignRules",
    "C36_Justify",
    "C36_Junction",
    "C36_NoConnect",
    "C36_BusEntry",
    "C36_BusAlias",
    "C36_Connection",
    "C36_PolyLine",
    "C36_Text",
    "C36_TextBox",
    "C36_LocalLabel",
    "C36_GlobalLabel",
    "C36_HierarchicalLabel",
    "C36_SymbolProjectPath",
    "C36_SymbolProjectInstance",
    "C36_SchematicSymbol",
    "C36_HierarchicalPin",
    "C36_HierarchicalSheetProjectPath",
    "C36_HierarchicalSheetProjectInstance",
    "C36_HierarchicalSheet",
    "C36_HierarchicalSheetInstance",
    "C36_SymbolInstance",
    "C36_Rectangle",
    "C36_SchArc",
    "C36_Circle",
    "C36_NetclassFlag",
    "C36_Schematic",
    "C36_SyArc",
    "C36_SyCircle",
    "C36_SyPolyLine",
    "C36_SyRect",
    "C36_SyText",
    "C36_SyTextBox",
    "C36_SymbolAlternativePin",
    "C36_SymbolPin",
    "C36_Symbol",
    "C36_SymbolLib",
    "C36_WksFontSize",
    "C36_WksFont",
    "C36_Line",
    "C36_Rect",
    "C36_Bitmap",
    "C36_TbText",
    "C36_TextSize",
    "C36_Setup",
    "C36_WorkSheet",
    "C36_KeepoutSettings",
    "C36_FillSettings",
    "C36_ZonePolygon",
    "C36_FilledPolygon",
    "C36_FillSegments",
    "C36_Zone"
   ],
   "note": ""
  },
  {
   "property": "C37",
   "status": "proved",
   "theorems": [
    "C37_Group",
    "C37_RenderCachePolygon",
    "C37_RenderCache",
    "C37_Image",
    "C37_LibTable",
    "C37_Rule",
    "C37_DesignRules",
    "C37_SyCurve",
    "C37_SyPolyLine",
    "C37_SymbolPin",
    "C37_Symbol",
    "C37_SymbolLib",
    "C37_ZonePolygon",
    "C37_FilledPolygon",
    "C37_FillSegments",
    "C37_Zone",
    "C37_FpPoly",
    "C37_FpCurve",
    "C37_GrPoly",
    "C37_GrCurve",
    "C37_Dimension",
    "C37_Stackup",
    "C37_Via",
    "C37_Pad",
    "C37_Footprint",
    "C37_Board",
    "C37_Connection",
    "C37_PolyLine",
    "C37_GlobalLabel",
    "C37_SymbolProjectInstance",
    "C37_SchematicSymbol",
    "C37_HierarchicalSheetProjectInstance",
    "C37_HierarchicalSheet",
    "C37_NetclassFlag",
    "C37_Schematic",
    "C37_WorkSheet"
   ],
   "note": "All list attributes except the points of FpTextBox and GrTextBox, the primitives of a custom pad, the data of a work sheet bitmap, the sub-layers of a stackup layer and the elements of a constraint, whose reading is covered by the round trips only."
  },
  {
   "property": "C38",
   "status": "proved",
   "theorems": [
    "C38_Position",
    "C38_ColorRGBA",
    "C38_Stroke",
    "C38_Font",
    "C38_Justify",
    "C38_Effects",
    "C38_Group",
    "C38_PageSettings",
    "C38_TitleBlock",
    "C38_Property",
    "C38_RenderCachePolygon",
    "C38_RenderCache",
    "C38_Fill",
    "C38_Image",
    "C38_Library",
    "C38_LibTable",
    "C38_Constraint",
    "C38_Constraint_elements",
    "C38_Rule",
    "C38_DesignRules",
    "C38_SyArc",
    "C38_SyCircle",
    "C38_SyCurve",
    "C38_SyPolyLine",
    "C38_SyRect",
    "C38_SyText",
    "C38_SyTextBox",
    "C38_SymbolPin",
    "C38_Symbol",
    "C38_SymbolLib",
    "C38_FpText",
    "C38_FpLine",
    "C38_FpRect",
    "C38_FpCircle",
    "C38_FpArc",
    "C38_FpPoly",
    "C38_FpCurve",
    "C38_FpTextBox",
    "C38_GrText",
    "C38_GrLine",
    "C38_GrRect",
    "C38_GrCircle",
    "C38_GrArc",
    "C38_GrPoly",
    "C38_GrCurve",
    "C38_GrTextBox",
    "C38_KeepoutSettings",
    "C38_FillSettings",
    "C38_ZonePolygon",
    "C38_FilledPolygon",
    "C38_FillSegments",
    "C38_Zone",
    "C38_Attributes",
    "C38_Model",
    "C38_DrillDefinition",
    "C38_PadOptions",
    "C38_Pad",
    "C38_Footprint",
    "C38_DimensionFormat",
    "C38_DimensionStyle",
    "C38_Dimension",
    "C38_GeneralSettings",
    "C38_StackupLayer",
    "C38_Stackup",
    "C38_PlotSettings",
    "C38_SetupData",
    "C38_Segment",
    "C38_Via",
    "C38_Arc",
    "C38_Target",
    "C38_Board",
    "C38_Junction",
    "C38_NoConnect",
    "C38_BusEntry",
    "C38_Connection",
    "C38_PolyLine",
    "C38_Text",
    "C38_TextBox",
    "C38_LocalLabel",
    "C38_GlobalLabel",
    "C38_HierarchicalLabel",
    "C38_SymbolProjectPath",
    "C38_SymbolProjectInstance",
    "C38_SchematicSymbol",
    "C38_HierarchicalPin",
    "C38_HierarchicalSheetProjectPath",
    "C38_HierarchicalSheetProjectInstance",
    "C38_HierarchicalSheet",
    "C38_HierarchicalSheetInstance",
    "C38_SymbolInstance",
    "C38_Rectangle",
    "C38_SchArc",
    "C38_Circle",
    "C38_NetclassFlag",
    "C38_Schematic",
    "C38_WksFont",
    "C38_Line",
    "C38_Rect",
    "C38_Bitmap",
    "C38_TbText",
    "C38_Setup",
    "C38_WorkSheet"
   ],
   "note": "DesignRules.version is not optional; the two classes whose from_sexpr always raises (StackupSubLayer, Polygon) have no case"
  },
  {
   "property": "C39",
   "status": "proved",
   "theorems": [
    "C39_Coordinate",
    "C39_ColorRGBA",
    "C39_TextSize",
    "C39_WksFontSize",
    "C39_LayerToken",
    "C39_BusAlias",
    "C39_BusAlias_error",
    "C39_Net",
    "C39_SymbolAlternativePin",
    "C39_WksPosition",
    "C39_Position",
    "C39_PageSettings"
   ],
   "note": "If and only if, for all expressions. For bus aliases also which exception is raised."
  },
  {
   "property": "C40",
   "status": "proved",
   "theorems": [
    "C40_tokeniser",
    "C40_parse_sexp",
    "C40_matches_advance",
    "C40_nothing_lost",
    "C40_white_space",
    "C40_ascii_digits"
   ],
   "note": "PyRe.v models the part of Python's re module that is used; finditer after an empty match is simplified, which C40_matches_advance shows to be unreachable"
  },
  {
   "property": "C41",
   "status": "proved",
   "theorems": [
    "C41_Position",
    "C41_Stroke",
    "C41_Font",
    "C41_Justify",
    "C41_Effects",
    "C41_Group",
    "C41_PageSettings",
    "C41_TitleBlock",
    "C41_Property",
    "C41_Fill",
    "C41_Image",
    "C41_Library",
    "C41_Constraint",
    "C41_Rule",
    "C41_DesignRules",
    "C41_SyArc",
    "C41_SyCircle",
    "C41_SyCurve",
    "C41_SyPolyLine",
    "C41_SyRect",
    "C41_SyText",
    "C41_SyTextBox",
    "C41_SymbolPin",
    "C41_Symbol",
    "C41_SymbolLib",
    "C41_FpText",
    "C41_FpLine",
    "C41_FpRect",
    "C41_FpCircle",
    "C41_FpArc",
    "C41_FpPoly",
    "C41_FpCurve",
    "C41_FpTextBox",
    "C41_GrText",
    "C41_GrLine",
    "C41_GrRect",
    "C41_GrCircle",
    "C41_GrArc",
    "C41_GrPoly",
    "C41_GrCurve",
    "C41_GrTextBox",
    "C41_KeepoutSettings",
    "C41_FillSettings",
    "C41_FilledPolygon",
    "C41_FillSegments",
    "C41_Zone",
    "C41_Attributes",
    "C41_Model",
    "C41_DrillDefinition",
    "C41_PadOptions",
    "C41_Pad",
    "C41_Footprint",
    "C41_DimensionFormat",
    "C41_DimensionStyle",
    "C41_Dimension",
    "C41_GeneralSettings",
    "C41_StackupLayer",
    "C41_Stackup",
    "C41_PlotSettings",
    "C41_SetupData",
    "C41_Segment",
    "C41_Via",
    "C41_Arc",
    "C41_Target",
    "C41_Board",
    "C41_Junction",
    "C41_NoConnect",
    "C41_BusEntry",
    "C41_Connection",
    "C41_PolyLine",
    "C41_Text",
    "C41_TextBox",
    "C41_LocalLabel",
    "C41_GlobalLabel",
    "C41_HierarchicalLabel",
    "C41_SymbolProjectPath",
    "C41_SchematicSymbol",
    "C41_HierarchicalPin",
    "C41_HierarchicalSheetProjectPath",
    "C41_HierarchicalSheet",
    "C41_HierarchicalSheetInstance",
    "C41_SymbolInstance",
    "C41_Rectangle",
    "C41_SchArc",
    "C41_Circle",
    "C41_NetclassFlag",
    "C41_Schematic",
    "C41_WksFont",
    "C41_Line",
    "C41_Rect",
    "C41_Bitmap",
    "C41_TbText",
    "C41_Setup",
    "C41_WorkSheet",
    "C41_SchematicSymbol_lib",
    "C41_SymbolPin_effects",
    "C41_Zone_connect",
    "C41_HierarchicalSheet_names",
    "C41_Symbol_offset"
   ],
   "note": "The statements of Properties_Pick* were generated from the from_sexpr methods; those in Properties_Place (C41_Zone_connect, C41_SymbolPin_effects, ...) are the attributes fed by some of the items with a given head only. The tokens of a stackup layer count up to the first addsublayer only (picks_until)."
  },
  {
   "property": "C42",
   "status": "proved",
   "theorems": [
    "C42_Stroke",
    "C42_Font",
    "C42_Justify",
    "C42_Effects",
    "C42_Group",
    "C42_PageSettings",
    "C42_TitleBlock",
    "C42_Property",
    "C42_RenderCachePolygon",
    "C42_RenderCache",
    "C42_Fill",
    "C42_Image",
    "C42_Library",
    "C42_LibTable",
    "C42_Rule",
    "C42_DesignRules",
    "C42_SyArc",
    "C42_SyCircle",
    "C42_SyCurve",
    "C42_SyPolyLine",
    "C42_SyRect",
    "C42_SyText",
    "C42_SyTextBox",
    "C42_SymbolPin",
    "C42_Symbol",
    "C42_SymbolLib",
    "C42_Constraint",
    "C42_FpText",
    "C42_FpLine",
    "C42_FpRect",
    "C42_FpCircle",
    "C42_FpArc",
    "C42_FpPoly",
    "C42_FpCurve",
    "C42_FpTextBox",
    "C42_GrText",
    "C42_GrLine",
    "C42_GrRect",
    "C42_GrCircle",
    "C42_GrArc",
    "C42_GrPoly",
    "C42_GrCurve",
    "C42_GrTextBox",
    "C42_KeepoutSettings",
    "C42_FillSettings",
    "C42_ZonePolygon",
    "C42_FilledPolygon",
    "C42_FillSegments",
    "C42_Zone",
    "C42_DimensionFormat",
    "C42_DimensionStyle",
    "C42_Dimension",
    "C42_GeneralSettings",
    "C42_Stackup",
    "C42_PlotSettings",
    "C42_SetupData",
    "C42_Segment",
    "C42_Via",
    "C42_Arc",
    "C42_Target",
    "C42_Board",
    "C42_Junction",
    "C42_NoConnect",
    "C42_BusEntry",
    "C42_Connection",
    "C42_PolyLine",
    "C42_Text",
    "C42_TextBox",
    "C42_LocalLabel",
    "C42_GlobalLabel",
    "C42_HierarchicalLabel",
    "C42_SymbolProjectPath",
    "C42_SymbolProjectInstance",
    "C42_SchematicSymbol",
    "C42_HierarchicalPin",
    "C42_HierarchicalSheetProjectPath",
    "C42_HierarchicalSheetProjectInstance",
    "C42_HierarchicalSheet",
    "C42_HierarchicalSheetInstance",
    "C42_SymbolInstance",
    "C42_Rectangle",
    "C42_SchArc",
    "C42_Circle",
    "C42_NetclassFlag",
    "C42_Schematic",
    "C42_WksFont",
    "C42_Line",
    "C42_Rect",
    "C42_Bitmap",
    "C42_TbText",
    "C42_Setup",
    "C42_WorkSheet",
    "C42_Attributes",
    "C42_Model",
    "C42_DrillDefinition",
    "C42_PadOptions",
    "C42_Pad",
    "C42_Footprint",
    "C42_StackupLayer_refuted"
   ],
   "note": "98 classes with a loop over the items; purely positional classes are characterised completely by C39. StackupLayer: refuted."
  },
  {
   "property": "C43",
   "status": "proved",
   "theorems": [
    "C43_Coordinate",
    "C43_ColorRGBA",
    "C43_Stroke",
    "C43_Font",
    "C43_Justify",
    "C43_Effects",
    "C43_Net",
    "C43_Group",
    "C43_PageSettings",
    "C43_TitleBlock",
    "C43_Property",
    "C43_RenderCachePolygon",
    "C43_RenderCache",
    "C43_Fill",
    "C43_Image",
    "C43_Library",
    "C43_LibTable",
    "C43_Constraint",
    "C43_Rule",
    "C43_SyArc",
    "C43_SyCircle",
    "C43_SyPolyLine",
    "C43_SyRect",
    "C43_SyText",
    "C43_SyTextBox",
    "C43_SymbolAlternativePin",
    "C43_SymbolPin",
    "C43_Symbol",
    "C43_SymbolLib",
    "C43_FpText",
    "C43_FpLine",
    "C43_FpRect",
    "C43_FpCircle",
    "C43_FpArc",
    "C43_FpPoly",
    "C43_FpCurve",
    "C43_FpTextBox",
    "C43_GrText",
    "C43_GrLine",
    "C43_GrRect",
    "C43_GrCircle",
    "C43_GrArc",
    "C43_GrPoly",
    "C43_GrCurve",
    "C43_GrTextBox",
    "C43_KeepoutSettings",
    "C43_FillSettings",
    "C43_ZonePolygon",
    "C43_FilledPolygon",
    "C43_FillSegments",
    "C43_Zone",
    "C43_Attributes",
    "C43_Model",
    "C43_DrillDefinition",
    "C43_PadOptions",
    "C43_Pad",
    "C43_Footprint",
    "C43_DimensionFormat",
    "C43_DimensionStyle",
    "C43_Dimension",
    "C43_GeneralSettings",
    "C43_LayerToken",
    "C43_StackupLayer",
    "C43_Stackup",
    "C43_PlotSettings",
    "C43_SetupData",
    "C43_Segment",
    "C43_Via",
    "C43_Arc",
    "C43_Target",
    "C43_Board",
    "C43_Junction",
    "C43_NoConnect",
    "C43_BusEntry",
    "C43_BusAlias",
    "C43_Connection",
    "C43_PolyLine",
    "C43_Text",
    "C43_TextBox",
    "C43_LocalLabel",
    "C43_GlobalLabel",
    "C43_HierarchicalLabel",
    "C43_SymbolProjectPath",
    "C43_SymbolProjectInstance",
    "C43_SchematicSymbol",
    "C43_HierarchicalPin",
    "C43_HierarchicalSheetProjectPath",
    "C43_HierarchicalSheetProjectInstance",
    "C43_HierarchicalSheet",
    "C43_HierarchicalSheetInstance",
    "C43_SymbolInstance",
    "C43_Rectangle",
    "C43_SchArc",
    "C43_Circle",
    "C43_NetclassFlag",
    "C43_Schematic",
    "C43_WksFontSize",
    "C43_WksFont",
    "C43_Line",
    "C43_Rect",
    "C43_Bitmap",
    "C43_TbText",
    "C43_TextSize",
    "C43_Setup",
    "C43_WorkSheet",
    "C43_Rule_refuted",
    "C43_ZonePolygon_refuted",
    "C43_FilledPolygon_refuted",
    "C43_FillSegments_refuted"
   ],
   "note": "Not stated: SyCurve (writes no opening parenthesis, see C12), StackupSubLayer and DesignRules (not one expression by design), WksPosition and Polygon (raise NotImplementedError)."
  },
  {
   "property": "C44",
   "status": "proved",
   "theorems": [
    "C44_Coordinate",
    "C44_ColorRGBA",
    "C44_Net",
    "C44_Group",
    "C44_Property",
    "C44_RenderCache",
    "C44_LibTable",
    "C44_Constraint",
    "C44_Rule",
    "C44_SyText",
    "C44_SymbolAlternativePin",
    "C44_SymbolPin",
    "C44_FpText",
    "C44_GrText",
    "C44_Model",
    "C44_Pad",
    "C44_LayerToken",
    "C44_Target",
    "C44_BusAlias",
    "C44_Connection",
    "C44_Text",
    "C44_TextBox",
    "C44_LocalLabel",
    "C44_GlobalLabel",
    "C44_HierarchicalLabel",
    "C44_SymbolProjectPath",
    "C44_SymbolProjectInstance",
    "C44_HierarchicalPin",
    "C44_HierarchicalSheetProjectPath",
    "C44_HierarchicalSheetProjectInstance",
    "C44_HierarchicalSheetInstance",
    "C44_SymbolInstance",
    "C44_NetclassFlag",
    "C44_WksFontSize",
    "C44_WksPosition",
    "C44_TbText",
    "C44_TextSize",
    "C44_Position",
    "C44_PageSettings",
    "C44_LayerToken_user",
    "C44_WksPosition_corner",
    "C44_FpTextBox",
    "C44_GrTextBox",
    "C44_SyTextBox",
    "C44_DrillDefinition",
    "C44_Attributes",
    "C44_StackupLayer",
    "C44_Model_hide",
    "C44_Symbol",
    "C44_Footprint"
   ],
   "note": "61 attributes without condition, and those of Position, PageSettings, LayerToken, WksPosition, DrillDefinition, Attributes, Model and the text boxes that depend on what stands there. Identifiers in the sense of S_Id.v."
  },
  {
   "property": "C45",
   "status": "proved",
   "theorems": [
    "C45_Position",
    "C45_Font",
    "C45_Justify",
    "C45_Effects",
    "C45_Group",
    "C45_PageSettings",
    "C45_Property",
    "C45_SyArc",
    "C45_SyCircle",
    "C45_SyRect",
    "C45_SymbolPin",
    "C45_FpLine",
    "C45_FpRect",
    "C45_FpCircle",
    "C45_FpArc",
    "C45_FpPoly",
    "C45_FpCurve",
    "C45_GrLine",
    "C45_GrRect",
    "C45_GrCircle",
    "C45_GrArc",
    "C45_GrPoly",
    "C45_GrCurve",
    "C45_FillSettings",
    "C45_FilledPolygon",
    "C45_Zone",
    "C45_Attributes",
    "C45_Pad",
    "C45_DimensionFormat",
    "C45_DimensionStyle",
    "C45_Dimension",
    "C45_Stackup",
    "C45_Segment",
    "C45_Via",
    "C45_Arc",
    "C45_LocalLabel",
    "C45_GlobalLabel",
    "C45_HierarchicalLabel",
    "C45_SchematicSymbol",
    "C45_HierarchicalSheet",
    "C45_NetclassFlag",
    "C45_WksFont",
    "C45_Footprint",
    "C45_Symbol",
    "C45_FpText",
    "C45_GrText"
   ],
   "note": "63 flags; exactly, for every accepted expression."
  },
  {
   "property": "C46",
   "status": "proved",
   "theorems": [
    "C46_LibTable_load",
    "C46_LibTable_save",
    "C46_WorkSheet_load",
    "C46_WorkSheet_save",
    "C46_Board_load",
    "C46_Board_save",
    "C46_SymbolLib_load",
    "C46_SymbolLib_save",
    "C46_Schematic_load",
    "C46_Schematic_save",
    "C46_DesignRules_load",
    "C46_DesignRules_save",
    "C46_Footprint_load",
    "C46_Footprint_save"
   ],
   "note": "line breaks are those of Python's universal newline mode; DesignRules puts the text into brackets, Footprint does not remember the path"
  },
  {
   "property": "C47",
   "status": "proved",
   "theorems": [
    "C47_Coordinate",
    "C47_ColorRGBA",
    "C47_Stroke",
    "C47_Font",
    "C47_Justify",
    "C47_Effects",
    "C47_Net",
    "C47_Group",
    "C47_PageSettings",
    "C47_TitleBlock",
    "C47_Property",
    "C47_RenderCachePolygon",
    "C47_RenderCache",
    "C47_Fill",
    "C47_Image",
    "C47_Library",
    "C47_LibTable",
    "C47_Constraint",
    "C47_Rule",
    "C47_DesignRules",
    "C47_SyArc",
    "C47_SyCircle",
    "C47_SyCurve",
    "C47_SyPolyLine",
    "C47_SyRect",
    "C47_SyText",
    "C47_SyTextBox",
    "C47_SymbolAlternativePin",
    "C47_SymbolPin",
    "C47_SyItem",
    "C47_Symbol",
    "C47_SymbolLib",
    "C47_FpText",
    "C47_FpLine",
    "C47_FpRect",
    "C47_FpCircle",
    "C47_FpArc",
    "C47_FpPoly",
    "C47_FpCurve",
    "C47_FpTextBox",
    "C47_GrText",
    "C47_GrLine",
    "C47_GrRect",
    "C47_GrCircle",
    "C47_GrArc",
    "C47_GrPoly",
    "C47_GrCurve",
    "C47_GrTextBox",
    "C47_KeepoutSettings",
    "C47_FillSettings",
    "C47_ZonePolygon",
    "C47_FilledPolygon",
    "C47_FillSegments",
    "C47_Zone",
    "C47_Attributes",
    "C47_Model",
    "C47_DrillDefinition",
    "C47_PadOptions",
    "C47_PadPrimitive",
    "C47_Pad",
    "C47_FpItem",
    "C47_Footprint",
    "C47_Footprint_in_board",
    "C47_DimensionFormat",
    "C47_DimensionStyle",
    "C47_Dimension",
    "C47_GeneralSettings",
    "C47_LayerToken",
    "C47_StackupSubLayer",
    "C47_StackupLayer",
    "C47_Stackup",
    "C47_PlotSettings",
    "C47_SetupData",
    "C47_Segment",
    "C47_Via",
    "C47_Arc",
    "C47_Target",
    "C47_BdItem",
    "C47_TrItem",
    "C47_Board",
    "C47_Junction",
    "C47_NoConnect",
    "C47_BusEntry",
    "C47_BusAlias",
    "C47_Connection",
    "C47_PolyLine",
    "C47_Text",
    "C47_TextBox",
    "C47_LocalLabel",
    "C47_GlobalLabel",
    "C47_HierarchicalLabel",
    "C47_SymbolProjectPath",
    "C47_SymbolProjectInstance",
    "C47_SchematicSymbol",
    "C47_HierarchicalPin",
    "C47_HierarchicalSheetProjectPath",
    "C47_HierarchicalSheetProjectInstance",
    "C47_HierarchicalSheet",
    "C47_HierarchicalSheetInstance",
    "C47_SymbolInstance",
    "C47_Rectangle",
    "C47_SchArc",
    "C47_Circle",
    "C47_NetclassFlag",
    "C47_ScLine",
    "C47_ScShape",
    "C47_Schematic",
    "C47_WksFontSize",
    "C47_WksFont",
    "C47_WksPosition",
    "C47_Line",
    "C47_Rect",
    "C47_Polygon",
    "C47_Bitmap",
    "C47_TbText",
    "C47_TextSize",
    "C47_Setup",
    "C47_WkItem",
    "C47_WorkSheet"
   ],
   "note": "one theorem per class; sharp bound 2^1024 - 2^970 for integers written with fixed digits; Python's limits on the number of digits of an int turned into text and on the recursion depth are not modelled"
  },
  {
   "property": "C48",
   "status": "proved",
   "theorems": [
    "C48_Position",
    "C48_Coordinate",
    "C48_ColorRGBA",
    "C48_Stroke",
    "C48_Font",
    "C48_Justify",
    "C48_Effects",
    "C48_Net",
    "C48_Group",
    "C48_PageSettings",
    "C48_TitleBlock",
    "C48_Property",
    "C48_RenderCachePolygon",
    "C48_RenderCache",
    "C48_Fill",
    "C48_Image",
    "C48_Library",
    "C48_LibTable",
    "C48_Constraint",
    "C48_Rule",
    "C48_DesignRules",
    "C48_SyArc",
    "C48_SyCircle",
    "C48_SyCurve",
    "C48_SyPolyLine",
    "C48_SyRect",
    "C48_SyText",
    "C48_SyTextBox",
    "C48_SymbolAlternativePin",
    "C48_SymbolPin",
    "C48_Symbol",
    "C48_SymbolLib",
    "C48_FpText",
    "C48_FpLine",
    "C48_FpRect",
    "C48_FpTextBox",
    "C48_FpCircle",
    "C48_FpArc",
    "C48_FpPoly",
    "C48_FpCurve",
    "C48_GrText",
    "C48_GrTextBox",
    "C48_GrLine",
    "C48_GrRect",
    "C48_GrCircle",
    "C48_GrArc",
    "C48_GrPoly",
    "C48_GrCurve",
    "C48_KeepoutSettings",
    "C48_FillSettings",
    "C48_ZonePolygon",
    "C48_FilledPolygon",
    "C48_FillSegments",
    "C48_Zone",
    "C48_Attributes",
    "C48_Model",
    "C48_DrillDefinition",
    "C48_PadOptions",
    "C48_Pad",
    "C48_Footprint",
    "C48_DimensionFormat",
    "C48_DimensionStyle",
    "C48_Dimension",
    "C48_GeneralSettings",
    "C48_LayerToken",
    "C48_StackupSubLayer",
    "C48_StackupLayer",
    "C48_Stackup",
    "C48_PlotSettings",
    "C48_SetupData",
    "C48_Segment",
    "C48_Via",
    "C48_Arc",
    "C48_Target",
    "C48_Board",
    "C48_Junction",
    "C48_NoConnect",
    "C48_BusEntry",
    "C48_BusAlias",
    "C48_Connection",
    "C48_PolyLine",
    "C48_Text",
    "C48_TextBox",
    "C48_LocalLabel",
    "C48_GlobalLabel",
    "C48_HierarchicalLabel",
    "C48_SymbolProjectPath",
    "C48_SymbolProjectInstance",
    "C48_SchematicSymbol",
    "C48_HierarchicalPin",
    "C48_HierarchicalSheetProjectPath",
    "C48_HierarchicalSheetProjectInstance",
    "C48_HierarchicalSheet",
    "C48_HierarchicalSheetInstance",
    "C48_SymbolInstance",
    "C48_Rectangle",
    "C48_SchArc",
    "C48_Circle",
    "C48_NetclassFlag",
    "C48_Schematic",
    "C48_WksFontSize",
    "C48_WksFont",
    "C48_WksPosition",
    "C48_Line",
    "C48_Rect",
    "C48_Polygon",
    "C48_Bitmap",
    "C48_TbText",
    "C48_TextSize",
    "C48_Setup",
    "C48_WorkSheet"
   ],
   "note": "one theorem per class; the tables of heads were extracted from the text of from_sexpr by a script that does not look at the model; Python's recursion limit is not modelled"
  },
  {
   "property": "C49",
   "status": "proved",
   "theorems": [
    "C49_Position",
    "C49_Coordinate",
    "C49_ColorRGBA",
    "C49_Stroke",
    "C49_Font",
    "C49_Justify",
    "C49_Effects",
    "C49_Net",
    "C49_Group",
    "C49_PageSettings",
    "C49_TitleBlock",
    "C49_Property",
    "C49_RenderCachePolygon",
    "C49_RenderCache",
    "C49_Fill",
    "C49_Image",
    "C49_Library",
    "C49_LibTable",
    "C49_Constraint",
    "C49_Rule",
    "C49_DesignRules",
    "C49_SyArc",
    "C49_SyCircle",
    "C49_SyCurve",
    "C49_SyPolyLine",
    "C49_SyRect",
    "C49_SyText",
    "C49_SyTextBox",
    "C49_SymbolAlternativePin",
    "C49_SymbolPin",
    "C49_Symbol",
    "C49_SymbolLib",
    "C49_FpText",
    "C49_FpLine",
    "C49_FpRect",
    "C49_FpTextBox",
    "C49_FpCircle",
    "C49_FpArc",
    "C49_FpPoly",
    "C49_FpCurve",
    "C49_GrText",
    "C49_GrTextBox",
    "C49_GrLine",
    "C49_GrRect",
    "C49_GrCircle",
    "C49_GrArc",
    "C49_GrPoly",
    "C49_GrCurve",
    "C49_KeepoutSettings",
    "C49_FillSettings",
    "C49_ZonePolygon",
    "C49_FilledPolygon",
    "C49_FillSegments",
    "C49_Zone",
    "C49_Attributes",
    "C49_Model",
    "C49_DrillDefinition",
    "C49_PadOptions",
    "C49_Pad",
    "C49_Footprint",
    "C49_DimensionFormat",
    "C49_DimensionStyle",
    "C49_Dimension",
    "C49_GeneralSettings",
    "C49_LayerToken",
    "C49_StackupSubLayer",
    "C49_StackupLayer",
    "C49_Stackup",
    "C49_PlotSettings",
    "C49_SetupData",
    "C49_Segment",
    "C49_Via",
    "C49_Arc",
    "C49_Target",
    "C49_Board",
    "C49_Junction",
    "C49_NoConnect",
    "C49_BusEntry",
    "C49_BusAlias",
    "C49_Connection",
    "C49_PolyLine",
    "C49_Text",
    "C49_TextBox",
    "C49_LocalLabel",
    "C49_GlobalLabel",
    "C49_HierarchicalLabel",
    "C49_SymbolProjectPath",
    "C49_SymbolProjectInstance",
    "C49_SchematicSymbol",
    "C49_HierarchicalPin",
    "C49_HierarchicalSheetProjectPath",
    "C49_HierarchicalSheetProjectInstance",
    "C49_HierarchicalSheet",
    "C49_HierarchicalSheetInstance",
    "C49_SymbolInstance",
    "C49_Rectangle",
    "C49_SchArc",
    "C49_Circle",
    "C49_NetclassFlag",
    "C49_Schematic",
    "C49_WksFontSize",
    "C49_WksFont",
    "C49_WksPosition",
    "C49_Line",
    "C49_Rect",
    "C49_Polygon",
    "C49_Bitmap",
    "C49_TbText",
    "C49_TextSize",
    "C49_Setup",
    "C49_WorkSheet"
   ],
   "note": "one theorem per class, X_from v = Err e <-> X_raises v = Some e; the exception's message and the exceptions of Python itself (recursion, memory) are not modelled"
  },
  {
   "property": "C50",
   "status": "proved",
   "theorems": [
    "C50_Coordinate",
    "C50_ColorRGBA",
    "C50_Stroke",
    "C50_Font",
    "C50_Justify",
    "C50_Justify_refuted",
    "C50_Effects",
    "C50_Net",
    "C50_Group",
    "C50_PageSettings",
    "C50_TitleBlock",
    "C50_Property",
    "C50_RenderCachePolygon_refuted",
    "C50_RenderCache_refuted",
    "C50_Fill",
    "C50_Image",
    "C50_Library_refuted",
    "C50_LibTable_refuted",
    "C50_Constraint",
    "C50_Rule",
    "C50_Rule_refuted",
    "C50_DesignRules",
    "C50_DesignRules_refuted",
    "C50_SyArc",
    "C50_SyCircle",
    "C50_SyCurve_refuted",
    "C50_SyPolyLine",
    "C50_SyRect",
    "C50_SyText",
    "C50_SyTextBox",
    "C50_SymbolAlternativePin",
    "C50_SymbolPin",
    "C50_SyItem",
    "C50_Symbol",
    "C50_SymbolLib",
    "C50_SymbolLib_refuted",
    "C50_FpText",
    "C50_FpText_refuted",
    "C50_FpLine",
    "C50_FpRect",
    "C50_FpCircle",
    "C50_FpArc",
    "C50_FpPoly",
    "C50_FpCurve_refuted",
    "C50_FpTextBox",
    "C50_FpTextBox_refuted",
    "C50_GrText",
    "C50_GrText_refuted",
    "C50_GrLine",
    "C50_GrRect",
    "C50_GrCircle",
    "C50_GrArc",
    "C50_GrPoly",
    "C50_GrCurve_refuted",
    "C50_GrTextBox",
    "C50_GrTextBox_refuted",
    "C50_KeepoutSettings_refuted",
    "C50_FillSettings",
    "C50_ZonePolygon",
    "C50_ZonePolygon_refuted",
    "C50_FilledPolygon",
    "C50_FilledPolygon_refuted",
    "C50_FillSegments",
    "C50_FillSegments_refuted",
    "C50_Zone",
    "C50_Zone_refuted",
    "C50_Attributes",
    "C50_Attributes_refuted",
    "C50_Model",
    "C50_DrillDefinition",
    "C50_PadOptions",
    "C50_PadPrimitive",
    "C50_Pad",
    "C50_Pad_refuted",
    "C50_FpItem",
    "C50_Footprint",
    "C50_Footprint_refuted",
    "C50_DimensionFormat",
    "C50_DimensionStyle",
    "C50_Dimension",
    "C50_Dimension_refuted",
    "C50_GeneralSettings",
    "C50_LayerToken",
    "C50_StackupSubLayer",
    "C50_StackupLayer",
    "C50_Stackup",
    "C50_PlotSettings",
    "C50_SetupData",
    "C50_Segment",
    "C50_Via",
    "C50_Arc",
    "C50_Target",
    "C50_BdItem",
    "C50_TrItem",
    "C50_Board",
    "C50_Board_refuted",
    "C50_Junction",
    "C50_Junction_refuted",
    "C50_NoConnect",
    "C50_BusEntry",
    "C50_BusAlias",
    "C50_BusAlias_refuted",
    "C50_Connection",
    "C50_PolyLine",
    "C50_Text",
    "C50_TextBox",
    "C50_LocalLabel",
    "C50_GlobalLabel",
    "C50_HierarchicalLabel",
    "C50_SymbolProjectPath",
    "C50_SymbolProjectInstance",
    "C50_SchematicSymbol",
    "C50_HierarchicalPin",
    "C50_HierarchicalSheetProjectPath",
    "C50_HierarchicalSheetProjectInstance",
    "C50_HierarchicalSheet",
    "C50_HierarchicalSheetInstance",
    "C50_SymbolInstance",
    "C50_Rectangle",
    "C50_SchArc",
    "C50_Circle",
    "C50_NetclassFlag",
    "C50_ScLine",
    "C50_ScShape",
    "C50_Schematic",
    "C50_Schematic_refuted",
    "C50_WksFontSize",
    "C50_WksFont",
    "C50_WksFont_refuted",
    "C50_Line",
    "C50_Line_refuted",
    "C50_Rect",
    "C50_Rect_refuted",
    "C50_Bitmap_refuted",
    "C50_TbText",
    "C50_TbText_refuted",
    "C50_TextSize",
    "C50_Setup_refuted",
    "C50_WkItem_refuted",
    "C50_WorkSheet_refuted"
   ],
   "note": "one theorem per class; the classes that never keep the layout (render caches, library tables, curves, keep-out settings, bitmaps, worksheet setups and worksheets) and the attributes that break it are refuted by witnesses (_refuted); escapes in quotes are read like the tokeniser reads them"
  },
  {
   "property": "C51",
   "status": "proved",
   "theorems": [
    "C51_Coordinate",
    "C51_ColorRGBA",
    "C51_Stroke",
    "C51_Font",
    "C51_Justify",
    "C51_Effects",
    "C51_Net",
    "C51_Group",
    "C51_PageSettings",
    "C51_TitleBlock",
    "C51_Property",
    "C51_RenderCachePolygon",
    "C51_RenderCache",
    "C51_Fill",
    "C51_Image",
    "C51_Library",
    "C51_LibTable",
    "C51_Constraint",
    "C51_Rule",
    "C51_DesignRules",
    "C51_SyArc",
    "C51_SyCircle",
    "C51_SyPolyLine",
    "C51_SyRect",
    "C51_SyText",
    "C51_SyTextBox",
    "C51_SymbolAlternativePin",
    "C51_SymbolPin",
    "C51_SymbolLib",
    "C51_FpText",
    "C51_FpLine",
    "C51_FpRect",
    "C51_FpCircle",
    "C51_FpArc",
    "C51_FpPoly",
    "C51_FpCurve",
    "C51_FpTextBox",
    "C51_GrText",
    "C51_GrLine",
    "C51_GrRect",
    "C51_GrCircle",
    "C51_GrArc",
    "C51_GrPoly",
    "C51_GrCurve",
    "C51_GrTextBox",
    "C51_KeepoutSettings",
    "C51_FillSettings",
    "C51_ZonePolygon",
    "C51_FilledPolygon",
    "C51_FillSegments",
    "C51_Zone",
    "C51_Attributes",
    "C51_Model",
    "C51_DrillDefinition",
    "C51_PadOptions",
    "C51_Pad",
    "C51_Footprint",
    "C51_DimensionFormat",
    "C51_DimensionStyle",
    "C51_Dimension",
    "C51_GeneralSettings",
    "C51_LayerToken",
    "C51_StackupLayer",
    "C51_Stackup",
    "C51_PlotSettings",
    "C51_SetupData",
    "C51_Segment",
    "C51_Via",
    "C51_Arc",
    "C51_Target",
    "C51_Board",
    "C51_Junction",
    "C51_NoConnect",
    "C51_BusEntry",
    "C51_BusAlias",
    "C51_Connection",
    "C51_PolyLine",
    "C51_Text",
    "C51_TextBox",
    "C51_LocalLabel",
    "C51_GlobalLabel",
    "C51_HierarchicalLabel",
    "C51_SymbolProjectPath",
    "C51_SymbolProjectInstance",
    "C51_SchematicSymbol",
    "C51_HierarchicalPin",
    "C51_HierarchicalSheetProjectPath",
    "C51_HierarchicalSheetProjectInstance",
    "C51_HierarchicalSheet",
    "C51_HierarchicalSheetInstance",
    "C51_SymbolInstance",
    "C51_Rectangle",
    "C51_SchArc",
    "C51_Circle",
    "C51_NetclassFlag",
    "C51_Schematic",
    "C51_WksFontSize",
    "C51_WksFont",
    "C51_Line",
    "C51_Rect",
    "C51_Bitmap",
    "C51_TbText",
    "C51_TextSize",
    "C51_Setup",
    "C51_WorkSheet",
    "C51_Symbol",
    "C51_Group_refuted",
    "C51_SymbolLib_refuted",
    "C51_FpLine_refuted",
    "C51_FpPoly_refuted",
    "C51_FpCurve_refuted",
    "C51_FpTextBox_refuted",
    "C51_GrPoly_refuted",
    "C51_GrCurve_refuted",
    "C51_GrTextBox_refuted",
    "C51_FillSettings_refuted",
    "C51_ZonePolygon_refuted",
    "C51_FilledPolygon_refuted",
    "C51_FillSegments_refuted",
    "C51_Zone_refuted",
    "C51_DrillDefinition_refuted",
    "C51_Footprint_refuted",
    "C51_Dimension_refuted",
    "C51_PlotSettings_refuted",
    "C51_SetupData_refuted",
    "C51_Segment_refuted",
    "C51_Target_refuted",
    "C51_TbText_refuted",
    "C51_WorkSheet_refuted",
    "C51_Justify_refuted",
    "C51_Attributes_refuted",
    "C51_WksFont_refuted",
    "C51_Net_refuted",
    "C51_Junction_refuted",
    "C51_HierarchicalSheet_refuted",
    "C51_NetclassFlag_refuted",
    "C51_Schematic_refuted",
    "C51_GrText_refuted",
    "C51_SchematicSymbol_refuted",
    "C51_Pad_refuted",
    "C51_Board_refuted"
   ],
   "note": "one theorem per class; the necessary conditions on the object are explicit (X_whole) and the losses behind them shown by texts (_refuted); SyCurve and WksPosition have no round trip and no theorem"
  },
  {
   "property": "C52",
   "status": "proved",
   "theorems": [
    "C52_Position",
    "C52_Coordinate",
    "C52_ColorRGBA",
    "C52_Stroke",
    "C52_Font",
    "C52_Justify",
    "C52_Effects",
    "C52_Net",
    "C52_Group",
    "C52_PageSettings",
    "C52_TitleBlock",
    "C52_Property",
    "C52_RenderCachePolygon",
    "C52_RenderCache",
    "C52_Fill",
    "C52_Image",
    "C52_Library",
    "C52_LibTable",
    "C52_Constraint",
    "C52_Rule",
    "C52_DesignRules",
    "C52_SyArc",
    "C52_SyCircle",
    "C52_SyCurve",
    "C52_SyPolyLine",
    "C52_SyRect",
    "C52_SyText",
    "C52_SyTextBox",
    "C52_SymbolAlternativePin",
    "C52_SymbolPin",
    "C52_SyItem",
    "C52_Symbol",
    "C52_SymbolLib",
    "C52_FpText",
    "C52_FpLine",
    "C52_FpRect",
    "C52_FpCircle",
    "C52_FpArc",
    "C52_FpPoly",
    "C52_FpCurve",
    "C52_FpTextBox",
    "C52_GrText",
    "C52_GrLine",
    "C52_GrRect",
    "C52_GrCircle",
    "C52_GrArc",
    "C52_GrPoly",
    "C52_GrCurve",
    "C52_GrTextBox",
    "C52_KeepoutSettings",
    "C52_FillSettings",
    "C52_ZonePolygon",
    "C52_FilledPolygon",
    "C52_FillSegments",
    "C52_Hatch",
    "C52_Zone",
    "C52_Attributes",
    "C52_Model",
    "C52_DrillDefinition",
    "C52_PadOptions",
    "C52_PadPrimitive",
    "C52_Pad",
    "C52_FpItem",
    "C52_Footprint",
    "C52_DimensionFormat",
    "C52_DimensionStyle",
    "C52_Dimension",
    "C52_GeneralSettings",
    "C52_LayerToken",
    "C52_StackupSubLayer",
    "C52_StackupLayer",
    "C52_Stackup",
    "C52_PlotSettings",
    "C52_SetupData",
    "C52_Segment",
    "C52_Via",
    "C52_Arc",
    "C52_Target",
    "C52_BdItem",
    "C52_TrItem",
    "C52_Board",
    "C52_JColor",
    "C52_Junction",
    "C52_NoConnect",
    "C52_BusEntry",
    "C52_BusAlias",
    "C52_Connection",
    "C52_PolyLine",
    "C52_Text",
    "C52_TextBox",
    "C52_LocalLabel",
    "C52_GlobalLabel",
    "C52_HierarchicalLabel",
    "C52_SymbolProjectPath",
    "C52_SymbolProjectInstance",
    "C52_SchematicSymbol",
    "C52_HierarchicalPin",
    "C52_HierarchicalSheetProjectPath",
    "C52_HierarchicalSheetProjectInstance",
    "C52_HierarchicalSheet",
    "C52_HierarchicalSheetInstance",
    "C52_SymbolInstance",
    "C52_Rectangle",
    "C52_SchArc",
    "C52_Circle",
    "C52_NetclassFlag",
    "C52_ScLine",
    "C52_ScShape",
    "C52_Schematic",
    "C52_WksFontSize",
    "C52_WksFont",
    "C52_WksPosition",
    "C52_Line",
    "C52_Rect",
    "C52_Polygon",
    "C52_Bitmap",
    "C52_TbText",
    "C52_TextSize",
    "C52_Setup",
    "C52_WkItem",
    "C52_WorkSheet"
   ],
   "note": "one theorem per class; dictionaries are compared with their order, floats have no NaN"
  },
  {
   "property": "C53",
   "status": "proved",
   "theorems": [
    "C53_Coordinate",
    "C53_ColorRGBA",
    "C53_Stroke",
    "C53_Font",
    "C53_Justify",
    "C53_Effects",
    "C53_Net",
    "C53_Group",
    "C53_PageSettings",
    "C53_TitleBlock",
    "C53_Property",
    "C53_RenderCachePolygon",
    "C53_RenderCache",
    "C53_Fill",
    "C53_Image",
    "C53_Library",
    "C53_LibTable",
    "C53_Constraint",
    "C53_Rule",
    "C53_DesignRules",
    "C53_SyArc",
    "C53_SyCircle",
    "C53_SyPolyLine",
    "C53_SyRect",
    "C53_SyText",
    "C53_SyTextBox",
    "C53_SymbolAlternativePin",
    "C53_SymbolPin",
    "C53_Symbol",
    "C53_SymbolLib",
    "C53_FpText",
    "C53_FpLine",
    "C53_FpRect",
    "C53_FpCircle",
    "C53_FpArc",
    "C53_FpPoly",
    "C53_FpCurve",
    "C53_FpTextBox",
    "C53_GrText",
    "C53_GrLine",
    "C53_GrRect",
    "C53_GrCircle",
    "C53_GrArc",
    "C53_GrPoly",
    "C53_GrCurve",
    "C53_GrTextBox",
    "C53_KeepoutSettings",
    "C53_FillSettings",
    "C53_ZonePolygon",
    "C53_FilledPolygon",
    "C53_FillSegments",
    "C53_Zone",
    "C53_Attributes",
    "C53_Model",
    "C53_DrillDefinition",
    "C53_PadOptions",
    "C53_Pad",
    "C53_Footprint",
    "C53_DimensionFormat",
    "C53_DimensionStyle",
    "C53_Dimension",
    "C53_GeneralSettings",
    "C53_LayerToken",
    "C53_StackupLayer",
    "C53_Stackup",
    "C53_PlotSettings",
    "C53_SetupData",
    "C53_Segment",
    "C53_Via",
    "C53_Arc",
    "C53_Target",
    "C53_Board",
    "C53_Junction",
    "C53_NoConnect",
    "C53_BusEntry",
    "C53_BusAlias",
    "C53_Connection",
    "C53_PolyLine",
    "C53_Text",
    "C53_TextBox",
    "C53_LocalLabel",
    "C53_GlobalLabel",
    "C53_HierarchicalLabel",
    "C53_SymbolProjectPath",
    "C53_SymbolProjectInstance",
    "C53_SchematicSymbol",
    "C53_HierarchicalPin",
    "C53_HierarchicalSheetProjectPath",
    "C53_HierarchicalSheetProjectInstance",
    "C53_HierarchicalSheet",
    "C53_HierarchicalSheetInstance",
    "C53_SymbolInstance",
    "C53_Rectangle",
    "C53_SchArc",
    "C53_Circle",
    "C53_NetclassFlag",
    "C53_Schematic",
    "C53_WksFontSize",
    "C53_WksFont",
    "C53_Line",
    "C53_Rect",
    "C53_Bitmap",
    "C53_TbText",
    "C53_TextSize",
    "C53_Setup",
    "C53_WorkSheet"
   ],
   "note": "one theorem per class with a round trip (not SyCurve and WksPosition)"
  },
  {
   "property": "C54",
   "status": "proved",
   "theorems": [
    "C54_Coordinate",
    "C54_ColorRGBA",
    "C54_Stroke",
    "C54_Font",
    "C54_Justify",
    "C54_Effects",
    "C54_Net",
    "C54_Group",
    "C54_PageSettings",
    "C54_TitleBlock",
    "C54_Property",
    "C54_RenderCachePolygon",
    "C54_RenderCache",
    "C54_Fill",
    "C54_Image",
    "C54_Library",
    "C54_LibTable",
    "C54_Constraint",
    "C54_Rule",
    "C54_DesignRules",
    "C54_SyArc",
    "C54_SyCircle",
    "C54_SyPolyLine",
    "C54_SyRect",
    "C54_SyText",
    "C54_SyTextBox",
    "C54_SymbolAlternativePin",
    "C54_SymbolPin",
    "C54_Symbol",
    "C54_SymbolLib",
    "C54_FpText",
    "C54_FpLine",
    "C54_FpRect",
    "C54_FpCircle",
    "C54_FpArc",
    "C54_FpPoly",
    "C54_FpCurve",
    "C54_FpTextBox",
    "C54_GrText",
    "C54_GrLine",
    "C54_GrRect",
    "C54_GrCircle",
    "C54_GrArc",
    "C54_GrPoly",
    "C54_GrCurve",
    "C54_GrTextBox",
    "C54_KeepoutSettings",
    "C54_FillSettings",
    "C54_ZonePolygon",
    "C54_FilledPolygon",
    "C54_FillSegments",
    "C54_Zone",
    "C54_Attributes",
    "C54_Model",
    "C54_DrillDefinition",
    "C54_PadOptions",
    "C54_Pad",
    "C54_Footprint",
    "C54_FpLine_locked_refuted",
    "C54_GrText_locked_refuted",
    "C54_ColorRGBA_precision_refuted",
    "C54_DimensionFormat",
    "C54_DimensionStyle",
    "C54_Dimension",
    "C54_GeneralSettings",
    "C54_LayerToken",
    "C54_StackupLayer",
    "C54_Stackup",
    "C54_PlotSettings",
    "C54_SetupData",
    "C54_Segment",
    "C54_Via",
    "C54_Arc",
    "C54_Target",
    "C54_Board",
    "C54_Junction",
    "C54_NoConnect",
    "C54_BusEntry",
    "C54_BusAlias",
    "C54_Connection",
    "C54_PolyLine",
    "C54_Text",
    "C54_TextBox",
    "C54_LocalLabel",
    "C54_GlobalLabel",
    "C54_HierarchicalLabel",
    "C54_SymbolProjectPath",
    "C54_SymbolProjectInstance",
    "C54_SchematicSymbol",
    "C54_HierarchicalPin",
    "C54_HierarchicalSheetProjectPath",
    "C54_HierarchicalSheetProjectInstance",
    "C54_HierarchicalSheet",
    "C54_HierarchicalSheetInstance",
    "C54_SymbolInstance",
    "C54_Rectangle",
    "C54_SchArc",
    "C54_Circle",
    "C54_NetclassFlag",
    "C54_Schematic",
    "C54_WksFontSize",
    "C54_WksFont",
    "C54_Line",
    "C54_Rect",
    "C54_Bitmap",
    "C54_TbText",
    "C54_TextSize",
    "C54_Setup",
    "C54_WorkSheet",
    "C54_Dimension_locked_refuted",
    "C54_PlotSettings_useAuxOrigin_refuted"
   ],
   "note": "one theorem per class with a round trip; the attributes whose edit is lost (FpLine, GrText and Dimension locked, PlotSettings useAuxOrigin, ColorRGBA precision, GrLine angle) are refuted"
  },
  {
   "property": "C55",
   "status": "proved",
   "theorems": [
    "C55_Coordinate",
    "C55_ColorRGBA",
    "C55_Stroke",
    "C55_Font",
    "C55_Justify_refuted",
    "C55_Effects",
    "C55_Net",
    "C55_Group_refuted",
    "C55_PageSettings",
    "C55_TitleBlock",
    "C55_Property",
    "C55_RenderCachePolygon",
    "C55_RenderCache_refuted",
    "C55_Fill",
    "C55_Image",
    "C55_Library",
    "C55_LibTable",
    "C55_Constraint",
    "C55_Rule",
    "C55_DesignRules",
    "C55_SyArc",
    "C55_SyCircle",
    "C55_SyPolyLine",
    "C55_SyRect",
    "C55_SyText",
    "C55_SyTextBox",
    "C55_SymbolAlternativePin",
    "C55_SymbolPin",
    "C55_Symbol_refuted",
    "C55_SymbolLib_refuted",
    "C55_FpText",
    "C55_FpLine",
    "C55_FpRect",
    "C55_FpCircle",
    "C55_FpArc",
    "C55_FpPoly_refuted",
    "C55_FpCurve_refuted",
    "C55_FpTextBox_refuted",
    "C55_GrText",
    "C55_GrLine",
    "C55_GrRect",
    "C55_GrCircle",
    "C55_GrArc",
    "C55_GrPoly_refuted",
    "C55_GrCurve_refuted",
    "C55_GrTextBox_refuted",
    "C55_KeepoutSettings",
    "C55_FillSettings_refuted",
    "C55_ZonePolygon_refuted",
    "C55_FilledPolygon_refuted",
    "C55_FillSegments_refuted",
    "C55_Zone_refuted",
    "C55_Attributes_refuted",
    "C55_Model",
    "C55_DrillDefinition",
    "C55_PadOptions",
    "C55_Pad",
    "C55_Footprint_refuted",
    "C55_DimensionFormat",
    "C55_DimensionStyle",
    "C55_Dimension_refuted",
    "C55_GeneralSettings",
    "C55_LayerToken",
    "C55_StackupLayer",
    "C55_Stackup",
    "C55_PlotSettings_refuted",
    "C55_SetupData",
    "C55_Segment_refuted",
    "C55_Via",
    "C55_Arc",
    "C55_Target_refuted",
    "C55_Board_refuted",
    "C55_Junction",
    "C55_NoConnect",
    "C55_BusEntry",
    "C55_BusAlias",
    "C55_Connection",
    "C55_PolyLine",
    "C55_Text",
    "C55_TextBox",
    "C55_LocalLabel",
    "C55_GlobalLabel",
    "C55_HierarchicalLabel",
    "C55_SymbolProjectPath",
    "C55_SymbolProjectInstance",
    "C55_SchematicSymbol_refuted",
    "C55_HierarchicalPin",
    "C55_HierarchicalSheetProjectPath",
    "C55_HierarchicalSheetProjectInstance",
    "C55_HierarchicalSheet_refuted",
    "C55_HierarchicalSheetInstance",
    "C55_SymbolInstance",
    "C55_Rectangle",
    "C55_SchArc",
    "C55_Circle",
    "C55_NetclassFlag_refuted",
    "C55_Schematic_refuted",
    "C55_WksFontSize",
    "C55_WksFont_refuted",
    "C55_Line",
    "C55_Rect",
    "C55_Bitmap",
    "C55_TbText",
    "C55_TextSize",
    "C55_Setup",
    "C55_WorkSheet_refuted"
   ],
   "note": "77 classes come back equal, 29 do not (_refuted theorems, which say what happens instead)"
  },
  {
   "property": "C56",
   "status": "proved",
   "theorems": [
    "C56_Position",
    "C56_Coordinate",
    "C56_ColorRGBA",
    "C56_Stroke",
    "C56_Font",
    "C56_Justify",
    "C56_Effects",
    "C56_Net",
    "C56_Group",
    "C56_PageSettings",
    "C56_TitleBlock",
    "C56_Property",
    "C56_RenderCachePolygon",
    "C56_RenderCache",
    "C56_Fill",
    "C56_Image",
    "C56_Library",
    "C56_LibTable",
    "C56_Constraint",
    "C56_Rule",
    "C56_DesignRules",
    "C56_SyArc",
    "C56_SyCircle",
    "C56_SyCurve",
    "C56_SyPolyLine",
    "C56_SyRect",
    "C56_SyText",
    "C56_SyTextBox",
    "C56_SymbolAlternativePin",
    "C56_SymbolPin",
    "C56_Symbol",
    "C56_SymbolLib",
    "C56_FpText",
    "C56_FpLine",
    "C56_FpRect",
    "C56_FpCircle",
    "C56_FpArc",
    "C56_FpPoly",
    "C56_FpCurve",
    "C56_FpTextBox",
    "C56_GrText",
    "C56_GrLine",
    "C56_GrRect",
    "C56_GrCircle",
    "C56_GrArc",
    "C56_GrPoly",
    "C56_GrCurve",
    "C56_GrTextBox",
    "C56_KeepoutSettings",
    "C56_FillSettings",
    "C56_ZonePolygon",
    "C56_FilledPolygon",
    "C56_FillSegments",
    "C56_Hatch",
    "C56_Zone",
    "C56_Attributes",
    "C56_Model",
    "C56_DrillDefinition",
    "C56_PadOptions",
    "C56_Pad",
    "C56_Footprint",
    "C56_DimensionFormat",
    "C56_DimensionStyle",
    "C56_Dimension",
    "C56_GeneralSettings",
    "C56_LayerToken",
    "C56_StackupSubLayer",
    "C56_StackupLayer",
    "C56_Stackup",
    "C56_PlotSettings",
    "C56_SetupData",
    "C56_Segment",
    "C56_Via",
    "C56_Arc",
    "C56_Target",
    "C56_Board",
    "C56_Junction",
    "C56_NoConnect",
    "C56_BusEntry",
    "C56_BusAlias",
    "C56_Connection",
    "C56_PolyLine",
    "C56_Text",
    "C56_TextBox",
    "C56_LocalLabel",
    "C56_GlobalLabel",
    "C56_HierarchicalLabel",
    "C56_SymbolProjectPath",
    "C56_SymbolProjectInstance",
    "C56_SchematicSymbol",
    "C56_HierarchicalPin",
    "C56_HierarchicalSheetProjectPath",
    "C56_HierarchicalSheetProjectInstance",
    "C56_HierarchicalSheet",
    "C56_HierarchicalSheetInstance",
    "C56_SymbolInstance",
    "C56_Rectangle",
    "C56_SchArc",
    "C56_Circle",
    "C56_NetclassFlag",
    "C56_Schematic",
    "C56_WksFontSize",
    "C56_WksFont",
    "C56_WksPosition",
    "C56_Line",
    "C56_Rect",
    "C56_Polygon",
    "C56_Bitmap",
    "C56_TbText",
    "C56_TextSize",
    "C56_Setup",
    "C56_WorkSheet",
    "C56_SyItem",
    "C56_PadPrimitive",
    "C56_FpItem",
    "C56_BdItem",
    "C56_TrItem",
    "C56_JColor",
    "C56_ScLine",
    "C56_ScShape",
    "C56_WkItem"
   ],
   "note": "one theorem per class"
  },
  {
   "property": "C57",
   "status": "proved",
   "theorems": [
    "C57_Stroke",
    "C57_Font",
    "C57_Effects",
    "C57_Property",
    "C57_RenderCache",
    "C57_Fill",
    "C57_LibTable",
    "C57_Rule",
    "C57_DesignRules",
    "C57_SyArc",
    "C57_SyCircle",
    "C57_SyPolyLine",
    "C57_SyRect",
    "C57_SyText",
    "C57_SyTextBox",
    "C57_SymbolPin",
    "C57_Symbol",
    "C57_SymbolLib",
    "C57_FpText",
    "C57_FpTextBox",
    "C57_GrText",
    "C57_GrTextBox",
    "C57_Zone",
    "C57_Model",
    "C57_Pad",
    "C57_Footprint",
    "C57_Dimension",
    "C57_Stackup",
    "C57_SetupData",
    "C57_Board",
    "C57_BusEntry",
    "C57_Connection",
    "C57_PolyLine",
    "C57_Text",
    "C57_TextBox",
    "C57_LocalLabel",
    "C57_GlobalLabel",
    "C57_HierarchicalLabel",
    "C57_SymbolProjectInstance",
    "C57_SchematicSymbol",
    "C57_HierarchicalPin",
    "C57_HierarchicalSheetProjectInstance",
    "C57_HierarchicalSheet",
    "C57_Rectangle",
    "C57_SchArc",
    "C57_Circle",
    "C57_NetclassFlag",
    "C57_Schematic",
    "C57_Setup",
    "C57_WorkSheet",
    "C57_rename_net"
   ],
   "note": "one theorem per class that has parts, and C57_rename_net as an instance"
  },
  {
   "property": "C58",
   "status": "proved",
   "theorems": [
    "C58_Coordinate",
    "C58_ColorRGBA",
    "C58_Stroke",
    "C58_Font",
    "C58_Justify",
    "C58_Effects",
    "C58_Net",
    "C58_Group",
    "C58_PageSettings",
    "C58_TitleBlock",
    "C58_Property",
    "C58_RenderCachePolygon",
    "C58_RenderCache",
    "C58_Fill",
    "C58_Image",
    "C58_Library",
    "C58_LibTable",
    "C58_Constraint",
    "C58_Rule",
    "C58_DesignRules",
    "C58_SyArc",
    "C58_SyCircle",
    "C58_SyPolyLine",
    "C58_SyRect",
    "C58_SyText",
    "C58_SyTextBox",
    "C58_SymbolAlternativePin",
    "C58_SymbolPin",
    "C58_Symbol",
    "C58_SymbolLib",
    "C58_FpText",
    "C58_FpLine",
    "C58_FpRect",
    "C58_FpCircle",
    "C58_FpArc",
    "C58_FpPoly",
    "C58_FpCurve",
    "C58_FpTextBox",
    "C58_GrText",
    "C58_GrLine",
    "C58_GrRect",
    "C58_GrCircle",
    "C58_GrArc",
    "C58_GrPoly",
    "C58_GrCurve",
    "C58_GrTextBox",
    "C58_KeepoutSettings",
    "C58_FillSettings",
    "C58_ZonePolygon",
    "C58_FilledPolygon",
    "C58_FillSegments",
    "C58_Zone",
    "C58_Attributes",
    "C58_Model",
    "C58_DrillDefinition",
    "C58_PadOptions",
    "C58_Pad",
    "C58_DimensionFormat",
    "C58_DimensionStyle",
    "C58_Dimension",
    "C58_GeneralSettings",
    "C58_LayerToken",
    "C58_StackupLayer",
    "C58_Stackup",
    "C58_PlotSettings",
    "C58_SetupData",
    "C58_Segment",
    "C58_Via",
    "C58_Arc",
    "C58_Target",
    "C58_Junction",
    "C58_NoConnect",
    "C58_BusEntry",
    "C58_BusAlias",
    "C58_Connection",
    "C58_PolyLine",
    "C58_Text",
    "C58_TextBox",
    "C58_LocalLabel",
    "C58_GlobalLabel",
    "C58_HierarchicalLabel",
    "C58_SymbolProjectPath",
    "C58_SymbolProjectInstance",
    "C58_SchematicSymbol",
    "C58_HierarchicalPin",
    "C58_HierarchicalSheetProjectPath",
    "C58_HierarchicalSheetProjectInstance",
    "C58_HierarchicalSheet",
    "C58_HierarchicalSheetInstance",
    "C58_SymbolInstance",
    "C58_Rectangle",
    "C58_SchArc",
    "C58_Circle",
    "C58_NetclassFlag",
    "C58_Schematic",
    "C58_WksFontSize",
    "C58_WksFont",
    "C58_Line",
    "C58_Rect",
    "C58_Bitmap",
    "C58_TbText",
    "C58_TextSize",
    "C58_Setup",
    "C58_WorkSheet"
   ],
   "note": "one theorem per class with a round trip, on the text that is saved; C31 connects texts and files"
  }
 ]
}