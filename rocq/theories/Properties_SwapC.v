(** Order of the children of an expression (C29). The lists name the tokens that must keep their order among
    themselves; any two other neighbouring items may change places behind the positional arguments. Each [case]
    is an accepted expression with two such items. *)
From Verif Require Import PyBase PyNum PyStr Sexpr S_Leaf S_Tree S_Reader M_Common M_Lib M_Sym M_Fp M_Gr M_Zone M_Footprint M_Dim M_Brd M_Board.
From Verif Require L_SwapC.

Theorem C29_DimensionFormat : swaps DimensionFormat_from 0 [["suppress_zeroes"]; ["prefix"]; ["suffix"]; ["units"]; ["units_format"]; ["precision"]; ["override_value"]]%string.
Proof. exact L_SwapC.DimensionFormat_swap. Qed.
Print Assumptions C29_DimensionFormat.
Example C29_DimensionFormat_case : let x := VStr $"suppress_zeroes" in let y := node "override_value" [VStr $"a"] in
  (apart [["suppress_zeroes"]; ["prefix"]; ["suffix"]; ["units"]; ["units_format"]; ["precision"]; ["override_value"]]%string x y && accepts (DimensionFormat_from) (VList [VStr $"format"; node "zzz" [VInt 1]; x; y]))%bool = true.
Proof. vm_compute. reflexivity. Qed.

Theorem C29_DimensionStyle : swaps DimensionStyle_from 0 [["keep_text_aligned"]; ["thickness"]; ["arrow_length"]; ["text_position_mode"]; ["extension_height"]; ["text_frame"]; ["extension_offset"]]%string.
Proof. exact L_SwapC.DimensionStyle_swap. Qed.
Print Assumptions C29_DimensionStyle.
Example C29_DimensionStyle_case : let x := VStr $"keep_text_aligned" in let y := node "extension_offset" [VStr $"a"] in
  (apart [["keep_text_aligned"]; ["thickness"]; ["arrow_length"]; ["text_position_mode"]; ["extension_height"]; ["text_frame"]; ["extension_offset"]]%string x y && accepts (DimensionStyle_from) (VList [VStr $"style"; node "zzz" [VInt 1]; x; y]))%bool = true.
Proof. vm_compute. reflexivity. Qed.

Theorem C29_Dimension : swaps Dimension_from 0 [["locked"]; ["type"]; ["layer"]; ["tstamp"]; ["height"]; ["orientation"]; ["leader_length"]; ["gr_text"]; ["format"]; ["style"]; ["pts"]]%string.
Proof. exact L_SwapC.Dimension_swap. Qed.
Print Assumptions C29_Dimension.
Example C29_Dimension_case : let x := VStr $"locked" in let y := node "pts" [] in
  (apart [["locked"]; ["type"]; ["layer"]; ["tstamp"]; ["height"]; ["orientation"]; ["leader_length"]; ["gr_text"]; ["format"]; ["style"]; ["pts"]]%string x y && accepts (Dimension_from) (VList [VStr $"dimension"; node "zzz" [VInt 1]; x; y]))%bool = true.
Proof. vm_compute. reflexivity. Qed.

Theorem C29_GeneralSettings : swaps GeneralSettings_from 0 [["thickness"]]%string.
Proof. exact L_SwapC.GeneralSettings_swap. Qed.
Print Assumptions C29_GeneralSettings.
Example C29_GeneralSettings_case : let x := node "thickness" [VStr $"a"] in let y := node "zzz" [VInt 1] in
  (apart [["thickness"]]%string x y && accepts (GeneralSettings_from) (VList [VStr $"general"; node "zzz" [VInt 1]; x; y]))%bool = true.
Proof. vm_compute. reflexivity. Qed.

Theorem C29_StackupLayer : forall h before x y after o, 1 <= length before -> (is_list x && is_list y)%bool = true ->
  apart [["type"]; ["thickness"]; ["material"]; ["epsilon_r"]; ["loss_tangent"]; ["color"]]%string x y = true ->
  StackupLayer_from (VList (h :: before ++ x :: y :: after)) = Ok o -> StackupLayer_from (VList (h :: before ++ y :: x :: after)) = Ok o.
Proof. exact L_SwapC.StackupLayer_swap. Qed.
Print Assumptions C29_StackupLayer.
Example C29_StackupLayer_case : let x := node "type" [VStr $"copper"] in let y := node "thickness" [VInt 1] in
  (apart [["type"]; ["thickness"]; ["material"]; ["epsilon_r"]; ["loss_tangent"]; ["color"]]%string x y && accepts (StackupLayer_from) (VList [VStr $"layer"; VStr $"F.Cu"; x; y]))%bool = true.
Proof. vm_compute. reflexivity. Qed.

Theorem C29_Stackup : swaps Stackup_from 0 [["layer"]; ["copper_finish"]; ["dielectric_constraints"]; ["edge_connector"]; ["castellated_pads"]; ["edge_plating"]]%string.
Proof. exact L_SwapC.Stackup_swap. Qed.
Print Assumptions C29_Stackup.
Example C29_Stackup_case : let x := node "layer" [VStr $"a"] in let y := node "edge_plating" [VStr $"a"] in
  (apart [["layer"]; ["copper_finish"]; ["dielectric_constraints"]; ["edge_connector"]; ["castellated_pads"]; ["edge_plating"]]%string x y && accepts (Stackup_from) (VList [VStr $"stackup"; node "zzz" [VInt 1]; x; y]))%bool = true.
Proof. vm_compute. reflexivity. Qed.

Theorem C29_PlotSettings : swaps PlotSettings_from 0 [["layerselection"]; ["plot_on_all_layers_selection"]; ["disableapertmacros"]; ["usegerberextensions"]; ["usegerberattributes"]; ["usegerberadvancedattributes"]; ["creategerberjobfile"]; ["dashed_line_dash_ratio"]; ["dashed_line_gap_ratio"]; ["svguseinch"]; ["svgprecision"]; ["excludeedgelayer"]; ["plotframeref"]; ["viasonmask"]; ["mode"]; ["useauxorigin"]; ["hpglpennumber"]; ["hpglpenspeed"]; ["hpglpendiameter"]; ["dxfpolygonmode"]; ["dxfimperialunits"]; ["dxfusepcbnewfont"]; ["psnegative"]; ["psa4output"]; ["plotreference"]; ["plotvalue"]; ["plotinvisibletext"]; ["sketchpadsonfab"]; ["subtractmaskfromsilk"]; ["outputformat"]; ["mirror"]; ["drillshape"]; ["scaleselection"]; ["outputdirectory"]]%string.
Proof. exact L_SwapC.PlotSettings_swap. Qed.
Print Assumptions C29_PlotSettings.
Example C29_PlotSettings_case : let x := node "layerselection" [VStr $"a"] in let y := node "outputdirectory" [VStr $"a"] in
  (apart [["layerselection"]; ["plot_on_all_layers_selection"]; ["disableapertmacros"]; ["usegerberextensions"]; ["usegerberattributes"]; ["usegerberadvancedattributes"]; ["creategerberjobfile"]; ["dashed_line_dash_ratio"]; ["dashed_line_gap_ratio"]; ["svguseinch"]; ["svgprecision"]; ["excludeedgelayer"]; ["plotframeref"]; ["viasonmask"]; ["mode"]; ["useauxorigin"]; ["hpglpennumber"]; ["hpglpenspeed"]; ["hpglpendiameter"]; ["dxfpolygonmode"]; ["dxfimperialunits"]; ["dxfusepcbnewfont"]; ["psnegative"]; ["psa4output"]; ["plotreference"]; ["plotvalue"]; ["plotinvisibletext"]; ["sketchpadsonfab"]; ["subtractmaskfromsilk"]; ["outputformat"]; ["mirror"]; ["drillshape"]; ["scaleselection"]; ["outputdirectory"]]%string x y && accepts (PlotSettings_from) (VList [VStr $"pcbplotparams"; node "zzz" [VInt 1]; x; y]))%bool = true.
Proof. vm_compute. reflexivity. Qed.

Theorem C29_SetupData : swaps SetupData_from 0 [["stackup"]; ["pcbplotparams"]; ["pad_to_mask_clearance"]; ["solder_mask_min_width"]; ["pad_to_paste_clearance"]; ["pad_to_paste_clearance_ratio"]; ["aux_axis_origin"]; ["grid_origin"]]%string.
Proof. exact L_SwapC.SetupData_swap. Qed.
Print Assumptions C29_SetupData.
Example C29_SetupData_case : let x := node "stackup" [VStr $"a"] in let y := node "grid_origin" [VInt 1; VInt 2] in
  (apart [["stackup"]; ["pcbplotparams"]; ["pad_to_mask_clearance"]; ["solder_mask_min_width"]; ["pad_to_paste_clearance"]; ["pad_to_paste_clearance_ratio"]; ["aux_axis_origin"]; ["grid_origin"]]%string x y && accepts (SetupData_from) (VList [VStr $"setup"; node "zzz" [VInt 1]; x; y]))%bool = true.
Proof. vm_compute. reflexivity. Qed.

Theorem C29_Segment : swaps Segment_from 0 [["locked"]; ["start"]; ["end"]; ["width"]; ["layer"]; ["net"]; ["tstamp"]]%string.
Proof. exact L_SwapC.Segment_swap. Qed.
Print Assumptions C29_Segment.
Example C29_Segment_case : let x := VStr $"locked" in let y := node "tstamp" [VStr $"a"] in
  (apart [["locked"]; ["start"]; ["end"]; ["width"]; ["layer"]; ["net"]; ["tstamp"]]%string x y && accepts (Segment_from) (VList [VStr $"segment"; node "zzz" [VInt 1]; x; y]))%bool = true.
Proof. vm_compute. reflexivity. Qed.

Theorem C29_Via : swaps Via_from 0 [["locked"]; ["micro"; "blind"]; ["at"]; ["size"]; ["drill"]; ["layers"]; ["remove_unused_layers"]; ["keep_end_layers"]; ["free"]; ["net"]; ["tstamp"]]%string.
Proof. exact L_SwapC.Via_swap. Qed.
Print Assumptions C29_Via.
Example C29_Via_case : let x := VStr $"locked" in let y := node "tstamp" [VStr $"a"] in
  (apart [["locked"]; ["micro"; "blind"]; ["at"]; ["size"]; ["drill"]; ["layers"]; ["remove_unused_layers"]; ["keep_end_layers"]; ["free"]; ["net"]; ["tstamp"]]%string x y && accepts (Via_from) (VList [VStr $"via"; node "zzz" [VInt 1]; x; y]))%bool = true.
Proof. vm_compute. reflexivity. Qed.

Theorem C29_Arc : swaps Arc_from 0 [["locked"]; ["start"]; ["mid"]; ["end"]; ["width"]; ["layer"]; ["net"]; ["tstamp"]]%string.
Proof. exact L_SwapC.Arc_swap. Qed.
Print Assumptions C29_Arc.
Example C29_Arc_case : let x := VStr $"locked" in let y := node "tstamp" [VStr $"a"] in
  (apart [["locked"]; ["start"]; ["mid"]; ["end"]; ["width"]; ["layer"]; ["net"]; ["tstamp"]]%string x y && accepts (Arc_from) (VList [VStr $"arc"; node "zzz" [VInt 1]; x; y]))%bool = true.
Proof. vm_compute. reflexivity. Qed.

Theorem C29_Target : swaps Target_from 1 [["at"]; ["size"]; ["width"]; ["layer"]; ["tstamp"]]%string.
Proof. exact L_SwapC.Target_swap. Qed.
Print Assumptions C29_Target.
Example C29_Target_case : let x := node "at" [VInt 1; VInt 2] in let y := node "tstamp" [VStr $"a"] in
  (apart [["at"]; ["size"]; ["width"]; ["layer"]; ["tstamp"]]%string x y && accepts (Target_from) (VList [VStr $"target"; VStr $"F"; node "zzz" [VInt 1]; x; y]))%bool = true.
Proof. vm_compute. reflexivity. Qed.

Theorem C29_Board : forall now, swaps (Board_from now) 0 [["version"]; ["generator"]; ["general"]; ["paper"]; ["title_block"]; ["layers"]; ["setup"]; ["property"]; ["net"]; ["footprint"]; ["gr_text"; "gr_text_box"; "gr_line"; "gr_rect"; "gr_circle"; "gr_arc"; "gr_poly"; "gr_curve"; "image"]; ["dimension"]; ["target"]; ["segment"; "arc"; "via"]; ["zone"]; ["group"]]%string.
Proof. exact L_SwapC.Board_swap. Qed.
Print Assumptions C29_Board.
Example C29_Board_case : let x := node "version" [VStr $"a"] in let y := node "group" [VStr $"a"] in
  (apart [["version"]; ["generator"]; ["general"]; ["paper"]; ["title_block"]; ["layers"]; ["setup"]; ["property"]; ["net"]; ["footprint"]; ["gr_text"; "gr_text_box"; "gr_line"; "gr_rect"; "gr_circle"; "gr_arc"; "gr_poly"; "gr_curve"; "image"]; ["dimension"]; ["target"]; ["segment"; "arc"; "via"]; ["zone"]; ["group"]]%string x y && accepts (Board_from (VStr $"0")) (VList [VStr $"kicad_pcb"; node "zzz" [VInt 1]; x; y]))%bool = true.
Proof. vm_compute. reflexivity. Qed.
