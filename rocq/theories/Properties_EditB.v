(** * C54: edit, save, load

    One attribute of a printable object is set to a value that fits, the object is saved with any indentation
    and loaded again: the attribute has that value, and all others are as before.  And whatever number of
    such edits is made in whatever order, the result is saved and loaded without loss.  The attributes and
    the values that fit are listed in S_Edit.v.  Beside each theorem stands an object that fits itself in all
    attributes, and takes at least one different value from another object. *)
From Coq Require Import String.
From Verif Require Import PyBase PyNum PyStr Sexpr RecordSet S_Leaf S_Tree S_Fix S_Equal S_Edit L_Tac L_Equal L_EqualA L_Edit L_EditA L_EditB.
From Verif Require Import M_Common M_Lib M_Sym M_Fp M_Gr M_Zone M_Footprint M_Dim M_Brd M_Board M_Sch M_Schematic M_Wks.
From Verif Require Import S_Common S_Lib S_Sym S_Fp S_Gr S_Zone S_Footprint S_Dim S_Brd S_Board S_Sch S_Schematic S_Wks.
From Verif Require Import L_Common L_Lib L_Sym L_Symbol L_Fp L_Gr L_Zone L_Pad L_Footprint L_Dim L_Brd L_Plot L_Board L_Sch L_Sheet L_Schematic L_Wks.

Definition fits {A} (o : A) (e : edit A) : bool := match e with Edit get put fit alike => fit o (get o) end.
Definition takes {A} (o d : A) (e : edit A) : bool := match e with Edit get put fit alike => fit o (get d) && negb (alike (get o) (get d)) end.
Definition meets {A} (from : val -> res A) (ok : A -> bool) (es : list (edit A)) (d : A) (t : string) : bool :=
  match (let! v := parse_sexp (lit t) in from v) with Ok o => ok o && forallb (fits o) es && existsb (takes o d) es | Err _ => false end.
Arguments meets {A} _ _ _ _ _%string.

Theorem C54_DimensionFormat : editable DimensionFormat_to DimensionFormat_from DimensionFormat_ok DimensionFormat_eqb DimensionFormat_edits.
Proof. exact (edit_kept _ _ _ _ _ _ DimensionFormat_rt DimensionFormat_e). Qed.
Print Assumptions C54_DimensionFormat.
Example C54_DimensionFormat_case : meets DimensionFormat_from DimensionFormat_ok DimensionFormat_edits DimensionFormat_default "(format (prefix ""a \""("") (suffix ""mm"") (units 2) (units_format 0) (precision 7) (override_value ""1 \ 2"") suppress_zeroes)" = true.
Proof. vm_compute. reflexivity. Qed.

Theorem C54_DimensionStyle : editable DimensionStyle_to DimensionStyle_from DimensionStyle_ok DimensionStyle_eqb DimensionStyle_edits.
Proof. exact (edit_kept _ _ _ _ _ _ DimensionStyle_rt DimensionStyle_e). Qed.
Print Assumptions C54_DimensionStyle.
Example C54_DimensionStyle_case : meets DimensionStyle_from DimensionStyle_ok DimensionStyle_edits DimensionStyle_default "(style (thickness 0.15) (arrow_length 1.27) (text_position_mode 2) (extension_height 0.58642) (text_frame 3) (extension_offset 0.5) keep_text_aligned)" = true.
Proof. vm_compute. reflexivity. Qed.

Theorem C54_Dimension : editable Dimension_to Dimension_from Dimension_ok Dimension_eqb Dimension_edits.
Proof. exact (edit_kept _ _ _ _ _ _ Dimension_rt Dimension_e). Qed.
Print Assumptions C54_Dimension.
Example C54_Dimension_case : meets Dimension_from Dimension_ok Dimension_edits Dimension_default "(dimension (type orthogonal) (layer ""Dwgs.User (1)"") (tstamp 7c2f5ab1-44ff-4a1c-b96d-28f9f3a0fd1e)
  (pts (xy 2 3) (xy 0.1 0) (xy 2 3) (xy -1.5 7))
  (height -2.5)
  (orientation 1)
  (leader_length 2)
  (gr_text ""a \""(b)\"" \ c"" (at 1 2.5 90) (layer ""F.SilkS"" knockout) (tstamp 7c2f5ab1-44ff-4a1c-b96d-28f9f3a0fd1e)
    (effects (font (face ""A \""b\"" \c"") (size 1.27 2) (color 255 0 128 0.5) (thickness 0.3) bold italic (line_spacing 1.1)) (justify right top mirror) (href ""https://x.y/(z)"") hide)
    (render_cache ""ab\""c"" 0
      (polygon
        (pts
          (xy 1 2)          (xy 1.5 2)          (xy 0 -7)          (xy 0 0)
          (xy 9 9)
        )
      )
    )
  )
  (format (prefix ""a \""("") (suffix ""mm"") (units 2) (units_format 0) (precision 7) (override_value ""1 \ 2"") suppress_zeroes)
  (style (thickness 0.15) (arrow_length 1.27) (text_position_mode 2) (extension_height 0.58642) (text_frame 3) (extension_offset 0.5) keep_text_aligned)
)" = true.
Proof. vm_compute. reflexivity. Qed.

Theorem C54_GeneralSettings : editable GeneralSettings_to GeneralSettings_from GeneralSettings_ok GeneralSettings_eqb GeneralSettings_edits.
Proof. exact (edit_kept _ _ _ _ _ _ GeneralSettings_rt GeneralSettings_e). Qed.
Print Assumptions C54_GeneralSettings.
Example C54_GeneralSettings_case : meets GeneralSettings_from GeneralSettings_ok GeneralSettings_edits GeneralSettings_default "(general (thickness 0.8))" = true.
Proof. vm_compute. reflexivity. Qed.

Theorem C54_LayerToken : editable LayerToken_to LayerToken_from LayerToken_ok LayerToken_eqb LayerToken_edits.
Proof. exact (edit_kept _ _ _ _ _ _ LayerToken_rt LayerToken_e). Qed.
Print Assumptions C54_LayerToken.
Example C54_LayerToken_case : meets LayerToken_from LayerToken_ok LayerToken_edits LayerToken_default "(37 ""F.Silk\""S"" user ""F.Silkscreen (top)"")" = true.
Proof. vm_compute. reflexivity. Qed.

Theorem C54_StackupLayer : editable StackupLayer_to StackupLayer_from StackupLayer_ok StackupLayer_eqb StackupLayer_edits.
Proof. exact (edit_kept _ _ _ _ _ _ StackupLayer_rt StackupLayer_e). Qed.
Print Assumptions C54_StackupLayer.
Example C54_StackupLayer_case : meets StackupLayer_from StackupLayer_ok StackupLayer_edits StackupLayer_default "(layer ""dielectric 1"" (type ""core"") (color ""Green"") (thickness 1.51) (material ""FR4"") (epsilon_r 4.5)
  addsublayer (thickness 0.48) (material ""FR4 \""(x)\"""") (epsilon_r 4.5) (loss_tangent 0.02)
  addsublayer (thickness 1) (loss_tangent 0.02)
  addsublayer (thickness 0.48) (material ""FR4 \""(x)\"""") (epsilon_r 4.5) (loss_tangent 0.02))" = true.
Proof. vm_compute. reflexivity. Qed.

Theorem C54_Stackup : editable Stackup_to Stackup_from Stackup_ok Stackup_eqb Stackup_edits.
Proof. exact (edit_kept _ _ _ _ _ _ Stackup_rt Stackup_e). Qed.
Print Assumptions C54_Stackup.
Example C54_Stackup_case : meets Stackup_from Stackup_ok Stackup_edits Stackup_default "(stackup
  (layer ""F.SilkS"" (type ""Top Silk Screen""))
  (layer ""dielectric 1"" (type ""core"") (color ""Green"") (thickness 1.51) (material ""FR4"") (epsilon_r 4.5)
    addsublayer (thickness 0.48) (material ""FR4 \""(x)\"""") (epsilon_r 4.5) (loss_tangent 0.02)
    addsublayer (thickness 1) (loss_tangent 0.02)
    addsublayer (thickness 0.48) (material ""FR4 \""(x)\"""") (epsilon_r 4.5) (loss_tangent 0.02))
  (copper_finish ""ENIG"")
  (dielectric_constraints no)
  (edge_connector bevelled)
  (castellated_pads yes)
)" = true.
Proof. vm_compute. reflexivity. Qed.

Theorem C54_PlotSettings : editable PlotSettings_to PlotSettings_from PlotSettings_ok PlotSettings_eqb PlotSettings_edits.
Proof. exact (edit_kept _ _ _ _ _ _ PlotSettings_rt PlotSettings_e). Qed.
Print Assumptions C54_PlotSettings.
Example C54_PlotSettings_case : meets PlotSettings_from PlotSettings_ok PlotSettings_edits PlotSettings_default "(pcbplotparams
  (layerselection 0x00010fc_ffffffff)
  (plot_on_all_layers_selection 0x0000000_00000000)
  (disableapertmacros false)
  (usegerberextensions false)
  (usegerberattributes false)
  (usegerberadvancedattributes false)
  (creategerberjobfile false)
  (dashed_line_dash_ratio 12.000000)
  (dashed_line_gap_ratio 3.000001)
  (svguseinch false)
  (svgprecision 0.0)
  (excludeedgelayer true)
  (plotframeref false)
  (viasonmask true)
  (mode 1)
  (useauxorigin false)
  (hpglpennumber 0)
  (hpglpenspeed 0)
  (hpglpendiameter 1.500000)
  (dxfpolygonmode false)
  (dxfimperialunits false)
  (dxfusepcbnewfont false)
  (psnegative false)
  (psa4output false)
  (plotreference false)
  (plotvalue false)
  (plotinvisibletext false)
  (sketchpadsonfab false)
  (subtractmaskfromsilk false)
  (outputformat 0)
  (mirror true)
  (drillshape 0)
  (scaleselection 1)
  (outputdirectory ""out \""(1)\""/"")
)" = true.
Proof. vm_compute. reflexivity. Qed.

Theorem C54_SetupData : editable SetupData_to SetupData_from SetupData_ok SetupData_eqb SetupData_edits.
Proof. exact (edit_kept _ _ _ _ _ _ SetupData_rt SetupData_e). Qed.
Print Assumptions C54_SetupData.
Example C54_SetupData_case : meets SetupData_from SetupData_ok SetupData_edits SetupData_default "(setup
  (stackup
    (layer ""F.SilkS"" (type ""Top Silk Screen""))
    (layer ""dielectric 1"" (type ""core"") (color ""Green"") (thickness 1.51) (material ""FR4"") (epsilon_r 4.5)
      addsublayer (thickness 0.48) (material ""FR4 \""(x)\"""") (epsilon_r 4.5) (loss_tangent 0.02)
      addsublayer (thickness 1) (loss_tangent 0.02)
      addsublayer (thickness 0.48) (material ""FR4 \""(x)\"""") (epsilon_r 4.5) (loss_tangent 0.02))
    (copper_finish ""ENIG"")
    (dielectric_constraints no)
    (edge_connector bevelled)
    (castellated_pads yes)
  )
  (pad_to_mask_clearance 0.05)
  (solder_mask_min_width 0.1)
  (pad_to_paste_clearance_ratio -0.05)
  (aux_axis_origin 1 2.5)
  (pcbplotparams
    (layerselection 0x00010fc_ffffffff)
    (plot_on_all_layers_selection 0x0000000_00000000)
    (disableapertmacros false)
    (usegerberextensions false)
    (usegerberattributes false)
    (usegerberadvancedattributes false)
    (creategerberjobfile false)
    (dashed_line_dash_ratio 12.000000)
    (dashed_line_gap_ratio 3.000001)
    (svguseinch false)
    (svgprecision 0.0)
    (excludeedgelayer true)
    (plotframeref false)
    (viasonmask true)
    (mode 1)
    (useauxorigin false)
    (hpglpennumber 0)
    (hpglpenspeed 0)
    (hpglpendiameter 1.500000)
    (dxfpolygonmode false)
    (dxfimperialunits false)
    (dxfusepcbnewfont false)
    (psnegative false)
    (psa4output false)
    (plotreference false)
    (plotvalue false)
    (plotinvisibletext false)
    (sketchpadsonfab false)
    (subtractmaskfromsilk false)
    (outputformat 0)
    (mirror true)
    (drillshape 0)
    (scaleselection 1)
    (outputdirectory ""out \""(1)\""/"")
  )
)" = true.
Proof. vm_compute. reflexivity. Qed.

Theorem C54_Segment : editable Segment_to Segment_from Segment_ok Segment_eqb Segment_edits.
Proof. exact (edit_kept _ _ _ _ _ _ Segment_rt Segment_e). Qed.
Print Assumptions C54_Segment.
Example C54_Segment_case : meets Segment_from Segment_ok Segment_edits Segment_default "(segment locked (start 1 2.5) (end 3 4) (width 0.25) (layer ""F.Cu"") (net 7) (tstamp 7c2f5ab1-44ff-4a1c-b96d-28f9f3a0fd1e))" = true.
Proof. vm_compute. reflexivity. Qed.

Theorem C54_Via : editable Via_to Via_from Via_ok Via_eqb Via_edits.
Proof. exact (edit_kept _ _ _ _ _ _ Via_rt Via_e). Qed.
Print Assumptions C54_Via.
Example C54_Via_case : meets Via_from Via_ok Via_edits Via_default "(via blind locked (at 1 2.5) (size 0.8) (drill 0.4) (layers ""F.Cu"" ""In 1 \""(x)\"""") (remove_unused_layers) (keep_end_layers) (free) (net 3) (tstamp 7c2f5ab1-44ff-4a1c-b96d-28f9f3a0fd1e))" = true.
Proof. vm_compute. reflexivity. Qed.

Theorem C54_Arc : editable Arc_to Arc_from Arc_ok Arc_eqb Arc_edits.
Proof. exact (edit_kept _ _ _ _ _ _ Arc_rt Arc_e). Qed.
Print Assumptions C54_Arc.
Example C54_Arc_case : meets Arc_from Arc_ok Arc_edits Arc_default "(arc locked (start 1 2.5) (mid 3 4) (end 5 4) (width 0.25) (layer ""F \""Cu"") (net 7))" = true.
Proof. vm_compute. reflexivity. Qed.

Theorem C54_Target : editable Target_to Target_from Target_ok Target_eqb Target_edits.
Proof. exact (edit_kept _ _ _ _ _ _ Target_rt Target_e). Qed.
Print Assumptions C54_Target.
Example C54_Target_case : meets Target_from Target_ok Target_edits Target_default "(target x (at 1 2.5) (size 5) (width 0.05) (layer ""Edge.Cuts"") (tstamp 7c2f5ab1-44ff-4a1c-b96d-28f9f3a0fd1e))" = true.
Proof. vm_compute. reflexivity. Qed.

Theorem C54_Board now : editable Board_to (Board_from now) Board_ok Board_eqb Board_edits.
Proof. exact (edit_kept _ _ _ _ _ _ (Board_rt now) (Board_e now)). Qed.
Print Assumptions C54_Board.
Example C54_Board_case : meets (Board_from (VStr $"0")) Board_ok Board_edits Board_default "(kicad_pcb (version 20221018) (generator pcbnew)

  (general
    (thickness 1.6)
  )

  (paper ""A3"" portrait)
  (title_block
    (title ""T"")
    (rev ""1.0"")
    (company """")
    (comment 1 ""one"")
    (comment 4 ""four (4)"")
  )

  (layers
    (0 ""F.Cu"" signal)
    (31 ""B.Cu"" signal)
    (32 ""B.Adhes"" user ""B.Adhesive"")
    (33 ""F.Adhes"" user ""F.Adhesive"")
    (34 ""B.Paste"" user)
    (35 ""F.Paste"" user)
    (36 ""B.SilkS"" user ""B.Silkscreen"")
    (37 ""F.SilkS"" user ""F.Silkscreen"")
    (38 ""B.Mask"" user)
    (39 ""F.Mask"" user)
    (40 ""Dwgs.User"" user ""User.Drawings"")
    (41 ""Cmts.User"" user ""User.Comments"")
    (42 ""Eco1.User"" user ""User.Eco1"")
    (43 ""Eco2.User"" user ""User.Eco2"")
    (44 ""Edge.Cuts"" user)
    (45 ""Margin"" user)
    (46 ""B.CrtYd"" user ""B.Courtyard"")
    (47 ""F.CrtYd"" user ""F.Courtyard"")
    (48 ""B.Fab"" user)
    (49 ""F.Fab"" user)
    (50 ""User.1"" user)
    (51 ""User.2"" user)
    (52 ""User.3"" user)
    (53 ""User.4"" user)
    (54 ""User.5"" user)
    (55 ""User.6"" user)
    (56 ""User.7"" user)
    (57 ""User.8"" user)
    (58 ""User.9"" user)
  )

  (setup
    (stackup
      (layer ""F.SilkS"" (type ""Top Silk Screen""))
      (layer ""dielectric 1"" (type ""core"") (color ""Green"") (thickness 1.51) (material ""FR4"") (epsilon_r 4.5)
        addsublayer (thickness 0.48) (material ""FR4 \""(x)\"""") (epsilon_r 4.5) (loss_tangent 0.02)
        addsublayer (thickness 1) (loss_tangent 0.02)
        addsublayer (thickness 0.48) (material ""FR4 \""(x)\"""") (epsilon_r 4.5) (loss_tangent 0.02))
      (copper_finish ""ENIG"")
      (dielectric_constraints no)
      (edge_connector bevelled)
      (castellated_pads yes)
    )
    (pad_to_mask_clearance 0.05)
    (solder_mask_min_width 0.1)
    (pad_to_paste_clearance_ratio -0.05)
    (aux_axis_origin 1 2.5)
    (pcbplotparams
      (layerselection 0x00010fc_ffffffff)
      (plot_on_all_layers_selection 0x0000000_00000000)
      (disableapertmacros false)
      (usegerberextensions false)
      (usegerberattributes false)
      (usegerberadvancedattributes false)
      (creategerberjobfile false)
      (dashed_line_dash_ratio 12.000000)
      (dashed_line_gap_ratio 3.000001)
      (svguseinch false)
      (svgprecision 0.0)
      (excludeedgelayer true)
      (plotframeref false)
      (viasonmask true)
      (mode 1)
      (useauxorigin false)
      (hpglpennumber 0)
      (hpglpenspeed 0)
      (hpglpendiameter 1.500000)
      (dxfpolygonmode false)
      (dxfimperialunits false)
      (dxfusepcbnewfont false)
      (psnegative false)
      (psa4output false)
      (plotreference false)
      (plotvalue false)
      (plotinvisibletext false)
      (sketchpadsonfab false)
      (subtractmaskfromsilk false)
      (outputformat 0)
      (mirror true)
      (drillshape 0)
      (scaleselection 1)
      (outputdirectory ""out \""(1)\""/"")
    )
  )

  (property ""LAYER"" ""top \""x\"""")
  (property ""k 2"" """")

  (net 0 """")
  (net 1 ""Net-(U1-Pad3)"")

  (footprint ""Package_SO:SOIC-8 \""x\"""" locked placed (version 20211014) (generator pcbnew) (layer ""B.Cu"")
    (tedit 65fa1b2c) (tstamp 7c2f5ab1-44ff-4a1c-b96d-28f9f3a0fd1e)
    (at 1 2 180)
    (descr ""d \""(1)\"""")
    (tags ""a b"")
    (property ""Sheetfile"" ""x.kicad_sch"")
    (property ""k 2"" """")
    (path ""/1/2"")
    (autoplace_cost90 1)
    (autoplace_cost180 2)
    (solder_mask_margin 0.1)
    (solder_paste_margin 0.2)
    (solder_paste_ratio 0.3)
    (clearance 0.4)
    (zone_connect 2)
    (thermal_width 0.5)
    (thermal_gap 0.6)
    (attr through_hole board_only exclude_from_pos_files exclude_from_bom allow_missing_courtyard)
    (private_layers ""User.1"")
    (net_tie_pad_groups ""1, 2"" ""3"")
    (fp_text user ""a \""(b)\"" \ c"" (at 1 2.5 90 unlocked) (layer ""F.SilkS"" knockout) hide
      (effects (font (face ""A \""b\"" \c"") (size 1.27 2) (color 255 0 128 0.5) (thickness 0.3) bold italic (line_spacing 1.1)) (justify right top mirror) (href ""https://x.y/(z)"") hide)
      (tstamp 7c2f5ab1-44ff-4a1c-b96d-28f9f3a0fd1e)
      (render_cache ""ab\""c"" 0
        (polygon
          (pts
            (xy 1 2)            (xy 1.5 2)            (xy 0 -7)            (xy 0 0)
            (xy 9 9)
          )
        )
      )
    )
    (fp_curve (pts
      (xy 2 3)
      (xy 0.1 0)
      (xy 2 3)
      (xy -1.5 7)
    ) (layer ""F.Fab"") (width 0.15) locked (tstamp 7c2f5ab1-44ff-4a1c-b96d-28f9f3a0fd1e))
    (image (at 12.34 5) (layer ""F.SilkS"") (scale 0.5)
      (uuid a-b-c)
      (data
        iVBORw0KGgo=
        12
      )
    )
    (pad ""A \""1\"""" thru_hole custom locked (at 1 2.5 90) (size 1 2) (drill oval 0.8 2 (offset 1 0.5)) (property pad_prop_bga) (layers *.Cu ""F.Mask"" F&B.Paste ""In1 (x)"") (remove_unused_layers) (keep_end_layers) (roundrect_rratio 0.25)
      (chamfer_ratio 0.1) (chamfer top_left bottom_right)
      (die_length 3)
      (net 17 ""Net-(U1-Pad3)"") (pinfunction ""fn"") (pintype ""bidirectional+no_connect"") (solder_mask_margin 0.1) (solder_paste_margin 0.2) (solder_paste_margin_ratio 0.3) (clearance 0.4) (zone_connect 2) (thermal_width 0.5) (thermal_gap 0.6)
      (options (clearance convexhull) (anchor circle))
      (primitives
        (gr_text ""a \""(b)\"" \ c"" (at 1 2.5 90) (layer ""F.SilkS"" knockout) (tstamp 7c2f5ab1-44ff-4a1c-b96d-28f9f3a0fd1e)
          (effects (font (face ""A \""b\"" \c"") (size 1.27 2) (color 255 0 128 0.5) (thickness 0.3) bold italic (line_spacing 1.1)) (justify right top mirror) (href ""https://x.y/(z)"") hide)
          (render_cache ""ab\""c"" 0
            (polygon
              (pts
                (xy 1 2)                (xy 1.5 2)                (xy 0 -7)                (xy 0 0)
                (xy 9 9)
              )
            )
          )
        )
        (gr_line locked (start 2 3) (end 2 0.001) (layer ""F.Fab"") (width 1) (tstamp 7c2f5ab1-44ff-4a1c-b96d-28f9f3a0fd1e))
        (gr_poly locked (pts
            (xy 2 3)
            (xy 0.1 0)
            (xy 2 3)
            (xy -1.5 7)
          ) (layer ""F.Fab"") (width 0.15) (fill solid) (tstamp 7c2f5ab1-44ff-4a1c-b96d-28f9f3a0fd1e))
      ) (tstamp 7c2f5ab1-44ff-4a1c-b96d-28f9f3a0fd1e))
    (pad ""x"" smd rect (at 0.0 0.0) (size 0.0 0.0) (layers))
    (zone locked (net 12) (net_name ""Net \""(1)\"""") (layers ""F.Cu"" ""B.Cu"") (tstamp 7c2f5ab1-44ff-4a1c-b96d-28f9f3a0fd1e) (name ""my zone"") (hatch edge 0.508)
      (priority 3)
      (connect_pads thru_hole_only (clearance 0.2))
      (min_thickness 0.254) (filled_areas_thickness no)
      (keepout (tracks allowed) (vias not_allowed) (pads allowed ) (copperpour not-allowed) (footprints not-allowed))
      (fill yes (mode hatch) (thermal_gap 0.5) (thermal_bridge_width 0.508) (smoothing chamfer) (radius 1) (island_removal_mode 2) (island_area_min 10)
        (hatch_thickness 1) (hatch_gap 1.5) (hatch_orientation 45)
        (hatch_smoothing_level 1) (hatch_smoothing_value 0.1)
        (hatch_border_algorithm 0) (hatch_min_hole_area 0.3))
      (polygon
        (pts
          (xy 2 3)
          (xy 0.1 0)
          (xy 2 3)
          (xy -1.5 7)
        )
      )
      (polygon
        (pts
          (xy 1 2)
        )
      )
      (filled_polygon
        (layer ""F.Cu"")
        (island)
        (pts
          (xy 2 3)
          (xy 0.1 0)
          (xy 2 3)
          (xy -1.5 7)
        )
      )
    (fill_segments
      (layer ""B.Cu"")
      (pts
        (xy 2 3)
        (xy 0.1 0)
        (xy 2 3)
        (xy -1.5 7)
      )
    )
    )
    (model ""${KICAD6_3DMODEL_DIR}/a \""b\"".wrl"" hide
      (opacity 0.5)
      (offset (xyz 2.5 -3 1.0))
      (scale (xyz 1 1 0.1))
      (rotate (xyz 0 90 0))
    )
    (model ""${KICAD6_3DMODEL_DIR}/a \""b\"".wrl"" hide
      (opacity 0.5)
      (offset (xyz 2.5 -3 1.0))
      (scale (xyz 1 1 0.1))
      (rotate (xyz 0 90 0))
    )
    (group ""g \""1\"""" locked (id 6fe2b9d8-0001)
      (members
        0012
        abc-1
      )
    )
  )

  (footprint ""Package_SO:SOIC-8 \""x\"""" locked placed (version 20211014) (generator pcbnew) (layer ""B.Cu"")
    (tedit 5) (tstamp 7c2f5ab1-44ff-4a1c-b96d-28f9f3a0fd1e)
    (at 1 2 180)
    (descr ""d \""(1)\"""")
    (tags ""a b"")
    (property ""Sheetfile"" ""x.kicad_sch"")
    (property ""k 2"" """")
    (path ""/1/2"")
    (autoplace_cost90 1)
    (autoplace_cost180 2)
    (solder_mask_margin 0.1)
    (solder_paste_margin 0.2)
    (solder_paste_ratio 0.3)
    (clearance 0.4)
    (zone_connect 2)
    (thermal_width 0.5)
    (thermal_gap 0.6)
    (attr through_hole board_only exclude_from_pos_files exclude_from_bom allow_missing_courtyard)
    (private_layers ""User.1"")
    (net_tie_pad_groups ""1, 2"" ""3"")
    (fp_text user ""a \""(b)\"" \ c"" (at 1 2.5 90 unlocked) (layer ""F.SilkS"" knockout) hide
      (effects (font (face ""A \""b\"" \c"") (size 1.27 2) (color 255 0 128 0.5) (thickness 0.3) bold italic (line_spacing 1.1)) (justify right top mirror) (href ""https://x.y/(z)"") hide)
      (tstamp 7c2f5ab1-44ff-4a1c-b96d-28f9f3a0fd1e)
      (render_cache ""ab\""c"" 0
        (polygon
          (pts
            (xy 1 2)            (xy 1.5 2)            (xy 0 -7)            (xy 0 0)
            (xy 9 9)
          )
        )
      )
    )
    (fp_curve (pts
      (xy 2 3)
      (xy 0.1 0)
      (xy 2 3)
      (xy -1.5 7)
    ) (layer ""F.Fab"") (width 0.15) locked (tstamp 7c2f5ab1-44ff-4a1c-b96d-28f9f3a0fd1e))
    (image (at 12.34 5) (layer ""F.SilkS"") (scale 0.5)
      (uuid a-b-c)
      (data
        iVBORw0KGgo=
        12
      )
    )
    (pad ""A \""1\"""" thru_hole custom locked (at 1 2.5 90) (size 1 2) (drill oval 0.8 2 (offset 1 0.5)) (property pad_prop_bga) (layers *.Cu ""F.Mask"" F&B.Paste ""In1 (x)"") (remove_unused_layers) (keep_end_layers) (roundrect_rratio 0.25)
      (chamfer_ratio 0.1) (chamfer top_left bottom_right)
      (die_length 3)
      (net 17 ""Net-(U1-Pad3)"") (pinfunction ""fn"") (pintype ""bidirectional+no_connect"") (solder_mask_margin 0.1) (solder_paste_margin 0.2) (solder_paste_margin_ratio 0.3) (clearance 0.4) (zone_connect 2) (thermal_width 0.5) (thermal_gap 0.6)
      (options (clearance convexhull) (anchor circle))
      (primitives
        (gr_text ""a \""(b)\"" \ c"" (at 1 2.5 90) (layer ""F.SilkS"" knockout) (tstamp 7c2f5ab1-44ff-4a1c-b96d-28f9f3a0fd1e)
          (effects (font (face ""A \""b\"" \c"") (size 1.27 2) (color 255 0 128 0.5) (thickness 0.3) bold italic (line_spacing 1.1)) (justify right top mirror) (href ""https://x.y/(z)"") hide)
          (render_cache ""ab\""c"" 0
            (polygon
              (pts
                (xy 1 2)                (xy 1.5 2)                (xy 0 -7)                (xy 0 0)
                (xy 9 9)
              )
            )
          )
        )
        (gr_line locked (start 2 3) (end 2 0.001) (layer ""F.Fab"") (width 1) (tstamp 7c2f5ab1-44ff-4a1c-b96d-28f9f3a0fd1e))
        (gr_poly locked (pts
            (xy 2 3)
            (xy 0.1 0)
            (xy 2 3)
            (xy -1.5 7)
          ) (layer ""F.Fab"") (width 0.15) (fill solid) (tstamp 7c2f5ab1-44ff-4a1c-b96d-28f9f3a0fd1e))
      ) (tstamp 7c2f5ab1-44ff-4a1c-b96d-28f9f3a0fd1e))
    (pad ""x"" smd rect (at 0.0 0.0) (size 0.0 0.0) (layers))
    (zone locked (net 12) (net_name ""Net \""(1)\"""") (layers ""F.Cu"" ""B.Cu"") (tstamp 7c2f5ab1-44ff-4a1c-b96d-28f9f3a0fd1e) (name ""my zone"") (hatch edge 0.508)
      (priority 3)
      (connect_pads thru_hole_only (clearance 0.2))
      (min_thickness 0.254) (filled_areas_thickness no)
      (keepout (tracks allowed) (vias not_allowed) (pads allowed ) (copperpour not-allowed) (footprints not-allowed))
      (fill yes (mode hatch) (thermal_gap 0.5) (thermal_bridge_width 0.508) (smoothing chamfer) (radius 1) (island_removal_mode 2) (island_area_min 10)
        (hatch_thickness 1) (hatch_gap 1.5) (hatch_orientation 45)
        (hatch_smoothing_level 1) (hatch_smoothing_value 0.1)
        (hatch_border_algorithm 0) (hatch_min_hole_area 0.3))
      (polygon
        (pts
          (xy 2 3)
          (xy 0.1 0)
          (xy 2 3)
          (xy -1.5 7)
        )
      )
      (polygon
        (pts
          (xy 1 2)
        )
      )
      (filled_polygon
        (layer ""F.Cu"")
        (island)
        (pts
          (xy 2 3)
          (xy 0.1 0)
          (xy 2 3)
          (xy -1.5 7)
        )
      )
    (fill_segments
      (layer ""B.Cu"")
      (pts
        (xy 2 3)
        (xy 0.1 0)
        (xy 2 3)
        (xy -1.5 7)
      )
    )
    )
    (model ""${KICAD6_3DMODEL_DIR}/a \""b\"".wrl"" hide
      (opacity 0.5)
      (offset (xyz 2.5 -3 1.0))
      (scale (xyz 1 1 0.1))
      (rotate (xyz 0 90 0))
    )
    (model ""${KICAD6_3DMODEL_DIR}/a \""b\"".wrl"" hide
      (opacity 0.5)
      (offset (xyz 2.5 -3 1.0))
      (scale (xyz 1 1 0.1))
      (rotate (xyz 0 90 0))
    )
    (group ""g \""1\"""" locked (id 6fe2b9d8-0001)
      (members
        0012
        abc-1
      )
    )
  )

  (gr_text ""a \""(b)\"" \ c"" (at 1 2.5 90) (layer ""F.SilkS"" knockout) (tstamp 7c2f5ab1-44ff-4a1c-b96d-28f9f3a0fd1e)
    (effects (font (face ""A \""b\"" \c"") (size 1.27 2) (color 255 0 128 0.5) (thickness 0.3) bold italic (line_spacing 1.1)) (justify right top mirror) (href ""https://x.y/(z)"") hide)
    (render_cache ""ab\""c"" 0
      (polygon
        (pts
          (xy 1 2)          (xy 1.5 2)          (xy 0 -7)          (xy 0 0)
          (xy 9 9)
        )
      )
    )
  )
  (gr_line locked (start 2 3) (end 2 0.001) (layer ""F.Fab"") (width 1) (tstamp 7c2f5ab1-44ff-4a1c-b96d-28f9f3a0fd1e))
  (gr_poly locked
    (pts
      (xy 2 3)
      (xy 0.1 0)
      (xy 2 3)
      (xy -1.5 7)
    ) (layer ""F.Fab"") (width 0.15) (fill solid) (tstamp 7c2f5ab1-44ff-4a1c-b96d-28f9f3a0fd1e))
  (image (at 12.34 5) (layer ""F.SilkS"") (scale 0.5)
    (uuid a-b-c)
    (data
      iVBORw0KGgo=
      12
    )
  )
  (dimension (type orthogonal) (layer ""Dwgs.User (1)"") (tstamp 7c2f5ab1-44ff-4a1c-b96d-28f9f3a0fd1e)
    (pts (xy 2 3) (xy 0.1 0) (xy 2 3) (xy -1.5 7))
    (height -2.5)
    (orientation 1)
    (leader_length 2)
    (gr_text ""a \""(b)\"" \ c"" (at 1 2.5 90) (layer ""F.SilkS"" knockout) (tstamp 7c2f5ab1-44ff-4a1c-b96d-28f9f3a0fd1e)
      (effects (font (face ""A \""b\"" \c"") (size 1.27 2) (color 255 0 128 0.5) (thickness 0.3) bold italic (line_spacing 1.1)) (justify right top mirror) (href ""https://x.y/(z)"") hide)
      (render_cache ""ab\""c"" 0
        (polygon
          (pts
            (xy 1 2)            (xy 1.5 2)            (xy 0 -7)            (xy 0 0)
            (xy 9 9)
          )
        )
      )
    )
    (format (prefix ""a \""("") (suffix ""mm"") (units 2) (units_format 0) (precision 7) (override_value ""1 \ 2"") suppress_zeroes)
    (style (thickness 0.15) (arrow_length 1.27) (text_position_mode 2) (extension_height 0.58642) (text_frame 3) (extension_offset 0.5) keep_text_aligned)
  )
  (target x (at 1 2.5) (size 5) (width 0.05) (layer ""Edge.Cuts"") (tstamp 7c2f5ab1-44ff-4a1c-b96d-28f9f3a0fd1e))

  (segment locked (start 1 2.5) (end 3 4) (width 0.25) (layer ""F.Cu"") (net 7) (tstamp 7c2f5ab1-44ff-4a1c-b96d-28f9f3a0fd1e))
  (via blind locked (at 1 2.5) (size 0.8) (drill 0.4) (layers ""F.Cu"" ""In 1 \""(x)\"""") (remove_unused_layers) (keep_end_layers) (free) (net 3) (tstamp 7c2f5ab1-44ff-4a1c-b96d-28f9f3a0fd1e))
  (arc locked (start 1 2.5) (mid 3 4) (end 5 4) (width 0.25) (layer ""F \""Cu"") (net 7))
  (via (at 0.0 0.0) (size 0.0) (drill 0.0) (layers) (net 0))

  (zone locked (net 12) (net_name ""Net \""(1)\"""") (layers ""F.Cu"" ""B.Cu"") (tstamp 7c2f5ab1-44ff-4a1c-b96d-28f9f3a0fd1e) (name ""my zone"") (hatch edge 0.508)
    (priority 3)
    (connect_pads thru_hole_only (clearance 0.2))
    (min_thickness 0.254) (filled_areas_thickness no)
    (keepout (tracks allowed) (vias not_allowed) (pads allowed ) (copperpour not-allowed) (footprints not-allowed))
    (fill yes (mode hatch) (thermal_gap 0.5) (thermal_bridge_width 0.508) (smoothing chamfer) (radius 1) (island_removal_mode 2) (island_area_min 10)
      (hatch_thickness 1) (hatch_gap 1.5) (hatch_orientation 45)
      (hatch_smoothing_level 1) (hatch_smoothing_value 0.1)
      (hatch_border_algorithm 0) (hatch_min_hole_area 0.3))
    (polygon
      (pts
        (xy 2 3)
        (xy 0.1 0)
        (xy 2 3)
        (xy -1.5 7)
      )
    )
    (polygon
      (pts
        (xy 1 2)
      )
    )
    (filled_polygon
      (layer ""F.Cu"")
      (island)
      (pts
        (xy 2 3)
        (xy 0.1 0)
        (xy 2 3)
        (xy -1.5 7)
      )
    )
    (fill_segments
      (layer ""B.Cu"")
      (pts
        (xy 2 3)
        (xy 0.1 0)
        (xy 2 3)
        (xy -1.5 7)
      )
    )
  )
  (group ""g \""1\"""" locked (id 6fe2b9d8-0001)
    (members
      0012
      abc-1
    )
  )
)" = true.
Proof. vm_compute. reflexivity. Qed.

Theorem C54_Junction : editable Junction_to Junction_from Junction_ok Junction_eqb Junction_edits.
Proof. exact (edit_kept _ _ _ _ _ _ Junction_rt Junction_e). Qed.
Print Assumptions C54_Junction.
Example C54_Junction_case : meets Junction_from Junction_ok Junction_edits Junction_default "(junction (at 123.45 -7) (diameter 0) (color 255 0 128 0.5)
  (uuid 7c2f5ab1-44ff-4a1c-b96d-28f9f3a0fd1e)
)" = true.
Proof. vm_compute. reflexivity. Qed.

Theorem C54_NoConnect : editable NoConnect_to NoConnect_from NoConnect_ok NoConnect_eqb NoConnect_edits.
Proof. exact (edit_kept _ _ _ _ _ _ NoConnect_rt NoConnect_e). Qed.
Print Assumptions C54_NoConnect.
Example C54_NoConnect_case : meets NoConnect_from NoConnect_ok NoConnect_edits NoConnect_default "(no_connect (at 123.45 -7) (uuid 7c2f5ab1-44ff-4a1c-b96d-28f9f3a0fd1e))" = true.
Proof. vm_compute. reflexivity. Qed.

Theorem C54_BusEntry : editable BusEntry_to BusEntry_from BusEntry_ok BusEntry_eqb BusEntry_edits.
Proof. exact (edit_kept _ _ _ _ _ _ BusEntry_rt BusEntry_e). Qed.
Print Assumptions C54_BusEntry.
Example C54_BusEntry_case : meets BusEntry_from BusEntry_ok BusEntry_edits BusEntry_default "(bus_entry (at 123.45 -7) (size 2.54 3)
  (stroke (width 0.254) (type dash_dot) (color 255 0 128 0.5))
  (uuid 7c2f5ab1-44ff-4a1c-b96d-28f9f3a0fd1e)
)" = true.
Proof. vm_compute. reflexivity. Qed.

Theorem C54_BusAlias : editable BusAlias_to BusAlias_from BusAlias_ok BusAlias_eqb BusAlias_edits.
Proof. exact (edit_kept _ _ _ _ _ _ BusAlias_rt BusAlias_e). Qed.
Print Assumptions C54_BusAlias.
Example C54_BusAlias_case : meets BusAlias_from BusAlias_ok BusAlias_edits BusAlias_default "(bus_alias ""a \""b\"""" (members ""A[0..7]"" """" ""x (y)""))" = true.
Proof. vm_compute. reflexivity. Qed.

Theorem C54_Connection : editable Connection_to Connection_from Connection_ok Connection_eqb Connection_edits.
Proof. exact (edit_kept _ _ _ _ _ _ Connection_rt Connection_e). Qed.
Print Assumptions C54_Connection.
Example C54_Connection_case : meets Connection_from Connection_ok Connection_edits Connection_default "(bus (pts (xy 123.45 -7) (xy 1 0.5))
  (stroke (width 0.254) (type dash_dot) (color 255 0 128 0.5))
  (uuid 7c2f5ab1-44ff-4a1c-b96d-28f9f3a0fd1e)
)" = true.
Proof. vm_compute. reflexivity. Qed.

Theorem C54_PolyLine : editable PolyLine_to PolyLine_from PolyLine_ok PolyLine_eqb PolyLine_edits.
Proof. exact (edit_kept _ _ _ _ _ _ PolyLine_rt PolyLine_e). Qed.
Print Assumptions C54_PolyLine.
Example C54_PolyLine_case : meets PolyLine_from PolyLine_ok PolyLine_edits PolyLine_default "(polyline (pts (xy 123.45 -7) (xy 1 0.5))
  (stroke (width 0.254) (type dash_dot) (color 255 0 128 0.5))
  (uuid 7c2f5ab1-44ff-4a1c-b96d-28f9f3a0fd1e)
)" = true.
Proof. vm_compute. reflexivity. Qed.

Theorem C54_Text : editable Text_to Text_from Text_ok Text_eqb Text_edits.
Proof. exact (edit_kept _ _ _ _ _ _ Text_rt Text_e). Qed.
Print Assumptions C54_Text.
Example C54_Text_case : meets Text_from Text_ok Text_edits Text_default "(text ""0123456789 0123456789 0123456789 (\""0123456789\"") 0123456""
  (at 123.45 7 270)
  (effects (font (face ""A \""b\"" \c"") (size 1.27 2) (color 255 0 128 0.5) (thickness 0.3) bold italic (line_spacing 1.1)) (justify right top mirror) (href ""https://x.y/(z)"") hide)
  (uuid 7c2f5ab1-44ff-4a1c-b96d-28f9f3a0fd1e)
)" = true.
Proof. vm_compute. reflexivity. Qed.

Theorem C54_TextBox : editable TextBox_to TextBox_from TextBox_ok TextBox_eqb TextBox_edits.
Proof. exact (edit_kept _ _ _ _ _ _ TextBox_rt TextBox_e). Qed.
Print Assumptions C54_TextBox.
Example C54_TextBox_case : meets TextBox_from TextBox_ok TextBox_edits TextBox_default "(text_box ""a \""b\""""
  (at 123.45 7 270) (size 3 0.001)
  (stroke (width 0.254) (type dash_dot) (color 255 0 128 0.5))
  (fill (type color) (color 255 0 128 0.5))
  (effects (font (face ""A \""b\"" \c"") (size 1.27 2) (color 255 0 128 0.5) (thickness 0.3) bold italic (line_spacing 1.1)) (justify right top mirror) (href ""https://x.y/(z)"") hide)
  (uuid 7c2f5ab1-44ff-4a1c-b96d-28f9f3a0fd1e)
)" = true.
Proof. vm_compute. reflexivity. Qed.

Theorem C54_LocalLabel : editable LocalLabel_to LocalLabel_from LocalLabel_ok LocalLabel_eqb LocalLabel_edits.
Proof. exact (edit_kept _ _ _ _ _ _ LocalLabel_rt LocalLabel_e). Qed.
Print Assumptions C54_LocalLabel.
Example C54_LocalLabel_case : meets LocalLabel_from LocalLabel_ok LocalLabel_edits LocalLabel_default "(label ""a \""b\"""" (at 123.45 7 270) (fields_autoplaced)
  (effects (font (face ""A \""b\"" \c"") (size 1.27 2) (color 255 0 128 0.5) (thickness 0.3) bold italic (line_spacing 1.1)) (justify right top mirror) (href ""https://x.y/(z)"") hide)
  (uuid 7c2f5ab1-44ff-4a1c-b96d-28f9f3a0fd1e)
)" = true.
Proof. vm_compute. reflexivity. Qed.

Theorem C54_GlobalLabel : editable GlobalLabel_to GlobalLabel_from GlobalLabel_ok GlobalLabel_eqb GlobalLabel_edits.
Proof. exact (edit_kept _ _ _ _ _ _ GlobalLabel_rt GlobalLabel_e). Qed.
Print Assumptions C54_GlobalLabel.
Example C54_GlobalLabel_case : meets GlobalLabel_from GlobalLabel_ok GlobalLabel_edits GlobalLabel_default "(global_label ""a \""b\"""" (shape bidirectional) (at 123.45 7 270) (fields_autoplaced)
  (effects (font (face ""A \""b\"" \c"") (size 1.27 2) (color 255 0 128 0.5) (thickness 0.3) bold italic (line_spacing 1.1)) (justify right top mirror) (href ""https://x.y/(z)"") hide)
  (uuid 7c2f5ab1-44ff-4a1c-b96d-28f9f3a0fd1e)
  (property ""Sheet name"" ""a\b\"""" (id 3) (at 1 2.5 90) (show_name)
    (effects (font (face ""A \""b\"" \c"") (size 1.27 2) (color 255 0 128 0.5) (thickness 0.3) bold italic (line_spacing 1.1)) (justify right top mirror) (href ""https://x.y/(z)"") hide)
  )
  (property ""Sheet name"" ""a\b\"""" (id 3) (at 1 2.5 90) (show_name)
    (effects (font (face ""A \""b\"" \c"") (size 1.27 2) (color 255 0 128 0.5) (thickness 0.3) bold italic (line_spacing 1.1)) (justify right top mirror) (href ""https://x.y/(z)"") hide)
  )
)" = true.
Proof. vm_compute. reflexivity. Qed.

Theorem C54_HierarchicalLabel : editable HierarchicalLabel_to HierarchicalLabel_from HierarchicalLabel_ok HierarchicalLabel_eqb HierarchicalLabel_edits.
Proof. exact (edit_kept _ _ _ _ _ _ HierarchicalLabel_rt HierarchicalLabel_e). Qed.
Print Assumptions C54_HierarchicalLabel.
Example C54_HierarchicalLabel_case : meets HierarchicalLabel_from HierarchicalLabel_ok HierarchicalLabel_edits HierarchicalLabel_default "(hierarchical_label ""a \""b\"""" (shape output) (at 123.45 7 270) (fields_autoplaced)
  (effects (font (face ""A \""b\"" \c"") (size 1.27 2) (color 255 0 128 0.5) (thickness 0.3) bold italic (line_spacing 1.1)) (justify right top mirror) (href ""https://x.y/(z)"") hide)
  (uuid 7c2f5ab1-44ff-4a1c-b96d-28f9f3a0fd1e)
)" = true.
Proof. vm_compute. reflexivity. Qed.

Theorem C54_SymbolProjectPath : editable SymbolProjectPath_to SymbolProjectPath_from SymbolProjectPath_ok SymbolProjectPath_eqb SymbolProjectPath_edits.
Proof. exact (edit_kept _ _ _ _ _ _ SymbolProjectPath_rt SymbolProjectPath_e). Qed.
Print Assumptions C54_SymbolProjectPath.
Example C54_SymbolProjectPath_case : meets SymbolProjectPath_from SymbolProjectPath_ok SymbolProjectPath_edits SymbolProjectPath_default "(path ""/00000000-0000-0000-0000-00005f325e1e""
  (reference ""U 1"") (unit 3)
)" = true.
Proof. vm_compute. reflexivity. Qed.

Theorem C54_SymbolProjectInstance : editable SymbolProjectInstance_to SymbolProjectInstance_from SymbolProjectInstance_ok SymbolProjectInstance_eqb SymbolProjectInstance_edits.
Proof. exact (edit_kept _ _ _ _ _ _ SymbolProjectInstance_rt SymbolProjectInstance_e). Qed.
Print Assumptions C54_SymbolProjectInstance.
Example C54_SymbolProjectInstance_case : meets SymbolProjectInstance_from SymbolProjectInstance_ok SymbolProjectInstance_edits SymbolProjectInstance_default "(project ""my \""project\""""
  (path ""/00000000-0000-0000-0000-00005f325e1e""
    (reference ""U 1"") (unit 1)
  )
  (path ""/00000000-0000-0000-0000-00005f325e1e""
    (reference ""U 1"") (unit 2)
  )
)" = true.
Proof. vm_compute. reflexivity. Qed.

Theorem C54_SchematicSymbol : editable SchematicSymbol_to SchematicSymbol_from SchematicSymbol_ok SchematicSymbol_eqb SchematicSymbol_edits.
Proof. exact (edit_kept _ _ _ _ _ _ SchematicSymbol_rt SchematicSymbol_e). Qed.
Print Assumptions C54_SchematicSymbol.
Example C54_SchematicSymbol_case : meets SchematicSymbol_from SchematicSymbol_ok SchematicSymbol_edits SchematicSymbol_default "(symbol (lib_name ""R_1"") (lib_id ""Device:R:x_1_2"") (at 123.45 7 270) (mirror x) (unit 2)
  (in_bom yes) (on_board no) (dnp no) (fields_autoplaced)
  (uuid 7c2f5ab1-44ff-4a1c-b96d-28f9f3a0fd1e)
  (property ""Sheet name"" ""a\b\"""" (id 3) (at 1 2.5 90) (show_name)
    (effects (font (face ""A \""b\"" \c"") (size 1.27 2) (color 255 0 128 0.5) (thickness 0.3) bold italic (line_spacing 1.1)) (justify right top mirror) (href ""https://x.y/(z)"") hide)
  )
  (property ""Sheet name"" ""a\b\"""" (id 3) (at 1 2.5 90) (show_name)
    (effects (font (face ""A \""b\"" \c"") (size 1.27 2) (color 255 0 128 0.5) (thickness 0.3) bold italic (line_spacing 1.1)) (justify right top mirror) (href ""https://x.y/(z)"") hide)
  )
  (pin ""1"" (uuid 7c2f5ab1-44ff-4a1c-b96d-28f9f3a0fd1e))
  (pin ""A \""2\"""" (uuid abc-12))
  (instances
    (project ""my \""project\""""
      (path ""/00000000-0000-0000-0000-00005f325e1e""
        (reference ""U 1"") (unit 1)
      )
      (path ""/00000000-0000-0000-0000-00005f325e1e""
        (reference ""U 1"") (unit 2)
      )
    )
    (project """"
    )
  )
)" = true.
Proof. vm_compute. reflexivity. Qed.

Theorem C54_HierarchicalPin : editable HierarchicalPin_to HierarchicalPin_from HierarchicalPin_ok HierarchicalPin_eqb HierarchicalPin_edits.
Proof. exact (edit_kept _ _ _ _ _ _ HierarchicalPin_rt HierarchicalPin_e). Qed.
Print Assumptions C54_HierarchicalPin.
Example C54_HierarchicalPin_case : meets HierarchicalPin_from HierarchicalPin_ok HierarchicalPin_edits HierarchicalPin_default "(pin ""a \""b\"""" tri_state (at 123.45 7 270)
  (effects (font (face ""A \""b\"" \c"") (size 1.27 2) (color 255 0 128 0.5) (thickness 0.3) bold italic (line_spacing 1.1)) (justify right top mirror) (href ""https://x.y/(z)"") hide)
  (uuid 7c2f5ab1-44ff-4a1c-b96d-28f9f3a0fd1e)
)" = true.
Proof. vm_compute. reflexivity. Qed.

Theorem C54_HierarchicalSheetProjectPath : editable HierarchicalSheetProjectPath_to HierarchicalSheetProjectPath_from HierarchicalSheetProjectPath_ok HierarchicalSheetProjectPath_eqb HierarchicalSheetProjectPath_edits.
Proof. exact (edit_kept _ _ _ _ _ _ HierarchicalSheetProjectPath_rt HierarchicalSheetProjectPath_e). Qed.
Print Assumptions C54_HierarchicalSheetProjectPath.
Example C54_HierarchicalSheetProjectPath_case : meets HierarchicalSheetProjectPath_from HierarchicalSheetProjectPath_ok HierarchicalSheetProjectPath_edits HierarchicalSheetProjectPath_default "(path ""/a b/c"" (page ""2 \""a\""""))" = true.
Proof. vm_compute. reflexivity. Qed.

Theorem C54_HierarchicalSheetProjectInstance : editable HierarchicalSheetProjectInstance_to HierarchicalSheetProjectInstance_from HierarchicalSheetProjectInstance_ok HierarchicalSheetProjectInstance_eqb HierarchicalSheetProjectInstance_edits.
Proof. exact (edit_kept _ _ _ _ _ _ HierarchicalSheetProjectInstance_rt HierarchicalSheetProjectInstance_e). Qed.
Print Assumptions C54_HierarchicalSheetProjectInstance.
Example C54_HierarchicalSheetProjectInstance_case : meets HierarchicalSheetProjectInstance_from HierarchicalSheetProjectInstance_ok HierarchicalSheetProjectInstance_edits HierarchicalSheetProjectInstance_default "(project ""my \""project\""""
  (path ""/a b/c"" (page ""2 \""a\""""))
  (path ""/a b/c"" (page ""2 \""a\""""))
)" = true.
Proof. vm_compute. reflexivity. Qed.

Theorem C54_HierarchicalSheet : editable HierarchicalSheet_to HierarchicalSheet_from HierarchicalSheet_ok HierarchicalSheet_eqb HierarchicalSheet_edits.
Proof. exact (edit_kept _ _ _ _ _ _ HierarchicalSheet_rt HierarchicalSheet_e). Qed.
Print Assumptions C54_HierarchicalSheet.
Example C54_HierarchicalSheet_case : meets HierarchicalSheet_from HierarchicalSheet_ok HierarchicalSheet_edits HierarchicalSheet_default "(sheet (at 123.45 -7) (size 30 45.72) (fields_autoplaced)
  (stroke (width 0.254) (type dash_dot) (color 255 0 128 0.5))
  (fill (color 1 2 255 0.1234))
  (uuid 7c2f5ab1-44ff-4a1c-b96d-28f9f3a0fd1e)
  (property ""Sheetname"" ""a\b\"""" (id 3) (at 1 2.5 90) (show_name)
    (effects (font (face ""A \""b\"" \c"") (size 1.27 2) (color 255 0 128 0.5) (thickness 0.3) bold italic (line_spacing 1.1)) (justify right top mirror) (href ""https://x.y/(z)"") hide)
  )
  (property ""Sheet file"" ""a\b\"""" (id 3) (at 1 2.5 90) (show_name)
    (effects (font (face ""A \""b\"" \c"") (size 1.27 2) (color 255 0 128 0.5) (thickness 0.3) bold italic (line_spacing 1.1)) (justify right top mirror) (href ""https://x.y/(z)"") hide)
  )
  (property ""a \""b\"""" ""a\b\"""" (id 3) (at 1 2.5 90) (show_name)
    (effects (font (face ""A \""b\"" \c"") (size 1.27 2) (color 255 0 128 0.5) (thickness 0.3) bold italic (line_spacing 1.1)) (justify right top mirror) (href ""https://x.y/(z)"") hide)
  )
  (property ""Field2"" ""a\b\"""" (id 3) (at 1 2.5 90) (show_name)
    (effects (font (face ""A \""b\"" \c"") (size 1.27 2) (color 255 0 128 0.5) (thickness 0.3) bold italic (line_spacing 1.1)) (justify right top mirror) (href ""https://x.y/(z)"") hide)
  )
  (pin ""a \""b\"""" tri_state (at 123.45 7 270)
    (effects (font (face ""A \""b\"" \c"") (size 1.27 2) (color 255 0 128 0.5) (thickness 0.3) bold italic (line_spacing 1.1)) (justify right top mirror) (href ""https://x.y/(z)"") hide)
    (uuid 7c2f5ab1-44ff-4a1c-b96d-28f9f3a0fd1e)
  )
  (pin """" input (at 0.0 0.0)
    (effects (font (size 1.0 1.0)))
  )
  (instances
    (project ""my \""project\""""
      (path ""/a b/c"" (page ""2 \""a\""""))
      (path ""/a b/c"" (page ""2 \""a\""""))
    )
  )
)" = true.
Proof. vm_compute. reflexivity. Qed.

Theorem C54_HierarchicalSheetInstance : editable HierarchicalSheetInstance_to HierarchicalSheetInstance_from HierarchicalSheetInstance_ok HierarchicalSheetInstance_eqb HierarchicalSheetInstance_edits.
Proof. exact (edit_kept _ _ _ _ _ _ HierarchicalSheetInstance_rt HierarchicalSheetInstance_e). Qed.
Print Assumptions C54_HierarchicalSheetInstance.
Example C54_HierarchicalSheetInstance_case : meets HierarchicalSheetInstance_from HierarchicalSheetInstance_ok HierarchicalSheetInstance_edits HierarchicalSheetInstance_default "(path ""/a b/c"" (page ""2 \""a\""""))" = true.
Proof. vm_compute. reflexivity. Qed.

Theorem C54_SymbolInstance : editable SymbolInstance_to SymbolInstance_from SymbolInstance_ok SymbolInstance_eqb SymbolInstance_edits.
Proof. exact (edit_kept _ _ _ _ _ _ SymbolInstance_rt SymbolInstance_e). Qed.
Print Assumptions C54_SymbolInstance.
Example C54_SymbolInstance_case : meets SymbolInstance_from SymbolInstance_ok SymbolInstance_edits SymbolInstance_default "(path ""/a b/c""
  (reference ""U1"") (unit 2) (value ""1 \""k\"""") (footprint ""Lib:F (x)"")
)" = true.
Proof. vm_compute. reflexivity. Qed.

Theorem C54_Rectangle : editable Rectangle_to Rectangle_from Rectangle_ok Rectangle_eqb Rectangle_edits.
Proof. exact (edit_kept _ _ _ _ _ _ Rectangle_rt Rectangle_e). Qed.
Print Assumptions C54_Rectangle.
Example C54_Rectangle_case : meets Rectangle_from Rectangle_ok Rectangle_edits Rectangle_default "(rectangle (start 123.45 -7) (end 3 0.001)
  (stroke (width 0.254) (type dash_dot) (color 255 0 128 0.5))
  (fill (type color) (color 255 0 128 0.5))
  (uuid 7c2f5ab1-44ff-4a1c-b96d-28f9f3a0fd1e)
)" = true.
Proof. vm_compute. reflexivity. Qed.

Theorem C54_SchArc : editable SchArc_to SchArc_from SchArc_ok SchArc_eqb SchArc_edits.
Proof. exact (edit_kept _ _ _ _ _ _ SchArc_rt SchArc_e). Qed.
Print Assumptions C54_SchArc.
Example C54_SchArc_case : meets SchArc_from SchArc_ok SchArc_edits SchArc_default "(arc (start 123.45 -7) (mid 3 0.001) (end 4 1.2)
  (stroke (width 0.254) (type dash_dot) (color 255 0 128 0.5))
  (fill (type color) (color 255 0 128 0.5))
  (uuid 7c2f5ab1-44ff-4a1c-b96d-28f9f3a0fd1e)
)" = true.
Proof. vm_compute. reflexivity. Qed.

Theorem C54_Circle : editable Circle_to Circle_from Circle_ok Circle_eqb Circle_edits.
Proof. exact (edit_kept _ _ _ _ _ _ Circle_rt Circle_e). Qed.
Print Assumptions C54_Circle.
Example C54_Circle_case : meets Circle_from Circle_ok Circle_edits Circle_default "(circle (center 123.45 -7) (radius 1.5)
  (stroke (width 0.254) (type dash_dot) (color 255 0 128 0.5))
  (fill (type color) (color 255 0 128 0.5))
  (uuid 7c2f5ab1-44ff-4a1c-b96d-28f9f3a0fd1e)
)" = true.
Proof. vm_compute. reflexivity. Qed.

Theorem C54_NetclassFlag : editable NetclassFlag_to NetclassFlag_from NetclassFlag_ok NetclassFlag_eqb NetclassFlag_edits.
Proof. exact (edit_kept _ _ _ _ _ _ NetclassFlag_rt NetclassFlag_e). Qed.
Print Assumptions C54_NetclassFlag.
Example C54_NetclassFlag_case : meets NetclassFlag_from NetclassFlag_ok NetclassFlag_edits NetclassFlag_default "(netclass_flag ""a \""b\"""" (length 2.54) (shape dot) (at 123.45 7 270) (fields_autoplaced)
  (effects (font (face ""A \""b\"" \c"") (size 1.27 2) (color 255 0 128 0.5) (thickness 0.3) bold italic (line_spacing 1.1)) (justify right top mirror) (href ""https://x.y/(z)"") hide)
  (uuid 7c2f5ab1-44ff-4a1c-b96d-28f9f3a0fd1e)
  (property ""Sheet name"" ""a\b\"""" (id 3) (at 1 2.5 90) (show_name)
    (effects (font (face ""A \""b\"" \c"") (size 1.27 2) (color 255 0 128 0.5) (thickness 0.3) bold italic (line_spacing 1.1)) (justify right top mirror) (href ""https://x.y/(z)"") hide)
  )
  (property ""Sheet name"" ""a\b\"""" (id 3) (at 1 2.5 90) (show_name)
    (effects (font (face ""A \""b\"" \c"") (size 1.27 2) (color 255 0 128 0.5) (thickness 0.3) bold italic (line_spacing 1.1)) (justify right top mirror) (href ""https://x.y/(z)"") hide)
  )
)" = true.
Proof. vm_compute. reflexivity. Qed.

Theorem C54_Schematic : editable Schematic_to Schematic_from Schematic_ok Schematic_eqb Schematic_edits.
Proof. exact (edit_kept _ _ _ _ _ _ Schematic_rt Schematic_e). Qed.
Print Assumptions C54_Schematic.
Example C54_Schematic_case : meets Schematic_from Schematic_ok Schematic_edits Schematic_default "(kicad_sch (version 20230121) (generator eeschema)

  (uuid 7c2f5ab1-44ff-4a1c-b96d-28f9f3a0fd1e)

  (paper ""A3"" portrait)

  (title_block
    (title ""T"")
    (rev ""1.0"")
    (company """")
    (comment 1 ""one"")
    (comment 4 ""four (4)"")
  )

  (lib_symbols
    (symbol ""Amplifier:LM 358"" (extends ""LM \""X\"""") (power) (pin_numbers hide) (pin_names (offset 0.5) hide) (in_bom yes) (on_board no)
      (property ""Sheet name"" ""a\b\"""" (id 3) (at 1 2.5 90) (show_name)
        (effects (font (face ""A \""b\"" \c"") (size 1.27 2) (color 255 0 128 0.5) (thickness 0.3) bold italic (line_spacing 1.1)) (justify right top mirror) (href ""https://x.y/(z)"") hide)
      )
      (property ""Sheet name"" ""a\b\"""" (id 3) (at 1 2.5 90) (show_name)
        (effects (font (face ""A \""b\"" \c"") (size 1.27 2) (color 255 0 128 0.5) (thickness 0.3) bold italic (line_spacing 1.1)) (justify right top mirror) (href ""https://x.y/(z)"") hide)
      )
      (circle (center 0.0 0.0) (radius 0.0)
        (stroke (width 0.0))
        (fill (type none))
      )
      (text """" (at 0.0 0.0)
        (effects (font (size 1.0 1.0)))
      )
      (pin power_in line (at 2 3 90) (length 2.54) hide
        (name ""~{RST}"" (effects (font (face ""A \""b\"" \c"") (size 1.27 2) (color 255 0 128 0.5) (thickness 0.3) bold italic (line_spacing 1.1)) (justify right top mirror) (href ""https://x.y/(z)"") hide))
        (number ""12"")
        (alternate """" input line)
        (alternate """" input line)
      )
      (pin input line (at 0.0 0.0) (length 0.254) (name """") (number ""0""))
      (symbol ""LM 358_0_1""
        (rectangle (start 0.0 0.0) (end 0.0 0.0)
          (stroke (width 0.0))
          (fill (type none))
        )
        (arc (start 0.0 0.0) (mid 0.0 0.0) (end 0.0 0.0)
          (stroke (width 0.0))
          (fill (type none))
        )
        (pin power_in line (at 2 3 90) (length 2.54) hide
          (name ""~{RST}"" (effects (font (face ""A \""b\"" \c"") (size 1.27 2) (color 255 0 128 0.5) (thickness 0.3) bold italic (line_spacing 1.1)) (justify right top mirror) (href ""https://x.y/(z)"") hide))
          (number ""12"")
          (alternate """" input line)
          (alternate """" input line)
        )
      )
      (symbol ""LM 358_1_1""
        (rectangle (start 0.0 0.0) (end 0.0 0.0)
          (stroke (width 0.0))
          (fill (type none))
        )
        (arc (start 0.0 0.0) (mid 0.0 0.0) (end 0.0 0.0)
          (stroke (width 0.0))
          (fill (type none))
        )
        (pin power_in line (at 2 3 90) (length 2.54) hide
          (name ""~{RST}"" (effects (font (face ""A \""b\"" \c"") (size 1.27 2) (color 255 0 128 0.5) (thickness 0.3) bold italic (line_spacing 1.1)) (justify right top mirror) (href ""https://x.y/(z)"") hide))
          (number ""12"")
          (alternate """" input line)
          (alternate """" input line)
        )
        (symbol ""LM 358_7_1""
          (rectangle (start 0.0 0.0) (end 0.0 0.0)
            (stroke (width 0.0))
            (fill (type none))
          )
          (arc (start 0.0 0.0) (mid 0.0 0.0) (end 0.0 0.0)
            (stroke (width 0.0))
            (fill (type none))
          )
          (pin power_in line (at 2 3 90) (length 2.54) hide
            (name ""~{RST}"" (effects (font (face ""A \""b\"" \c"") (size 1.27 2) (color 255 0 128 0.5) (thickness 0.3) bold italic (line_spacing 1.1)) (justify right top mirror) (href ""https://x.y/(z)"") hide))
            (number ""12"")
            (alternate """" input line)
            (alternate """" input line)
          )
        )
        (symbol ""LM 358_8_1""
          (rectangle (start 0.0 0.0) (end 0.0 0.0)
            (stroke (width 0.0))
            (fill (type none))
          )
          (arc (start 0.0 0.0) (mid 0.0 0.0) (end 0.0 0.0)
            (stroke (width 0.0))
            (fill (type none))
          )
          (pin power_in line (at 2 3 90) (length 2.54) hide
            (name ""~{RST}"" (effects (font (face ""A \""b\"" \c"") (size 1.27 2) (color 255 0 128 0.5) (thickness 0.3) bold italic (line_spacing 1.1)) (justify right top mirror) (href ""https://x.y/(z)"") hide))
            (number ""12"")
            (alternate """" input line)
            (alternate """" input line)
          )
        )
      )
    )

    (symbol ""Amplifier:LM 358"" (extends ""LM \""X\"""") (power) (pin_numbers hide) (pin_names (offset 0.5) hide) (in_bom yes) (on_board no)
      (property ""Sheet name"" ""a\b\"""" (id 3) (at 1 2.5 90) (show_name)
        (effects (font (face ""A \""b\"" \c"") (size 1.27 2) (color 255 0 128 0.5) (thickness 0.3) bold italic (line_spacing 1.1)) (justify right top mirror) (href ""https://x.y/(z)"") hide)
      )
      (property ""Sheet name"" ""a\b\"""" (id 3) (at 1 2.5 90) (show_name)
        (effects (font (face ""A \""b\"" \c"") (size 1.27 2) (color 255 0 128 0.5) (thickness 0.3) bold italic (line_spacing 1.1)) (justify right top mirror) (href ""https://x.y/(z)"") hide)
      )
      (circle (center 0.0 0.0) (radius 0.0)
        (stroke (width 0.0))
        (fill (type none))
      )
      (text """" (at 0.0 0.0)
        (effects (font (size 1.0 1.0)))
      )
      (pin power_in line (at 2 3 90) (length 2.54) hide
        (name ""~{RST}"" (effects (font (face ""A \""b\"" \c"") (size 1.27 2) (color 255 0 128 0.5) (thickness 0.3) bold italic (line_spacing 1.1)) (justify right top mirror) (href ""https://x.y/(z)"") hide))
        (number ""12"")
        (alternate """" input line)
        (alternate """" input line)
      )
      (pin input line (at 0.0 0.0) (length 0.254) (name """") (number ""0""))
      (symbol ""LM 358_0_1""
        (rectangle (start 0.0 0.0) (end 0.0 0.0)
          (stroke (width 0.0))
          (fill (type none))
        )
        (arc (start 0.0 0.0) (mid 0.0 0.0) (end 0.0 0.0)
          (stroke (width 0.0))
          (fill (type none))
        )
        (pin power_in line (at 2 3 90) (length 2.54) hide
          (name ""~{RST}"" (effects (font (face ""A \""b\"" \c"") (size 1.27 2) (color 255 0 128 0.5) (thickness 0.3) bold italic (line_spacing 1.1)) (justify right top mirror) (href ""https://x.y/(z)"") hide))
          (number ""12"")
          (alternate """" input line)
          (alternate """" input line)
        )
      )
      (symbol ""LM 358_1_1""
        (rectangle (start 0.0 0.0) (end 0.0 0.0)
          (stroke (width 0.0))
          (fill (type none))
        )
        (arc (start 0.0 0.0) (mid 0.0 0.0) (end 0.0 0.0)
          (stroke (width 0.0))
          (fill (type none))
        )
        (pin power_in line (at 2 3 90) (length 2.54) hide
          (name ""~{RST}"" (effects (font (face ""A \""b\"" \c"") (size 1.27 2) (color 255 0 128 0.5) (thickness 0.3) bold italic (line_spacing 1.1)) (justify right top mirror) (href ""https://x.y/(z)"") hide))
          (number ""12"")
          (alternate """" input line)
          (alternate """" input line)
        )
        (symbol ""LM 358_7_1""
          (rectangle (start 0.0 0.0) (end 0.0 0.0)
            (stroke (width 0.0))
            (fill (type none))
          )
          (arc (start 0.0 0.0) (mid 0.0 0.0) (end 0.0 0.0)
            (stroke (width 0.0))
            (fill (type none))
          )
          (pin power_in line (at 2 3 90) (length 2.54) hide
            (name ""~{RST}"" (effects (font (face ""A \""b\"" \c"") (size 1.27 2) (color 255 0 128 0.5) (thickness 0.3) bold italic (line_spacing 1.1)) (justify right top mirror) (href ""https://x.y/(z)"") hide))
            (number ""12"")
            (alternate """" input line)
            (alternate """" input line)
          )
        )
        (symbol ""LM 358_8_1""
          (rectangle (start 0.0 0.0) (end 0.0 0.0)
            (stroke (width 0.0))
            (fill (type none))
          )
          (arc (start 0.0 0.0) (mid 0.0 0.0) (end 0.0 0.0)
            (stroke (width 0.0))
            (fill (type none))
          )
          (pin power_in line (at 2 3 90) (length 2.54) hide
            (name ""~{RST}"" (effects (font (face ""A \""b\"" \c"") (size 1.27 2) (color 255 0 128 0.5) (thickness 0.3) bold italic (line_spacing 1.1)) (justify right top mirror) (href ""https://x.y/(z)"") hide))
            (number ""12"")
            (alternate """" input line)
            (alternate """" input line)
          )
        )
      )
    )
  )

  (junction (at 123.45 -7) (diameter 0) (color 255 0 128 0.5)
    (uuid 7c2f5ab1-44ff-4a1c-b96d-28f9f3a0fd1e)
  )
  (junction (at 0.0 0.0) (diameter 0) (color 0 0 0 0)  )

  (no_connect (at 123.45 -7) (uuid 7c2f5ab1-44ff-4a1c-b96d-28f9f3a0fd1e))

  (bus_entry (at 123.45 -7) (size 2.54 3)
    (stroke (width 0.254) (type dash_dot) (color 255 0 128 0.5))
    (uuid 7c2f5ab1-44ff-4a1c-b96d-28f9f3a0fd1e)
  )

  (bus_alias ""a \""b\"""" (members ""A[0..7]"" """"))

  (bus (pts (xy 123.45 -7) (xy 1 0.5))
    (stroke (width 0.254) (type dash_dot) (color 255 0 128 0.5))
    (uuid 7c2f5ab1-44ff-4a1c-b96d-28f9f3a0fd1e)
  )
  (polyline (pts (xy 123.45 -7) (xy 1 0.5))
    (stroke (width 0.254) (type dash_dot) (color 255 0 128 0.5))
    (uuid 7c2f5ab1-44ff-4a1c-b96d-28f9f3a0fd1e)
  )
  (wire (pts (xy 123.45 -7) (xy 1 0.5))
    (stroke (width 0.254) (type dash_dot) (color 255 0 128 0.5))
    (uuid 7c2f5ab1-44ff-4a1c-b96d-28f9f3a0fd1e)
  )

  (circle (center 123.45 -7) (radius 1.5)
    (stroke (width 0.254) (type dash_dot) (color 255 0 128 0.5))
    (fill (type color) (color 255 0 128 0.5))
    (uuid 7c2f5ab1-44ff-4a1c-b96d-28f9f3a0fd1e)
  )
  (arc (start 0.0 0.0) (mid 0.0 0.0) (end 0.0 0.0)
    (stroke (width 0.0))
    (fill (type none))
  )
  (rectangle (start 0.0 0.0) (end 0.0 0.0)
    (stroke (width 0.0))
    (fill (type none))
  )

  (image (at 12.34 5) (scale 0.5)
    (uuid a-b-c)
    (data
      iVBORw0KGgo=
      12
    )
  )

  (text_box ""a \""b\""""
    (at 123.45 7 270) (size 3 0.001)
    (stroke (width 0.254) (type dash_dot) (color 255 0 128 0.5))
    (fill (type color) (color 255 0 128 0.5))
    (effects (font (face ""A \""b\"" \c"") (size 1.27 2) (color 255 0 128 0.5) (thickness 0.3) bold italic (line_spacing 1.1)) (justify right top mirror) (href ""https://x.y/(z)"") hide)
    (uuid 7c2f5ab1-44ff-4a1c-b96d-28f9f3a0fd1e)
  )

  (text ""0123456789 0123456789 0123456789 (\""0123456789\"") 0123456""
    (at 123.45 7 270)
    (effects (font (face ""A \""b\"" \c"") (size 1.27 2) (color 255 0 128 0.5) (thickness 0.3) bold italic (line_spacing 1.1)) (justify right top mirror) (href ""https://x.y/(z)"") hide)
    (uuid 7c2f5ab1-44ff-4a1c-b96d-28f9f3a0fd1e)
  )

  (label ""a \""b\"""" (at 123.45 7 270) (fields_autoplaced)
    (effects (font (face ""A \""b\"" \c"") (size 1.27 2) (color 255 0 128 0.5) (thickness 0.3) bold italic (line_spacing 1.1)) (justify right top mirror) (href ""https://x.y/(z)"") hide)
    (uuid 7c2f5ab1-44ff-4a1c-b96d-28f9f3a0fd1e)
  )

  (global_label ""a \""b\"""" (shape bidirectional) (at 123.45 7 270) (fields_autoplaced)
    (effects (font (face ""A \""b\"" \c"") (size 1.27 2) (color 255 0 128 0.5) (thickness 0.3) bold italic (line_spacing 1.1)) (justify right top mirror) (href ""https://x.y/(z)"") hide)
    (uuid 7c2f5ab1-44ff-4a1c-b96d-28f9f3a0fd1e)
    (property ""Sheet name"" ""a\b\"""" (id 3) (at 1 2.5 90) (show_name)
      (effects (font (face ""A \""b\"" \c"") (size 1.27 2) (color 255 0 128 0.5) (thickness 0.3) bold italic (line_spacing 1.1)) (justify right top mirror) (href ""https://x.y/(z)"") hide)
    )
    (property ""Sheet name"" ""a\b\"""" (id 3) (at 1 2.5 90) (show_name)
      (effects (font (face ""A \""b\"" \c"") (size 1.27 2) (color 255 0 128 0.5) (thickness 0.3) bold italic (line_spacing 1.1)) (justify right top mirror) (href ""https://x.y/(z)"") hide)
    )
  )

  (hierarchical_label ""a \""b\"""" (shape output) (at 123.45 7 270) (fields_autoplaced)
    (effects (font (face ""A \""b\"" \c"") (size 1.27 2) (color 255 0 128 0.5) (thickness 0.3) bold italic (line_spacing 1.1)) (justify right top mirror) (href ""https://x.y/(z)"") hide)
    (uuid 7c2f5ab1-44ff-4a1c-b96d-28f9f3a0fd1e)
  )

  (netclass_flag ""a \""b\"""" (length 2.54) (shape dot) (at 123.45 7 270) (fields_autoplaced)
    (effects (font (face ""A \""b\"" \c"") (size 1.27 2) (color 255 0 128 0.5) (thickness 0.3) bold italic (line_spacing 1.1)) (justify right top mirror) (href ""https://x.y/(z)"") hide)
    (uuid 7c2f5ab1-44ff-4a1c-b96d-28f9f3a0fd1e)
    (property ""Sheet name"" ""a\b\"""" (id 3) (at 1 2.5 90) (show_name)
      (effects (font (face ""A \""b\"" \c"") (size 1.27 2) (color 255 0 128 0.5) (thickness 0.3) bold italic (line_spacing 1.1)) (justify right top mirror) (href ""https://x.y/(z)"") hide)
    )
    (property ""Sheet name"" ""a\b\"""" (id 3) (at 1 2.5 90) (show_name)
      (effects (font (face ""A \""b\"" \c"") (size 1.27 2) (color 255 0 128 0.5) (thickness 0.3) bold italic (line_spacing 1.1)) (justify right top mirror) (href ""https://x.y/(z)"") hide)
    )
  )

  (symbol (lib_name ""R_1"") (lib_id ""Device:R:x_1_2"") (at 123.45 7 270) (mirror x) (unit 2)
    (in_bom yes) (on_board no) (dnp no) (fields_autoplaced)
    (uuid 7c2f5ab1-44ff-4a1c-b96d-28f9f3a0fd1e)
    (property ""Sheet name"" ""a\b\"""" (id 3) (at 1 2.5 90) (show_name)
      (effects (font (face ""A \""b\"" \c"") (size 1.27 2) (color 255 0 128 0.5) (thickness 0.3) bold italic (line_spacing 1.1)) (justify right top mirror) (href ""https://x.y/(z)"") hide)
    )
    (property ""Sheet name"" ""a\b\"""" (id 3) (at 1 2.5 90) (show_name)
      (effects (font (face ""A \""b\"" \c"") (size 1.27 2) (color 255 0 128 0.5) (thickness 0.3) bold italic (line_spacing 1.1)) (justify right top mirror) (href ""https://x.y/(z)"") hide)
    )
    (pin ""1"" (uuid 7c2f5ab1-44ff-4a1c-b96d-28f9f3a0fd1e))
    (pin ""A \""2\"""" (uuid abc-12))
    (instances
      (project ""my \""project\""""
        (path ""/00000000-0000-0000-0000-00005f325e1e""
          (reference ""U 1"") (unit 1)
        )
        (path ""/00000000-0000-0000-0000-00005f325e1e""
          (reference ""U 1"") (unit 2)
        )
      )
      (project """"
      )
    )
  )

  (symbol (lib_name ""R_1"") (lib_id ""Device:R:x_1_2"") (at 123.45 7 270) (mirror x) (unit 2)
    (in_bom yes) (on_board no) (dnp no) (fields_autoplaced)
    (uuid 7c2f5ab1-44ff-4a1c-b96d-28f9f3a0fd1e)
    (property ""Sheet name"" ""a\b\"""" (id 3) (at 1 2.5 90) (show_name)
      (effects (font (face ""A \""b\"" \c"") (size 1.27 2) (color 255 0 128 0.5) (thickness 0.3) bold italic (line_spacing 1.1)) (justify right top mirror) (href ""https://x.y/(z)"") hide)
    )
    (property ""Sheet name"" ""a\b\"""" (id 3) (at 1 2.5 90) (show_name)
      (effects (font (face ""A \""b\"" \c"") (size 1.27 2) (color 255 0 128 0.5) (thickness 0.3) bold italic (line_spacing 1.1)) (justify right top mirror) (href ""https://x.y/(z)"") hide)
    )
    (pin ""1"" (uuid 7c2f5ab1-44ff-4a1c-b96d-28f9f3a0fd1e))
    (pin ""A \""2\"""" (uuid abc-12))
    (instances
      (project ""my \""project\""""
        (path ""/00000000-0000-0000-0000-00005f325e1e""
          (reference ""U 1"") (unit 1)
        )
        (path ""/00000000-0000-0000-0000-00005f325e1e""
          (reference ""U 1"") (unit 2)
        )
      )
      (project """"
      )
    )
  )

  (sheet (at 123.45 -7) (size 30 45.72) (fields_autoplaced)
    (stroke (width 0.254) (type dash_dot) (color 255 0 128 0.5))
    (fill (color 1 2 255 0.1234))
    (uuid 7c2f5ab1-44ff-4a1c-b96d-28f9f3a0fd1e)
    (property ""Sheetname"" ""a\b\"""" (id 3) (at 1 2.5 90) (show_name)
      (effects (font (face ""A \""b\"" \c"") (size 1.27 2) (color 255 0 128 0.5) (thickness 0.3) bold italic (line_spacing 1.1)) (justify right top mirror) (href ""https://x.y/(z)"") hide)
    )
    (property ""Sheet file"" ""a\b\"""" (id 3) (at 1 2.5 90) (show_name)
      (effects (font (face ""A \""b\"" \c"") (size 1.27 2) (color 255 0 128 0.5) (thickness 0.3) bold italic (line_spacing 1.1)) (justify right top mirror) (href ""https://x.y/(z)"") hide)
    )
    (property ""a \""b\"""" ""a\b\"""" (id 3) (at 1 2.5 90) (show_name)
      (effects (font (face ""A \""b\"" \c"") (size 1.27 2) (color 255 0 128 0.5) (thickness 0.3) bold italic (line_spacing 1.1)) (justify right top mirror) (href ""https://x.y/(z)"") hide)
    )
    (property ""Field2"" ""a\b\"""" (id 3) (at 1 2.5 90) (show_name)
      (effects (font (face ""A \""b\"" \c"") (size 1.27 2) (color 255 0 128 0.5) (thickness 0.3) bold italic (line_spacing 1.1)) (justify right top mirror) (href ""https://x.y/(z)"") hide)
    )
    (pin ""a \""b\"""" tri_state (at 123.45 7 270)
      (effects (font (face ""A \""b\"" \c"") (size 1.27 2) (color 255 0 128 0.5) (thickness 0.3) bold italic (line_spacing 1.1)) (justify right top mirror) (href ""https://x.y/(z)"") hide)
      (uuid 7c2f5ab1-44ff-4a1c-b96d-28f9f3a0fd1e)
    )
    (pin """" input (at 0.0 0.0)
      (effects (font (size 1.0 1.0)))
    )
    (instances
      (project ""my \""project\""""
        (path ""/a b/c"" (page ""2 \""a\""""))
        (path ""/a b/c"" (page ""2 \""a\""""))
      )
    )
  )

  (sheet (at 123.45 -7) (size 30 45.72) (fields_autoplaced)
    (stroke (width 0.254) (type dash_dot) (color 255 0 128 0.5))
    (fill (color 1 2 255 0.1234))
    (uuid 7c2f5ab1-44ff-4a1c-b96d-28f9f3a0fd1e)
    (property ""Sheetname"" ""a\b\"""" (id 3) (at 1 2.5 90) (show_name)
      (effects (font (face ""A \""b\"" \c"") (size 1.27 2) (color 255 0 128 0.5) (thickness 0.3) bold italic (line_spacing 1.1)) (justify right top mirror) (href ""https://x.y/(z)"") hide)
    )
    (property ""Sheet file"" ""a\b\"""" (id 3) (at 1 2.5 90) (show_name)
      (effects (font (face ""A \""b\"" \c"") (size 1.27 2) (color 255 0 128 0.5) (thickness 0.3) bold italic (line_spacing 1.1)) (justify right top mirror) (href ""https://x.y/(z)"") hide)
    )
    (property ""a \""b\"""" ""a\b\"""" (id 3) (at 1 2.5 90) (show_name)
      (effects (font (face ""A \""b\"" \c"") (size 1.27 2) (color 255 0 128 0.5) (thickness 0.3) bold italic (line_spacing 1.1)) (justify right top mirror) (href ""https://x.y/(z)"") hide)
    )
    (property ""Field2"" ""a\b\"""" (id 3) (at 1 2.5 90) (show_name)
      (effects (font (face ""A \""b\"" \c"") (size 1.27 2) (color 255 0 128 0.5) (thickness 0.3) bold italic (line_spacing 1.1)) (justify right top mirror) (href ""https://x.y/(z)"") hide)
    )
    (pin ""a \""b\"""" tri_state (at 123.45 7 270)
      (effects (font (face ""A \""b\"" \c"") (size 1.27 2) (color 255 0 128 0.5) (thickness 0.3) bold italic (line_spacing 1.1)) (justify right top mirror) (href ""https://x.y/(z)"") hide)
      (uuid 7c2f5ab1-44ff-4a1c-b96d-28f9f3a0fd1e)
    )
    (pin """" input (at 0.0 0.0)
      (effects (font (size 1.0 1.0)))
    )
    (instances
      (project ""my \""project\""""
        (path ""/a b/c"" (page ""2 \""a\""""))
        (path ""/a b/c"" (page ""2 \""a\""""))
      )
    )
  )

  (sheet_instances
    (path ""/"" (page ""1""))
    (path ""/a b/c"" (page ""2 \""a\""""))
  )

  (symbol_instances
    (path ""/a b/c""
      (reference ""U1"") (unit 2) (value ""1 \""k\"""") (footprint ""Lib:F (x)"")
    )
  )
)" = true.
Proof. vm_compute. reflexivity. Qed.

Theorem C54_WksFontSize : editable WksFontSize_to WksFontSize_from WksFontSize_ok WksFontSize_eqb WksFontSize_edits.
Proof. exact (edit_kept _ _ _ _ _ _ WksFontSize_rt WksFontSize_e). Qed.
Print Assumptions C54_WksFontSize.
Example C54_WksFontSize_case : meets WksFontSize_from WksFontSize_ok WksFontSize_edits WksFontSize_default "(size 1.3 2)" = true.
Proof. vm_compute. reflexivity. Qed.

Theorem C54_WksFont : editable WksFont_to WksFont_from WksFont_ok1 WksFont_eqb WksFont_edits.
Proof. exact (edit_kept _ _ _ _ _ _ WksFont_rt1 WksFont_e). Qed.
Print Assumptions C54_WksFont.
Example C54_WksFont_case : meets WksFont_from WksFont_ok1 WksFont_edits WksFont_default "(font (linewidth 0.15) (size 1.3 2) bold italic)" = true.
Proof. vm_compute. reflexivity. Qed.

Theorem C54_Line : editable Line_to Line_from Line_ok Line_eqb Line_edits.
Proof. exact (edit_kept _ _ _ _ _ _ Line_rt Line_e). Qed.
Print Assumptions C54_Line.
Example C54_Line_case : meets Line_from Line_ok Line_edits Line_default "(line (name ""a \""b\"""") (start 2.5 7 ltcorner) (end 2.5 7) (option page1only) (linewidth 0.15) (repeat 3) (incrx 5) (incry 0.5) (comment ""c (d)"")
)" = true.
Proof. vm_compute. reflexivity. Qed.

Theorem C54_Rect : editable Rect_to Rect_from Rect_ok Rect_eqb Rect_edits.
Proof. exact (edit_kept _ _ _ _ _ _ Rect_rt Rect_e). Qed.
Print Assumptions C54_Rect.
Example C54_Rect_case : meets Rect_from Rect_ok Rect_edits Rect_default "(rect (name ""a \""b\"""") (start 2.5 7 ltcorner) (end 2.5 7) (option page1only) (linewidth 0.15) (repeat 3) (incrx 5) (incry 0.5) (comment ""c (d)"")
)" = true.
Proof. vm_compute. reflexivity. Qed.

Theorem C54_Bitmap : editable Bitmap_to Bitmap_from Bitmap_ok Bitmap_eqb Bitmap_edits.
Proof. exact (edit_kept _ _ _ _ _ _ Bitmap_rt Bitmap_e). Qed.
Print Assumptions C54_Bitmap.
Example C54_Bitmap_case : meets Bitmap_from Bitmap_ok Bitmap_edits Bitmap_default "(bitmap (name ""a \""b\"""") (pos 2.5 7 ltcorner) (option notonpage1) (scale 0.5) (repeat 2) (incrx 5) (incry 0.5)
 (comment ""c (d)"")
(pngdata
  (data ""89 50 4E 47 "")
  (data ""0D 0A "")
  )
)" = true.
Proof. vm_compute. reflexivity. Qed.

Theorem C54_TbText : editable TbText_to TbText_from TbText_ok TbText_eqb TbText_edits.
Proof. exact (edit_kept _ _ _ _ _ _ TbText_rt TbText_e). Qed.
Print Assumptions C54_TbText.
Example C54_TbText_case : meets TbText_from TbText_ok TbText_edits TbText_default "(tbtext ""Id: \""${#}\"" (x)"" (name ""n"") (pos 2.5 7 ltcorner) (option page1only) (rotate 90) (font (linewidth 0.15) (size 1.3 2) bold italic) (justify right top mirror) (maxlen 70) (maxheight 3.5) (repeat 2) (incrx 5) (incry 0.5) (incrlabel 1) (comment ""c (d)"")
)" = true.
Proof. vm_compute. reflexivity. Qed.

Theorem C54_TextSize : editable TextSize_to TextSize_from TextSize_ok TextSize_eqb TextSize_edits.
Proof. exact (edit_kept _ _ _ _ _ _ TextSize_rt TextSize_e). Qed.
Print Assumptions C54_TextSize.
Example C54_TextSize_case : meets TextSize_from TextSize_ok TextSize_edits TextSize_default "(textsize 1.5 2)" = true.
Proof. vm_compute. reflexivity. Qed.

Theorem C54_Setup : editable Setup_to Setup_from Setup_ok Setup_eqb Setup_edits.
Proof. exact (edit_kept _ _ _ _ _ _ Setup_rt Setup_e). Qed.
Print Assumptions C54_Setup.
Example C54_Setup_case : meets Setup_from Setup_ok Setup_edits Setup_default "(setup (textsize 1.5 2)(linewidth 0.15)(textlinewidth 1)
(left_margin 10)(right_margin 10.5)(top_margin 11)(bottom_margin 12))" = true.
Proof. vm_compute. reflexivity. Qed.

Theorem C54_WorkSheet : editable WorkSheet_to WorkSheet_from WorkSheet_ok WorkSheet_eqb WorkSheet_edits.
Proof. exact (edit_kept _ _ _ _ _ _ WorkSheet_rt WorkSheet_e). Qed.
Print Assumptions C54_WorkSheet.
Example C54_WorkSheet_case : meets WorkSheet_from WorkSheet_ok WorkSheet_edits WorkSheet_default "(kicad_wks (version 20220228) (generator pl_editor)
  (setup (textsize 1.5 2)(linewidth 0.15)(textlinewidth 1)
  (left_margin 10)(right_margin 10.5)(top_margin 11)(bottom_margin 12))
  (tbtext ""Id: \""${#}\"" (x)"" (name ""n"") (pos 2.5 7 ltcorner) (option page1only) (rotate 90) (font (linewidth 0.15) (size 1.3 2) bold italic) (justify right top mirror) (maxlen 70) (maxheight 3.5) (repeat 2) (incrx 5) (incry 0.5) (incrlabel 1) (comment ""c (d)"")
)
  (line (name """") (start 0.0 0.0) (end 0.0 0.0))
  (rect (name """") (start 0.0 0.0) (end 0.0 0.0))
  (bitmap (name ""a \""b\"""") (pos 2.5 7 ltcorner) (option notonpage1) (scale 0.5) (repeat 2) (incrx 5) (incry 0.5)
 (comment ""c (d)"")
  (pngdata
    (data ""89 50 4E 47 "")
    (data ""0D 0A "")
    )
  )
  (tbtext """" (name """") (pos 0.0 0.0))
)" = true.
Proof. vm_compute. reflexivity. Qed.

(** The attributes left out: the edit is saved without complaint, but is gone when the object is loaded.  (The
    angle of a GrLine is worse: its text cannot be parsed at all, C19_GrLine_angle_refuted.) *)
Definition loses {A B} (to : A -> nat -> bool -> res str) (from : val -> res A) (ok : A -> bool) (put : B -> A -> A) (get : A -> B) (alike : B -> B -> bool) : Prop :=
  exists o x, ok o = true /\ exists o', write_read to from (put x o) 0 false = Ok o' /\ alike x (get o') = false.
Lemma loss {A B} (to : A -> nat -> bool -> res str) from ok (put : B -> A -> A) get alike o x :
  (ok o && match write_read to from (put x o) 0 false with Ok o' => negb (alike x (get o')) | Err _ => false end) = true ->
  loses to from ok put get alike.
Proof.
  intros H. apply andb_prop in H as [O H]. exists o, x. split; [exact O|].
  destruct (write_read to from (put x o) 0 false) as [o'|]; [|discriminate]. exists o'. split; [reflexivity|]. now apply negb_true_iff.
Qed.
Theorem C54_Dimension_locked_refuted : loses Dimension_to Dimension_from Dimension_ok (fun x o => o <| di_locked := x |>) di_locked Bool.eqb.
Proof. apply (loss _ _ _ _ _ _ (Dimension_default <| di_tstamp := VStr $"a" |> <| di_pts := [Position_default; Position_default] |>) true). vm_compute. reflexivity. Qed.
Print Assumptions C54_Dimension_locked_refuted.

Theorem C54_PlotSettings_useAuxOrigin_refuted : loses PlotSettings_to PlotSettings_from PlotSettings_ok (fun x o => o <| ps_useAuxOrigin := x |>) ps_useAuxOrigin Bool.eqb.
Proof. apply (loss _ _ _ _ _ _ (PlotSettings_default <| ps_layerSelection := VStr $"0x1" |>) true). vm_compute. reflexivity. Qed.
Print Assumptions C54_PlotSettings_useAuxOrigin_refuted.
