(** Model of items/brditems.py. *)
From Verif Require Import PyBase PyNum PyStr Sexpr M_Common M_Zone.

(** items/brditems.py:24-33: attributes of GeneralSettings and their defaults *)
Record GeneralSettings := mkGeneralSettings {
  gs_thickness : val }.
#[export] Instance eta_GeneralSettings : Settable GeneralSettings :=
  settable! mkGeneralSettings <gs_thickness>.
Definition GeneralSettings_default : GeneralSettings :=
  mkGeneralSettings (fdec 16 (-1)).

(** brditems.py:57: no test of the item's type; [item[0]] of a word is its first letter *)
Definition GeneralSettings_step (o : GeneralSettings) (item : val) : res GeneralSettings :=
  let! h := item@0 in
  let! o := on (h =s "thickness") (setf gs_thickness (item@1)) o in
  Ok o.
(** brditems.py:35-58 *)
Definition GeneralSettings_from (exp : val) : res GeneralSettings :=
  let! l := need_head "general" exp in foldM GeneralSettings_step GeneralSettings_default l.
(** brditems.py:60-76 *)
Definition GeneralSettings_to (o : GeneralSettings) (indent : nat) (newline : bool) : res str :=
  let indents := spaces indent in
  Ok (indents ++ $"(general" ++ nl ++ indents ++ $"  (thickness " ++ fmt (gs_thickness o) ++ $")" ++ nl ++ indents ++ $")" ++ eol newline).

(** items/brditems.py:79-99: attributes of LayerToken and their defaults *)
Record LayerToken := mkLayerToken {
  lt_ordinal : val;
  lt_name : val;
  lt_type : val;
  lt_userName : val }.
#[export] Instance eta_LayerToken : Settable LayerToken :=
  settable! mkLayerToken <lt_ordinal; lt_name; lt_type; lt_userName>.
Definition LayerToken_default : LayerToken :=
  mkLayerToken (VInt 0) (VStr $"F.Cu") (VStr $"signal") VNone.

(** brditems.py:101-124 *)
Definition LayerToken_from (exp : val) : res LayerToken :=
  let! l := need_list exp in
  if (Nat.ltb (length l) 3 || Nat.ltb 4 (length l))%bool then Err EException else
  let o := LayerToken_default in
  let! o := setf lt_ordinal (exp@0) o in
  let! o := setf lt_name (exp@1) o in
  let! o := setf lt_type (exp@2) o in
  let! o := on (Nat.eqb (length l) 4) (setf lt_userName (exp@3)) o in
  Ok o.
(** brditems.py:126-141 *)
Definition LayerToken_to (o : LayerToken) (indent : nat) (newline : bool) : res str :=
  let username := if is_none (lt_userName o) then [] else $" " ++ quoted (lt_userName o) in
  Ok (spaces indent ++ $"(" ++ fmt (lt_ordinal o) ++ $" " ++ quoted (lt_name o) ++ $" " ++ fmt (lt_type o) ++ username ++ $")" ++ eol newline).

(** items/brditems.py:144-158: attributes of StackupSubLayer and their defaults *)
Record StackupSubLayer := mkStackupSubLayer {
  sb_thickness : val;
  sb_material : val;
  sb_epsilonR : val;
  sb_lossTangent : val }.
#[export] Instance eta_StackupSubLayer : Settable StackupSubLayer :=
  settable! mkStackupSubLayer <sb_thickness; sb_material; sb_epsilonR; sb_lossTangent>.
Definition StackupSubLayer_default : StackupSubLayer :=
  mkStackupSubLayer (fdec 1 (-1)) VNone VNone VNone.

(** brditems.py:160-168 *)
Definition StackupSubLayer_from (exp : val) : res StackupSubLayer := Err ENotImplemented.
(** brditems.py:170-188 *)
Definition StackupSubLayer_to (o : StackupSubLayer) (indent : nat) (newline : bool) : res str :=
  let mat := if is_none (sb_material o) then [] else $" (material " ++ quoted (sb_material o) ++ $")" in
  let er := if is_none (sb_epsilonR o) then [] else $" (epsilon_r " ++ fmt (sb_epsilonR o) ++ $")" in
  let lt := if is_none (sb_lossTangent o) then [] else $" (loss_tangent " ++ fmt (sb_lossTangent o) ++ $")" in
  Ok (spaces indent ++ $"addsublayer (thickness " ++ fmt (sb_thickness o) ++ $")" ++ mat ++ er ++ lt ++ eol newline).

(** items/brditems.py:191-230: attributes of StackupLayer and their defaults *)
Record StackupLayer := mkStackupLayer {
  sl_name : val;
  sl_type : val;
  sl_color : val;
  sl_thickness : val;
  sl_material : val;
  sl_epsilonR : val;
  sl_lossTangent : val;
  sl_subLayers : list StackupSubLayer }.
#[export] Instance eta_StackupLayer : Settable StackupLayer :=
  settable! mkStackupLayer <sl_name; sl_type; sl_color; sl_thickness; sl_material; sl_epsilonR; sl_lossTangent; sl_subLayers>.
Definition StackupLayer_default : StackupLayer :=
  mkStackupLayer (VStr []) (VStr []) VNone VNone VNone VNone VNone [].

(** brditems.py:272-275 *)
Definition StackupSubLayer_step (o : StackupSubLayer) (item : val) : res StackupSubLayer :=
  let! h := item@0 in
  let! o := on (h =s "thickness") (setf sb_thickness (item@1)) o in
  let! o := on (h =s "material") (setf sb_material (item@1)) o in
  let! o := on (h =s "epsilon_r") (setf sb_epsilonR (item@1)) o in
  let! o := on (h =s "loss_tangent") (setf sb_lossTangent (item@1)) o in
  Ok o.
(** brditems.py:279-284 *)
Definition StackupLayer_own (o : StackupLayer) (item : val) : res StackupLayer :=
  let! h := item@0 in
  let! o := on (h =s "type") (setf sl_type (item@1)) o in
  let! o := on (h =s "thickness") (setf sl_thickness (item@1)) o in
  let! o := on (h =s "material") (setf sl_material (item@1)) o in
  let! o := on (h =s "epsilon_r") (setf sl_epsilonR (item@1)) o in
  let! o := on (h =s "loss_tangent") (setf sl_lossTangent (item@1)) o in
  let! o := on (h =s "color") (setf sl_color (item@1)) o in
  Ok o.
(** brditems.py:257-284: the state is tempSublayer (None while parsingSublayer is False) and the
    object *)
Definition StackupLayer_state : Type := option StackupSubLayer * StackupLayer.
Definition StackupLayer_next (s : StackupLayer_state) (item : val) : res StackupLayer_state :=
  let '(temp, o) := s in
  if negb (is_list item) then
    (if item =s "addsublayer" then
       match temp with
       | Some t => let! o := addf sl_subLayers (Ok t) o in Ok (Some StackupSubLayer_default, o)
       | None => Ok (Some StackupSubLayer_default, o)
       end
     else Ok s)
  else match temp with
       | Some t => let! t := StackupSubLayer_step t item in Ok (Some t, o)
       | None => let! o := StackupLayer_own o item in Ok (None, o)
       end.
(** brditems.py:232-290 *)
Definition StackupLayer_from (exp : val) : res StackupLayer :=
  let! l := need_head "layer" exp in
  let! o := setf sl_name (exp@1) StackupLayer_default in
  let! s := foldM StackupLayer_next (None, o) (skipn 2 l) in
  match s with
  | (Some t, o) => addf sl_subLayers (Ok t) o
  | (None, o) => Ok o
  end.
(** brditems.py:292-316 *)
Definition StackupLayer_to (o : StackupLayer) (indent : nat) (newline : bool) : res str :=
  let color := if is_none (sl_color o) then [] else $" (color " ++ quoted (sl_color o) ++ $")" in
  let material := if is_none (sl_material o) then [] else $" (material " ++ quoted (sl_material o) ++ $")" in
  let thickness := if is_none (sl_thickness o) then [] else $" (thickness " ++ fmt (sl_thickness o) ++ $")" in
  let epsilon_r := if is_none (sl_epsilonR o) then [] else $" (epsilon_r " ++ fmt (sl_epsilonR o) ++ $")" in
  let loss_tangent := if is_none (sl_lossTangent o) then [] else $" (loss_tangent " ++ fmt (sl_lossTangent o) ++ $")" in
  let! subs := concatM (fun s => let! t := StackupSubLayer_to s (indent + 2) false in Ok (nl ++ t)) (sl_subLayers o) in
  Ok (spaces indent ++ $"(layer " ++ quoted (sl_name o) ++ $" (type " ++ rawq (sl_type o) ++ $")" ++ color ++ thickness
      ++ material ++ epsilon_r ++ loss_tangent ++ subs ++ $")" ++ eol newline).

(** items/brditems.py:318-348: attributes of Stackup and their defaults *)
Record Stackup := mkStackup {
  sk_layers : list StackupLayer;
  sk_copperFinish : val;
  sk_dielectricContraints : val;
  sk_edgeConnector : val;
  sk_castellatedPads : bool;
  sk_edgePlating : bool }.
#[export] Instance eta_Stackup : Settable Stackup :=
  settable! mkStackup <sk_layers; sk_copperFinish; sk_dielectricContraints; sk_edgeConnector; sk_castellatedPads; sk_edgePlating>.
Definition Stackup_default : Stackup :=
  mkStackup [] VNone VNone VNone false false.

(** brditems.py:372-377: the presence of the last two is enough, whatever their argument *)
Definition Stackup_step (o : Stackup) (item : val) : res Stackup :=
  let! h := item@0 in
  let! o := on (h =s "layer") (addf sk_layers (StackupLayer_from item)) o in
  let! o := on (h =s "copper_finish") (setf sk_copperFinish (item@1)) o in
  let! o := on (h =s "dielectric_constraints") (setf sk_dielectricContraints (item@1)) o in
  let! o := on (h =s "edge_connector") (setf sk_edgeConnector (item@1)) o in
  let! o := on (h =s "castellated_pads") (setf sk_castellatedPads (Ok true)) o in
  let! o := on (h =s "edge_plating") (setf sk_edgePlating (Ok true)) o in
  Ok o.
(** brditems.py:350-378 *)
Definition Stackup_from (exp : val) : res Stackup :=
  let! l := need_head "stackup" exp in foldM Stackup_step Stackup_default l.
(** brditems.py:380-402 *)
Definition Stackup_to (o : Stackup) (indent : nat) (newline : bool) : res str :=
  let indents := spaces indent in
  let! layers := concatM (fun l => StackupLayer_to l (indent + 2) true) (sk_layers o) in
  let finish := if is_none (sk_copperFinish o) then [] else indents ++ $"  (copper_finish " ++ quoted (sk_copperFinish o) ++ $")" ++ nl in
  let constraints := if is_none (sk_dielectricContraints o) then [] else indents ++ $"  (dielectric_constraints " ++ fmt (sk_dielectricContraints o) ++ $")" ++ nl in
  let connector := if is_none (sk_edgeConnector o) then [] else indents ++ $"  (edge_connector " ++ fmt (sk_edgeConnector o) ++ $")" ++ nl in
  let pads := if sk_castellatedPads o then indents ++ $"  (castellated_pads yes)" ++ nl else [] in
  let plating := if sk_edgePlating o then indents ++ $"  (edge_plating yes)" ++ nl else [] in
  Ok (indents ++ $"(stackup" ++ nl ++ layers ++ finish ++ constraints ++ connector ++ pads ++ plating ++ indents ++ $")" ++ eol newline).

(** items/brditems.py:404-540: attributes of PlotSettings and their defaults *)
Record PlotSettings := mkPlotSettings {
  ps_layerSelection : val;
  ps_plotOnAllLayersSelection : val;
  ps_disableApertMacros : bool;
  ps_useGerberExtensions : bool;
  ps_useGerberAttributes : bool;
  ps_useGerberAdvancedAttributes : bool;
  ps_createGerberJobFile : bool;
  ps_dashedLineDashRatio : val;
  ps_dashedLineGapRatio : val;
  ps_svgUseInch : option bool;
  ps_svgPrecision : val;
  ps_excludeEdgeLayer : option bool;
  ps_plotFameRef : bool;
  ps_viasOnMask : bool;
  ps_mode : val;
  ps_useAuxOrigin : bool;
  ps_hpglPenNumber : val;
  ps_hpglPenSpeed : val;
  ps_hpglPenDiameter : val;
  ps_dxfPolygonMode : bool;
  ps_dxfImperialUnits : bool;
  ps_dxfUsePcbnewFont : bool;
  ps_psNegative : bool;
  ps_psA4Output : bool;
  ps_plotReference : bool;
  ps_plotValue : bool;
  ps_plotInvisibleText : bool;
  ps_sketchPadsOnFab : bool;
  ps_subtractMaskFromSilk : bool;
  ps_outputFormat : val;
  ps_mirror : bool;
  ps_drillShape : val;
  ps_scaleSelection : val;
  ps_outputDirectory : val }.
#[export] Instance eta_PlotSettings : Settable PlotSettings :=
  settable! mkPlotSettings <ps_layerSelection; ps_plotOnAllLayersSelection; ps_disableApertMacros; ps_useGerberExtensions; ps_useGerberAttributes; ps_useGerberAdvancedAttributes; ps_createGerberJobFile; ps_dashedLineDashRatio; ps_dashedLineGapRatio; ps_svgUseInch; ps_svgPrecision; ps_excludeEdgeLayer; ps_plotFameRef; ps_viasOnMask; ps_mode; ps_useAuxOrigin; ps_hpglPenNumber; ps_hpglPenSpeed; ps_hpglPenDiameter; ps_dxfPolygonMode; ps_dxfImperialUnits; ps_dxfUsePcbnewFont; ps_psNegative; ps_psA4Output; ps_plotReference; ps_plotValue; ps_plotInvisibleText; ps_sketchPadsOnFab; ps_subtractMaskFromSilk; ps_outputFormat; ps_mirror; ps_drillShape; ps_scaleSelection; ps_outputDirectory>.
Definition PlotSettings_default : PlotSettings :=
  mkPlotSettings (VStr []) VNone false false false false false VNone VNone None (fdec 0 0) None false false (VInt 1) false (VInt 0) (VInt 0) (fdec 0 0) false false false false false false false false false false (VInt 0) false (VInt 0) (VInt 1) (VStr []).

(** [True if item[1] == 'true' else False] *)
Definition is_true (item : val) : res bool := let! x := item@1 in Ok (x =s "true").
(** brditems.py:564-597 *)
Definition PlotSettings_step (o : PlotSettings) (item : val) : res PlotSettings :=
  let! h := item@0 in
  let! o := on (h =s "layerselection") (setf ps_layerSelection (item@1)) o in
  let! o := on (h =s "plot_on_all_layers_selection") (setf ps_plotOnAllLayersSelection (item@1)) o in
  let! o := on (h =s "disableapertmacros") (setf ps_disableApertMacros (is_true item)) o in
  let! o := on (h =s "usegerberextensions") (setf ps_useGerberExtensions (is_true item)) o in
  let! o := on (h =s "usegerberattributes") (setf ps_useGerberAttributes (is_true item)) o in
  let! o := on (h =s "usegerberadvancedattributes") (setf ps_useGerberAdvancedAttributes (is_true item)) o in
  let! o := on (h =s "creategerberjobfile") (setf ps_createGerberJobFile (is_true item)) o in
  let! o := on (h =s "dashed_line_dash_ratio") (setf ps_dashedLineDashRatio (item@1)) o in
  let! o := on (h =s "dashed_line_gap_ratio") (setf ps_dashedLineGapRatio (item@1)) o in
  let! o := on (h =s "svguseinch") (setf ps_svgUseInch (let! b := is_true item in Ok (Some b))) o in
  let! o := on (h =s "svgprecision") (setf ps_svgPrecision (item@1)) o in
  let! o := on (h =s "excludeedgelayer") (setf ps_excludeEdgeLayer (let! b := is_true item in Ok (Some b))) o in
  let! o := on (h =s "plotframeref") (setf ps_plotFameRef (is_true item)) o in
  let! o := on (h =s "viasonmask") (setf ps_viasOnMask (is_true item)) o in
  let! o := on (h =s "mode") (setf ps_mode (item@1)) o in
  let! o := on (h =s "useauxorigin") (setf ps_useAuxOrigin (is_true item)) o in
  let! o := on (h =s "hpglpennumber") (setf ps_hpglPenNumber (item@1)) o in
  let! o := on (h =s "hpglpenspeed") (setf ps_hpglPenSpeed (item@1)) o in
  let! o := on (h =s "hpglpendiameter") (setf ps_hpglPenDiameter (item@1)) o in
  let! o := on (h =s "dxfpolygonmode") (setf ps_dxfPolygonMode (is_true item)) o in
  let! o := on (h =s "dxfimperialunits") (setf ps_dxfImperialUnits (is_true item)) o in
  let! o := on (h =s "dxfusepcbnewfont") (setf ps_dxfUsePcbnewFont (is_true item)) o in
  let! o := on (h =s "psnegative") (setf ps_psNegative (is_true item)) o in
  let! o := on (h =s "psa4output") (setf ps_psA4Output (is_true item)) o in
  let! o := on (h =s "plotreference") (setf ps_plotReference (is_true item)) o in
  let! o := on (h =s "plotvalue") (setf ps_plotValue (is_true item)) o in
  let! o := on (h =s "plotinvisibletext") (setf ps_plotInvisibleText (is_true item)) o in
  let! o := on (h =s "sketchpadsonfab") (setf ps_sketchPadsOnFab (is_true item)) o in
  let! o := on (h =s "subtractmaskfromsilk") (setf ps_subtractMaskFromSilk (is_true item)) o in
  let! o := on (h =s "outputformat") (setf ps_outputFormat (item@1)) o in
  let! o := on (h =s "mirror") (setf ps_mirror (is_true item)) o in
  let! o := on (h =s "drillshape") (setf ps_drillShape (item@1)) o in
  let! o := on (h =s "scaleselection") (setf ps_scaleSelection (item@1)) o in
  let! o := on (h =s "outputdirectory") (setf ps_outputDirectory (item@1)) o in
  Ok o.
(** brditems.py:542-598 *)
Definition PlotSettings_from (exp : val) : res PlotSettings :=
  let! l := need_head "pcbplotparams" exp in foldM PlotSettings_step PlotSettings_default l.
(** [str(b).lower()] *)
Definition lower (b : bool) : str := if b then $"true" else $"false".
(** one line of brditems.py:614-652 *)
Definition ps_line (indent : nat) (key : String.string) (text : str) : str :=
  spaces indent ++ $"  (" ++ lit key ++ $" " ++ text ++ $")" ++ nl.
Arguments ps_line indent key%string text.
(** brditems.py:600-654; the line of useauxorigin always says false.  Simplified: [float(s)] of a
    string [s] is a ValueError here even if [s] is the text of a number *)
Definition PlotSettings_to (o : PlotSettings) (indent : nat) (newline : bool) : res str :=
  let indents := spaces indent in
  let! dash := if is_none (ps_dashedLineDashRatio o) then Ok []
               else let! x := fmt_fixed 6 (ps_dashedLineDashRatio o) in Ok (ps_line indent "dashed_line_dash_ratio" x) in
  let! gap := if is_none (ps_dashedLineGapRatio o) then Ok []
              else let! x := fmt_fixed 6 (ps_dashedLineGapRatio o) in Ok (ps_line indent "dashed_line_gap_ratio" x) in
  let! pen := fmt_fixed 6 (ps_hpglPenDiameter o) in
  Ok (indents ++ $"(pcbplotparams" ++ nl
   ++ ps_line indent "layerselection" (fmt (ps_layerSelection o))
   ++ (if is_none (ps_plotOnAllLayersSelection o) then [] else ps_line indent "plot_on_all_layers_selection" (fmt (ps_plotOnAllLayersSelection o)))
   ++ ps_line indent "disableapertmacros" (lower (ps_disableApertMacros o))
   ++ ps_line indent "usegerberextensions" (lower (ps_useGerberExtensions o))
   ++ ps_line indent "usegerberattributes" (lower (ps_useGerberAttributes o))
   ++ ps_line indent "usegerberadvancedattributes" (lower (ps_useGerberAdvancedAttributes o))
   ++ ps_line indent "creategerberjobfile" (lower (ps_createGerberJobFile o))
   ++ dash ++ gap
   ++ match ps_svgUseInch o with Some b => ps_line indent "svguseinch" (lower b) | None => [] end
   ++ ps_line indent "svgprecision" (fmt (ps_svgPrecision o))
   ++ match ps_excludeEdgeLayer o with Some b => ps_line indent "excludeedgelayer" (lower b) | None => [] end
   ++ ps_line indent "plotframeref" (lower (ps_plotFameRef o))
   ++ ps_line indent "viasonmask" (lower (ps_viasOnMask o))
   ++ ps_line indent "mode" (fmt (ps_mode o))
   ++ ps_line indent "useauxorigin" $"false"
   ++ ps_line indent "hpglpennumber" (fmt (ps_hpglPenNumber o))
   ++ ps_line indent "hpglpenspeed" (fmt (ps_hpglPenSpeed o))
   ++ ps_line indent "hpglpendiameter" pen
   ++ ps_line indent "dxfpolygonmode" (lower (ps_dxfPolygonMode o))
   ++ ps_line indent "dxfimperialunits" (lower (ps_dxfImperialUnits o))
   ++ ps_line indent "dxfusepcbnewfont" (lower (ps_dxfUsePcbnewFont o))
   ++ ps_line indent "psnegative" (lower (ps_psNegative o))
   ++ ps_line indent "psa4output" (lower (ps_psA4Output o))
   ++ ps_line indent "plotreference" (lower (ps_plotReference o))
   ++ ps_line indent "plotvalue" (lower (ps_plotValue o))
   ++ ps_line indent "plotinvisibletext" (lower (ps_plotInvisibleText o))
   ++ ps_line indent "sketchpadsonfab" (lower (ps_sketchPadsOnFab o))
   ++ ps_line indent "subtractmaskfromsilk" (lower (ps_subtractMaskFromSilk o))
   ++ ps_line indent "outputformat" (fmt (ps_outputFormat o))
   ++ ps_line indent "mirror" (lower (ps_mirror o))
   ++ ps_line indent "drillshape" (fmt (ps_drillShape o))
   ++ ps_line indent "scaleselection" (fmt (ps_scaleSelection o))
   ++ ps_line indent "outputdirectory" (quoted (ps_outputDirectory o))
   ++ indents ++ $")" ++ eol newline).

(** items/brditems.py:657-695: attributes of SetupData and their defaults *)
Record SetupData := mkSetupData {
  sd_stackup : option Stackup;
  sd_packToMaskClearance : val;
  sd_solderMaskMinWidth : val;
  sd_padToPasteClearance : val;
  sd_padToPasteClearanceRatio : val;
  sd_auxAxisOrigin : option Position;
  sd_gridOrigin : option Position;
  sd_plotSettings : option PlotSettings }.
#[export] Instance eta_SetupData : Settable SetupData :=
  settable! mkSetupData <sd_stackup; sd_packToMaskClearance; sd_solderMaskMinWidth; sd_padToPasteClearance; sd_padToPasteClearanceRatio; sd_auxAxisOrigin; sd_gridOrigin; sd_plotSettings>.
Definition SetupData_default : SetupData :=
  mkSetupData None (fdec 0 0) VNone VNone VNone None None None.

(** brditems.py:719-727: [pcbplotparams] is tested twice *)
Definition SetupData_step (o : SetupData) (item : val) : res SetupData :=
  let! h := item@0 in
  let! o := on (h =s "stackup") (setf sd_stackup (let! x := Stackup_from item in Ok (Some x))) o in
  let! o := on (h =s "pcbplotparams") (setf sd_plotSettings (let! x := PlotSettings_from item in Ok (Some x))) o in
  let! o := on (h =s "pad_to_mask_clearance") (setf sd_packToMaskClearance (item@1)) o in
  let! o := on (h =s "solder_mask_min_width") (setf sd_solderMaskMinWidth (item@1)) o in
  let! o := on (h =s "pad_to_paste_clearance") (setf sd_padToPasteClearance (item@1)) o in
  let! o := on (h =s "pad_to_paste_clearance_ratio") (setf sd_padToPasteClearanceRatio (item@1)) o in
  let! o := on (h =s "aux_axis_origin") (setf sd_auxAxisOrigin (let! x := Position_from item in Ok (Some x))) o in
  let! o := on (h =s "grid_origin") (setf sd_gridOrigin (let! x := Position_from item in Ok (Some x))) o in
  let! o := on (h =s "pcbplotparams") (setf sd_plotSettings (let! x := PlotSettings_from item in Ok (Some x))) o in
  Ok o.
(** brditems.py:697-728 *)
Definition SetupData_from (exp : val) : res SetupData :=
  let! l := need_head "setup" exp in foldM SetupData_step SetupData_default l.
(** brditems.py:730-753 *)
Definition SetupData_to (o : SetupData) (indent : nat) (newline : bool) : res str :=
  let indents := spaces indent in
  let! stackup := opt_str (sd_stackup o) (fun x => Stackup_to x (indent + 2) true) in
  let smw := if is_none (sd_solderMaskMinWidth o) then [] else indents ++ $"  (solder_mask_min_width " ++ fmt (sd_solderMaskMinWidth o) ++ $")" ++ nl in
  let ppc := if is_none (sd_padToPasteClearance o) then [] else indents ++ $"  (pad_to_paste_clearance " ++ fmt (sd_padToPasteClearance o) ++ $")" ++ nl in
  let ppr := if is_none (sd_padToPasteClearanceRatio o) then [] else indents ++ $"  (pad_to_paste_clearance_ratio " ++ fmt (sd_padToPasteClearanceRatio o) ++ $")" ++ nl in
  let! aux := opt_str (sd_auxAxisOrigin o) (fun p => Ok (indents ++ $"  (aux_axis_origin " ++ fmt (po_X p) ++ $" " ++ fmt (po_Y p) ++ $")" ++ nl)) in
  let! grid := opt_str (sd_gridOrigin o) (fun p => Ok (indents ++ $"  (grid_origin " ++ fmt (po_X p) ++ $" " ++ fmt (po_Y p) ++ $")" ++ nl)) in
  let! plot := opt_str (sd_plotSettings o) (fun x => PlotSettings_to x (indent + 2) true) in
  Ok (indents ++ $"(setup" ++ nl ++ stackup ++ indents ++ $"  (pad_to_mask_clearance " ++ fmt (sd_packToMaskClearance o) ++ $")" ++ nl
      ++ smw ++ ppc ++ ppr ++ aux ++ grid ++ plot ++ indents ++ $")" ++ eol newline).

(** items/brditems.py:756-784: attributes of Segment and their defaults *)
Record Segment := mkSegment {
  sg_start : Position;
  sg_end : Position;
  sg_width : val;
  sg_layer : val;
  sg_locked : bool;
  sg_net : val;
  sg_tstamp : val }.
#[export] Instance eta_Segment : Settable Segment :=
  settable! mkSegment <sg_start; sg_end; sg_width; sg_layer; sg_locked; sg_net; sg_tstamp>.
Definition Segment_default : Segment :=
  mkSegment Position_default Position_default (fdec 1 (-1)) (VStr $"F.Cu") false (VInt 0) (VStr []).

(** brditems.py:808-816 *)
Definition Segment_step (o : Segment) (item : val) : res Segment :=
  if negb (is_list item) then on (item =s "locked") (setf sg_locked (Ok true)) o else
  let! h := item@0 in
  let! o := on (h =s "start") (setf sg_start (Position_from item)) o in
  let! o := on (h =s "end") (setf sg_end (Position_from item)) o in
  let! o := on (h =s "width") (setf sg_width (item@1)) o in
  let! o := on (h =s "layer") (setf sg_layer (item@1)) o in
  let! o := on (h =s "net") (setf sg_net (item@1)) o in
  let! o := on (h =s "tstamp") (setf sg_tstamp (item@1)) o in
  Ok o.
(** brditems.py:786-817 *)
Definition Segment_from (exp : val) : res Segment :=
  let! l := need_head "segment" exp in foldM Segment_step Segment_default l.
(** brditems.py:819-833 *)
Definition Segment_to (o : Segment) (indent : nat) (newline : bool) : res str :=
  let locked := if sg_locked o then $" locked" else [] in
  Ok (spaces indent ++ $"(segment" ++ locked ++ $" (start " ++ fmt (po_X (sg_start o)) ++ $" " ++ fmt (po_Y (sg_start o)) ++ $") (end "
      ++ fmt (po_X (sg_end o)) ++ $" " ++ fmt (po_Y (sg_end o)) ++ $") (width " ++ fmt (sg_width o) ++ $") (layer " ++ quoted (sg_layer o)
      ++ $") (net " ++ fmt (sg_net o) ++ $") (tstamp " ++ fmt (sg_tstamp o) ++ $"))" ++ eol newline).

(** items/brditems.py:835-877: attributes of Via and their defaults *)
Record Via := mkVia {
  vi_type : val;
  vi_locked : bool;
  vi_position : Position;
  vi_size : val;
  vi_drill : val;
  vi_layers : list val;
  vi_removeUnusedLayers : bool;
  vi_keepEndLayers : bool;
  vi_free : bool;
  vi_net : val;
  vi_tstamp : val }.
#[export] Instance eta_Via : Settable Via :=
  settable! mkVia <vi_type; vi_locked; vi_position; vi_size; vi_drill; vi_layers; vi_removeUnusedLayers; vi_keepEndLayers; vi_free; vi_net; vi_tstamp>.
Definition Via_default : Via :=
  mkVia VNone false Position_default (fdec 0 0) (fdec 0 0) [] false false false (VInt 0) VNone.

(** brditems.py:901-915 *)
Definition Via_step (o : Via) (item : val) : res Via :=
  if negb (is_list item) then
    (let! o := on (item =s "locked") (setf vi_locked (Ok true)) o in
     on ((item =s "micro") || (item =s "blind")) (setf vi_type (Ok item)) o)
  else
  let! h := item@0 in
  let! o := on (h =s "at") (setf vi_position (Position_from item)) o in
  let! o := on (h =s "size") (setf vi_size (item@1)) o in
  let! o := on (h =s "drill") (setf vi_drill (item@1)) o in
  let! o := on (h =s "layers") (extf vi_layers (from_ item 1)) o in
  let! o := on (h =s "remove_unused_layers") (setf vi_removeUnusedLayers (Ok true)) o in
  let! o := on (h =s "keep_end_layers") (setf vi_keepEndLayers (Ok true)) o in
  let! o := on (h =s "free") (setf vi_free (Ok true)) o in
  let! o := on (h =s "net") (setf vi_net (item@1)) o in
  let! o := on (h =s "tstamp") (setf vi_tstamp (item@1)) o in
  Ok o.
(** brditems.py:879-916 *)
Definition Via_from (exp : val) : res Via :=
  let! l := need_head "via" exp in foldM Via_step Via_default l.
(** brditems.py:918-942 *)
Definition Via_to (o : Via) (indent : nat) (newline : bool) : res str :=
  let type := if is_none (vi_type o) then [] else $" " ++ fmt (vi_type o) in
  let locked := if vi_locked o then $" locked" else [] in
  let layers := quoted_list (vi_layers o) in
  let rum := if vi_removeUnusedLayers o then $" (remove_unused_layers)" else [] in
  let kel := if vi_keepEndLayers o then $" (keep_end_layers)" else [] in
  let free := if vi_free o then $" (free)" else [] in
  let tstamp := if is_none (vi_tstamp o) then [] else $" (tstamp " ++ fmt (vi_tstamp o) ++ $")" in
  Ok (spaces indent ++ $"(via" ++ type ++ locked ++ $" (at " ++ fmt (po_X (vi_position o)) ++ $" " ++ fmt (po_Y (vi_position o)) ++ $") (size "
      ++ fmt (vi_size o) ++ $") (drill " ++ fmt (vi_drill o) ++ $") (layers" ++ layers ++ $")" ++ rum ++ kel ++ free
      ++ $" (net " ++ fmt (vi_net o) ++ $")" ++ tstamp ++ $")" ++ eol newline).

(** items/brditems.py:944-976: attributes of Arc and their defaults *)
Record Arc := mkArc {
  ac_start : Position;
  ac_mid : Position;
  ac_end : Position;
  ac_width : val;
  ac_layer : val;
  ac_locked : bool;
  ac_net : val;
  ac_tstamp : val }.
#[export] Instance eta_Arc : Settable Arc :=
  settable! mkArc <ac_start; ac_mid; ac_end; ac_width; ac_layer; ac_locked; ac_net; ac_tstamp>.
Definition Arc_default : Arc :=
  mkArc Position_default Position_default Position_default (fdec 2 (-1)) (VStr $"F.Cu") false (VInt 0) VNone.

(** brditems.py:1000-1009 *)
Definition Arc_step (o : Arc) (item : val) : res Arc :=
  if negb (is_list item) then on (item =s "locked") (setf ac_locked (Ok true)) o else
  let! h := item@0 in
  let! o := on (h =s "start") (setf ac_start (Position_from item)) o in
  let! o := on (h =s "mid") (setf ac_mid (Position_from item)) o in
  let! o := on (h =s "end") (setf ac_end (Position_from item)) o in
  let! o := on (h =s "width") (setf ac_width (item@1)) o in
  let! o := on (h =s "layer") (setf ac_layer (item@1)) o in
  let! o := on (h =s "net") (setf ac_net (item@1)) o in
  let! o := on (h =s "tstamp") (setf ac_tstamp (item@1)) o in
  Ok o.
(** brditems.py:978-1010 *)
Definition Arc_from (exp : val) : res Arc :=
  let! l := need_head "arc" exp in foldM Arc_step Arc_default l.
(** brditems.py:1012-1032 *)
Definition Arc_to (o : Arc) (indent : nat) (newline : bool) : res str :=
  let locked := if ac_locked o then $" locked" else [] in
  let tstamp := if is_none (ac_tstamp o) then [] else $" (tstamp " ++ fmt (ac_tstamp o) ++ $")" in
  Ok (spaces indent ++ $"(arc" ++ locked ++ $" (start " ++ fmt (po_X (ac_start o)) ++ $" " ++ fmt (po_Y (ac_start o)) ++ $") "
      ++ $"(mid " ++ fmt (po_X (ac_mid o)) ++ $" " ++ fmt (po_Y (ac_mid o)) ++ $") (end " ++ fmt (po_X (ac_end o)) ++ $" " ++ fmt (po_Y (ac_end o)) ++ $") "
      ++ $"(width " ++ fmt (ac_width o) ++ $") (layer " ++ quoted (ac_layer o) ++ $") " ++ $"(net " ++ fmt (ac_net o) ++ $")" ++ tstamp ++ $")" ++ eol newline).

(** items/brditems.py:1035-1059: attributes of Target and their defaults *)
Record Target := mkTarget {
  tg_type : val;
  tg_position : Position;
  tg_size : val;
  tg_width : val;
  tg_layer : val;
  tg_tstamp : val }.
#[export] Instance eta_Target : Settable Target :=
  settable! mkTarget <tg_type; tg_position; tg_size; tg_width; tg_layer; tg_tstamp>.
Definition Target_default : Target :=
  mkTarget (VStr $"plus") Position_default (VInt 0) (fdec 1 (-1)) (VStr $"F.Cu") VNone.

(** brditems.py:1084-1088 *)
Definition Target_step (o : Target) (item : val) : res Target :=
  let! h := item@0 in
  let! o := on (h =s "at") (setf tg_position (Position_from item)) o in
  let! o := on (h =s "size") (setf tg_size (item@1)) o in
  let! o := on (h =s "width") (setf tg_width (item@1)) o in
  let! o := on (h =s "layer") (setf tg_layer (item@1)) o in
  let! o := on (h =s "tstamp") (setf tg_tstamp (item@1)) o in
  Ok o.
(** brditems.py:1061-1089 *)
Definition Target_from (exp : val) : res Target :=
  let! l := need_head "target" exp in
  let! o := setf tg_type (exp@1) Target_default in
  foldM Target_step o (skipn 2 l).
(** brditems.py:1091-1104 *)
Definition Target_to (o : Target) (indent : nat) (newline : bool) : res str :=
  Ok (spaces indent ++ $"(target " ++ fmt (tg_type o) ++ $" (at " ++ fmt (po_X (tg_position o)) ++ $" " ++ fmt (po_Y (tg_position o)) ++ $") (size "
      ++ fmt (tg_size o) ++ $") (width " ++ fmt (tg_width o) ++ $") (layer " ++ rawq (tg_layer o) ++ $") (tstamp " ++ fmt (tg_tstamp o) ++ $"))" ++ eol newline).
