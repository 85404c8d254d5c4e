(** Property theorems C39 (positional expressions) and the cases of C27, C28, C30, C35 and C36 whose readers lack the usual shape. *)
From Verif Require Import PyBase PyNum PyStr PyRe Sexpr S_Leaf S_Tree S_Reader S_Settle M_Common S_Common M_Lib M_Sym M_Brd M_Footprint M_Sch M_Wks
  L_Lex L_Num L_Seq L_Tac L_Common L_Settle L_Misc Properties_Common.

(** ** C39: which expressions a positional reader accepts, and what it makes of them *)
Theorem C39_Coordinate : forall e o, Coordinate_from e = Ok o <-> exists x y z, e = node "xyz" [x; y; z] /\ o = mkCoordinate x y z.
Proof. exact Coordinate_pos. Qed.
Print Assumptions C39_Coordinate.
Example C39_Coordinate_ex : Coordinate_from (node "xyz" [VInt 1; fdec 25 (-1); VStr $"z"]) = Ok (mkCoordinate (VInt 1) (fdec 25 (-1)) (VStr $"z")).
Proof. vm_compute. reflexivity. Qed.

Theorem C39_ColorRGBA : forall e o, ColorRGBA_from e = Ok o <-> exists r g b a, e = node "color" [r; g; b; a] /\ o = mkColorRGBA r g b a VNone.
Proof. exact ColorRGBA_pos. Qed.
Print Assumptions C39_ColorRGBA.
Example C39_ColorRGBA_ex : ColorRGBA_from (node "color" [VInt 1; VInt 2; VInt 3; fdec 5 (-1)]) = Ok (mkColorRGBA (VInt 1) (VInt 2) (VInt 3) (fdec 5 (-1)) VNone).
Proof. vm_compute. reflexivity. Qed.

Theorem C39_TextSize : forall e o, TextSize_from e = Ok o <-> exists w h, e = node "textsize" [w; h] /\ o = mkTextSize w h.
Proof. exact TextSize_pos. Qed.
Print Assumptions C39_TextSize.
Example C39_TextSize_ex : TextSize_from (node "textsize" [VInt 1; fdec 25 (-1)]) = Ok (mkTextSize (VInt 1) (fdec 25 (-1))).
Proof. vm_compute. reflexivity. Qed.

Theorem C39_WksFontSize : forall e o, WksFontSize_from e = Ok o <-> exists w h, e = node "size" [w; h] /\ o = mkWksFontSize w h.
Proof. exact WksFontSize_pos. Qed.
Print Assumptions C39_WksFontSize.
Example C39_WksFontSize_ex : WksFontSize_from (node "size" [VInt 1; fdec 25 (-1)]) = Ok (mkWksFontSize (VInt 1) (fdec 25 (-1))).
Proof. vm_compute. reflexivity. Qed.

Theorem C39_LayerToken : forall e o, LayerToken_from e = Ok o <->
  exists n name type u, e = VList ([n; name; type] ++ u) /\ (length u <= 1)%nat
    /\ o = mkLayerToken n name type (match u with [] => VNone | x :: _ => x end).
Proof. exact LayerToken_pos. Qed.
Print Assumptions C39_LayerToken.
Example C39_LayerToken_ex : LayerToken_from (VList [VInt 0; VStr $"F.Cu"; VStr $"signal"; VStr $"top"]) = Ok (mkLayerToken (VInt 0) (VStr $"F.Cu") (VStr $"signal") (VStr $"top")).
Proof. vm_compute. reflexivity. Qed.

Theorem C39_BusAlias : forall e o, BusAlias_from e = Ok o <-> exists name members, e = node "bus_alias" [name; node "members" members] /\ o = mkBusAlias name members.
Proof. exact BusAlias_pos. Qed.
Print Assumptions C39_BusAlias.
Example C39_BusAlias_ex : BusAlias_from (node "bus_alias" [VStr $"b"; node "members" [VStr $"x"; VStr $"y"]]) = Ok (mkBusAlias (VStr $"b") [VStr $"x"; VStr $"y"]).
Proof. vm_compute. reflexivity. Qed.

(** which exception a refused bus alias raises *)
Theorem C39_BusAlias_error : forall e x, BusAlias_from e = Err x <->
  (x = EIndex /\ (e = VList [] \/ exists name, e = node "bus_alias" [name; VList []]))
  \/ (x = EException /\ e <> VList [] /\ (forall name, e <> node "bus_alias" [name; VList []])
     /\ forall name members, e <> node "bus_alias" [name; node "members" members]).
Proof. exact BusAlias_err. Qed.
Print Assumptions C39_BusAlias_error.
Example C39_BusAlias_error_ex : BusAlias_from (node "bus_alias" [VStr $"b"; VStr $"members"]) = Err EException
  /\ BusAlias_from (node "bus_alias" [VStr $"b"; VList []]) = Err EIndex.
Proof. split; reflexivity. Qed.

Theorem C39_Net : forall e o, Net_from e = Ok o <-> exists n name rest, e = node "net" ([n; name] ++ rest) /\ o = mkNet n name.
Proof. exact Net_pos. Qed.
Print Assumptions C39_Net.
Example C39_Net_ex : Net_from (node "net" [VInt 3; VStr $"GND"; VInt 4]) = Ok (mkNet (VInt 3) (VStr $"GND")).
Proof. vm_compute. reflexivity. Qed.

Theorem C39_SymbolAlternativePin : forall e o, SymbolAlternativePin_from e = Ok o <->
  exists name type style rest, e = node "alternate" ([name; type; style] ++ rest) /\ o = mkSymbolAlternativePin name type style.
Proof. exact SymbolAlternativePin_pos. Qed.
Print Assumptions C39_SymbolAlternativePin.
Example C39_SymbolAlternativePin_ex : SymbolAlternativePin_from (node "alternate" [VStr $"A"; VStr $"output"; VStr $"line"; VInt 2]) = Ok (mkSymbolAlternativePin (VStr $"A") (VStr $"output") (VStr $"line")).
Proof. vm_compute. reflexivity. Qed.

Theorem C39_WksPosition : forall e o, WksPosition_from e = Ok o <->
  exists h x y rest, e = VList ([h; x; y] ++ rest) /\ o = mkWksPosition x y (match rest with [] => VNone | c :: _ => c end).
Proof. exact WksPosition_pos. Qed.
Print Assumptions C39_WksPosition.
Example C39_WksPosition_ex : WksPosition_from (node "start" [VInt 3; VInt 4; VStr $"ltcorner"; VNone]) = Ok (mkWksPosition (VInt 3) (VInt 4) (VStr $"ltcorner")).
Proof. vm_compute. reflexivity. Qed.

Theorem C39_Position : forall e o, Position_from e = Ok o <->
  exists h x y rest, e = VList ([h; x; y] ++ rest)
    /\ o = mkPosition x y (match rest with [] => VNone | a :: _ => if a =s "unlocked" then VNone else a end)
             (existsb (fun x => x =s "unlocked") ([h; x; y] ++ rest)).
Proof. exact Position_pos. Qed.
Print Assumptions C39_Position.
Example C39_Position_ex : Position_from (node "at" [VInt 3; VInt 4; VStr $"unlocked"; VInt 90]) = Ok (mkPosition (VInt 3) (VInt 4) VNone true).
Proof. vm_compute. reflexivity. Qed.

Theorem C39_PageSettings : forall e o, PageSettings_from e = Ok o <->
  exists size rest, e = node "paper" (size :: rest)
    /\ (size =s "User" = true -> (2 <= length rest)%nat)
    /\ o = mkPageSettings size (if size =s "User" then nth 0 rest VNone else VNone) (if size =s "User" then nth 1 rest VNone else VNone)
             (existsb (fun x => x =s "portrait") (size :: rest)).
Proof. exact PageSettings_pos. Qed.
Print Assumptions C39_PageSettings.
Example C39_PageSettings_ex : PageSettings_from (node "paper" [VStr $"User"; VInt 3; VInt 4; VStr $"portrait"]) = Ok (mkPageSettings (VStr $"User") (VInt 3) (VInt 4) true).
Proof. vm_compute. reflexivity. Qed.

(** ** C27, C28, C30 *)
Theorem C28_Justify : ignores Justify_from 0 [].
Proof. exact Justify_ign. Qed.
Print Assumptions C28_Justify.
Theorem C28_Attributes : ignores Attributes_from 1 [].
Proof. exact Attributes_ign. Qed.
Print Assumptions C28_Attributes.
Theorem C28_PageSettings : ignores PageSettings_from 3 [].
Proof. exact PageSettings_ign. Qed.
Print Assumptions C28_PageSettings.
Theorem C27_SyCurve : refuses SyCurve_from ["curve"%string].
Proof. exact SyCurve_ref. Qed.
Print Assumptions C27_SyCurve.
Theorem C28_SyCurve : ignores SyCurve_from 0 ["stroke"; "fill"; "pts"]%string.
Proof. exact SyCurve_ign. Qed.
Print Assumptions C28_SyCurve.
Theorem C30_SyCurve : last_wins SyCurve_from 0 ["stroke"; "fill"]%string.
Proof. exact SyCurve_win. Qed.
Print Assumptions C30_SyCurve.
Example C30_SyCurve_ex : SyCurve_from (node "curve" [node "fill" [node "type" [VStr $"none"]]; node "fill" [node "type" [VStr $"outline"]]])
  = SyCurve_from (node "curve" [node "fill" [node "type" [VStr $"outline"]]]) /\ accepts SyCurve_from (node "curve" [node "fill" [node "type" [VStr $"outline"]]]) = true.
Proof. vm_compute. split; reflexivity. Qed.
Theorem C28_DesignRules : ignores DesignRules_from 0 ["version"; "rule"]%string.
Proof. exact DesignRules_ign. Qed.
Print Assumptions C28_DesignRules.
Theorem C30_DesignRules : last_wins DesignRules_from 0 ["version"]%string.
Proof. exact DesignRules_win. Qed.
Print Assumptions C30_DesignRules.
Example C30_DesignRules_ex : accepts DesignRules_from (VList [node "version" [VInt 1]; node "version" [VInt 2]; node "version" [VInt 3]]) = true.
Proof. vm_compute. reflexivity. Qed.
Theorem C28_StackupLayer : ignores StackupLayer_from 1 ["type"; "thickness"; "material"; "epsilon_r"; "loss_tangent"; "color"]%string.
Proof. exact StackupLayer_ign. Qed.
Print Assumptions C28_StackupLayer.
Theorem C30_StackupLayer : last_wins StackupLayer_from 1 ["type"; "thickness"; "material"; "epsilon_r"; "loss_tangent"; "color"]%string.
Proof. exact StackupLayer_win. Qed.
Print Assumptions C30_StackupLayer.
Example C30_StackupLayer_ex : accepts StackupLayer_from (node "layer" [VStr $"F.Cu"; node "type" [VStr $"a"]; VStr $"addsublayer"; node "material" [VStr $"x"]; node "material" [VStr $"y"]]) = true.
Proof. vm_compute. reflexivity. Qed.
Theorem C27_Justify : refuses Justify_from ["justify"%string].
Proof. exact Justify_ref. Qed.
Print Assumptions C27_Justify.

(** ** C36 and C35 of Justify: an alignment that says nothing is written as the empty string and excluded by [Justify_ok1] *)
Theorem C36_Justify : conforms Justify_to Justify_from Justify_ok1 Justify_norm Justify_tree.
Proof. exact (fmt_of _ _ _ _ _ Justify_wr1 (fun o H => Justify_rd o (proj1 (andb_prop _ _ H)))). Qed.
Print Assumptions C36_Justify.
Theorem C35_Justify : settles Justify_to Justify_from Justify_ok1.
Proof. exact (settles_of _ _ _ _ _ _ C09_Justify C36_Justify). Qed.
Print Assumptions C35_Justify.
Example C36_Justify_ex : Justify_ok1 (mkJustify (VStr $"left") (VStr $"bottom") true) = true.
Proof. vm_compute. reflexivity. Qed.
