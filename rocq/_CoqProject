-Q theories Verif
theories/RecordSet.v
theories/PyBase.v
theories/PyNum.v
theories/PyStr.v
theories/Sexpr.v
theories/S_Leaf.v
theories/S_Tree.v
theories/S_Parse.v
theories/L_Lex.v
theories/L_Tok.v
theories/L_Num.v
theories/L_Seq.v
theories/L_Parse.v
theories/Properties_Parser.v
theories/M_Common.v
theories/S_Common.v
theories/S_Fix.v
theories/L_Tac.v
theories/L_Fix.v
theories/L_Common.v
theories/Properties_Common.v
theories/M_Lib.v
theories/S_Lib.v
theories/L_Lib.v
theories/Properties_Lib.v
theories/PyRe.v
theories/M_Sym.v
theories/L_Re.v
theories/S_Id.v
theories/L_Id.v
theories/S_Sym.v
theories/L_SymId.v
theories/L_Symbol.v
theories/Properties_Sym.v
theories/M_Fp.v
theories/S_Fp.v
theories/L_Fp.v
theories/Properties_Fp.v
theories/M_Gr.v
theories/S_Gr.v
theories/L_Gr.v
theories/Properties_Gr.v
theories/M_Zone.v
theories/S_Zone.v
theories/L_Zone.v
theories/Properties_Zone.v
theories/M_Footprint.v
theories/S_Footprint.v
theories/L_Pad.v
theories/L_Footprint.v
theories/Properties_Footprint.v
theories/L_Sym.v
theories/M_Dim.v
theories/S_Dim.v
theories/L_Dim.v
theories/Properties_Dim.v
theories/M_Brd.v
theories/S_Brd.v
theories/L_Brd.v
theories/L_Plot.v
theories/Properties_Brd.v
theories/M_Board.v
theories/S_Board.v
theories/L_Board.v
theories/Properties_Board.v
theories/M_Sch.v
theories/S_Sch.v
theories/L_Sch.v
theories/L_Sheet.v
theories/Properties_Sch.v
theories/M_Schematic.v
theories/S_Schematic.v
theories/L_Schematic.v
theories/Properties_Schematic.v
theories/M_Wks.v
theories/S_Wks.v
theories/L_Wks.v
theories/Properties_Wks.v
theories/M_File.v
theories/S_File.v
theories/S_Reader.v
theories/L_Keep.v
theories/L_File.v
theories/Properties_File.v
theories/L_AbsentA.v
theories/Properties_AbsentA.v
theories/L_AbsentB.v
theories/Properties_AbsentB.v
theories/L_AbsentC.v
theories/Properties_AbsentC.v
theories/L_AbsentD.v
theories/Properties_AbsentD.v
theories/L_Swap.v
theories/L_SwapE.v
theories/L_SwapB.v
theories/L_SwapC.v
theories/L_SwapD.v
theories/L_SwapA.v
theories/Properties_SwapE.v
theories/Properties_SwapB.v
theories/Properties_SwapC.v
theories/Properties_SwapD.v
theories/Properties_SwapA.v
theories/S_Settle.v
theories/L_Settle.v
theories/Properties_Settle.v
theories/L_Misc.v
theories/Properties_Misc.v
theories/S_Gather.v
theories/L_Gather.v
theories/L_GatherA.v
theories/L_GatherB.v
theories/L_GatherC.v
theories/L_Dict.v
theories/L_DictA.v
theories/Properties_GatherA.v
theories/Properties_GatherB.v
theories/Properties_GatherC.v
theories/Properties_Dict.v
theories/M_Lexer.v
theories/L_Lexer.v
theories/S_Chars.v
theories/L_Chars.v
theories/Properties_Lexer.v
theories/S_Pick.v
theories/L_Pick.v
theories/L_PickA.v
theories/L_PickB.v
theories/L_PickC.v
theories/L_PickD.v
theories/Properties_PickA.v
theories/Properties_PickB.v
theories/Properties_PickC.v
theories/Properties_PickD.v
theories/S_Local.v
theories/L_Local.v
theories/L_LocalA.v
theories/Properties_Local.v
theories/S_Layout.v
theories/L_Layout.v
theories/L_LayoutA.v
theories/Properties_Layout.v
theories/S_Place.v
theories/L_Place.v
theories/L_PlaceA.v
theories/Properties_Place.v
theories/L_FlagA.v
theories/Properties_Flag.v
theories/S_Lines.v
theories/L_Lines.v
theories/Properties_Lines.v
theories/S_Write.v
theories/L_Write.v
theories/L_WriteA.v
theories/Properties_Write.v
theories/S_Accept.v
theories/L_Accept.v
theories/L_AcceptA.v
theories/Properties_Accept.v
theories/S_Raise.v
theories/L_Raise.v
theories/L_RaiseA.v
theories/Properties_Raise.v
theories/S_Tidy.v
theories/L_Tidy.v
theories/L_TidyB.v
theories/L_TidyA.v
theories/Properties_Tidy.v
theories/S_Typed.v
theories/L_Typed.v
theories/L_TypedA.v
theories/Properties_Typed.v
theories/S_Equal.v
theories/L_Equal.v
theories/L_EqualA.v
theories/Properties_Equal.v
theories/Properties_Distinct.v
theories/S_Edit.v
theories/L_Edit.v
theories/L_EditA.v
theories/L_EditB.v
theories/Properties_EditA.v
theories/Properties_EditB.v
theories/Properties_Bare.v
theories/S_Same.v
theories/L_Same.v
theories/Properties_Same.v
theories/S_Deep.v
theories/L_Deep.v
theories/Properties_Deep.v
theories/S_Session.v
theories/L_Session.v
theories/Properties_SessionA.v
theories/Properties_SessionB.v
theories/Fixtures_Board.v
theories/Fixtures_Designrules.v
theories/Fixtures_Footprint.v
theories/Fixtures_Libtable.v
theories/Fixtures_Misc.v
theories/Fixtures_Schematic.v
theories/Fixtures_Symbol.v
theories/Fixtures_Worksheets.v
