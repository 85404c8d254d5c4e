M_Common S_Common L_Common Properties_Common
M_Lib S_Lib L_Lib Properties_Lib
M_Sym
S_Sym L_Sym L_Symbol Properties_Sym
M_Fp S_Fp L_Fp Properties_Fp
M_Gr S_Gr L_Gr Properties_Gr
M_Zone S_Zone L_Zone Properties_Zone
M_Footprint S_Footprint
L_Pad
L_Footprint Properties_Footprint
M_Dim S_Dim L_Dim Properties_Dim
M_Brd S_Brd L_Brd L_Plot Properties_Brd
M_Board S_Board L_Board Properties_Board
M_Sch S_Sch L_Sch L_Sheet Properties_Sch
M_Schematic S_Schematic L_Schematic Properties_Schematic
M_Wks S_Wks L_Wks Properties_Wks
M_File S_File L_File Properties_File
