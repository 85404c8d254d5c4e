(** Specification of board.py. *)
From Verif Require Import PyBase PyNum PyStr Sexpr S_Leaf S_Tree S_Fix M_Common S_Common M_Gr S_Gr M_Zone S_Zone M_Footprint S_Footprint M_Dim S_Dim M_Brd S_Brd M_Board.

@uspec BdItem
@uspec TrItem
Definition Board_tree (o : Board) : val :=
  node "kicad_pcb" ([node "version" [bd_version o]; node "generator" [bd_generator o]; GeneralSettings_tree (bd_general o); PageSettings_tree (bd_paper o)]
    ++ opto TitleBlock_tree (bd_titleBlock o) ++ [node "layers" (map LayerToken_tree (bd_layers o)); SetupData_tree (bd_setup o)]
    ++ map (fun kv => node "property" [fst kv; snd kv]) (bd_properties o) ++ map Net_tree (bd_nets o) ++ map Footprint_tree (bd_footprints o)
    ++ map BdItem_tree (bd_graphicItems o) ++ map Dimension_tree (bd_dimensions o) ++ map Target_tree (bd_targets o) ++ map TrItem_tree (bd_traceItems o)
    ++ map Zone_tree (bd_zones o) ++ map Group_tree (bd_groups o)).
@ok Board
