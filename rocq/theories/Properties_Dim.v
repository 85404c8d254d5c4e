(** Property theorems C21: dimensions (items/dimensions.py). *)
From Verif Require Import PyBase PyNum PyStr Sexpr S_Leaf S_Tree M_Common S_Common M_Fp S_Fp M_Gr S_Gr M_Dim S_Dim L_Lex L_Num L_Seq L_Tac L_Fp L_Dim Properties_Common Properties_Fp.

Definition ex_dformat : DimensionFormat := mkDimensionFormat (VStr $"a ""(") (VStr $"mm") (VInt 2) (VInt 0) (VInt 7) (VStr $"1 \ 2") true.
Definition ex_dstyle : DimensionStyle := mkDimensionStyle (fdec 15 (-2)) (fdec 127 (-2)) (VInt 2) (fdec 58642 (-5)) (VInt 3) (fdec 5 (-1)) true.
Definition ex_dimension : Dimension :=
  mkDimension false (VStr $"orthogonal") (VStr $"Dwgs.User (1)") ex_stamp ex_pts (fdec (-25) (-1)) (VInt 1) (VInt 2)
    (Some (mkGrText (VStr $"a ""(b)"" \ c") true (mkPosition (VInt 1) (fdec 25 (-1)) (VInt 90) false) (VStr $"F.SilkS") ex_effects ex_stamp false (Some ex_cache)))
    (Some ex_dformat) ex_dstyle.
Theorem C21_DimensionFormat : roundtrips DimensionFormat_to DimensionFormat_from DimensionFormat_ok DimensionFormat_norm DimensionFormat_eqb.
Proof. exact DimensionFormat_rt. Qed.
Print Assumptions C21_DimensionFormat.
Theorem C36_DimensionFormat : conforms DimensionFormat_to DimensionFormat_from DimensionFormat_ok DimensionFormat_norm DimensionFormat_tree.
Proof. exact DimensionFormat_fmt. Qed.
Print Assumptions C36_DimensionFormat.
Theorem C27_DimensionFormat : refuses DimensionFormat_from ["format"%string].
Proof. exact DimensionFormat_ref. Qed.
Print Assumptions C27_DimensionFormat.
Theorem C28_DimensionFormat : ignores DimensionFormat_from 0 ["prefix"%string; "suffix"%string; "units"%string; "units_format"%string; "precision"%string; "override_value"%string].
Proof. exact DimensionFormat_ign. Qed.
Print Assumptions C28_DimensionFormat.
Theorem C30_DimensionFormat : last_wins DimensionFormat_from 0 ["prefix"%string; "suffix"%string; "units"%string; "units_format"%string; "precision"%string; "override_value"%string].
Proof. exact DimensionFormat_win. Qed.
Print Assumptions C30_DimensionFormat.
Example C21_DimensionFormat_ex : DimensionFormat_ok (ex_dformat) = true.
Proof. vm_compute. reflexivity. Qed.

Theorem C21_DimensionStyle : roundtrips DimensionStyle_to DimensionStyle_from DimensionStyle_ok DimensionStyle_norm DimensionStyle_eqb.
Proof. exact DimensionStyle_rt. Qed.
Print Assumptions C21_DimensionStyle.
Theorem C36_DimensionStyle : conforms DimensionStyle_to DimensionStyle_from DimensionStyle_ok DimensionStyle_norm DimensionStyle_tree.
Proof. exact DimensionStyle_fmt. Qed.
Print Assumptions C36_DimensionStyle.
Theorem C27_DimensionStyle : refuses DimensionStyle_from ["style"%string].
Proof. exact DimensionStyle_ref. Qed.
Print Assumptions C27_DimensionStyle.
Theorem C28_DimensionStyle : ignores DimensionStyle_from 0 ["thickness"%string; "arrow_length"%string; "text_position_mode"%string; "extension_height"%string; "text_frame"%string; "extension_offset"%string].
Proof. exact DimensionStyle_ign. Qed.
Print Assumptions C28_DimensionStyle.
Theorem C30_DimensionStyle : last_wins DimensionStyle_from 0 ["thickness"%string; "arrow_length"%string; "text_position_mode"%string; "extension_height"%string; "text_frame"%string; "extension_offset"%string].
Proof. exact DimensionStyle_win. Qed.
Print Assumptions C30_DimensionStyle.
Example C21_DimensionStyle_ex : DimensionStyle_ok (ex_dstyle) = true.
Proof. vm_compute. reflexivity. Qed.

Theorem C21_Dimension : roundtrips Dimension_to Dimension_from Dimension_ok Dimension_norm Dimension_eqb.
Proof. exact Dimension_rt. Qed.
Print Assumptions C21_Dimension.
Theorem C36_Dimension : conforms Dimension_to Dimension_from Dimension_ok Dimension_norm Dimension_tree.
Proof. exact Dimension_fmt. Qed.
Print Assumptions C36_Dimension.
Theorem C27_Dimension : refuses Dimension_from ["dimension"%string].
Proof. exact Dimension_ref. Qed.
Print Assumptions C27_Dimension.
Theorem C28_Dimension : ignores Dimension_from 0 ["type"%string; "layer"%string; "tstamp"%string; "height"%string; "orientation"%string; "leader_length"%string; "gr_text"%string; "format"%string; "style"%string; "pts"%string].
Proof. exact Dimension_ign. Qed.
Print Assumptions C28_Dimension.
Theorem C30_Dimension : last_wins Dimension_from 0 ["type"%string; "layer"%string; "tstamp"%string; "height"%string; "orientation"%string; "leader_length"%string; "gr_text"%string; "format"%string; "style"%string].
Proof. exact Dimension_win. Qed.
Print Assumptions C30_Dimension.
Example C21_Dimension_ex : Dimension_ok (ex_dimension) = true.
Proof. vm_compute. reflexivity. Qed.

(** the same with nothing optional; an old numeric time stamp *)
Example C21_Dimension_bare_ex : Dimension_ok (Dimension_default <| di_tstamp := VInt 60204518 |> <| di_pts := [ex_xy (VInt 1) (VInt 2)] |>) = true.
Proof. vm_compute. reflexivity. Qed.

(** ** What is refused, lost or corrupted *)
Theorem C21_Dimension_no_points : forall o indent newline, di_pts o = [] -> Dimension_to o indent newline = Err EException.
Proof. exact Dimension_no_points. Qed.
Print Assumptions C21_Dimension_no_points.
(** A locked dimension is unlocked by a round trip; everything else stays ... *)
Theorem C21_Dimension_locked_refuted : forall o indent newline, Dimension_ok (o <| di_locked := false |>) = true ->
  write_read Dimension_to Dimension_from o indent newline = Ok (Dimension_norm (o <| di_locked := false |>)).
Proof. exact Dimension_locked. Qed.
Print Assumptions C21_Dimension_locked_refuted.
(** ... although the flag is read. *)
Example C21_Dimension_locked_ex : Dimension_from (node "dimension" [VStr $"locked"; node "type" [VStr $"leader"]])
  = Ok (Dimension_default <| di_locked := true |> <| di_type := VStr $"leader" |>) /\ Dimension_ok (ex_dimension <| di_locked := true |>) = false.
Proof. split; vm_compute; reflexivity. Qed.
(** A dimension without time stamp gets the time stamp None. *)
Theorem C21_Dimension_tstamp_refuted : forall o indent newline, di_tstamp o = VNone -> Dimension_ok (o <| di_tstamp := VStr $"None" |>) = true ->
  write_read Dimension_to Dimension_from o indent newline = Ok (Dimension_norm (o <| di_tstamp := VStr $"None" |>)).
Proof. exact Dimension_none. Qed.
Print Assumptions C21_Dimension_tstamp_refuted.
Example C21_Dimension_tstamp_ex : Dimension_ok (ex_dimension <| di_tstamp := VStr $"None" |>) = true.
Proof. vm_compute. reflexivity. Qed.
(** The layer is not escaped: with a quote in it the quotes around it become part of the name. *)
Theorem C21_Dimension_layer_refuted : write_read Dimension_to Dimension_from (ex_dimension <| di_layer := VStr $"a""b" |>) 2 true
  = Ok (Dimension_norm (ex_dimension <| di_layer := VStr $"""a""b""" |>)).
Proof. vm_compute. reflexivity. Qed.
Print Assumptions C21_Dimension_layer_refuted.
