(** Round trip lemmas for the classes of items/common.py. *)
From Verif Require Import PyBase PyNum PyStr Sexpr S_Leaf S_Tree M_Common S_Common L_Lex L_Tok L_Num L_Seq L_Tac.

Lemma Position_idem o : Position_norm (Position_norm o) = Position_norm o.
Proof. unfold Position_norm. cbn. now rewrite !nrm_idem. Qed.
#[export] Hint Rewrite Position_idem : idem.
Lemma Position_same o : Position_eqb o (Position_norm o) = true.
Proof. same Position_eqb Position_norm. Qed.
#[export] Hint Resolve Position_same : same.
Lemma pos4_okn o : pos4_ok o = true -> pos4_ok (Position_norm o) = true.
Proof. unfold pos4_ok. okn Position_ok Position_norm. Qed.
Lemma pos3_okn o : pos3_ok o = true -> pos3_ok (Position_norm o) = true.
Proof.
  unfold pos3_ok. intros H. apply andb_prop in H as [H H1]. pose proof (pos4_okn o H) as E.
  unfold pos4_ok in E. rewrite E. exact H1.
Qed.
Lemma pos2_okn o : pos2_ok o = true -> pos2_ok (Position_norm o) = true.
Proof.
  unfold pos2_ok. intros H. apply andb_prop in H as [H H1]. apply andb_prop in H as [H H2].
  pose proof (pos4_okn o H) as E. unfold pos4_ok in E. rewrite E. unfold Position_norm. cbn.
  rewrite nrm_none, H2. exact H1.
Qed.
#[export] Hint Resolve pos2_okn pos3_okn pos4_okn : okn.

#[local] Arguments foldM : simpl nomatch.
Lemma pos4_rd k p : is_str (VStr (lit k)) "unlocked" = false -> pos4_ok p = true -> Position_from (at_tree k p) = Ok p.
Proof.
  intros Hk H. destruct p as [x y a u]. facts. cbn in *.
  unfold Position_from, at_tree, node, optv, optw. cbn [app po_X po_Y po_angle po_unlocked].
  destruct (is_none a) eqn:Ha; [apply is_none_eq in Ha; subst a|apply optb_spec in H0; [|assumption]];
    destruct u; cbn; rewrite Hk, ?(numb_nstr x), ?(numb_nstr y), ?(numb_nstr a) by assumption; cbn;
    rewrite ?(numb_nstr x), ?(numb_nstr y), ?(numb_nstr a) by assumption; reflexivity.
Qed.
#[local] Arguments foldM : simpl never.
Lemma pos3_rd k p : is_str (VStr (lit k)) "unlocked" = false -> pos3_ok p = true -> Position_from (at3_tree k p) = Ok p.
Proof.
  intros Hk H. rewrite <- (pos4_rd k p Hk); [|unfold pos4_ok, pos3_ok in *; andbs; assumption].
  unfold at3_tree, at_tree. unfold pos3_ok in H. andbs. rewrite H0. unfold optw. now rewrite app_nil_r.
Qed.
Lemma pos2_rd k p : is_str (VStr (lit k)) "unlocked" = false -> pos2_ok p = true -> Position_from (xy_tree k p) = Ok p.
Proof.
  intros Hk H. rewrite <- (pos3_rd k p Hk); [|unfold pos3_ok, pos2_ok in *; andbs; rewrite H, H0; reflexivity].
  unfold at3_tree, xy_tree. unfold pos2_ok in H. andbs. unfold optv. rewrite H1. reflexivity.
Qed.
#[export] Hint Resolve pos2_rd pos3_rd pos4_rd : rd.
#[export] Hint Extern 1 (is_str (VStr (lit _)) _ = false) => reflexivity : rd.
Lemma xy_hd k p : exists l, xy_tree k p = node k l. Proof. eexists. reflexivity. Qed.
Lemma at3_hd k p : exists l, at3_tree k p = node k l. Proof. eexists. reflexivity. Qed.
Lemma at_hd k p : exists l, at_tree k p = node k l. Proof. eexists. reflexivity. Qed.
#[export] Hint Resolve xy_hd at3_hd at_hd : hd.
Global Opaque Position_from.

Lemma Coordinate_rd o : Coordinate_ok o = true -> Coordinate_from (Coordinate_tree o) = Ok o.
Proof. intros _. destruct o. reflexivity. Qed.
#[export] Hint Resolve Coordinate_rd : rd.
Lemma Coordinate_wr o i n : Coordinate_ok o = true -> Wr (Coordinate_to o i n) (flat (Coordinate_tree (Coordinate_norm o))).
Proof. wr Coordinate_to Coordinate_ok Coordinate_tree Coordinate_norm. Qed.
#[export] Hint Resolve Coordinate_wr : wr.
Lemma Coordinate_idem o : Coordinate_norm (Coordinate_norm o) = Coordinate_norm o.
Proof. idem Coordinate_norm. Qed.
#[export] Hint Rewrite Coordinate_idem : idem.
Lemma Coordinate_okn o : Coordinate_ok o = true -> Coordinate_ok (Coordinate_norm o) = true.
Proof. okn Coordinate_ok Coordinate_norm. Qed.
#[export] Hint Resolve Coordinate_okn : okn.
Lemma Coordinate_hd o : exists l, Coordinate_tree o = node "xyz" l.
Proof. eexists. reflexivity. Qed.
#[export] Hint Resolve Coordinate_hd : hd.
Lemma Coordinate_same o : Coordinate_eqb o (Coordinate_norm o) = true.
Proof. same Coordinate_eqb Coordinate_norm. Qed.
#[export] Hint Resolve Coordinate_same : same.
Lemma Coordinate_rt : roundtrips Coordinate_to Coordinate_from Coordinate_ok Coordinate_norm Coordinate_eqb.
Proof. exact (rt_of _ _ _ Coordinate_tree _ _ Coordinate_wr Coordinate_rd Coordinate_same Coordinate_okn Coordinate_idem). Qed.
Lemma Coordinate_fmt : conforms Coordinate_to Coordinate_from Coordinate_ok Coordinate_norm Coordinate_tree.
Proof. exact (fmt_of _ _ _ _ _ Coordinate_wr Coordinate_rd). Qed.
Lemma Coordinate_ref : refuses Coordinate_from ["xyz"%string].
Proof. refuse Coordinate_from. Qed.
Global Opaque Coordinate_from Coordinate_tree Coordinate_to Coordinate_norm Coordinate_ok Coordinate_eqb.


Lemma ColorRGBA_rd o : ColorRGBA_ok o = true -> ColorRGBA_from (ColorRGBA_tree o) = Ok o.
Proof. intros H. unfold ColorRGBA_ok in H. andbs. destruct o. cbn in *. apply is_none_eq in H0. subst. reflexivity. Qed.
#[export] Hint Resolve ColorRGBA_rd : rd.
Lemma ColorRGBA_wr o i n : ColorRGBA_ok o = true -> Wr (ColorRGBA_to o i n) (flat (ColorRGBA_tree (ColorRGBA_norm o))).
Proof.
  intros H. unfold ColorRGBA_ok in H. facts. apply is_none_eq in H0.
  eapply Wr_eq; [unfold ColorRGBA_to, ColorRGBA_alpha; rewrite H0; cbn [bind]; wr_go|].
  unfold ColorRGBA_tree, ColorRGBA_norm; cbn; tpeel.
Qed.
#[export] Hint Resolve ColorRGBA_wr : wr.
Lemma ColorRGBA_idem o : ColorRGBA_norm (ColorRGBA_norm o) = ColorRGBA_norm o.
Proof. idem ColorRGBA_norm. Qed.
#[export] Hint Rewrite ColorRGBA_idem : idem.
Lemma ColorRGBA_okn o : ColorRGBA_ok o = true -> ColorRGBA_ok (ColorRGBA_norm o) = true.
Proof. okn ColorRGBA_ok ColorRGBA_norm. Qed.
#[export] Hint Resolve ColorRGBA_okn : okn.
Lemma ColorRGBA_hd o : exists l, ColorRGBA_tree o = node "color" l.
Proof. eexists. reflexivity. Qed.
#[export] Hint Resolve ColorRGBA_hd : hd.
Lemma ColorRGBA_same o : ColorRGBA_eqb o (ColorRGBA_norm o) = true.
Proof. same ColorRGBA_eqb ColorRGBA_norm. Qed.
#[export] Hint Resolve ColorRGBA_same : same.
Lemma ColorRGBA_rt : roundtrips ColorRGBA_to ColorRGBA_from ColorRGBA_ok ColorRGBA_norm ColorRGBA_eqb.
Proof. exact (rt_of _ _ _ ColorRGBA_tree _ _ ColorRGBA_wr ColorRGBA_rd ColorRGBA_same ColorRGBA_okn ColorRGBA_idem). Qed.
Lemma ColorRGBA_fmt : conforms ColorRGBA_to ColorRGBA_from ColorRGBA_ok ColorRGBA_norm ColorRGBA_tree.
Proof. exact (fmt_of _ _ _ _ _ ColorRGBA_wr ColorRGBA_rd). Qed.
Lemma ColorRGBA_ref : refuses ColorRGBA_from ["color"%string].
Proof. refuse ColorRGBA_from. Qed.
Global Opaque ColorRGBA_from ColorRGBA_tree ColorRGBA_to ColorRGBA_norm ColorRGBA_ok ColorRGBA_eqb.


Lemma Stroke_wr o i n : Stroke_ok o = true -> Wr (Stroke_to o i n) (flat (Stroke_tree (Stroke_norm o))).
Proof. wr Stroke_to Stroke_ok Stroke_tree Stroke_norm. Qed.
#[export] Hint Resolve Stroke_wr : wr.
Lemma Stroke_idem o : Stroke_norm (Stroke_norm o) = Stroke_norm o.
Proof. idem Stroke_norm. Qed.
#[export] Hint Rewrite Stroke_idem : idem.
Lemma Stroke_okn o : Stroke_ok o = true -> Stroke_ok (Stroke_norm o) = true.
Proof. okn Stroke_ok Stroke_norm. Qed.
#[export] Hint Resolve Stroke_okn : okn.
Lemma Stroke_hd o : exists l, Stroke_tree o = node "stroke" l.
Proof. eexists. reflexivity. Qed.
#[export] Hint Resolve Stroke_hd : hd.
Lemma Stroke_rd o : Stroke_ok o = true -> Stroke_from (Stroke_tree o) = Ok o.
Proof. rd Stroke_ok Stroke_from Stroke_tree Stroke_step. Qed.
#[export] Hint Resolve Stroke_rd : rd.
Lemma Stroke_same o : Stroke_eqb o (Stroke_norm o) = true.
Proof. same Stroke_eqb Stroke_norm. Qed.
#[export] Hint Resolve Stroke_same : same.
Lemma Stroke_rt : roundtrips Stroke_to Stroke_from Stroke_ok Stroke_norm Stroke_eqb.
Proof. exact (rt_of _ _ _ Stroke_tree _ _ Stroke_wr Stroke_rd Stroke_same Stroke_okn Stroke_idem). Qed.
Lemma Stroke_fmt : conforms Stroke_to Stroke_from Stroke_ok Stroke_norm Stroke_tree.
Proof. exact (fmt_of _ _ _ _ _ Stroke_wr Stroke_rd). Qed.
Lemma Stroke_ref : refuses Stroke_from ["stroke"%string].
Proof. refuse Stroke_from. Qed.
Lemma Stroke_ign : ignores Stroke_from 1 ["width"%string; "type"%string; "color"%string].
Proof. ign Stroke_from Stroke_step (S O). Qed.
Lemma Stroke_win : last_wins Stroke_from 1 ["width"%string; "type"%string; "color"%string].
Proof. wins Stroke_from Stroke_step (S O). Qed.
Global Opaque Stroke_from Stroke_tree Stroke_to Stroke_norm Stroke_ok Stroke_eqb.

Lemma Font_wr o i n : Font_ok o = true -> Wr (Font_to o i n) (flat (Font_tree (Font_norm o))).
Proof. wr Font_to Font_ok Font_tree Font_norm. Qed.
#[export] Hint Resolve Font_wr : wr.
Lemma Font_idem o : Font_norm (Font_norm o) = Font_norm o.
Proof. idem Font_norm. Qed.
#[export] Hint Rewrite Font_idem : idem.
Lemma Font_okn o : Font_ok o = true -> Font_ok (Font_norm o) = true.
Proof. okn Font_ok Font_norm. Qed.
#[export] Hint Resolve Font_okn : okn.
Lemma Font_hd o : exists l, Font_tree o = node "font" l.
Proof. eexists. reflexivity. Qed.
#[export] Hint Resolve Font_hd : hd.
Lemma Font_rd o : Font_ok o = true -> Font_from (Font_tree o) = Ok o.
Proof. rd Font_ok Font_from Font_tree Font_step. Qed.
#[export] Hint Resolve Font_rd : rd.
Lemma Font_same o : Font_eqb o (Font_norm o) = true.
Proof. same Font_eqb Font_norm. Qed.
#[export] Hint Resolve Font_same : same.
Lemma Font_rt : roundtrips Font_to Font_from Font_ok Font_norm Font_eqb.
Proof. exact (rt_of _ _ _ Font_tree _ _ Font_wr Font_rd Font_same Font_okn Font_idem). Qed.
Lemma Font_fmt : conforms Font_to Font_from Font_ok Font_norm Font_tree.
Proof. exact (fmt_of _ _ _ _ _ Font_wr Font_rd). Qed.
Lemma Font_ref : refuses Font_from ["font"%string].
Proof. refuse Font_from. Qed.
Lemma Font_ign : ignores Font_from 0 ["face"%string; "size"%string; "thickness"%string; "line_spacing"%string; "color"%string].
Proof. ign Font_from Font_step O. Qed.
Lemma Font_win : last_wins Font_from 0 ["face"%string; "thickness"%string; "line_spacing"%string; "color"%string].
Proof. wins Font_from Font_step O. Qed.
Global Opaque Font_from Font_tree Font_to Font_norm Font_ok Font_eqb.


Lemma Justify_wr o i n : Justify_ok o = true ->
  Wr (Justify_to o i n) (if Justify_empty o then [] else flat (Justify_tree o)).
Proof.
  intros H. unfold Justify_ok in H. facts. eapply Wr_eq; [unfold Justify_to; wr_go|].
  unfold Justify_empty, Justify_tree.
  destruct (is_none (ju_horizontally o) && is_none (ju_vertically o) && negb (ju_mirror o)); tpeel.
Qed.
#[export] Hint Resolve Justify_wr : wr.
Lemma Justify_norm_id o : Justify_norm o = o.
Proof. now destruct o. Qed.
Lemma Justify_wr1 o i n : Justify_ok1 o = true -> Wr (Justify_to o i n) (flat (Justify_tree (Justify_norm o))).
Proof.
  unfold Justify_ok1. intros H. apply andb_prop in H as [H H1]. eapply Wr_eq; [now apply Justify_wr|].
  rewrite Justify_norm_id. now destruct (Justify_empty o).
Qed.
Lemma Justify_idem o : Justify_norm (Justify_norm o) = Justify_norm o.
Proof. idem Justify_norm. Qed.
#[export] Hint Rewrite Justify_idem : idem.
Lemma Justify_okn o : Justify_ok o = true -> Justify_ok (Justify_norm o) = true.
Proof. okn Justify_ok Justify_norm. Qed.
#[export] Hint Resolve Justify_okn : okn.
Lemma Justify_hd o : exists l, Justify_tree o = node "justify" l.
Proof. eexists. reflexivity. Qed.
#[export] Hint Resolve Justify_hd : hd.
Lemma Justify_rd o : Justify_ok o = true -> Justify_from (Justify_tree o) = Ok o.
Proof. rd Justify_ok Justify_from Justify_tree Justify_step. Qed.
#[export] Hint Resolve Justify_rd : rd.
Lemma Justify_same o : Justify_eqb o (Justify_norm o) = true.
Proof. same Justify_eqb Justify_norm. Qed.
#[export] Hint Resolve Justify_same : same.
Lemma Justify_ref : refuses Justify_from ["justify"%string].
Proof. refuse Justify_from. Qed.

Lemma Justify_rt1 : roundtrips Justify_to Justify_from Justify_ok1 Justify_norm Justify_eqb.
Proof.
  apply (rt_of _ _ _ Justify_tree); [exact Justify_wr1| |exact Justify_same| |exact Justify_idem].
  - unfold Justify_ok1. intros o H. apply andb_prop in H as [H _]. now apply Justify_rd.
  - intros o. now rewrite Justify_norm_id.
Qed.
Global Opaque Justify_from Justify_tree Justify_to Justify_norm Justify_ok Justify_eqb.

Lemma Effects_wr o i n : Effects_ok o = true -> Wr (Effects_to o i n) (flat (Effects_tree (Effects_norm o))).
Proof.
  intros H. unfold Effects_ok in H. facts. eapply Wr_eq; [unfold Effects_to; wr_go|].
  unfold Effects_tree, Effects_norm. cbn. rewrite Justify_norm_id. tpeel.
Qed.
#[export] Hint Resolve Effects_wr : wr.
Lemma Effects_idem o : Effects_norm (Effects_norm o) = Effects_norm o.
Proof. idem Effects_norm. Qed.
#[export] Hint Rewrite Effects_idem : idem.
Lemma Effects_okn o : Effects_ok o = true -> Effects_ok (Effects_norm o) = true.
Proof. okn Effects_ok Effects_norm. Qed.
#[export] Hint Resolve Effects_okn : okn.
Lemma Effects_hd o : exists l, Effects_tree o = node "effects" l.
Proof. eexists. reflexivity. Qed.
#[export] Hint Resolve Effects_hd : hd.
Lemma Effects_rd o : Effects_ok o = true -> Effects_from (Effects_tree o) = Ok o.
Proof. rd Effects_ok Effects_from Effects_tree Effects_step. Qed.
#[export] Hint Resolve Effects_rd : rd.
Lemma Effects_same o : Effects_eqb o (Effects_norm o) = true.
Proof. same Effects_eqb Effects_norm. Qed.
#[export] Hint Resolve Effects_same : same.
Lemma Effects_rt : roundtrips Effects_to Effects_from Effects_ok Effects_norm Effects_eqb.
Proof. exact (rt_of _ _ _ Effects_tree _ _ Effects_wr Effects_rd Effects_same Effects_okn Effects_idem). Qed.
Lemma Effects_fmt : conforms Effects_to Effects_from Effects_ok Effects_norm Effects_tree.
Proof. exact (fmt_of _ _ _ _ _ Effects_wr Effects_rd). Qed.
Lemma Effects_ref : refuses Effects_from ["effects"%string].
Proof. refuse Effects_from. Qed.
Lemma Effects_ign : ignores Effects_from 0 ["font"%string; "justify"%string; "href"%string].
Proof. ign Effects_from Effects_step O. Qed.
Lemma Effects_win : last_wins Effects_from 0 ["font"%string; "justify"%string; "href"%string].
Proof. wins Effects_from Effects_step O. Qed.
Global Opaque Effects_from Effects_tree Effects_to Effects_norm Effects_ok Effects_eqb.


Lemma Net_wr o i n : Net_ok o = true -> Wr (Net_to o i n) (flat (Net_tree (Net_norm o))).
Proof. wr Net_to Net_ok Net_tree Net_norm. Qed.
#[export] Hint Resolve Net_wr : wr.
Lemma Net_idem o : Net_norm (Net_norm o) = Net_norm o.
Proof. idem Net_norm. Qed.
#[export] Hint Rewrite Net_idem : idem.
Lemma Net_okn o : Net_ok o = true -> Net_ok (Net_norm o) = true.
Proof. okn Net_ok Net_norm. Qed.
#[export] Hint Resolve Net_okn : okn.
Lemma Net_hd o : exists l, Net_tree o = node "net" l.
Proof. eexists. reflexivity. Qed.
#[export] Hint Resolve Net_hd : hd.
Lemma Net_rd o : Net_ok o = true -> Net_from (Net_tree o) = Ok o.
Proof. intros _. destruct o. reflexivity. Qed.
#[export] Hint Resolve Net_rd : rd.
Lemma Net_same o : Net_eqb o (Net_norm o) = true.
Proof. same Net_eqb Net_norm. Qed.
#[export] Hint Resolve Net_same : same.
Lemma Net_rt : roundtrips Net_to Net_from Net_ok Net_norm Net_eqb.
Proof. exact (rt_of _ _ _ Net_tree _ _ Net_wr Net_rd Net_same Net_okn Net_idem). Qed.
Lemma Net_fmt : conforms Net_to Net_from Net_ok Net_norm Net_tree.
Proof. exact (fmt_of _ _ _ _ _ Net_wr Net_rd). Qed.
Lemma Net_ref : refuses Net_from ["net"%string].
Proof. refuse Net_from. Qed.
Global Opaque Net_from Net_tree Net_to Net_norm Net_ok Net_eqb.

Lemma Group_wr o i n : Group_ok o = true -> Wr (Group_to o i n) (flat (Group_tree (Group_norm o))).
Proof. wr Group_to Group_ok Group_tree Group_norm. Qed.
#[export] Hint Resolve Group_wr : wr.
Lemma Group_idem o : Group_norm (Group_norm o) = Group_norm o.
Proof. idem Group_norm. Qed.
#[export] Hint Rewrite Group_idem : idem.
Lemma Group_okn o : Group_ok o = true -> Group_ok (Group_norm o) = true.
Proof. okn Group_ok Group_norm. Qed.
#[export] Hint Resolve Group_okn : okn.
Lemma Group_hd o : exists l, Group_tree o = node "group" l.
Proof. eexists. reflexivity. Qed.
#[export] Hint Resolve Group_hd : hd.
Lemma Group_rd o : Group_ok o = true -> Group_from (Group_tree o) = Ok o.
Proof. rd Group_ok Group_from Group_tree Group_step. Qed.
#[export] Hint Resolve Group_rd : rd.
Lemma Group_same o : Group_eqb o (Group_norm o) = true.
Proof. same Group_eqb Group_norm. Qed.
#[export] Hint Resolve Group_same : same.
Lemma Group_rt : roundtrips Group_to Group_from Group_ok Group_norm Group_eqb.
Proof. exact (rt_of _ _ _ Group_tree _ _ Group_wr Group_rd Group_same Group_okn Group_idem). Qed.
Lemma Group_fmt : conforms Group_to Group_from Group_ok Group_norm Group_tree.
Proof. exact (fmt_of _ _ _ _ _ Group_wr Group_rd). Qed.
Lemma Group_ref : refuses Group_from ["group"%string].
Proof. refuse Group_from. Qed.
Lemma Group_ign : ignores Group_from 1 ["id"%string; "members"%string].
Proof. ign Group_from Group_step (S O). Qed.
Lemma Group_win : last_wins Group_from 1 ["id"%string].
Proof. wins Group_from Group_step (S O). Qed.
Global Opaque Group_from Group_tree Group_to Group_norm Group_ok Group_eqb.

Lemma Fill_wr o i n : Fill_ok o = true -> Wr (Fill_to o i n) (flat (Fill_tree (Fill_norm o))).
Proof. wr Fill_to Fill_ok Fill_tree Fill_norm. Qed.
#[export] Hint Resolve Fill_wr : wr.
Lemma Fill_idem o : Fill_norm (Fill_norm o) = Fill_norm o.
Proof. idem Fill_norm. Qed.
#[export] Hint Rewrite Fill_idem : idem.
Lemma Fill_okn o : Fill_ok o = true -> Fill_ok (Fill_norm o) = true.
Proof. okn Fill_ok Fill_norm. Qed.
#[export] Hint Resolve Fill_okn : okn.
Lemma Fill_hd o : exists l, Fill_tree o = node "fill" l.
Proof. eexists. reflexivity. Qed.
#[export] Hint Resolve Fill_hd : hd.
Lemma Fill_rd o : Fill_ok o = true -> Fill_from (Fill_tree o) = Ok o.
Proof. rd Fill_ok Fill_from Fill_tree Fill_step. Qed.
#[export] Hint Resolve Fill_rd : rd.
Lemma Fill_same o : Fill_eqb o (Fill_norm o) = true.
Proof. same Fill_eqb Fill_norm. Qed.
#[export] Hint Resolve Fill_same : same.
Lemma Fill_rt : roundtrips Fill_to Fill_from Fill_ok Fill_norm Fill_eqb.
Proof. exact (rt_of _ _ _ Fill_tree _ _ Fill_wr Fill_rd Fill_same Fill_okn Fill_idem). Qed.
Lemma Fill_fmt : conforms Fill_to Fill_from Fill_ok Fill_norm Fill_tree.
Proof. exact (fmt_of _ _ _ _ _ Fill_wr Fill_rd). Qed.
Lemma Fill_ref : refuses Fill_from ["fill"%string].
Proof. refuse Fill_from. Qed.
Lemma Fill_ign : ignores Fill_from 0 ["type"%string; "color"%string].
Proof. ign Fill_from Fill_step O. Qed.
Lemma Fill_win : last_wins Fill_from 0 ["type"%string; "color"%string].
Proof. wins Fill_from Fill_step O. Qed.
Global Opaque Fill_from Fill_tree Fill_to Fill_norm Fill_ok Fill_eqb.

Lemma Image_wr o i n : Image_ok o = true -> Wr (Image_to o i n) (flat (Image_tree (Image_norm o))).
Proof. wr Image_to Image_ok Image_tree Image_norm. Qed.
#[export] Hint Resolve Image_wr : wr.
Lemma Image_idem o : Image_norm (Image_norm o) = Image_norm o.
Proof. idem Image_norm. Qed.
#[export] Hint Rewrite Image_idem : idem.
Lemma Image_okn o : Image_ok o = true -> Image_ok (Image_norm o) = true.
Proof. okn Image_ok Image_norm. Qed.
#[export] Hint Resolve Image_okn : okn.
Lemma Image_hd o : exists l, Image_tree o = node "image" l.
Proof. eexists. reflexivity. Qed.
#[export] Hint Resolve Image_hd : hd.
Lemma Image_rd o : Image_ok o = true -> Image_from (Image_tree o) = Ok o.
Proof. rd Image_ok Image_from Image_tree Image_step. Qed.
#[export] Hint Resolve Image_rd : rd.
Lemma Image_same o : Image_eqb o (Image_norm o) = true.
Proof. same Image_eqb Image_norm. Qed.
#[export] Hint Resolve Image_same : same.
Lemma Image_rt : roundtrips Image_to Image_from Image_ok Image_norm Image_eqb.
Proof. exact (rt_of _ _ _ Image_tree _ _ Image_wr Image_rd Image_same Image_okn Image_idem). Qed.
Lemma Image_fmt : conforms Image_to Image_from Image_ok Image_norm Image_tree.
Proof. exact (fmt_of _ _ _ _ _ Image_wr Image_rd). Qed.
Lemma Image_ref : refuses Image_from ["image"%string].
Proof. refuse Image_from. Qed.
Lemma Image_ign : ignores Image_from 0 ["at"%string; "scale"%string; "uuid"%string; "layer"%string; "data"%string].
Proof. ign Image_from Image_step O. Qed.
Lemma Image_win : last_wins Image_from 0 ["at"%string; "scale"%string; "uuid"%string; "layer"%string].
Proof. wins Image_from Image_step O. Qed.
Global Opaque Image_from Image_tree Image_to Image_norm Image_ok Image_eqb.

Lemma Property_wr o i n : Property_ok o = true -> Wr (Property_to o i n) (flat (Property_tree (Property_norm o))).
Proof. wr Property_to Property_ok Property_tree Property_norm. Qed.
#[export] Hint Resolve Property_wr : wr.
Lemma Property_idem o : Property_norm (Property_norm o) = Property_norm o.
Proof. idem Property_norm. Qed.
#[export] Hint Rewrite Property_idem : idem.
Lemma Property_okn o : Property_ok o = true -> Property_ok (Property_norm o) = true.
Proof. okn Property_ok Property_norm. Qed.
#[export] Hint Resolve Property_okn : okn.
Lemma Property_hd o : exists l, Property_tree o = node "property" l.
Proof. eexists. reflexivity. Qed.
#[export] Hint Resolve Property_hd : hd.
Lemma Property_rd o : Property_ok o = true -> Property_from (Property_tree o) = Ok o.
Proof. rd Property_ok Property_from Property_tree Property_step. Qed.
#[export] Hint Resolve Property_rd : rd.
Lemma Property_same o : Property_eqb o (Property_norm o) = true.
Proof. same Property_eqb Property_norm. Qed.
#[export] Hint Resolve Property_same : same.
Lemma Property_rt : roundtrips Property_to Property_from Property_ok Property_norm Property_eqb.
Proof. exact (rt_of _ _ _ Property_tree _ _ Property_wr Property_rd Property_same Property_okn Property_idem). Qed.
Lemma Property_fmt : conforms Property_to Property_from Property_ok Property_norm Property_tree.
Proof. exact (fmt_of _ _ _ _ _ Property_wr Property_rd). Qed.
Lemma Property_ref : refuses Property_from ["property"%string].
Proof. refuse Property_from. Qed.
Lemma Property_ign : ignores Property_from 2 ["id"%string; "at"%string; "effects"%string; "show_name"%string].
Proof. ign Property_from Property_step (S (S O)). Qed.
Lemma Property_win : last_wins Property_from 2 ["id"%string; "at"%string; "effects"%string; "show_name"%string].
Proof. wins Property_from Property_step (S (S O)). Qed.
Global Opaque Property_from Property_tree Property_to Property_norm Property_ok Property_eqb.


Lemma PageSettings_wr o i n : PageSettings_ok o = true -> Wr (PageSettings_to o i n) (flat (PageSettings_tree (PageSettings_norm o))).
Proof.
  intros H. unfold PageSettings_ok in H. andbs. unfold PageSettings_to, PageSettings_tree, PageSettings_norm.
  cbn [pg_paperSize pg_width pg_height pg_portrait].
  destruct (pg_paperSize o =s "User"); andbs.
  - rewrite (numb_nnone (pg_width o)), (numb_nnone (pg_height o)) by assumption.
    eapply Wr_eq; [cbn [orb bind]; wr_go|]. tpeel.
  - eapply Wr_eq; [cbn [bind]; wr_go|]. tpeel.
Qed.
#[export] Hint Resolve PageSettings_wr : wr.
Lemma PageSettings_okn o : PageSettings_ok o = true -> PageSettings_ok (PageSettings_norm o) = true.
Proof.
  intros H. unfold PageSettings_ok in *. cbn. destruct (pg_paperSize o =s "User"); andbs; rewrite ?nrm_none;
    repeat match goal with |- (_ && _)%bool = true => apply andb_true_intro; split end;
    try (apply negb_true_iff); eauto 3 with okn.
Qed.
#[export] Hint Resolve PageSettings_okn : okn.
Lemma PageSettings_rd o : PageSettings_ok o = true -> PageSettings_from (PageSettings_tree o) = Ok o.
Proof.
  intros H. unfold PageSettings_ok in H. andbs. destruct o as [p w h b]. cbn in *.
  unfold PageSettings_from, PageSettings_tree. cbn.
  destruct (p =s "User") eqn:E; andbs.
  - change (need_head "paper" (node "paper" (p :: ([w; h] ++ optw "portrait" b))))
      with (Ok (VStr $"paper" :: p :: ([w; h] ++ optw "portrait" b))).
    cbn [bind]. unfold setf. unfold node. cbn. rewrite E. cbn.
    do 4 (eapply fold_cons; [unfold PageSettings_step; leaf_tests; reflexivity|]). destruct b; reflexivity.
  - repeat match goal with H : is_none _ = true |- _ => apply is_none_eq in H; subst end.
    change (need_head "paper" (node "paper" (p :: ([] ++ optw "portrait" b))))
      with (Ok (VStr $"paper" :: p :: ([] ++ optw "portrait" b))).
    cbn [bind]. unfold setf. unfold node. cbn. rewrite E. cbn.
    do 2 (eapply fold_cons; [unfold PageSettings_step; leaf_tests; reflexivity|]). destruct b; reflexivity.
Qed.
#[export] Hint Resolve PageSettings_rd : rd.
Lemma PageSettings_idem o : PageSettings_norm (PageSettings_norm o) = PageSettings_norm o.
Proof. idem PageSettings_norm. Qed.
#[export] Hint Rewrite PageSettings_idem : idem.
Lemma PageSettings_hd o : exists l, PageSettings_tree o = node "paper" l.
Proof. eexists. reflexivity. Qed.
#[export] Hint Resolve PageSettings_hd : hd.
Lemma PageSettings_same o : PageSettings_eqb o (PageSettings_norm o) = true.
Proof. same PageSettings_eqb PageSettings_norm. Qed.
#[export] Hint Resolve PageSettings_same : same.
Lemma PageSettings_rt : roundtrips PageSettings_to PageSettings_from PageSettings_ok PageSettings_norm PageSettings_eqb.
Proof. exact (rt_of _ _ _ PageSettings_tree _ _ PageSettings_wr PageSettings_rd PageSettings_same PageSettings_okn PageSettings_idem). Qed.
Lemma PageSettings_fmt : conforms PageSettings_to PageSettings_from PageSettings_ok PageSettings_norm PageSettings_tree.
Proof. exact (fmt_of _ _ _ _ _ PageSettings_wr PageSettings_rd). Qed.
Lemma PageSettings_ref : refuses PageSettings_from ["paper"%string].
Proof. refuse PageSettings_from. Qed.
Global Opaque PageSettings_from PageSettings_tree PageSettings_to PageSettings_norm PageSettings_ok PageSettings_eqb.


#[local] Arguments foldM : simpl nomatch.
Lemma dict_put_new d k v : forallb (fun kv => negb (py_eqb (fst kv) k)) d = true -> dict_put d k v = d ++ [(k, v)].
Proof.
  induction d as [|[k' v'] d IH]; cbn [forallb dict_put app fst]; [reflexivity|]. intros H. andbs.
  rewrite H. now rewrite IH.
Qed.
Lemma dict_keys_mid d1 k v d2 : dict_keys_ok (d1 ++ (k, v) :: d2) = true ->
  forallb (fun kv => negb (py_eqb (fst kv) k)) d1 = true.
Proof.
  induction d1 as [|[k' v'] d IH]; cbn [app dict_keys_ok forallb fst]; [reflexivity|]. intros H.
  apply andb_prop in H as [H1 H2]. rewrite IH by assumption. rewrite forallb_app in H1.
  apply andb_prop in H1 as [_ H1]. cbn [forallb fst] in H1. apply andb_prop in H1 as [-> _]. reflexivity.
Qed.
(** a loop that enters the items of a dictionary one by one *)
Lemma fold_dict {R} (mk : list (val * val) -> R) step (t : val * val -> val) d :
  forallb (fun kv => atomb (fst kv) && txtb (snd kv)) d = true ->
  (forall acc kv, In kv d -> is_list (fst kv) = false -> step (mk acc) (t kv) = Ok (mk (dict_put acc (fst kv) (snd kv)))) ->
  forall acc, dict_keys_ok (acc ++ d) = true -> foldM step (mk acc) (map t d) = Ok (mk (acc ++ d)).
Proof.
  induction d as [|[k v] d IH]; intros Hd Hs acc Ha; cbn [map foldM]; [now rewrite app_nil_r|].
  cbn [forallb fst snd] in Hd. andbs.
  rewrite Hs; [|now left|now apply atomb_leaf]. cbn [bind fst snd].
  rewrite dict_put_new by (eapply dict_keys_mid; exact Ha).
  rewrite IH; [now rewrite <- app_assoc|assumption| |now rewrite <- app_assoc].
  intros acc' kv Hin. apply Hs. now right.
Qed.
#[local] Arguments foldM : simpl never.
Lemma dict_norm_idem d : dict_norm (dict_norm d) = dict_norm d.
Proof.
  unfold dict_norm. rewrite map_map. apply map_ext. intros [k v]. cbn [fst snd]. now rewrite nrm_idem.
Qed.
#[export] Hint Rewrite dict_norm_idem : idem.
Lemma dict_okn d : dict_ok d = true -> dict_ok (dict_norm d) = true.
Proof.
  unfold dict_ok. intros H. apply andb_prop in H as [H1 H2]. apply andb_prop in H1 as [H1 H3].
  rewrite dict_norm_idem, H2, !andb_true_r. clear H2 H3. induction d as [|[k v] d IH]; [reflexivity|]. cbn [forallb dict_norm map fst snd] in *. andbs.
  rewrite atomb_nrm by assumption. fold (dict_norm d). cbn [andb]. apply andb_true_intro. split; [assumption|now apply IH].
Qed.
#[export] Hint Resolve dict_okn : okn.
Global Arguments dict_ok : simpl never. Global Arguments dict_norm : simpl never. 

Lemma TitleBlock_rd o : TitleBlock_ok o = true -> TitleBlock_from (TitleBlock_tree o) = Ok o.
Proof.
  rd_start TitleBlock_ok TitleBlock_from TitleBlock_tree TitleBlock_step.
  unfold dict_ok in *. andbs.
  assert (F : forall a b c d, foldM st (mkTitleBlock a b c d []) (map (fun kv => node "comment" [fst kv; snd kv]) tb_comments)
     = Ok (mkTitleBlock a b c d tb_comments)).
  { intros. refine (fold_dict (fun z => mkTitleBlock a b c d z) st _ tb_comments _ _ [] _); [assumption| |assumption].
    intros acc [k v] _ Hk. cbn [fst snd] in *. subst st. unfold TitleBlock_step. red_step. unfold dict_set. rewrite Hk. reflexivity. }
  rd_loop st TitleBlock_step.
Qed.
#[export] Hint Resolve TitleBlock_rd : rd.
Lemma TitleBlock_wr o i n : TitleBlock_ok o = true -> Wr (TitleBlock_to o i n) (flat (TitleBlock_tree (TitleBlock_norm o))).
Proof. wr TitleBlock_to TitleBlock_ok TitleBlock_tree TitleBlock_norm. Qed.
#[export] Hint Resolve TitleBlock_wr : wr.
Lemma TitleBlock_idem o : TitleBlock_norm (TitleBlock_norm o) = TitleBlock_norm o.
Proof. idem TitleBlock_norm. Qed.
#[export] Hint Rewrite TitleBlock_idem : idem.
Lemma TitleBlock_okn o : TitleBlock_ok o = true -> TitleBlock_ok (TitleBlock_norm o) = true.
Proof. okn TitleBlock_ok TitleBlock_norm. Qed.
#[export] Hint Resolve TitleBlock_okn : okn.
Lemma TitleBlock_hd o : exists l, TitleBlock_tree o = node "title_block" l.
Proof. eexists. reflexivity. Qed.
#[export] Hint Resolve TitleBlock_hd : hd.
Lemma TitleBlock_same o : TitleBlock_eqb o (TitleBlock_norm o) = true.
Proof. same TitleBlock_eqb TitleBlock_norm. Qed.
#[export] Hint Resolve TitleBlock_same : same.
Lemma TitleBlock_rt : roundtrips TitleBlock_to TitleBlock_from TitleBlock_ok TitleBlock_norm TitleBlock_eqb.
Proof. exact (rt_of _ _ _ TitleBlock_tree _ _ TitleBlock_wr TitleBlock_rd TitleBlock_same TitleBlock_okn TitleBlock_idem). Qed.
Lemma TitleBlock_fmt : conforms TitleBlock_to TitleBlock_from TitleBlock_ok TitleBlock_norm TitleBlock_tree.
Proof. exact (fmt_of _ _ _ _ _ TitleBlock_wr TitleBlock_rd). Qed.
Lemma TitleBlock_ref : refuses TitleBlock_from ["title_block"%string].
Proof. refuse TitleBlock_from. Qed.
Lemma TitleBlock_ign : ignores TitleBlock_from 0 ["title"%string; "date"%string; "rev"%string; "company"%string; "comment"%string].
Proof. ign TitleBlock_from TitleBlock_step O. Qed.
Lemma TitleBlock_win : last_wins TitleBlock_from 0 ["title"%string; "date"%string; "rev"%string; "company"%string].
Proof. wins TitleBlock_from TitleBlock_step O. Qed.
Global Opaque TitleBlock_from TitleBlock_tree TitleBlock_to TitleBlock_norm TitleBlock_ok TitleBlock_eqb.


Lemma RenderCachePolygon_pts_wr sp l : forallb pos2_ok l = true -> forall j,
  Seq KC (RenderCachePolygon_pts (spaces sp) j l) KC (flat_map (fun p => flat (xy_tree "xy" (Position_norm p))) l).
Proof.
  induction l as [|p l IH]; intros H j; cbn [RenderCachePolygon_pts flat_map]; [apply Seq_nil|].
  cbn [forallb] in H. facts. specialize (IH ltac:(assumption) (S j)).
  replace (flat (xy_tree "xy" (Position_norm p)) ++ flat_map (fun p => flat (xy_tree "xy" (Position_norm p))) l)
    with ([TL; TA (VStr $"xy")] ++ flat (nrm (po_X p)) ++ flat (nrm (po_Y p)) ++ [TR]
       ++ flat_map (fun p => flat (xy_tree "xy" (Position_norm p))) l) by (rewrite flat_xy; tpeel).
  change ([TL; TA (VStr $"xy")] ++ ?r) with ([] ++ [] ++ [] ++ [TL; TA (VStr $"xy")] ++ r).
  destruct (Nat.eqb (Nat.modulo j 4) 0); (eapply Seq_app; [first [apply (Seq_lit KC nl KC []); reflexivity | apply Seq_nil]|]);
  (eapply Seq_app; [apply Seq_spaces|]); (eapply Seq_app; [apply Seq_lit; reflexivity|]);
  (eapply Seq_app; [apply Seq_lit; reflexivity|]); (eapply Seq_app; [now apply Seq_num|]);
  change (flat (nrm (po_Y p)) ++ ?r) with ([] ++ flat (nrm (po_Y p)) ++ r);
  (eapply Seq_app; [apply Seq_lit; reflexivity|]); (eapply Seq_app; [now apply Seq_num|]);
  (eapply Seq_app; [apply Seq_lit; reflexivity|]); exact IH.
Qed.
Lemma RenderCachePolygon_wr o i n : RenderCachePolygon_ok o = true ->
  Wr (RenderCachePolygon_to o i n) (flat (RenderCachePolygon_tree (RenderCachePolygon_norm o))).
Proof.
  intros H. unfold RenderCachePolygon_ok in H. pose proof (RenderCachePolygon_pts_wr i (rp_pts o) H 0) as P.
  eapply Wr_eq; [unfold RenderCachePolygon_to; cbv zeta; apply Wr_ok|].
  - assert (Q : Seq KW (RenderCachePolygon_pts (spaces i) 0 (rp_pts o) ++ nl) KC
       (flat_map (fun p => flat (xy_tree "xy" (Position_norm p))) (rp_pts o) ++ [])).
    { intros rest Hr. split.
      - destruct (rp_pts o); reflexivity.
      - refine (proj2 (Seq_app KC _ _ _ _ KC _ P _ rest Hr)). now apply Seq_lit. }
    rewrite (app_assoc (RenderCachePolygon_pts (spaces i) 0 (rp_pts o))).
    revert Q. generalize (RenderCachePolygon_pts (spaces i) 0 (rp_pts o) ++ nl). intros z Q. seq_top.
  - unfold RenderCachePolygon_tree, RenderCachePolygon_norm. cbn. tpeel.
Qed.
#[export] Hint Resolve RenderCachePolygon_wr : wr.
Lemma RenderCachePolygon_idem o : RenderCachePolygon_norm (RenderCachePolygon_norm o) = RenderCachePolygon_norm o.
Proof. idem RenderCachePolygon_norm. Qed.
#[export] Hint Rewrite RenderCachePolygon_idem : idem.
Lemma RenderCachePolygon_okn o : RenderCachePolygon_ok o = true -> RenderCachePolygon_ok (RenderCachePolygon_norm o) = true.
Proof. okn RenderCachePolygon_ok RenderCachePolygon_norm. Qed.
#[export] Hint Resolve RenderCachePolygon_okn : okn.
Lemma RenderCachePolygon_hd o : exists l, RenderCachePolygon_tree o = node "polygon" l.
Proof. eexists. reflexivity. Qed.
#[export] Hint Resolve RenderCachePolygon_hd : hd.
Lemma RenderCachePolygon_rd o : RenderCachePolygon_ok o = true -> RenderCachePolygon_from (RenderCachePolygon_tree o) = Ok o.
Proof. rd RenderCachePolygon_ok RenderCachePolygon_from RenderCachePolygon_tree RenderCachePolygon_step. Qed.
#[export] Hint Resolve RenderCachePolygon_rd : rd.
Lemma RenderCachePolygon_same o : RenderCachePolygon_eqb o (RenderCachePolygon_norm o) = true.
Proof. same RenderCachePolygon_eqb RenderCachePolygon_norm. Qed.
#[export] Hint Resolve RenderCachePolygon_same : same.
Lemma RenderCachePolygon_rt : roundtrips RenderCachePolygon_to RenderCachePolygon_from RenderCachePolygon_ok RenderCachePolygon_norm RenderCachePolygon_eqb.
Proof. exact (rt_of _ _ _ RenderCachePolygon_tree _ _ RenderCachePolygon_wr RenderCachePolygon_rd RenderCachePolygon_same RenderCachePolygon_okn RenderCachePolygon_idem). Qed.
Lemma RenderCachePolygon_fmt : conforms RenderCachePolygon_to RenderCachePolygon_from RenderCachePolygon_ok RenderCachePolygon_norm RenderCachePolygon_tree.
Proof. exact (fmt_of _ _ _ _ _ RenderCachePolygon_wr RenderCachePolygon_rd). Qed.
Lemma RenderCachePolygon_ref : refuses RenderCachePolygon_from ["polygon"%string].
Proof. refuse RenderCachePolygon_from. Qed.
Lemma RenderCachePolygon_ign : ignores RenderCachePolygon_from 0 ["pts"%string].
Proof. ign RenderCachePolygon_from RenderCachePolygon_step O. Qed.
Global Opaque RenderCachePolygon_from RenderCachePolygon_tree RenderCachePolygon_to RenderCachePolygon_norm RenderCachePolygon_ok RenderCachePolygon_eqb.


Lemma word0_str v : word0v v = true -> exists c w, v = VStr (c :: w).
Proof. destruct v as [| | | |[|c w]|]; try discriminate. eauto. Qed.
Lemma txt_str v : txtb v = true -> (v =s "") = false -> exists c w, v = VStr (c :: w).
Proof. destruct v as [| | | |[|c w]|]; try discriminate. eauto. Qed.
Lemma RenderCache_skip o c w : RenderCache_step o (VStr (c :: w)) = Ok o.
Proof.
  unfold RenderCache_step. cbn [at_ nth_error bind]. replace (VStr [c] =s "polygon") with false; [reflexivity|].
  unfold is_str. change ($"polygon") with (112%N :: $"olygon"). unfold str_eqb.
  destruct (N.eqb c 112); reflexivity.
Qed.
Lemma RenderCache_rd o : RenderCache_ok o = true -> RenderCache_from (RenderCache_tree o) = Ok o.
Proof.
  rd_start RenderCache_ok RenderCache_from RenderCache_tree RenderCache_step.
  destruct (txt_str rc_text) as (c & w & ->); [assumption..|]. destruct (word0_str rc_id) as (d & x & ->); [assumption|].
  subst st. do 3 (eapply fold_cons; [apply RenderCache_skip|]).
  remember RenderCache_step as st eqn:Hst. rd_loop st RenderCache_step.
Qed.
#[export] Hint Resolve RenderCache_rd : rd.
Lemma RenderCache_wr o i n : RenderCache_ok o = true -> Wr (RenderCache_to o i n) (flat (RenderCache_tree (RenderCache_norm o))).
Proof. wr RenderCache_to RenderCache_ok RenderCache_tree RenderCache_norm. Qed.
#[export] Hint Resolve RenderCache_wr : wr.
Lemma RenderCache_idem o : RenderCache_norm (RenderCache_norm o) = RenderCache_norm o.
Proof. idem RenderCache_norm. Qed.
#[export] Hint Rewrite RenderCache_idem : idem.
Lemma RenderCache_okn o : RenderCache_ok o = true -> RenderCache_ok (RenderCache_norm o) = true.
Proof. okn RenderCache_ok RenderCache_norm. Qed.
#[export] Hint Resolve RenderCache_okn : okn.
Lemma RenderCache_hd o : exists l, RenderCache_tree o = node "render_cache" l.
Proof. eexists. reflexivity. Qed.
#[export] Hint Resolve RenderCache_hd : hd.
Lemma RenderCache_same o : RenderCache_eqb o (RenderCache_norm o) = true.
Proof. same RenderCache_eqb RenderCache_norm. Qed.
#[export] Hint Resolve RenderCache_same : same.
Lemma RenderCache_rt : roundtrips RenderCache_to RenderCache_from RenderCache_ok RenderCache_norm RenderCache_eqb.
Proof. exact (rt_of _ _ _ RenderCache_tree _ _ RenderCache_wr RenderCache_rd RenderCache_same RenderCache_okn RenderCache_idem). Qed.
Lemma RenderCache_fmt : conforms RenderCache_to RenderCache_from RenderCache_ok RenderCache_norm RenderCache_tree.
Proof. exact (fmt_of _ _ _ _ _ RenderCache_wr RenderCache_rd). Qed.
Lemma RenderCache_ref : refuses RenderCache_from ["render_cache"%string].
Proof. refuse RenderCache_from. Qed.
Lemma RenderCache_ign : ignores RenderCache_from 2 ["polygon"%string].
Proof. ign RenderCache_from RenderCache_step (S (S O)). Qed.
Global Opaque RenderCache_from RenderCache_tree RenderCache_to RenderCache_norm RenderCache_ok RenderCache_eqb.

