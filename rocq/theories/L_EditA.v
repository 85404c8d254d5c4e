(** C54: each class *)
From Coq Require Import List Bool.
From Verif Require Import PyBase PyNum PyStr Sexpr RecordSet S_Leaf S_Tree S_Fix S_Equal S_Edit L_Tac L_Equal L_EqualA L_Edit.
From Verif Require Import M_Common M_Lib M_Sym M_Fp M_Gr M_Zone M_Footprint M_Dim M_Brd M_Board M_Sch M_Schematic M_Wks.
From Verif Require Import S_Common S_Lib S_Sym S_Fp S_Gr S_Zone S_Footprint S_Dim S_Brd S_Board S_Sch S_Schematic S_Wks.
From Verif Require Import L_Common L_Lib L_Sym L_Symbol L_Fp L_Gr L_Zone L_Pad L_Footprint L_Dim L_Brd L_Plot L_Board L_Sch L_Sheet L_Schematic L_Wks.

#[local] Transparent Coordinate_ok Coordinate_eqb.
Lemma Coordinate_l : Forall (lawful Coordinate_ok Coordinate_eqb) Coordinate_edits.
Proof.
  repeat apply Forall_cons; [..|apply Forall_nil]; (apply law; [intros o x O F; destruct o as [a0 a1 a2]; unfold Coordinate_ok in *; cbv beta iota delta [set co_X co_Y co_Z] in *; conjs; goals; assumption|intros o x o1 S; destruct o as [a0 a1 a2], o1 as [b0 b1 b2]; unfold Coordinate_eqb in *; cbv beta iota delta [set co_X co_Y co_Z] in *; conjs; split; [assumption|goals; try assumption; apply refl; auto with equ]|intros o x y H; destruct o as [a0 a1 a2]; unfold Coordinate_eqb; cbv beta iota delta [set co_X co_Y co_Z]; goals; try assumption; apply refl; auto with equ|intros o O; destruct o as [a0 a1 a2]; unfold Coordinate_ok in *; cbv beta iota delta [set co_X co_Y co_Z] in *; conjs; goals; first [assumption|reflexivity]|intros o o1 S; destruct o as [a0 a1 a2], o1 as [b0 b1 b2]; unfold Coordinate_eqb in *; cbv beta iota delta [set co_X co_Y co_Z] in *; conjs; split; [assumption|split; intros;  goals; try assumption; apply refl; auto with equ]]).
Qed.
Lemma Coordinate_e : edits_survive Coordinate_to Coordinate_from Coordinate_ok Coordinate_eqb Coordinate_edits.
Proof. exact (lawful_survive _ _ _ _ _ _ Coordinate_rt Coordinate_l). Qed.
#[local] Opaque Coordinate_ok Coordinate_eqb.
#[local] Transparent ColorRGBA_ok ColorRGBA_eqb.
Lemma ColorRGBA_l : Forall (lawful ColorRGBA_ok ColorRGBA_eqb) ColorRGBA_edits.
Proof.
  repeat apply Forall_cons; [..|apply Forall_nil]; (apply law; [intros o x O F; destruct o as [a0 a1 a2 a3 a4]; unfold ColorRGBA_ok in *; cbv beta iota delta [set ca_R ca_G ca_B ca_A ca_precision] in *; conjs; goals; assumption|intros o x o1 S; destruct o as [a0 a1 a2 a3 a4], o1 as [b0 b1 b2 b3 b4]; unfold ColorRGBA_eqb in *; cbv beta iota delta [set ca_R ca_G ca_B ca_A ca_precision] in *; conjs; split; [assumption|goals; try assumption; apply refl; auto with equ]|intros o x y H; destruct o as [a0 a1 a2 a3 a4]; unfold ColorRGBA_eqb; cbv beta iota delta [set ca_R ca_G ca_B ca_A ca_precision]; goals; try assumption; apply refl; auto with equ|intros o O; destruct o as [a0 a1 a2 a3 a4]; unfold ColorRGBA_ok in *; cbv beta iota delta [set ca_R ca_G ca_B ca_A ca_precision] in *; conjs; goals; first [assumption|reflexivity]|intros o o1 S; destruct o as [a0 a1 a2 a3 a4], o1 as [b0 b1 b2 b3 b4]; unfold ColorRGBA_eqb in *; cbv beta iota delta [set ca_R ca_G ca_B ca_A ca_precision] in *; conjs; split; [assumption|split; intros;  goals; try assumption; apply refl; auto with equ]]).
Qed.
Lemma ColorRGBA_e : edits_survive ColorRGBA_to ColorRGBA_from ColorRGBA_ok ColorRGBA_eqb ColorRGBA_edits.
Proof. exact (lawful_survive _ _ _ _ _ _ ColorRGBA_rt ColorRGBA_l). Qed.
#[local] Opaque ColorRGBA_ok ColorRGBA_eqb.
#[local] Transparent Stroke_ok Stroke_eqb.
Lemma Stroke_l : Forall (lawful Stroke_ok Stroke_eqb) Stroke_edits.
Proof.
  repeat apply Forall_cons; [..|apply Forall_nil]; (apply law; [intros o x O F; destruct o as [a0 a1 a2]; unfold Stroke_ok in *; cbv beta iota delta [set st_width st_type st_color] in *; conjs; goals; assumption|intros o x o1 S; destruct o as [a0 a1 a2], o1 as [b0 b1 b2]; unfold Stroke_eqb in *; cbv beta iota delta [set st_width st_type st_color] in *; conjs; split; [assumption|goals; try assumption; apply refl; auto with equ]|intros o x y H; destruct o as [a0 a1 a2]; unfold Stroke_eqb; cbv beta iota delta [set st_width st_type st_color]; goals; try assumption; apply refl; auto with equ|intros o O; destruct o as [a0 a1 a2]; unfold Stroke_ok in *; cbv beta iota delta [set st_width st_type st_color] in *; conjs; goals; first [assumption|reflexivity]|intros o o1 S; destruct o as [a0 a1 a2], o1 as [b0 b1 b2]; unfold Stroke_eqb in *; cbv beta iota delta [set st_width st_type st_color] in *; conjs; split; [assumption|split; intros;  goals; try assumption; apply refl; auto with equ]]).
Qed.
Lemma Stroke_e : edits_survive Stroke_to Stroke_from Stroke_ok Stroke_eqb Stroke_edits.
Proof. exact (lawful_survive _ _ _ _ _ _ Stroke_rt Stroke_l). Qed.
#[local] Opaque Stroke_ok Stroke_eqb.
#[local] Transparent Font_ok Font_eqb.
Lemma Font_l : Forall (lawful Font_ok Font_eqb) Font_edits.
Proof.
  repeat apply Forall_cons; [..|apply Forall_nil]; (apply law; [intros o x O F; destruct o as [a0 a1 a2 a3 a4 a5 a6 a7]; unfold Font_ok in *; cbv beta iota delta [set fo_face fo_height fo_width fo_thickness fo_bold fo_italic fo_lineSpacing fo_color] in *; conjs; goals; assumption|intros o x o1 S; destruct o as [a0 a1 a2 a3 a4 a5 a6 a7], o1 as [b0 b1 b2 b3 b4 b5 b6 b7]; unfold Font_eqb in *; cbv beta iota delta [set fo_face fo_height fo_width fo_thickness fo_bold fo_italic fo_lineSpacing fo_color] in *; conjs; split; [assumption|goals; try assumption; apply refl; auto with equ]|intros o x y H; destruct o as [a0 a1 a2 a3 a4 a5 a6 a7]; unfold Font_eqb; cbv beta iota delta [set fo_face fo_height fo_width fo_thickness fo_bold fo_italic fo_lineSpacing fo_color]; goals; try assumption; apply refl; auto with equ|intros o O; destruct o as [a0 a1 a2 a3 a4 a5 a6 a7]; unfold Font_ok in *; cbv beta iota delta [set fo_face fo_height fo_width fo_thickness fo_bold fo_italic fo_lineSpacing fo_color] in *; conjs; goals; first [assumption|reflexivity]|intros o o1 S; destruct o as [a0 a1 a2 a3 a4 a5 a6 a7], o1 as [b0 b1 b2 b3 b4 b5 b6 b7]; unfold Font_eqb in *; cbv beta iota delta [set fo_face fo_height fo_width fo_thickness fo_bold fo_italic fo_lineSpacing fo_color] in *; conjs; split; [assumption|split; intros;  goals; try assumption; apply refl; auto with equ]]).
Qed.
Lemma Font_e : edits_survive Font_to Font_from Font_ok Font_eqb Font_edits.
Proof. exact (lawful_survive _ _ _ _ _ _ Font_rt Font_l). Qed.
#[local] Opaque Font_ok Font_eqb.
#[local] Transparent Justify_ok1 Justify_eqb.
Lemma Justify_l : Forall (lawful Justify_ok1 Justify_eqb) Justify_edits.
Proof.
  repeat apply Forall_cons; [..|apply Forall_nil]; (apply law; [intros o x _ F; exact F|intros o x o1 S; destruct o as [a0 a1 a2], o1 as [b0 b1 b2]; unfold Justify_eqb in *; cbv beta iota delta [set ju_horizontally ju_vertically ju_mirror] in *; conjs; split; [assumption|goals; try assumption; apply refl; auto with equ]|intros o x y H; destruct o as [a0 a1 a2]; unfold Justify_eqb; cbv beta iota delta [set ju_horizontally ju_vertically ju_mirror]; goals; try assumption; apply refl; auto with equ|intros o O; destruct o as [a0 a1 a2]; exact O|intros o o1 S; destruct o as [a0 a1 a2], o1 as [b0 b1 b2]; unfold Justify_eqb in *; cbv beta iota delta [set ju_horizontally ju_vertically ju_mirror] in *; conjs; split; [assumption|split; intros;  goals; try assumption; apply refl; auto with equ]]).
Qed.
Lemma Justify_e : edits_survive Justify_to Justify_from Justify_ok1 Justify_eqb Justify_edits.
Proof. exact (lawful_survive _ _ _ _ _ _ Justify_rt1 Justify_l). Qed.
#[local] Opaque Justify_ok1 Justify_eqb.
#[local] Transparent Effects_ok Effects_eqb.
Lemma Effects_l : Forall (lawful Effects_ok Effects_eqb) Effects_edits.
Proof.
  repeat apply Forall_cons; [..|apply Forall_nil]; (apply law; [intros o x O F; destruct o as [a0 a1 a2 a3]; unfold Effects_ok in *; cbv beta iota delta [set ef_font ef_justify ef_hide ef_href] in *; conjs; goals; assumption|intros o x o1 S; destruct o as [a0 a1 a2 a3], o1 as [b0 b1 b2 b3]; unfold Effects_eqb in *; cbv beta iota delta [set ef_font ef_justify ef_hide ef_href] in *; conjs; split; [assumption|goals; try assumption; apply refl; auto with equ]|intros o x y H; destruct o as [a0 a1 a2 a3]; unfold Effects_eqb; cbv beta iota delta [set ef_font ef_justify ef_hide ef_href]; goals; try assumption; apply refl; auto with equ|intros o O; destruct o as [a0 a1 a2 a3]; unfold Effects_ok in *; cbv beta iota delta [set ef_font ef_justify ef_hide ef_href] in *; conjs; goals; first [assumption|reflexivity]|intros o o1 S; destruct o as [a0 a1 a2 a3], o1 as [b0 b1 b2 b3]; unfold Effects_eqb in *; cbv beta iota delta [set ef_font ef_justify ef_hide ef_href] in *; conjs; split; [assumption|split; intros;  goals; try assumption; apply refl; auto with equ]]).
Qed.
Lemma Effects_e : edits_survive Effects_to Effects_from Effects_ok Effects_eqb Effects_edits.
Proof. exact (lawful_survive _ _ _ _ _ _ Effects_rt Effects_l). Qed.
#[local] Opaque Effects_ok Effects_eqb.
#[local] Transparent Net_ok Net_eqb.
Lemma Net_l : Forall (lawful Net_ok Net_eqb) Net_edits.
Proof.
  repeat apply Forall_cons; [..|apply Forall_nil]; (apply law; [intros o x O F; destruct o as [a0 a1]; unfold Net_ok in *; cbv beta iota delta [set ne_number ne_name] in *; conjs; goals; assumption|intros o x o1 S; destruct o as [a0 a1], o1 as [b0 b1]; unfold Net_eqb in *; cbv beta iota delta [set ne_number ne_name] in *; conjs; split; [assumption|goals; try assumption; apply refl; auto with equ]|intros o x y H; destruct o as [a0 a1]; unfold Net_eqb; cbv beta iota delta [set ne_number ne_name]; goals; try assumption; apply refl; auto with equ|intros o O; destruct o as [a0 a1]; unfold Net_ok in *; cbv beta iota delta [set ne_number ne_name] in *; conjs; goals; first [assumption|reflexivity]|intros o o1 S; destruct o as [a0 a1], o1 as [b0 b1]; unfold Net_eqb in *; cbv beta iota delta [set ne_number ne_name] in *; conjs; split; [assumption|split; intros;  goals; try assumption; apply refl; auto with equ]]).
Qed.
Lemma Net_e : edits_survive Net_to Net_from Net_ok Net_eqb Net_edits.
Proof. exact (lawful_survive _ _ _ _ _ _ Net_rt Net_l). Qed.
#[local] Opaque Net_ok Net_eqb.
#[local] Transparent Group_ok Group_eqb.
Lemma Group_l : Forall (lawful Group_ok Group_eqb) Group_edits.
Proof.
  repeat apply Forall_cons; [..|apply Forall_nil]; (apply law; [intros o x O F; destruct o as [a0 a1 a2 a3]; unfold Group_ok in *; cbv beta iota delta [set gr_name M_Common.gr_locked gr_id gr_members] in *; conjs; goals; assumption|intros o x o1 S; destruct o as [a0 a1 a2 a3], o1 as [b0 b1 b2 b3]; unfold Group_eqb in *; cbv beta iota delta [set gr_name M_Common.gr_locked gr_id gr_members] in *; conjs; split; [assumption|goals; try assumption; apply refl; auto with equ]|intros o x y H; destruct o as [a0 a1 a2 a3]; unfold Group_eqb; cbv beta iota delta [set gr_name M_Common.gr_locked gr_id gr_members]; goals; try assumption; apply refl; auto with equ|intros o O; destruct o as [a0 a1 a2 a3]; unfold Group_ok in *; cbv beta iota delta [set gr_name M_Common.gr_locked gr_id gr_members] in *; conjs; goals; first [assumption|reflexivity]|intros o o1 S; destruct o as [a0 a1 a2 a3], o1 as [b0 b1 b2 b3]; unfold Group_eqb in *; cbv beta iota delta [set gr_name M_Common.gr_locked gr_id gr_members] in *; conjs; split; [assumption|split; intros;  goals; try assumption; apply refl; auto with equ]]).
Qed.
Lemma Group_e : edits_survive Group_to Group_from Group_ok Group_eqb Group_edits.
Proof. exact (lawful_survive _ _ _ _ _ _ Group_rt Group_l). Qed.
#[local] Opaque Group_ok Group_eqb.
#[local] Transparent PageSettings_ok PageSettings_eqb.
Lemma PageSettings_l : Forall (lawful PageSettings_ok PageSettings_eqb) PageSettings_edits.
Proof.
  repeat apply Forall_cons; [..|apply Forall_nil]; (apply law; [intros o x O F; destruct o as [a0 a1 a2 a3]; unfold PageSettings_ok in *; cbv beta iota delta [set pg_paperSize pg_width pg_height pg_portrait] in *; conjs; goals; assumption|intros o x o1 S; destruct o as [a0 a1 a2 a3], o1 as [b0 b1 b2 b3]; unfold PageSettings_eqb in *; cbv beta iota delta [set pg_paperSize pg_width pg_height pg_portrait] in *; conjs; split; [assumption|goals; try assumption; apply refl; auto with equ]|intros o x y H; destruct o as [a0 a1 a2 a3]; unfold PageSettings_eqb; cbv beta iota delta [set pg_paperSize pg_width pg_height pg_portrait]; goals; try assumption; apply refl; auto with equ|intros o O; destruct o as [a0 a1 a2 a3]; unfold PageSettings_ok in *; cbv beta iota delta [set pg_paperSize pg_width pg_height pg_portrait] in *; conjs; goals; first [assumption|reflexivity]|intros o o1 S; destruct o as [a0 a1 a2 a3], o1 as [b0 b1 b2 b3]; unfold PageSettings_eqb in *; cbv beta iota delta [set pg_paperSize pg_width pg_height pg_portrait] in *; conjs; split; [assumption|split; intros;  goals; try assumption; apply refl; auto with equ]]).
Qed.
Lemma PageSettings_e : edits_survive PageSettings_to PageSettings_from PageSettings_ok PageSettings_eqb PageSettings_edits.
Proof. exact (lawful_survive _ _ _ _ _ _ PageSettings_rt PageSettings_l). Qed.
#[local] Opaque PageSettings_ok PageSettings_eqb.
#[local] Transparent TitleBlock_ok TitleBlock_eqb.
Lemma TitleBlock_l : Forall (lawful TitleBlock_ok TitleBlock_eqb) TitleBlock_edits.
Proof.
  repeat apply Forall_cons; [..|apply Forall_nil]; (apply law; [intros o x O F; destruct o as [a0 a1 a2 a3 a4]; unfold TitleBlock_ok in *; cbv beta iota delta [set tb_title tb_date tb_revision tb_company tb_comments] in *; conjs; goals; assumption|intros o x o1 S; destruct o as [a0 a1 a2 a3 a4], o1 as [b0 b1 b2 b3 b4]; unfold TitleBlock_eqb in *; cbv beta iota delta [set tb_title tb_date tb_revision tb_company tb_comments] in *; conjs; split; [assumption|goals; try assumption; apply refl; auto with equ]|intros o x y H; destruct o as [a0 a1 a2 a3 a4]; unfold TitleBlock_eqb; cbv beta iota delta [set tb_title tb_date tb_revision tb_company tb_comments]; goals; try assumption; apply refl; auto with equ|intros o O; destruct o as [a0 a1 a2 a3 a4]; unfold TitleBlock_ok in *; cbv beta iota delta [set tb_title tb_date tb_revision tb_company tb_comments] in *; conjs; goals; first [assumption|reflexivity]|intros o o1 S; destruct o as [a0 a1 a2 a3 a4], o1 as [b0 b1 b2 b3 b4]; unfold TitleBlock_eqb in *; cbv beta iota delta [set tb_title tb_date tb_revision tb_company tb_comments] in *; conjs; split; [assumption|split; intros;  goals; try assumption; apply refl; auto with equ]]).
Qed.
Lemma TitleBlock_e : edits_survive TitleBlock_to TitleBlock_from TitleBlock_ok TitleBlock_eqb TitleBlock_edits.
Proof. exact (lawful_survive _ _ _ _ _ _ TitleBlock_rt TitleBlock_l). Qed.
#[local] Opaque TitleBlock_ok TitleBlock_eqb.
#[local] Transparent Property_ok Property_eqb.
Lemma Property_l : Forall (lawful Property_ok Property_eqb) Property_edits.
Proof.
  repeat apply Forall_cons; [..|apply Forall_nil]; (apply law; [intros o x O F; destruct o as [a0 a1 a2 a3 a4 a5]; unfold Property_ok in *; cbv beta iota delta [set pr_key pr_value pr_id pr_position pr_effects pr_showName] in *; conjs; goals; assumption|intros o x o1 S; destruct o as [a0 a1 a2 a3 a4 a5], o1 as [b0 b1 b2 b3 b4 b5]; unfold Property_eqb in *; cbv beta iota delta [set pr_key pr_value pr_id pr_position pr_effects pr_showName] in *; conjs; split; [assumption|goals; try assumption; apply refl; auto with equ]|intros o x y H; destruct o as [a0 a1 a2 a3 a4 a5]; unfold Property_eqb; cbv beta iota delta [set pr_key pr_value pr_id pr_position pr_effects pr_showName]; goals; try assumption; apply refl; auto with equ|intros o O; destruct o as [a0 a1 a2 a3 a4 a5]; unfold Property_ok in *; cbv beta iota delta [set pr_key pr_value pr_id pr_position pr_effects pr_showName] in *; conjs; goals; first [assumption|reflexivity]|intros o o1 S; destruct o as [a0 a1 a2 a3 a4 a5], o1 as [b0 b1 b2 b3 b4 b5]; unfold Property_eqb in *; cbv beta iota delta [set pr_key pr_value pr_id pr_position pr_effects pr_showName] in *; conjs; split; [assumption|split; intros;  goals; try assumption; apply refl; auto with equ]]).
Qed.
Lemma Property_e : edits_survive Property_to Property_from Property_ok Property_eqb Property_edits.
Proof. exact (lawful_survive _ _ _ _ _ _ Property_rt Property_l). Qed.
#[local] Opaque Property_ok Property_eqb.
#[local] Transparent RenderCachePolygon_ok RenderCachePolygon_eqb.
Lemma RenderCachePolygon_l : Forall (lawful RenderCachePolygon_ok RenderCachePolygon_eqb) RenderCachePolygon_edits.
Proof.
  repeat apply Forall_cons; [..|apply Forall_nil]; (apply law; [intros o x O F; destruct o as [a0]; unfold RenderCachePolygon_ok in *; cbv beta iota delta [set rp_pts] in *; conjs; goals; assumption|intros o x o1 S; destruct o as [a0], o1 as [b0]; unfold RenderCachePolygon_eqb in *; cbv beta iota delta [set rp_pts] in *; conjs; split; [assumption|goals; try assumption; apply refl; auto with equ]|intros o x y H; destruct o as [a0]; unfold RenderCachePolygon_eqb; cbv beta iota delta [set rp_pts]; goals; try assumption; apply refl; auto with equ|intros o O; destruct o as [a0]; unfold RenderCachePolygon_ok in *; cbv beta iota delta [set rp_pts] in *; conjs; goals; first [assumption|reflexivity]|intros o o1 S; destruct o as [a0], o1 as [b0]; unfold RenderCachePolygon_eqb in *; cbv beta iota delta [set rp_pts] in *; conjs; split; [assumption|split; intros;  goals; try assumption; apply refl; auto with equ]]).
Qed.
Lemma RenderCachePolygon_e : edits_survive RenderCachePolygon_to RenderCachePolygon_from RenderCachePolygon_ok RenderCachePolygon_eqb RenderCachePolygon_edits.
Proof. exact (lawful_survive _ _ _ _ _ _ RenderCachePolygon_rt RenderCachePolygon_l). Qed.
#[local] Opaque RenderCachePolygon_ok RenderCachePolygon_eqb.
#[local] Transparent RenderCache_ok RenderCache_eqb.
Lemma RenderCache_l : Forall (lawful RenderCache_ok RenderCache_eqb) RenderCache_edits.
Proof.
  repeat apply Forall_cons; [..|apply Forall_nil]; (apply law; [intros o x O F; destruct o as [a0 a1 a2]; unfold RenderCache_ok in *; cbv beta iota delta [set rc_text rc_id rc_polygons] in *; conjs; goals; assumption|intros o x o1 S; destruct o as [a0 a1 a2], o1 as [b0 b1 b2]; unfold RenderCache_eqb in *; cbv beta iota delta [set rc_text rc_id rc_polygons] in *; conjs; split; [assumption|goals; try assumption; apply refl; auto with equ]|intros o x y H; destruct o as [a0 a1 a2]; unfold RenderCache_eqb; cbv beta iota delta [set rc_text rc_id rc_polygons]; goals; try assumption; apply refl; auto with equ|intros o O; destruct o as [a0 a1 a2]; unfold RenderCache_ok in *; cbv beta iota delta [set rc_text rc_id rc_polygons] in *; conjs; goals; first [assumption|reflexivity]|intros o o1 S; destruct o as [a0 a1 a2], o1 as [b0 b1 b2]; unfold RenderCache_eqb in *; cbv beta iota delta [set rc_text rc_id rc_polygons] in *; conjs; split; [assumption|split; intros;  goals; try assumption; apply refl; auto with equ]]).
Qed.
Lemma RenderCache_e : edits_survive RenderCache_to RenderCache_from RenderCache_ok RenderCache_eqb RenderCache_edits.
Proof. exact (lawful_survive _ _ _ _ _ _ RenderCache_rt RenderCache_l). Qed.
#[local] Opaque RenderCache_ok RenderCache_eqb.
#[local] Transparent Fill_ok Fill_eqb.
Lemma Fill_l : Forall (lawful Fill_ok Fill_eqb) Fill_edits.
Proof.
  repeat apply Forall_cons; [..|apply Forall_nil]; (apply law; [intros o x O F; destruct o as [a0 a1]; unfold Fill_ok in *; cbv beta iota delta [set fi_type fi_color] in *; conjs; goals; assumption|intros o x o1 S; destruct o as [a0 a1], o1 as [b0 b1]; unfold Fill_eqb in *; cbv beta iota delta [set fi_type fi_color] in *; conjs; split; [assumption|goals; try assumption; apply refl; auto with equ]|intros o x y H; destruct o as [a0 a1]; unfold Fill_eqb; cbv beta iota delta [set fi_type fi_color]; goals; try assumption; apply refl; auto with equ|intros o O; destruct o as [a0 a1]; unfold Fill_ok in *; cbv beta iota delta [set fi_type fi_color] in *; conjs; goals; first [assumption|reflexivity]|intros o o1 S; destruct o as [a0 a1], o1 as [b0 b1]; unfold Fill_eqb in *; cbv beta iota delta [set fi_type fi_color] in *; conjs; split; [assumption|split; intros;  goals; try assumption; apply refl; auto with equ]]).
Qed.
Lemma Fill_e : edits_survive Fill_to Fill_from Fill_ok Fill_eqb Fill_edits.
Proof. exact (lawful_survive _ _ _ _ _ _ Fill_rt Fill_l). Qed.
#[local] Opaque Fill_ok Fill_eqb.
#[local] Transparent Image_ok Image_eqb.
Lemma Image_l : Forall (lawful Image_ok Image_eqb) Image_edits.
Proof.
  repeat apply Forall_cons; [..|apply Forall_nil]; (apply law; [intros o x O F; destruct o as [a0 a1 a2 a3 a4]; unfold Image_ok in *; cbv beta iota delta [set im_position im_scale im_data im_uuid im_layer] in *; conjs; goals; assumption|intros o x o1 S; destruct o as [a0 a1 a2 a3 a4], o1 as [b0 b1 b2 b3 b4]; unfold Image_eqb in *; cbv beta iota delta [set im_position im_scale im_data im_uuid im_layer] in *; conjs; split; [assumption|goals; try assumption; apply refl; auto with equ]|intros o x y H; destruct o as [a0 a1 a2 a3 a4]; unfold Image_eqb; cbv beta iota delta [set im_position im_scale im_data im_uuid im_layer]; goals; try assumption; apply refl; auto with equ|intros o O; destruct o as [a0 a1 a2 a3 a4]; unfold Image_ok in *; cbv beta iota delta [set im_position im_scale im_data im_uuid im_layer] in *; conjs; goals; first [assumption|reflexivity]|intros o o1 S; destruct o as [a0 a1 a2 a3 a4], o1 as [b0 b1 b2 b3 b4]; unfold Image_eqb in *; cbv beta iota delta [set im_position im_scale im_data im_uuid im_layer] in *; conjs; split; [assumption|split; intros;  goals; try assumption; apply refl; auto with equ]]).
Qed.
Lemma Image_e : edits_survive Image_to Image_from Image_ok Image_eqb Image_edits.
Proof. exact (lawful_survive _ _ _ _ _ _ Image_rt Image_l). Qed.
#[local] Opaque Image_ok Image_eqb.
#[local] Transparent Library_ok Library_eqb.
Lemma Library_l : Forall (lawful Library_ok Library_eqb) Library_edits.
Proof.
  repeat apply Forall_cons; [..|apply Forall_nil]; (apply law; [intros o x O F; destruct o as [a0 a1 a2 a3 a4 a5]; unfold Library_ok in *; cbv beta iota delta [set lb_name lb_type lb_uri lb_options lb_description lb_active] in *; conjs; goals; assumption|intros o x o1 S; destruct o as [a0 a1 a2 a3 a4 a5], o1 as [b0 b1 b2 b3 b4 b5]; unfold Library_eqb in *; cbv beta iota delta [set lb_name lb_type lb_uri lb_options lb_description lb_active] in *; conjs; split; [assumption|goals; try assumption; apply refl; auto with equ]|intros o x y H; destruct o as [a0 a1 a2 a3 a4 a5]; unfold Library_eqb; cbv beta iota delta [set lb_name lb_type lb_uri lb_options lb_description lb_active]; goals; try assumption; apply refl; auto with equ|intros o O; destruct o as [a0 a1 a2 a3 a4 a5]; unfold Library_ok in *; cbv beta iota delta [set lb_name lb_type lb_uri lb_options lb_description lb_active] in *; conjs; goals; first [assumption|reflexivity]|intros o o1 S; destruct o as [a0 a1 a2 a3 a4 a5], o1 as [b0 b1 b2 b3 b4 b5]; unfold Library_eqb in *; cbv beta iota delta [set lb_name lb_type lb_uri lb_options lb_description lb_active] in *; conjs; split; [assumption|split; intros;  goals; try assumption; apply refl; auto with equ]]).
Qed.
Lemma Library_e : edits_survive Library_to Library_from Library_ok Library_eqb Library_edits.
Proof. exact (lawful_survive _ _ _ _ _ _ Library_rt Library_l). Qed.
#[local] Opaque Library_ok Library_eqb.
#[local] Transparent LibTable_ok LibTable_eqb.
Lemma LibTable_l : Forall (lawful LibTable_ok LibTable_eqb) LibTable_edits.
Proof.
  repeat apply Forall_cons; [..|apply Forall_nil]; (apply law; [intros o x O F; destruct o as [a0 a1 a2]; unfold LibTable_ok in *; cbv beta iota delta [set M_Lib.lt_type lt_libs lt_filePath] in *; conjs; goals; assumption|intros o x o1 S; destruct o as [a0 a1 a2], o1 as [b0 b1 b2]; unfold LibTable_eqb in *; cbv beta iota delta [set M_Lib.lt_type lt_libs lt_filePath] in *; conjs; split; [assumption|goals; try assumption; apply refl; auto with equ]|intros o x y H; destruct o as [a0 a1 a2]; unfold LibTable_eqb; cbv beta iota delta [set M_Lib.lt_type lt_libs lt_filePath]; goals; try assumption; apply refl; auto with equ|intros o O; destruct o as [a0 a1 a2]; unfold LibTable_ok in *; cbv beta iota delta [set M_Lib.lt_type lt_libs lt_filePath] in *; conjs; goals; first [assumption|reflexivity]|intros o o1 S; destruct o as [a0 a1 a2], o1 as [b0 b1 b2]; unfold LibTable_eqb in *; cbv beta iota delta [set M_Lib.lt_type lt_libs lt_filePath] in *; conjs; split; [assumption|split; intros;  goals; try assumption; apply refl; auto with equ]]).
Qed.
Lemma LibTable_e : edits_survive LibTable_to LibTable_from LibTable_ok LibTable_eqb LibTable_edits.
Proof. exact (lawful_survive _ _ _ _ _ _ LibTable_rt LibTable_l). Qed.
#[local] Opaque LibTable_ok LibTable_eqb.
#[local] Transparent Constraint_ok Constraint_eqb.
Lemma Constraint_l : Forall (lawful Constraint_ok Constraint_eqb) Constraint_edits.
Proof.
  repeat apply Forall_cons; [..|apply Forall_nil]; (apply law; [intros o x O F; destruct o as [a0 a1 a2 a3 a4]; unfold Constraint_ok in *; cbv beta iota delta [set cn_type cn_min cn_opt cn_max cn_elements] in *; conjs; goals; assumption|intros o x o1 S; destruct o as [a0 a1 a2 a3 a4], o1 as [b0 b1 b2 b3 b4]; unfold Constraint_eqb in *; cbv beta iota delta [set cn_type cn_min cn_opt cn_max cn_elements] in *; conjs; split; [assumption|goals; try assumption; apply refl; auto with equ]|intros o x y H; destruct o as [a0 a1 a2 a3 a4]; unfold Constraint_eqb; cbv beta iota delta [set cn_type cn_min cn_opt cn_max cn_elements]; goals; try assumption; apply refl; auto with equ|intros o O; destruct o as [a0 a1 a2 a3 a4]; unfold Constraint_ok in *; cbv beta iota delta [set cn_type cn_min cn_opt cn_max cn_elements] in *; conjs; goals; first [assumption|reflexivity]|intros o o1 S; destruct o as [a0 a1 a2 a3 a4], o1 as [b0 b1 b2 b3 b4]; unfold Constraint_eqb in *; cbv beta iota delta [set cn_type cn_min cn_opt cn_max cn_elements] in *; conjs; split; [assumption|split; intros;  goals; try assumption; apply refl; auto with equ]]).
Qed.
Lemma Constraint_e : edits_survive Constraint_to Constraint_from Constraint_ok Constraint_eqb Constraint_edits.
Proof. exact (lawful_survive _ _ _ _ _ _ Constraint_rt Constraint_l). Qed.
#[local] Opaque Constraint_ok Constraint_eqb.
#[local] Transparent Rule_ok Rule_eqb.
Lemma Rule_l : Forall (lawful Rule_ok Rule_eqb) Rule_edits.
Proof.
  repeat apply Forall_cons; [..|apply Forall_nil]; (apply law; [intros o x O F; destruct o as [a0 a1 a2 a3 a4]; unfold Rule_ok in *; cbv beta iota delta [set ru_name ru_constraints ru_condition ru_layer ru_severity] in *; conjs; goals; assumption|intros o x o1 S; destruct o as [a0 a1 a2 a3 a4], o1 as [b0 b1 b2 b3 b4]; unfold Rule_eqb in *; cbv beta iota delta [set ru_name ru_constraints ru_condition ru_layer ru_severity] in *; conjs; split; [assumption|goals; try assumption; apply refl; auto with equ]|intros o x y H; destruct o as [a0 a1 a2 a3 a4]; unfold Rule_eqb; cbv beta iota delta [set ru_name ru_constraints ru_condition ru_layer ru_severity]; goals; try assumption; apply refl; auto with equ|intros o O; destruct o as [a0 a1 a2 a3 a4]; unfold Rule_ok in *; cbv beta iota delta [set ru_name ru_constraints ru_condition ru_layer ru_severity] in *; conjs; goals; first [assumption|reflexivity]|intros o o1 S; destruct o as [a0 a1 a2 a3 a4], o1 as [b0 b1 b2 b3 b4]; unfold Rule_eqb in *; cbv beta iota delta [set ru_name ru_constraints ru_condition ru_layer ru_severity] in *; conjs; split; [assumption|split; intros;  goals; try assumption; apply refl; auto with equ]]).
Qed.
Lemma Rule_e : edits_survive Rule_to Rule_from Rule_ok Rule_eqb Rule_edits.
Proof. exact (lawful_survive _ _ _ _ _ _ Rule_rt Rule_l). Qed.
#[local] Opaque Rule_ok Rule_eqb.
#[local] Transparent DesignRules_ok DesignRules_eqb.
Lemma DesignRules_l : Forall (lawful DesignRules_ok DesignRules_eqb) DesignRules_edits.
Proof.
  repeat apply Forall_cons; [..|apply Forall_nil]; (apply law; [intros o x O F; destruct o as [a0 a1 a2]; unfold DesignRules_ok in *; cbv beta iota delta [set dr_version dr_rules dr_filePath] in *; conjs; goals; assumption|intros o x o1 S; destruct o as [a0 a1 a2], o1 as [b0 b1 b2]; unfold DesignRules_eqb in *; cbv beta iota delta [set dr_version dr_rules dr_filePath] in *; conjs; split; [assumption|goals; try assumption; apply refl; auto with equ]|intros o x y H; destruct o as [a0 a1 a2]; unfold DesignRules_eqb; cbv beta iota delta [set dr_version dr_rules dr_filePath]; goals; try assumption; apply refl; auto with equ|intros o O; destruct o as [a0 a1 a2]; unfold DesignRules_ok in *; cbv beta iota delta [set dr_version dr_rules dr_filePath] in *; conjs; goals; first [assumption|reflexivity]|intros o o1 S; destruct o as [a0 a1 a2], o1 as [b0 b1 b2]; unfold DesignRules_eqb in *; cbv beta iota delta [set dr_version dr_rules dr_filePath] in *; conjs; split; [assumption|split; intros;  goals; try assumption; apply refl; auto with equ]]).
Qed.
Lemma DesignRules_e : edits_survive DesignRules_file DesignRules_from DesignRules_ok DesignRules_eqb DesignRules_edits.
Proof. exact (lawful_survive _ _ _ _ _ _ DesignRules_rt DesignRules_l). Qed.
#[local] Opaque DesignRules_ok DesignRules_eqb.
#[local] Transparent SyArc_ok SyArc_eqb.
Lemma SyArc_l : Forall (lawful SyArc_ok SyArc_eqb) SyArc_edits.
Proof.
  repeat apply Forall_cons; [..|apply Forall_nil]; (apply law; [intros o x O F; destruct o as [a0 a1 a2 a3 a4 a5]; unfold SyArc_ok in *; cbv beta iota delta [set sa_private sa_start sa_mid sa_end sa_stroke sa_fill] in *; conjs; goals; assumption|intros o x o1 S; destruct o as [a0 a1 a2 a3 a4 a5], o1 as [b0 b1 b2 b3 b4 b5]; unfold SyArc_eqb in *; cbv beta iota delta [set sa_private sa_start sa_mid sa_end sa_stroke sa_fill] in *; conjs; split; [assumption|goals; try assumption; apply refl; auto with equ]|intros o x y H; destruct o as [a0 a1 a2 a3 a4 a5]; unfold SyArc_eqb; cbv beta iota delta [set sa_private sa_start sa_mid sa_end sa_stroke sa_fill]; goals; try assumption; apply refl; auto with equ|intros o O; destruct o as [a0 a1 a2 a3 a4 a5]; unfold SyArc_ok in *; cbv beta iota delta [set sa_private sa_start sa_mid sa_end sa_stroke sa_fill] in *; conjs; goals; first [assumption|reflexivity]|intros o o1 S; destruct o as [a0 a1 a2 a3 a4 a5], o1 as [b0 b1 b2 b3 b4 b5]; unfold SyArc_eqb in *; cbv beta iota delta [set sa_private sa_start sa_mid sa_end sa_stroke sa_fill] in *; conjs; split; [assumption|split; intros;  goals; try assumption; apply refl; auto with equ]]).
Qed.
Lemma SyArc_e : edits_survive SyArc_to SyArc_from SyArc_ok SyArc_eqb SyArc_edits.
Proof. exact (lawful_survive _ _ _ _ _ _ SyArc_rt SyArc_l). Qed.
#[local] Opaque SyArc_ok SyArc_eqb.
#[local] Transparent SyCircle_ok SyCircle_eqb.
Lemma SyCircle_l : Forall (lawful SyCircle_ok SyCircle_eqb) SyCircle_edits.
Proof.
  repeat apply Forall_cons; [..|apply Forall_nil]; (apply law; [intros o x O F; destruct o as [a0 a1 a2 a3 a4]; unfold SyCircle_ok in *; cbv beta iota delta [set si_private si_center si_radius si_stroke si_fill] in *; conjs; goals; assumption|intros o x o1 S; destruct o as [a0 a1 a2 a3 a4], o1 as [b0 b1 b2 b3 b4]; unfold SyCircle_eqb in *; cbv beta iota delta [set si_private si_center si_radius si_stroke si_fill] in *; conjs; split; [assumption|goals; try assumption; apply refl; auto with equ]|intros o x y H; destruct o as [a0 a1 a2 a3 a4]; unfold SyCircle_eqb; cbv beta iota delta [set si_private si_center si_radius si_stroke si_fill]; goals; try assumption; apply refl; auto with equ|intros o O; destruct o as [a0 a1 a2 a3 a4]; unfold SyCircle_ok in *; cbv beta iota delta [set si_private si_center si_radius si_stroke si_fill] in *; conjs; goals; first [assumption|reflexivity]|intros o o1 S; destruct o as [a0 a1 a2 a3 a4], o1 as [b0 b1 b2 b3 b4]; unfold SyCircle_eqb in *; cbv beta iota delta [set si_private si_center si_radius si_stroke si_fill] in *; conjs; split; [assumption|split; intros;  goals; try assumption; apply refl; auto with equ]]).
Qed.
Lemma SyCircle_e : edits_survive SyCircle_to SyCircle_from SyCircle_ok SyCircle_eqb SyCircle_edits.
Proof. exact (lawful_survive _ _ _ _ _ _ SyCircle_rt SyCircle_l). Qed.
#[local] Opaque SyCircle_ok SyCircle_eqb.
#[local] Transparent SyPolyLine_ok SyPolyLine_eqb.
Lemma SyPolyLine_l : Forall (lawful SyPolyLine_ok SyPolyLine_eqb) SyPolyLine_edits.
Proof.
  repeat apply Forall_cons; [..|apply Forall_nil]; (apply law; [intros o x O F; destruct o as [a0 a1 a2]; unfold SyPolyLine_ok in *; cbv beta iota delta [set sl_points sl_stroke sl_fill] in *; conjs; goals; assumption|intros o x o1 S; destruct o as [a0 a1 a2], o1 as [b0 b1 b2]; unfold SyPolyLine_eqb in *; cbv beta iota delta [set sl_points sl_stroke sl_fill] in *; conjs; split; [assumption|goals; try assumption; apply refl; auto with equ]|intros o x y H; destruct o as [a0 a1 a2]; unfold SyPolyLine_eqb; cbv beta iota delta [set sl_points sl_stroke sl_fill]; goals; try assumption; apply refl; auto with equ|intros o O; destruct o as [a0 a1 a2]; unfold SyPolyLine_ok in *; cbv beta iota delta [set sl_points sl_stroke sl_fill] in *; conjs; goals; first [assumption|reflexivity]|intros o o1 S; destruct o as [a0 a1 a2], o1 as [b0 b1 b2]; unfold SyPolyLine_eqb in *; cbv beta iota delta [set sl_points sl_stroke sl_fill] in *; conjs; split; [assumption|split; intros;  goals; try assumption; apply refl; auto with equ]]).
Qed.
Lemma SyPolyLine_e : edits_survive SyPolyLine_to SyPolyLine_from SyPolyLine_ok SyPolyLine_eqb SyPolyLine_edits.
Proof. exact (lawful_survive _ _ _ _ _ _ SyPolyLine_rt SyPolyLine_l). Qed.
#[local] Opaque SyPolyLine_ok SyPolyLine_eqb.
#[local] Transparent SyRect_ok SyRect_eqb.
Lemma SyRect_l : Forall (lawful SyRect_ok SyRect_eqb) SyRect_edits.
Proof.
  repeat apply Forall_cons; [..|apply Forall_nil]; (apply law; [intros o x O F; destruct o as [a0 a1 a2 a3 a4]; unfold SyRect_ok in *; cbv beta iota delta [set sr_private sr_start sr_end sr_stroke sr_fill] in *; conjs; goals; assumption|intros o x o1 S; destruct o as [a0 a1 a2 a3 a4], o1 as [b0 b1 b2 b3 b4]; unfold SyRect_eqb in *; cbv beta iota delta [set sr_private sr_start sr_end sr_stroke sr_fill] in *; conjs; split; [assumption|goals; try assumption; apply refl; auto with equ]|intros o x y H; destruct o as [a0 a1 a2 a3 a4]; unfold SyRect_eqb; cbv beta iota delta [set sr_private sr_start sr_end sr_stroke sr_fill]; goals; try assumption; apply refl; auto with equ|intros o O; destruct o as [a0 a1 a2 a3 a4]; unfold SyRect_ok in *; cbv beta iota delta [set sr_private sr_start sr_end sr_stroke sr_fill] in *; conjs; goals; first [assumption|reflexivity]|intros o o1 S; destruct o as [a0 a1 a2 a3 a4], o1 as [b0 b1 b2 b3 b4]; unfold SyRect_eqb in *; cbv beta iota delta [set sr_private sr_start sr_end sr_stroke sr_fill] in *; conjs; split; [assumption|split; intros;  goals; try assumption; apply refl; auto with equ]]).
Qed.
Lemma SyRect_e : edits_survive SyRect_to SyRect_from SyRect_ok SyRect_eqb SyRect_edits.
Proof. exact (lawful_survive _ _ _ _ _ _ SyRect_rt SyRect_l). Qed.
#[local] Opaque SyRect_ok SyRect_eqb.
#[local] Transparent SyText_ok SyText_eqb.
Lemma SyText_l : Forall (lawful SyText_ok SyText_eqb) SyText_edits.
Proof.
  repeat apply Forall_cons; [..|apply Forall_nil]; (apply law; [intros o x O F; destruct o as [a0 a1 a2]; unfold SyText_ok in *; cbv beta iota delta [set sx_text sx_position sx_effects] in *; conjs; goals; assumption|intros o x o1 S; destruct o as [a0 a1 a2], o1 as [b0 b1 b2]; unfold SyText_eqb in *; cbv beta iota delta [set sx_text sx_position sx_effects] in *; conjs; split; [assumption|goals; try assumption; apply refl; auto with equ]|intros o x y H; destruct o as [a0 a1 a2]; unfold SyText_eqb; cbv beta iota delta [set sx_text sx_position sx_effects]; goals; try assumption; apply refl; auto with equ|intros o O; destruct o as [a0 a1 a2]; unfold SyText_ok in *; cbv beta iota delta [set sx_text sx_position sx_effects] in *; conjs; goals; first [assumption|reflexivity]|intros o o1 S; destruct o as [a0 a1 a2], o1 as [b0 b1 b2]; unfold SyText_eqb in *; cbv beta iota delta [set sx_text sx_position sx_effects] in *; conjs; split; [assumption|split; intros;  goals; try assumption; apply refl; auto with equ]]).
Qed.
Lemma SyText_e : edits_survive SyText_to SyText_from SyText_ok SyText_eqb SyText_edits.
Proof. exact (lawful_survive _ _ _ _ _ _ SyText_rt SyText_l). Qed.
#[local] Opaque SyText_ok SyText_eqb.
#[local] Transparent SyTextBox_ok SyTextBox_eqb.
Lemma SyTextBox_l : Forall (lawful SyTextBox_ok SyTextBox_eqb) SyTextBox_edits.
Proof.
  repeat apply Forall_cons; [..|apply Forall_nil]; (apply law; [intros o x O F; destruct o as [a0 a1 a2 a3 a4 a5 a6 a7]; unfold SyTextBox_ok in *; cbv beta iota delta [set sb_text sb_private sb_position sb_size sb_stroke sb_fill sb_effects sb_uuid] in *; conjs; goals; assumption|intros o x o1 S; destruct o as [a0 a1 a2 a3 a4 a5 a6 a7], o1 as [b0 b1 b2 b3 b4 b5 b6 b7]; unfold SyTextBox_eqb in *; cbv beta iota delta [set sb_text sb_private sb_position sb_size sb_stroke sb_fill sb_effects sb_uuid] in *; conjs; split; [assumption|goals; try assumption; apply refl; auto with equ]|intros o x y H; destruct o as [a0 a1 a2 a3 a4 a5 a6 a7]; unfold SyTextBox_eqb; cbv beta iota delta [set sb_text sb_private sb_position sb_size sb_stroke sb_fill sb_effects sb_uuid]; goals; try assumption; apply refl; auto with equ|intros o O; destruct o as [a0 a1 a2 a3 a4 a5 a6 a7]; unfold SyTextBox_ok in *; cbv beta iota delta [set sb_text sb_private sb_position sb_size sb_stroke sb_fill sb_effects sb_uuid] in *; conjs; goals; first [assumption|reflexivity]|intros o o1 S; destruct o as [a0 a1 a2 a3 a4 a5 a6 a7], o1 as [b0 b1 b2 b3 b4 b5 b6 b7]; unfold SyTextBox_eqb in *; cbv beta iota delta [set sb_text sb_private sb_position sb_size sb_stroke sb_fill sb_effects sb_uuid] in *; conjs; split; [assumption|split; intros;  goals; try assumption; apply refl; auto with equ]]).
Qed.
Lemma SyTextBox_e : edits_survive SyTextBox_to SyTextBox_from SyTextBox_ok SyTextBox_eqb SyTextBox_edits.
Proof. exact (lawful_survive _ _ _ _ _ _ SyTextBox_rt SyTextBox_l). Qed.
#[local] Opaque SyTextBox_ok SyTextBox_eqb.
#[local] Transparent SymbolAlternativePin_ok SymbolAlternativePin_eqb.
Lemma SymbolAlternativePin_l : Forall (lawful SymbolAlternativePin_ok SymbolAlternativePin_eqb) SymbolAlternativePin_edits.
Proof.
  repeat apply Forall_cons; [..|apply Forall_nil]; (apply law; [intros o x O F; destruct o as [a0 a1 a2]; unfold SymbolAlternativePin_ok in *; cbv beta iota delta [set ap_pinName ap_electricalType ap_graphicalStyle] in *; conjs; goals; assumption|intros o x o1 S; destruct o as [a0 a1 a2], o1 as [b0 b1 b2]; unfold SymbolAlternativePin_eqb in *; cbv beta iota delta [set ap_pinName ap_electricalType ap_graphicalStyle] in *; conjs; split; [assumption|goals; try assumption; apply refl; auto with equ]|intros o x y H; destruct o as [a0 a1 a2]; unfold SymbolAlternativePin_eqb; cbv beta iota delta [set ap_pinName ap_electricalType ap_graphicalStyle]; goals; try assumption; apply refl; auto with equ|intros o O; destruct o as [a0 a1 a2]; unfold SymbolAlternativePin_ok in *; cbv beta iota delta [set ap_pinName ap_electricalType ap_graphicalStyle] in *; conjs; goals; first [assumption|reflexivity]|intros o o1 S; destruct o as [a0 a1 a2], o1 as [b0 b1 b2]; unfold SymbolAlternativePin_eqb in *; cbv beta iota delta [set ap_pinName ap_electricalType ap_graphicalStyle] in *; conjs; split; [assumption|split; intros;  goals; try assumption; apply refl; auto with equ]]).
Qed.
Lemma SymbolAlternativePin_e : edits_survive SymbolAlternativePin_to SymbolAlternativePin_from SymbolAlternativePin_ok SymbolAlternativePin_eqb SymbolAlternativePin_edits.
Proof. exact (lawful_survive _ _ _ _ _ _ SymbolAlternativePin_rt SymbolAlternativePin_l). Qed.
#[local] Opaque SymbolAlternativePin_ok SymbolAlternativePin_eqb.
#[local] Transparent SymbolPin_ok SymbolPin_eqb.
Lemma SymbolPin_l : Forall (lawful SymbolPin_ok SymbolPin_eqb) SymbolPin_edits.
Proof.
  repeat apply Forall_cons; [..|apply Forall_nil]; (apply law; [intros o x O F; destruct o as [a0 a1 a2 a3 a4 a5 a6 a7 a8 a9]; unfold SymbolPin_ok in *; cbv beta iota delta [set sp_electricalType sp_graphicalStyle sp_position sp_length sp_name sp_nameEffects sp_number sp_numberEffects sp_hide sp_alternatePins] in *; conjs; goals; assumption|intros o x o1 S; destruct o as [a0 a1 a2 a3 a4 a5 a6 a7 a8 a9], o1 as [b0 b1 b2 b3 b4 b5 b6 b7 b8 b9]; unfold SymbolPin_eqb in *; cbv beta iota delta [set sp_electricalType sp_graphicalStyle sp_position sp_length sp_name sp_nameEffects sp_number sp_numberEffects sp_hide sp_alternatePins] in *; conjs; split; [assumption|goals; try assumption; apply refl; auto with equ]|intros o x y H; destruct o as [a0 a1 a2 a3 a4 a5 a6 a7 a8 a9]; unfold SymbolPin_eqb; cbv beta iota delta [set sp_electricalType sp_graphicalStyle sp_position sp_length sp_name sp_nameEffects sp_number sp_numberEffects sp_hide sp_alternatePins]; goals; try assumption; apply refl; auto with equ|intros o O; destruct o as [a0 a1 a2 a3 a4 a5 a6 a7 a8 a9]; unfold SymbolPin_ok in *; cbv beta iota delta [set sp_electricalType sp_graphicalStyle sp_position sp_length sp_name sp_nameEffects sp_number sp_numberEffects sp_hide sp_alternatePins] in *; conjs; goals; first [assumption|reflexivity]|intros o o1 S; destruct o as [a0 a1 a2 a3 a4 a5 a6 a7 a8 a9], o1 as [b0 b1 b2 b3 b4 b5 b6 b7 b8 b9]; unfold SymbolPin_eqb in *; cbv beta iota delta [set sp_electricalType sp_graphicalStyle sp_position sp_length sp_name sp_nameEffects sp_number sp_numberEffects sp_hide sp_alternatePins] in *; conjs; split; [assumption|split; intros;  goals; try assumption; apply refl; auto with equ]]).
Qed.
Lemma SymbolPin_e : edits_survive SymbolPin_to SymbolPin_from SymbolPin_ok SymbolPin_eqb SymbolPin_edits.
Proof. exact (lawful_survive _ _ _ _ _ _ SymbolPin_rt SymbolPin_l). Qed.
#[local] Opaque SymbolPin_ok SymbolPin_eqb.
#[local] Transparent Symbol_ok Symbol_eqb.
Lemma Symbol_ok_u (o : Symbol) : Symbol_ok o = (
  optb txtb (sy_extends o)
  && optb numb (sy_pinNamesOffset o)
  && forallb Property_ok (sy_properties o)
  && forallb SyItem_ok (sy_graphicItems o)
  && forallb SymbolPin_ok (sy_pins o)
  && forallb Symbol_ok (sy_units o)
  && (id_ok (sy_libraryNickname o) (sy_entryName o) (sy_unitId o) (sy_styleId o) && (sy_pinNames o || (is_none (sy_pinNamesOffset o) && negb (sy_pinNamesHide o))))).
Proof. destruct o. reflexivity. Qed.
Lemma Symbol_eqb_u (a b : Symbol) : Symbol_eqb a b = (
  py_eqb (sy_libraryNickname a) (sy_libraryNickname b)
  && py_eqb (sy_entryName a) (sy_entryName b)
  && py_eqb (sy_unitId a) (sy_unitId b)
  && py_eqb (sy_styleId a) (sy_styleId b)
  && py_eqb (sy_extends a) (sy_extends b)
  && Bool.eqb (sy_hidePinNumbers a) (sy_hidePinNumbers b)
  && Bool.eqb (sy_pinNames a) (sy_pinNames b)
  && Bool.eqb (sy_pinNamesHide a) (sy_pinNamesHide b)
  && py_eqb (sy_pinNamesOffset a) (sy_pinNamesOffset b)
  && oeqb Bool.eqb (sy_inBom a) (sy_inBom b)
  && oeqb Bool.eqb (sy_onBoard a) (sy_onBoard b)
  && Bool.eqb (sy_isPower a) (sy_isPower b)
  && leqb Property_eqb (sy_properties a) (sy_properties b)
  && leqb SyItem_eqb (sy_graphicItems a) (sy_graphicItems b)
  && leqb SymbolPin_eqb (sy_pins a) (sy_pins b)
  && leqb Symbol_eqb (sy_units a) (sy_units b)).
Proof. destruct a, b. reflexivity. Qed.
#[local] Transparent Symbol_ok Symbol_eqb.
Lemma Symbol_l : Forall (lawful Symbol_ok Symbol_eqb) Symbol_edits.
Proof.
  repeat apply Forall_cons; [..|apply Forall_nil]; (apply law; [intros o x O F; destruct o as [a0 a1 a2 a3 a4 a5 a6 a7 a8 a9 a10 a11 a12 a13 a14 a15]; rewrite Symbol_ok_u in O |- *; cbv beta iota delta [set sy_libraryNickname sy_entryName sy_unitId sy_styleId sy_extends sy_hidePinNumbers sy_pinNames sy_pinNamesHide sy_pinNamesOffset sy_inBom sy_onBoard sy_isPower sy_properties sy_graphicItems sy_pins sy_units] in *; conjs; goals; assumption|intros o x o1 S; destruct o as [a0 a1 a2 a3 a4 a5 a6 a7 a8 a9 a10 a11 a12 a13 a14 a15], o1 as [b0 b1 b2 b3 b4 b5 b6 b7 b8 b9 b10 b11 b12 b13 b14 b15]; rewrite Symbol_eqb_u in S |- *; cbv beta iota delta [set sy_libraryNickname sy_entryName sy_unitId sy_styleId sy_extends sy_hidePinNumbers sy_pinNames sy_pinNamesHide sy_pinNamesOffset sy_inBom sy_onBoard sy_isPower sy_properties sy_graphicItems sy_pins sy_units] in *; conjs; split; [assumption|goals; try assumption; apply refl; auto with equ]|intros o x y H; destruct o as [a0 a1 a2 a3 a4 a5 a6 a7 a8 a9 a10 a11 a12 a13 a14 a15]; rewrite Symbol_eqb_u; cbv beta iota delta [set sy_libraryNickname sy_entryName sy_unitId sy_styleId sy_extends sy_hidePinNumbers sy_pinNames sy_pinNamesHide sy_pinNamesOffset sy_inBom sy_onBoard sy_isPower sy_properties sy_graphicItems sy_pins sy_units]; goals; try assumption; apply refl; auto with equ|intros o O; destruct o as [a0 a1 a2 a3 a4 a5 a6 a7 a8 a9 a10 a11 a12 a13 a14 a15]; rewrite Symbol_ok_u in O; cbv beta iota delta [set sy_libraryNickname sy_entryName sy_unitId sy_styleId sy_extends sy_hidePinNumbers sy_pinNames sy_pinNamesHide sy_pinNamesOffset sy_inBom sy_onBoard sy_isPower sy_properties sy_graphicItems sy_pins sy_units] in *; conjs; goals; first [assumption|reflexivity]|intros o o1 S; destruct o as [a0 a1 a2 a3 a4 a5 a6 a7 a8 a9 a10 a11 a12 a13 a14 a15], o1 as [b0 b1 b2 b3 b4 b5 b6 b7 b8 b9 b10 b11 b12 b13 b14 b15]; rewrite Symbol_eqb_u in S; cbv beta iota delta [set sy_libraryNickname sy_entryName sy_unitId sy_styleId sy_extends sy_hidePinNumbers sy_pinNames sy_pinNamesHide sy_pinNamesOffset sy_inBom sy_onBoard sy_isPower sy_properties sy_graphicItems sy_pins sy_units] in *; conjs; split; [assumption|split; intros; rewrite Symbol_eqb_u; cbv beta iota delta [set sy_libraryNickname sy_entryName sy_unitId sy_styleId sy_extends sy_hidePinNumbers sy_pinNames sy_pinNamesHide sy_pinNamesOffset sy_inBom sy_onBoard sy_isPower sy_properties sy_graphicItems sy_pins sy_units]; goals; try assumption; apply refl; auto with equ]]).
Qed.
Lemma Symbol_e : edits_survive Symbol_to Symbol_from Symbol_ok Symbol_eqb Symbol_edits.
Proof. exact (lawful_survive _ _ _ _ _ _ Symbol_rt Symbol_l). Qed.
#[local] Opaque Symbol_ok Symbol_eqb.
#[local] Transparent SymbolLib_ok SymbolLib_eqb.
Lemma SymbolLib_l : Forall (lawful SymbolLib_ok SymbolLib_eqb) SymbolLib_edits.
Proof.
  repeat apply Forall_cons; [..|apply Forall_nil]; (apply law; [intros o x O F; destruct o as [a0 a1 a2 a3]; unfold SymbolLib_ok in *; cbv beta iota delta [set sj_version sj_generator sj_symbols sj_filePath] in *; conjs; goals; assumption|intros o x o1 S; destruct o as [a0 a1 a2 a3], o1 as [b0 b1 b2 b3]; unfold SymbolLib_eqb in *; cbv beta iota delta [set sj_version sj_generator sj_symbols sj_filePath] in *; conjs; split; [assumption|goals; try assumption; apply refl; auto with equ]|intros o x y H; destruct o as [a0 a1 a2 a3]; unfold SymbolLib_eqb; cbv beta iota delta [set sj_version sj_generator sj_symbols sj_filePath]; goals; try assumption; apply refl; auto with equ|intros o O; destruct o as [a0 a1 a2 a3]; unfold SymbolLib_ok in *; cbv beta iota delta [set sj_version sj_generator sj_symbols sj_filePath] in *; conjs; goals; first [assumption|reflexivity]|intros o o1 S; destruct o as [a0 a1 a2 a3], o1 as [b0 b1 b2 b3]; unfold SymbolLib_eqb in *; cbv beta iota delta [set sj_version sj_generator sj_symbols sj_filePath] in *; conjs; split; [assumption|split; intros;  goals; try assumption; apply refl; auto with equ]]).
Qed.
Lemma SymbolLib_e : edits_survive SymbolLib_to SymbolLib_from SymbolLib_ok SymbolLib_eqb SymbolLib_edits.
Proof. exact (lawful_survive _ _ _ _ _ _ SymbolLib_rt SymbolLib_l). Qed.
#[local] Opaque SymbolLib_ok SymbolLib_eqb.
#[local] Transparent FpText_ok FpText_eqb.
Lemma FpText_l : Forall (lawful FpText_ok FpText_eqb) FpText_edits.
Proof.
  repeat apply Forall_cons; [..|apply Forall_nil]; (apply law; [intros o x O F; destruct o as [a0 a1 a2 a3 a4 a5 a6 a7 a8]; unfold FpText_ok in *; cbv beta iota delta [set ft_type ft_text ft_position ft_layer ft_knockout ft_hide ft_effects ft_tstamp ft_renderCache] in *; conjs; goals; assumption|intros o x o1 S; destruct o as [a0 a1 a2 a3 a4 a5 a6 a7 a8], o1 as [b0 b1 b2 b3 b4 b5 b6 b7 b8]; unfold FpText_eqb in *; cbv beta iota delta [set ft_type ft_text ft_position ft_layer ft_knockout ft_hide ft_effects ft_tstamp ft_renderCache] in *; conjs; split; [assumption|goals; try assumption; apply refl; auto with equ]|intros o x y H; destruct o as [a0 a1 a2 a3 a4 a5 a6 a7 a8]; unfold FpText_eqb; cbv beta iota delta [set ft_type ft_text ft_position ft_layer ft_knockout ft_hide ft_effects ft_tstamp ft_renderCache]; goals; try assumption; apply refl; auto with equ|intros o O; destruct o as [a0 a1 a2 a3 a4 a5 a6 a7 a8]; unfold FpText_ok in *; cbv beta iota delta [set ft_type ft_text ft_position ft_layer ft_knockout ft_hide ft_effects ft_tstamp ft_renderCache] in *; conjs; goals; first [assumption|reflexivity]|intros o o1 S; destruct o as [a0 a1 a2 a3 a4 a5 a6 a7 a8], o1 as [b0 b1 b2 b3 b4 b5 b6 b7 b8]; unfold FpText_eqb in *; cbv beta iota delta [set ft_type ft_text ft_position ft_layer ft_knockout ft_hide ft_effects ft_tstamp ft_renderCache] in *; conjs; split; [assumption|split; intros;  goals; try assumption; apply refl; auto with equ]]).
Qed.
Lemma FpText_e : edits_survive FpText_to FpText_from FpText_ok FpText_eqb FpText_edits.
Proof. exact (lawful_survive _ _ _ _ _ _ FpText_rt FpText_l). Qed.
#[local] Opaque FpText_ok FpText_eqb.
#[local] Transparent FpLine_ok FpLine_eqb.
Lemma FpLine_l : Forall (lawful FpLine_ok FpLine_eqb) FpLine_edits.
Proof.
  repeat apply Forall_cons; [..|apply Forall_nil]; (apply law; [intros o x O F; destruct o as [a0 a1 a2 a3 a4 a5 a6]; unfold FpLine_ok in *; cbv beta iota delta [set fl_start fl_end fl_layer fl_width fl_stroke fl_locked fl_tstamp] in *; conjs; goals; assumption|intros o x o1 S; destruct o as [a0 a1 a2 a3 a4 a5 a6], o1 as [b0 b1 b2 b3 b4 b5 b6]; unfold FpLine_eqb in *; cbv beta iota delta [set fl_start fl_end fl_layer fl_width fl_stroke fl_locked fl_tstamp] in *; conjs; split; [assumption|goals; try assumption; apply refl; auto with equ]|intros o x y H; destruct o as [a0 a1 a2 a3 a4 a5 a6]; unfold FpLine_eqb; cbv beta iota delta [set fl_start fl_end fl_layer fl_width fl_stroke fl_locked fl_tstamp]; goals; try assumption; apply refl; auto with equ|intros o O; destruct o as [a0 a1 a2 a3 a4 a5 a6]; unfold FpLine_ok in *; cbv beta iota delta [set fl_start fl_end fl_layer fl_width fl_stroke fl_locked fl_tstamp] in *; conjs; goals; first [assumption|reflexivity]|intros o o1 S; destruct o as [a0 a1 a2 a3 a4 a5 a6], o1 as [b0 b1 b2 b3 b4 b5 b6]; unfold FpLine_eqb in *; cbv beta iota delta [set fl_start fl_end fl_layer fl_width fl_stroke fl_locked fl_tstamp] in *; conjs; split; [assumption|split; intros;  goals; try assumption; apply refl; auto with equ]]).
Qed.
Lemma FpLine_e : edits_survive FpLine_to FpLine_from FpLine_ok FpLine_eqb FpLine_edits.
Proof. exact (lawful_survive _ _ _ _ _ _ FpLine_rt FpLine_l). Qed.
#[local] Opaque FpLine_ok FpLine_eqb.
#[local] Transparent FpRect_ok FpRect_eqb.
Lemma FpRect_l : Forall (lawful FpRect_ok FpRect_eqb) FpRect_edits.
Proof.
  repeat apply Forall_cons; [..|apply Forall_nil]; (apply law; [intros o x O F; destruct o as [a0 a1 a2 a3 a4 a5 a6 a7]; unfold FpRect_ok in *; cbv beta iota delta [set fr_start fr_end fr_layer fr_width fr_stroke fr_fill fr_locked fr_tstamp] in *; conjs; goals; assumption|intros o x o1 S; destruct o as [a0 a1 a2 a3 a4 a5 a6 a7], o1 as [b0 b1 b2 b3 b4 b5 b6 b7]; unfold FpRect_eqb in *; cbv beta iota delta [set fr_start fr_end fr_layer fr_width fr_stroke fr_fill fr_locked fr_tstamp] in *; conjs; split; [assumption|goals; try assumption; apply refl; auto with equ]|intros o x y H; destruct o as [a0 a1 a2 a3 a4 a5 a6 a7]; unfold FpRect_eqb; cbv beta iota delta [set fr_start fr_end fr_layer fr_width fr_stroke fr_fill fr_locked fr_tstamp]; goals; try assumption; apply refl; auto with equ|intros o O; destruct o as [a0 a1 a2 a3 a4 a5 a6 a7]; unfold FpRect_ok in *; cbv beta iota delta [set fr_start fr_end fr_layer fr_width fr_stroke fr_fill fr_locked fr_tstamp] in *; conjs; goals; first [assumption|reflexivity]|intros o o1 S; destruct o as [a0 a1 a2 a3 a4 a5 a6 a7], o1 as [b0 b1 b2 b3 b4 b5 b6 b7]; unfold FpRect_eqb in *; cbv beta iota delta [set fr_start fr_end fr_layer fr_width fr_stroke fr_fill fr_locked fr_tstamp] in *; conjs; split; [assumption|split; intros;  goals; try assumption; apply refl; auto with equ]]).
Qed.
Lemma FpRect_e : edits_survive FpRect_to FpRect_from FpRect_ok FpRect_eqb FpRect_edits.
Proof. exact (lawful_survive _ _ _ _ _ _ FpRect_rt FpRect_l). Qed.
#[local] Opaque FpRect_ok FpRect_eqb.
#[local] Transparent FpCircle_ok FpCircle_eqb.
Lemma FpCircle_l : Forall (lawful FpCircle_ok FpCircle_eqb) FpCircle_edits.
Proof.
  repeat apply Forall_cons; [..|apply Forall_nil]; (apply law; [intros o x O F; destruct o as [a0 a1 a2 a3 a4 a5 a6 a7]; unfold FpCircle_ok in *; cbv beta iota delta [set fc_center fc_end fc_layer fc_width fc_stroke fc_fill fc_locked fc_tstamp] in *; conjs; goals; assumption|intros o x o1 S; destruct o as [a0 a1 a2 a3 a4 a5 a6 a7], o1 as [b0 b1 b2 b3 b4 b5 b6 b7]; unfold FpCircle_eqb in *; cbv beta iota delta [set fc_center fc_end fc_layer fc_width fc_stroke fc_fill fc_locked fc_tstamp] in *; conjs; split; [assumption|goals; try assumption; apply refl; auto with equ]|intros o x y H; destruct o as [a0 a1 a2 a3 a4 a5 a6 a7]; unfold FpCircle_eqb; cbv beta iota delta [set fc_center fc_end fc_layer fc_width fc_stroke fc_fill fc_locked fc_tstamp]; goals; try assumption; apply refl; auto with equ|intros o O; destruct o as [a0 a1 a2 a3 a4 a5 a6 a7]; unfold FpCircle_ok in *; cbv beta iota delta [set fc_center fc_end fc_layer fc_width fc_stroke fc_fill fc_locked fc_tstamp] in *; conjs; goals; first [assumption|reflexivity]|intros o o1 S; destruct o as [a0 a1 a2 a3 a4 a5 a6 a7], o1 as [b0 b1 b2 b3 b4 b5 b6 b7]; unfold FpCircle_eqb in *; cbv beta iota delta [set fc_center fc_end fc_layer fc_width fc_stroke fc_fill fc_locked fc_tstamp] in *; conjs; split; [assumption|split; intros;  goals; try assumption; apply refl; auto with equ]]).
Qed.
Lemma FpCircle_e : edits_survive FpCircle_to FpCircle_from FpCircle_ok FpCircle_eqb FpCircle_edits.
Proof. exact (lawful_survive _ _ _ _ _ _ FpCircle_rt FpCircle_l). Qed.
#[local] Opaque FpCircle_ok FpCircle_eqb.
#[local] Transparent FpArc_ok FpArc_eqb.
Lemma FpArc_l : Forall (lawful FpArc_ok FpArc_eqb) FpArc_edits.
Proof.
  repeat apply Forall_cons; [..|apply Forall_nil]; (apply law; [intros o x O F; destruct o as [a0 a1 a2 a3 a4 a5 a6 a7]; unfold FpArc_ok in *; cbv beta iota delta [set fa_start fa_mid fa_end fa_layer fa_width fa_stroke fa_locked fa_tstamp] in *; conjs; goals; assumption|intros o x o1 S; destruct o as [a0 a1 a2 a3 a4 a5 a6 a7], o1 as [b0 b1 b2 b3 b4 b5 b6 b7]; unfold FpArc_eqb in *; cbv beta iota delta [set fa_start fa_mid fa_end fa_layer fa_width fa_stroke fa_locked fa_tstamp] in *; conjs; split; [assumption|goals; try assumption; apply refl; auto with equ]|intros o x y H; destruct o as [a0 a1 a2 a3 a4 a5 a6 a7]; unfold FpArc_eqb; cbv beta iota delta [set fa_start fa_mid fa_end fa_layer fa_width fa_stroke fa_locked fa_tstamp]; goals; try assumption; apply refl; auto with equ|intros o O; destruct o as [a0 a1 a2 a3 a4 a5 a6 a7]; unfold FpArc_ok in *; cbv beta iota delta [set fa_start fa_mid fa_end fa_layer fa_width fa_stroke fa_locked fa_tstamp] in *; conjs; goals; first [assumption|reflexivity]|intros o o1 S; destruct o as [a0 a1 a2 a3 a4 a5 a6 a7], o1 as [b0 b1 b2 b3 b4 b5 b6 b7]; unfold FpArc_eqb in *; cbv beta iota delta [set fa_start fa_mid fa_end fa_layer fa_width fa_stroke fa_locked fa_tstamp] in *; conjs; split; [assumption|split; intros;  goals; try assumption; apply refl; auto with equ]]).
Qed.
Lemma FpArc_e : edits_survive FpArc_to FpArc_from FpArc_ok FpArc_eqb FpArc_edits.
Proof. exact (lawful_survive _ _ _ _ _ _ FpArc_rt FpArc_l). Qed.
#[local] Opaque FpArc_ok FpArc_eqb.
#[local] Transparent FpPoly_ok FpPoly_eqb.
Lemma FpPoly_l : Forall (lawful FpPoly_ok FpPoly_eqb) FpPoly_edits.
Proof.
  repeat apply Forall_cons; [..|apply Forall_nil]; (apply law; [intros o x O F; destruct o as [a0 a1 a2 a3 a4 a5 a6]; unfold FpPoly_ok in *; cbv beta iota delta [set fp_layer fp_coordinates fp_width fp_stroke fp_fill fp_locked fp_tstamp] in *; conjs; goals; assumption|intros o x o1 S; destruct o as [a0 a1 a2 a3 a4 a5 a6], o1 as [b0 b1 b2 b3 b4 b5 b6]; unfold FpPoly_eqb in *; cbv beta iota delta [set fp_layer fp_coordinates fp_width fp_stroke fp_fill fp_locked fp_tstamp] in *; conjs; split; [assumption|goals; try assumption; apply refl; auto with equ]|intros o x y H; destruct o as [a0 a1 a2 a3 a4 a5 a6]; unfold FpPoly_eqb; cbv beta iota delta [set fp_layer fp_coordinates fp_width fp_stroke fp_fill fp_locked fp_tstamp]; goals; try assumption; apply refl; auto with equ|intros o O; destruct o as [a0 a1 a2 a3 a4 a5 a6]; unfold FpPoly_ok in *; cbv beta iota delta [set fp_layer fp_coordinates fp_width fp_stroke fp_fill fp_locked fp_tstamp] in *; conjs; goals; first [assumption|reflexivity]|intros o o1 S; destruct o as [a0 a1 a2 a3 a4 a5 a6], o1 as [b0 b1 b2 b3 b4 b5 b6]; unfold FpPoly_eqb in *; cbv beta iota delta [set fp_layer fp_coordinates fp_width fp_stroke fp_fill fp_locked fp_tstamp] in *; conjs; split; [assumption|split; intros;  goals; try assumption; apply refl; auto with equ]]).
Qed.
Lemma FpPoly_e : edits_survive FpPoly_to FpPoly_from FpPoly_ok FpPoly_eqb FpPoly_edits.
Proof. exact (lawful_survive _ _ _ _ _ _ FpPoly_rt FpPoly_l). Qed.
#[local] Opaque FpPoly_ok FpPoly_eqb.
#[local] Transparent FpCurve_ok FpCurve_eqb.
Lemma FpCurve_l : Forall (lawful FpCurve_ok FpCurve_eqb) FpCurve_edits.
Proof.
  repeat apply Forall_cons; [..|apply Forall_nil]; (apply law; [intros o x O F; destruct o as [a0 a1 a2 a3 a4 a5]; unfold FpCurve_ok in *; cbv beta iota delta [set fv_coordinates fv_layer fv_width fv_stroke fv_locked fv_tstamp] in *; conjs; goals; assumption|intros o x o1 S; destruct o as [a0 a1 a2 a3 a4 a5], o1 as [b0 b1 b2 b3 b4 b5]; unfold FpCurve_eqb in *; cbv beta iota delta [set fv_coordinates fv_layer fv_width fv_stroke fv_locked fv_tstamp] in *; conjs; split; [assumption|goals; try assumption; apply refl; auto with equ]|intros o x y H; destruct o as [a0 a1 a2 a3 a4 a5]; unfold FpCurve_eqb; cbv beta iota delta [set fv_coordinates fv_layer fv_width fv_stroke fv_locked fv_tstamp]; goals; try assumption; apply refl; auto with equ|intros o O; destruct o as [a0 a1 a2 a3 a4 a5]; unfold FpCurve_ok in *; cbv beta iota delta [set fv_coordinates fv_layer fv_width fv_stroke fv_locked fv_tstamp] in *; conjs; goals; first [assumption|reflexivity]|intros o o1 S; destruct o as [a0 a1 a2 a3 a4 a5], o1 as [b0 b1 b2 b3 b4 b5]; unfold FpCurve_eqb in *; cbv beta iota delta [set fv_coordinates fv_layer fv_width fv_stroke fv_locked fv_tstamp] in *; conjs; split; [assumption|split; intros;  goals; try assumption; apply refl; auto with equ]]).
Qed.
Lemma FpCurve_e : edits_survive FpCurve_to FpCurve_from FpCurve_ok FpCurve_eqb FpCurve_edits.
Proof. exact (lawful_survive _ _ _ _ _ _ FpCurve_rt FpCurve_l). Qed.
#[local] Opaque FpCurve_ok FpCurve_eqb.
#[local] Transparent FpTextBox_ok FpTextBox_eqb.
Lemma FpTextBox_l : Forall (lawful FpTextBox_ok FpTextBox_eqb) FpTextBox_edits.
Proof.
  repeat apply Forall_cons; [..|apply Forall_nil]; (apply law; [intros o x O F; destruct o as [a0 a1 a2 a3 a4 a5 a6 a7 a8 a9 a10]; unfold FpTextBox_ok in *; cbv beta iota delta [set fb_locked fb_text fb_start fb_end fb_pts fb_angle fb_layer fb_tstamp fb_effects fb_stroke fb_renderCache] in *; conjs; goals; assumption|intros o x o1 S; destruct o as [a0 a1 a2 a3 a4 a5 a6 a7 a8 a9 a10], o1 as [b0 b1 b2 b3 b4 b5 b6 b7 b8 b9 b10]; unfold FpTextBox_eqb in *; cbv beta iota delta [set fb_locked fb_text fb_start fb_end fb_pts fb_angle fb_layer fb_tstamp fb_effects fb_stroke fb_renderCache] in *; conjs; split; [assumption|goals; try assumption; apply refl; auto with equ]|intros o x y H; destruct o as [a0 a1 a2 a3 a4 a5 a6 a7 a8 a9 a10]; unfold FpTextBox_eqb; cbv beta iota delta [set fb_locked fb_text fb_start fb_end fb_pts fb_angle fb_layer fb_tstamp fb_effects fb_stroke fb_renderCache]; goals; try assumption; apply refl; auto with equ|intros o O; destruct o as [a0 a1 a2 a3 a4 a5 a6 a7 a8 a9 a10]; unfold FpTextBox_ok in *; cbv beta iota delta [set fb_locked fb_text fb_start fb_end fb_pts fb_angle fb_layer fb_tstamp fb_effects fb_stroke fb_renderCache] in *; conjs; goals; first [assumption|reflexivity]|intros o o1 S; destruct o as [a0 a1 a2 a3 a4 a5 a6 a7 a8 a9 a10], o1 as [b0 b1 b2 b3 b4 b5 b6 b7 b8 b9 b10]; unfold FpTextBox_eqb in *; cbv beta iota delta [set fb_locked fb_text fb_start fb_end fb_pts fb_angle fb_layer fb_tstamp fb_effects fb_stroke fb_renderCache] in *; conjs; split; [assumption|split; intros;  goals; try assumption; apply refl; auto with equ]]).
Qed.
Lemma FpTextBox_e : edits_survive FpTextBox_to FpTextBox_from FpTextBox_ok FpTextBox_eqb FpTextBox_edits.
Proof. exact (lawful_survive _ _ _ _ _ _ FpTextBox_rt FpTextBox_l). Qed.
#[local] Opaque FpTextBox_ok FpTextBox_eqb.
#[local] Transparent GrText_ok GrText_eqb.
Lemma GrText_l : Forall (lawful GrText_ok GrText_eqb) GrText_edits.
Proof.
  repeat apply Forall_cons; [..|apply Forall_nil]; (apply law; [intros o x O F; destruct o as [a0 a1 a2 a3 a4 a5 a6 a7]; unfold GrText_ok in *; cbv beta iota delta [set gt_text gt_knockout gt_position gt_layer gt_effects gt_tstamp gt_locked gt_renderCache] in *; conjs; goals; assumption|intros o x o1 S; destruct o as [a0 a1 a2 a3 a4 a5 a6 a7], o1 as [b0 b1 b2 b3 b4 b5 b6 b7]; unfold GrText_eqb in *; cbv beta iota delta [set gt_text gt_knockout gt_position gt_layer gt_effects gt_tstamp gt_locked gt_renderCache] in *; conjs; split; [assumption|goals; try assumption; apply refl; auto with equ]|intros o x y H; destruct o as [a0 a1 a2 a3 a4 a5 a6 a7]; unfold GrText_eqb; cbv beta iota delta [set gt_text gt_knockout gt_position gt_layer gt_effects gt_tstamp gt_locked gt_renderCache]; goals; try assumption; apply refl; auto with equ|intros o O; destruct o as [a0 a1 a2 a3 a4 a5 a6 a7]; unfold GrText_ok in *; cbv beta iota delta [set gt_text gt_knockout gt_position gt_layer gt_effects gt_tstamp gt_locked gt_renderCache] in *; conjs; goals; first [assumption|reflexivity]|intros o o1 S; destruct o as [a0 a1 a2 a3 a4 a5 a6 a7], o1 as [b0 b1 b2 b3 b4 b5 b6 b7]; unfold GrText_eqb in *; cbv beta iota delta [set gt_text gt_knockout gt_position gt_layer gt_effects gt_tstamp gt_locked gt_renderCache] in *; conjs; split; [assumption|split; intros;  goals; try assumption; apply refl; auto with equ]]).
Qed.
Lemma GrText_e : edits_survive GrText_to GrText_from GrText_ok GrText_eqb GrText_edits.
Proof. exact (lawful_survive _ _ _ _ _ _ GrText_rt GrText_l). Qed.
#[local] Opaque GrText_ok GrText_eqb.
#[local] Transparent GrLine_ok GrLine_eqb.
Lemma GrLine_l : Forall (lawful GrLine_ok GrLine_eqb) GrLine_edits.
Proof.
  repeat apply Forall_cons; [..|apply Forall_nil]; (apply law; [intros o x O F; destruct o as [a0 a1 a2 a3 a4 a5 a6]; unfold GrLine_ok in *; cbv beta iota delta [set gl_start gl_end gl_angle gl_layer gl_width gl_tstamp gl_locked] in *; conjs; goals; assumption|intros o x o1 S; destruct o as [a0 a1 a2 a3 a4 a5 a6], o1 as [b0 b1 b2 b3 b4 b5 b6]; unfold GrLine_eqb in *; cbv beta iota delta [set gl_start gl_end gl_angle gl_layer gl_width gl_tstamp gl_locked] in *; conjs; split; [assumption|goals; try assumption; apply refl; auto with equ]|intros o x y H; destruct o as [a0 a1 a2 a3 a4 a5 a6]; unfold GrLine_eqb; cbv beta iota delta [set gl_start gl_end gl_angle gl_layer gl_width gl_tstamp gl_locked]; goals; try assumption; apply refl; auto with equ|intros o O; destruct o as [a0 a1 a2 a3 a4 a5 a6]; unfold GrLine_ok in *; cbv beta iota delta [set gl_start gl_end gl_angle gl_layer gl_width gl_tstamp gl_locked] in *; conjs; goals; first [assumption|reflexivity]|intros o o1 S; destruct o as [a0 a1 a2 a3 a4 a5 a6], o1 as [b0 b1 b2 b3 b4 b5 b6]; unfold GrLine_eqb in *; cbv beta iota delta [set gl_start gl_end gl_angle gl_layer gl_width gl_tstamp gl_locked] in *; conjs; split; [assumption|split; intros;  goals; try assumption; apply refl; auto with equ]]).
Qed.
Lemma GrLine_e : edits_survive GrLine_to GrLine_from GrLine_ok GrLine_eqb GrLine_edits.
Proof. exact (lawful_survive _ _ _ _ _ _ GrLine_rt GrLine_l). Qed.
#[local] Opaque GrLine_ok GrLine_eqb.
#[local] Transparent GrRect_ok GrRect_eqb.
Lemma GrRect_l : Forall (lawful GrRect_ok GrRect_eqb) GrRect_edits.
Proof.
  repeat apply Forall_cons; [..|apply Forall_nil]; (apply law; [intros o x O F; destruct o as [a0 a1 a2 a3 a4 a5 a6]; unfold GrRect_ok in *; cbv beta iota delta [set gr_start gr_end gr_layer gr_width gr_fill gr_tstamp M_Gr.gr_locked] in *; conjs; goals; assumption|intros o x o1 S; destruct o as [a0 a1 a2 a3 a4 a5 a6], o1 as [b0 b1 b2 b3 b4 b5 b6]; unfold GrRect_eqb in *; cbv beta iota delta [set gr_start gr_end gr_layer gr_width gr_fill gr_tstamp M_Gr.gr_locked] in *; conjs; split; [assumption|goals; try assumption; apply refl; auto with equ]|intros o x y H; destruct o as [a0 a1 a2 a3 a4 a5 a6]; unfold GrRect_eqb; cbv beta iota delta [set gr_start gr_end gr_layer gr_width gr_fill gr_tstamp M_Gr.gr_locked]; goals; try assumption; apply refl; auto with equ|intros o O; destruct o as [a0 a1 a2 a3 a4 a5 a6]; unfold GrRect_ok in *; cbv beta iota delta [set gr_start gr_end gr_layer gr_width gr_fill gr_tstamp M_Gr.gr_locked] in *; conjs; goals; first [assumption|reflexivity]|intros o o1 S; destruct o as [a0 a1 a2 a3 a4 a5 a6], o1 as [b0 b1 b2 b3 b4 b5 b6]; unfold GrRect_eqb in *; cbv beta iota delta [set gr_start gr_end gr_layer gr_width gr_fill gr_tstamp M_Gr.gr_locked] in *; conjs; split; [assumption|split; intros;  goals; try assumption; apply refl; auto with equ]]).
Qed.
Lemma GrRect_e : edits_survive GrRect_to GrRect_from GrRect_ok GrRect_eqb GrRect_edits.
Proof. exact (lawful_survive _ _ _ _ _ _ GrRect_rt GrRect_l). Qed.
#[local] Opaque GrRect_ok GrRect_eqb.
#[local] Transparent GrCircle_ok GrCircle_eqb.
Lemma GrCircle_l : Forall (lawful GrCircle_ok GrCircle_eqb) GrCircle_edits.
Proof.
  repeat apply Forall_cons; [..|apply Forall_nil]; (apply law; [intros o x O F; destruct o as [a0 a1 a2 a3 a4 a5 a6]; unfold GrCircle_ok in *; cbv beta iota delta [set gc_center gc_end gc_layer gc_width gc_fill gc_tstamp gc_locked] in *; conjs; goals; assumption|intros o x o1 S; destruct o as [a0 a1 a2 a3 a4 a5 a6], o1 as [b0 b1 b2 b3 b4 b5 b6]; unfold GrCircle_eqb in *; cbv beta iota delta [set gc_center gc_end gc_layer gc_width gc_fill gc_tstamp gc_locked] in *; conjs; split; [assumption|goals; try assumption; apply refl; auto with equ]|intros o x y H; destruct o as [a0 a1 a2 a3 a4 a5 a6]; unfold GrCircle_eqb; cbv beta iota delta [set gc_center gc_end gc_layer gc_width gc_fill gc_tstamp gc_locked]; goals; try assumption; apply refl; auto with equ|intros o O; destruct o as [a0 a1 a2 a3 a4 a5 a6]; unfold GrCircle_ok in *; cbv beta iota delta [set gc_center gc_end gc_layer gc_width gc_fill gc_tstamp gc_locked] in *; conjs; goals; first [assumption|reflexivity]|intros o o1 S; destruct o as [a0 a1 a2 a3 a4 a5 a6], o1 as [b0 b1 b2 b3 b4 b5 b6]; unfold GrCircle_eqb in *; cbv beta iota delta [set gc_center gc_end gc_layer gc_width gc_fill gc_tstamp gc_locked] in *; conjs; split; [assumption|split; intros;  goals; try assumption; apply refl; auto with equ]]).
Qed.
Lemma GrCircle_e : edits_survive GrCircle_to GrCircle_from GrCircle_ok GrCircle_eqb GrCircle_edits.
Proof. exact (lawful_survive _ _ _ _ _ _ GrCircle_rt GrCircle_l). Qed.
#[local] Opaque GrCircle_ok GrCircle_eqb.
#[local] Transparent GrArc_ok GrArc_eqb.
Lemma GrArc_l : Forall (lawful GrArc_ok GrArc_eqb) GrArc_edits.
Proof.
  repeat apply Forall_cons; [..|apply Forall_nil]; (apply law; [intros o x O F; destruct o as [a0 a1 a2 a3 a4 a5 a6]; unfold GrArc_ok in *; cbv beta iota delta [set ga_start ga_mid ga_end ga_layer ga_width ga_tstamp ga_locked] in *; conjs; goals; assumption|intros o x o1 S; destruct o as [a0 a1 a2 a3 a4 a5 a6], o1 as [b0 b1 b2 b3 b4 b5 b6]; unfold GrArc_eqb in *; cbv beta iota delta [set ga_start ga_mid ga_end ga_layer ga_width ga_tstamp ga_locked] in *; conjs; split; [assumption|goals; try assumption; apply refl; auto with equ]|intros o x y H; destruct o as [a0 a1 a2 a3 a4 a5 a6]; unfold GrArc_eqb; cbv beta iota delta [set ga_start ga_mid ga_end ga_layer ga_width ga_tstamp ga_locked]; goals; try assumption; apply refl; auto with equ|intros o O; destruct o as [a0 a1 a2 a3 a4 a5 a6]; unfold GrArc_ok in *; cbv beta iota delta [set ga_start ga_mid ga_end ga_layer ga_width ga_tstamp ga_locked] in *; conjs; goals; first [assumption|reflexivity]|intros o o1 S; destruct o as [a0 a1 a2 a3 a4 a5 a6], o1 as [b0 b1 b2 b3 b4 b5 b6]; unfold GrArc_eqb in *; cbv beta iota delta [set ga_start ga_mid ga_end ga_layer ga_width ga_tstamp ga_locked] in *; conjs; split; [assumption|split; intros;  goals; try assumption; apply refl; auto with equ]]).
Qed.
Lemma GrArc_e : edits_survive GrArc_to GrArc_from GrArc_ok GrArc_eqb GrArc_edits.
Proof. exact (lawful_survive _ _ _ _ _ _ GrArc_rt GrArc_l). Qed.
#[local] Opaque GrArc_ok GrArc_eqb.
#[local] Transparent GrPoly_ok GrPoly_eqb.
Lemma GrPoly_l : Forall (lawful GrPoly_ok GrPoly_eqb) GrPoly_edits.
Proof.
  repeat apply Forall_cons; [..|apply Forall_nil]; (apply law; [intros o x O F; destruct o as [a0 a1 a2 a3 a4 a5]; unfold GrPoly_ok in *; cbv beta iota delta [set gp_layer gp_coordinates gp_width gp_fill gp_tstamp gp_locked] in *; conjs; goals; assumption|intros o x o1 S; destruct o as [a0 a1 a2 a3 a4 a5], o1 as [b0 b1 b2 b3 b4 b5]; unfold GrPoly_eqb in *; cbv beta iota delta [set gp_layer gp_coordinates gp_width gp_fill gp_tstamp gp_locked] in *; conjs; split; [assumption|goals; try assumption; apply refl; auto with equ]|intros o x y H; destruct o as [a0 a1 a2 a3 a4 a5]; unfold GrPoly_eqb; cbv beta iota delta [set gp_layer gp_coordinates gp_width gp_fill gp_tstamp gp_locked]; goals; try assumption; apply refl; auto with equ|intros o O; destruct o as [a0 a1 a2 a3 a4 a5]; unfold GrPoly_ok in *; cbv beta iota delta [set gp_layer gp_coordinates gp_width gp_fill gp_tstamp gp_locked] in *; conjs; goals; first [assumption|reflexivity]|intros o o1 S; destruct o as [a0 a1 a2 a3 a4 a5], o1 as [b0 b1 b2 b3 b4 b5]; unfold GrPoly_eqb in *; cbv beta iota delta [set gp_layer gp_coordinates gp_width gp_fill gp_tstamp gp_locked] in *; conjs; split; [assumption|split; intros;  goals; try assumption; apply refl; auto with equ]]).
Qed.
Lemma GrPoly_e : edits_survive GrPoly_to GrPoly_from GrPoly_ok GrPoly_eqb GrPoly_edits.
Proof. exact (lawful_survive _ _ _ _ _ _ GrPoly_rt GrPoly_l). Qed.
#[local] Opaque GrPoly_ok GrPoly_eqb.
#[local] Transparent GrCurve_ok GrCurve_eqb.
Lemma GrCurve_l : Forall (lawful GrCurve_ok GrCurve_eqb) GrCurve_edits.
Proof.
  repeat apply Forall_cons; [..|apply Forall_nil]; (apply law; [intros o x O F; destruct o as [a0 a1 a2 a3 a4]; unfold GrCurve_ok in *; cbv beta iota delta [set gv_coordinates gv_layer gv_width gv_tstamp gv_locked] in *; conjs; goals; assumption|intros o x o1 S; destruct o as [a0 a1 a2 a3 a4], o1 as [b0 b1 b2 b3 b4]; unfold GrCurve_eqb in *; cbv beta iota delta [set gv_coordinates gv_layer gv_width gv_tstamp gv_locked] in *; conjs; split; [assumption|goals; try assumption; apply refl; auto with equ]|intros o x y H; destruct o as [a0 a1 a2 a3 a4]; unfold GrCurve_eqb; cbv beta iota delta [set gv_coordinates gv_layer gv_width gv_tstamp gv_locked]; goals; try assumption; apply refl; auto with equ|intros o O; destruct o as [a0 a1 a2 a3 a4]; unfold GrCurve_ok in *; cbv beta iota delta [set gv_coordinates gv_layer gv_width gv_tstamp gv_locked] in *; conjs; goals; first [assumption|reflexivity]|intros o o1 S; destruct o as [a0 a1 a2 a3 a4], o1 as [b0 b1 b2 b3 b4]; unfold GrCurve_eqb in *; cbv beta iota delta [set gv_coordinates gv_layer gv_width gv_tstamp gv_locked] in *; conjs; split; [assumption|split; intros;  goals; try assumption; apply refl; auto with equ]]).
Qed.
Lemma GrCurve_e : edits_survive GrCurve_to GrCurve_from GrCurve_ok GrCurve_eqb GrCurve_edits.
Proof. exact (lawful_survive _ _ _ _ _ _ GrCurve_rt GrCurve_l). Qed.
#[local] Opaque GrCurve_ok GrCurve_eqb.
#[local] Transparent GrTextBox_ok GrTextBox_eqb.
Lemma GrTextBox_l : Forall (lawful GrTextBox_ok GrTextBox_eqb) GrTextBox_edits.
Proof.
  repeat apply Forall_cons; [..|apply Forall_nil]; (apply law; [intros o x O F; destruct o as [a0 a1 a2 a3 a4 a5 a6 a7 a8 a9 a10]; unfold GrTextBox_ok in *; cbv beta iota delta [set gb_locked gb_text gb_start gb_end gb_pts gb_angle gb_layer gb_tstamp gb_effects gb_stroke gb_renderCache] in *; conjs; goals; assumption|intros o x o1 S; destruct o as [a0 a1 a2 a3 a4 a5 a6 a7 a8 a9 a10], o1 as [b0 b1 b2 b3 b4 b5 b6 b7 b8 b9 b10]; unfold GrTextBox_eqb in *; cbv beta iota delta [set gb_locked gb_text gb_start gb_end gb_pts gb_angle gb_layer gb_tstamp gb_effects gb_stroke gb_renderCache] in *; conjs; split; [assumption|goals; try assumption; apply refl; auto with equ]|intros o x y H; destruct o as [a0 a1 a2 a3 a4 a5 a6 a7 a8 a9 a10]; unfold GrTextBox_eqb; cbv beta iota delta [set gb_locked gb_text gb_start gb_end gb_pts gb_angle gb_layer gb_tstamp gb_effects gb_stroke gb_renderCache]; goals; try assumption; apply refl; auto with equ|intros o O; destruct o as [a0 a1 a2 a3 a4 a5 a6 a7 a8 a9 a10]; unfold GrTextBox_ok in *; cbv beta iota delta [set gb_locked gb_text gb_start gb_end gb_pts gb_angle gb_layer gb_tstamp gb_effects gb_stroke gb_renderCache] in *; conjs; goals; first [assumption|reflexivity]|intros o o1 S; destruct o as [a0 a1 a2 a3 a4 a5 a6 a7 a8 a9 a10], o1 as [b0 b1 b2 b3 b4 b5 b6 b7 b8 b9 b10]; unfold GrTextBox_eqb in *; cbv beta iota delta [set gb_locked gb_text gb_start gb_end gb_pts gb_angle gb_layer gb_tstamp gb_effects gb_stroke gb_renderCache] in *; conjs; split; [assumption|split; intros;  goals; try assumption; apply refl; auto with equ]]).
Qed.
Lemma GrTextBox_e : edits_survive GrTextBox_to GrTextBox_from GrTextBox_ok GrTextBox_eqb GrTextBox_edits.
Proof. exact (lawful_survive _ _ _ _ _ _ GrTextBox_rt GrTextBox_l). Qed.
#[local] Opaque GrTextBox_ok GrTextBox_eqb.
#[local] Transparent KeepoutSettings_ok KeepoutSettings_eqb.
Lemma KeepoutSettings_l : Forall (lawful KeepoutSettings_ok KeepoutSettings_eqb) KeepoutSettings_edits.
Proof.
  repeat apply Forall_cons; [..|apply Forall_nil]; (apply law; [intros o x O F; destruct o as [a0 a1 a2 a3 a4]; unfold KeepoutSettings_ok in *; cbv beta iota delta [set ks_tracks ks_vias ks_pads ks_copperpour ks_footprints] in *; conjs; goals; assumption|intros o x o1 S; destruct o as [a0 a1 a2 a3 a4], o1 as [b0 b1 b2 b3 b4]; unfold KeepoutSettings_eqb in *; cbv beta iota delta [set ks_tracks ks_vias ks_pads ks_copperpour ks_footprints] in *; conjs; split; [assumption|goals; try assumption; apply refl; auto with equ]|intros o x y H; destruct o as [a0 a1 a2 a3 a4]; unfold KeepoutSettings_eqb; cbv beta iota delta [set ks_tracks ks_vias ks_pads ks_copperpour ks_footprints]; goals; try assumption; apply refl; auto with equ|intros o O; destruct o as [a0 a1 a2 a3 a4]; unfold KeepoutSettings_ok in *; cbv beta iota delta [set ks_tracks ks_vias ks_pads ks_copperpour ks_footprints] in *; conjs; goals; first [assumption|reflexivity]|intros o o1 S; destruct o as [a0 a1 a2 a3 a4], o1 as [b0 b1 b2 b3 b4]; unfold KeepoutSettings_eqb in *; cbv beta iota delta [set ks_tracks ks_vias ks_pads ks_copperpour ks_footprints] in *; conjs; split; [assumption|split; intros;  goals; try assumption; apply refl; auto with equ]]).
Qed.
Lemma KeepoutSettings_e : edits_survive KeepoutSettings_to KeepoutSettings_from KeepoutSettings_ok KeepoutSettings_eqb KeepoutSettings_edits.
Proof. exact (lawful_survive _ _ _ _ _ _ KeepoutSettings_rt KeepoutSettings_l). Qed.
#[local] Opaque KeepoutSettings_ok KeepoutSettings_eqb.
#[local] Transparent FillSettings_ok FillSettings_eqb.
Lemma FillSettings_l : Forall (lawful FillSettings_ok FillSettings_eqb) FillSettings_edits.
Proof.
  repeat apply Forall_cons; [..|apply Forall_nil]; (apply law; [intros o x O F; destruct o as [a0 a1 a2 a3 a4 a5 a6 a7 a8 a9 a10 a11 a12 a13 a14]; unfold FillSettings_ok in *; cbv beta iota delta [set fs_yes fs_mode fs_thermalGap fs_thermalBridgeWidth fs_smoothingStyle fs_smoothingRadius fs_islandRemovalMode fs_islandAreaMin fs_hatchThickness fs_hatchGap fs_hatchOrientation fs_hatchSmoothingLevel fs_hatchSmoothingValue fs_hatchBorderAlgorithm fs_hatchMinHoleArea] in *; conjs; goals; assumption|intros o x o1 S; destruct o as [a0 a1 a2 a3 a4 a5 a6 a7 a8 a9 a10 a11 a12 a13 a14], o1 as [b0 b1 b2 b3 b4 b5 b6 b7 b8 b9 b10 b11 b12 b13 b14]; unfold FillSettings_eqb in *; cbv beta iota delta [set fs_yes fs_mode fs_thermalGap fs_thermalBridgeWidth fs_smoothingStyle fs_smoothingRadius fs_islandRemovalMode fs_islandAreaMin fs_hatchThickness fs_hatchGap fs_hatchOrientation fs_hatchSmoothingLevel fs_hatchSmoothingValue fs_hatchBorderAlgorithm fs_hatchMinHoleArea] in *; conjs; split; [assumption|goals; try assumption; apply refl; auto with equ]|intros o x y H; destruct o as [a0 a1 a2 a3 a4 a5 a6 a7 a8 a9 a10 a11 a12 a13 a14]; unfold FillSettings_eqb; cbv beta iota delta [set fs_yes fs_mode fs_thermalGap fs_thermalBridgeWidth fs_smoothingStyle fs_smoothingRadius fs_islandRemovalMode fs_islandAreaMin fs_hatchThickness fs_hatchGap fs_hatchOrientation fs_hatchSmoothingLevel fs_hatchSmoothingValue fs_hatchBorderAlgorithm fs_hatchMinHoleArea]; goals; try assumption; apply refl; auto with equ|intros o O; destruct o as [a0 a1 a2 a3 a4 a5 a6 a7 a8 a9 a10 a11 a12 a13 a14]; unfold FillSettings_ok in *; cbv beta iota delta [set fs_yes fs_mode fs_thermalGap fs_thermalBridgeWidth fs_smoothingStyle fs_smoothingRadius fs_islandRemovalMode fs_islandAreaMin fs_hatchThickness fs_hatchGap fs_hatchOrientation fs_hatchSmoothingLevel fs_hatchSmoothingValue fs_hatchBorderAlgorithm fs_hatchMinHoleArea] in *; conjs; goals; first [assumption|reflexivity]|intros o o1 S; destruct o as [a0 a1 a2 a3 a4 a5 a6 a7 a8 a9 a10 a11 a12 a13 a14], o1 as [b0 b1 b2 b3 b4 b5 b6 b7 b8 b9 b10 b11 b12 b13 b14]; unfold FillSettings_eqb in *; cbv beta iota delta [set fs_yes fs_mode fs_thermalGap fs_thermalBridgeWidth fs_smoothingStyle fs_smoothingRadius fs_islandRemovalMode fs_islandAreaMin fs_hatchThickness fs_hatchGap fs_hatchOrientation fs_hatchSmoothingLevel fs_hatchSmoothingValue fs_hatchBorderAlgorithm fs_hatchMinHoleArea] in *; conjs; split; [assumption|split; intros;  goals; try assumption; apply refl; auto with equ]]).
Qed.
Lemma FillSettings_e : edits_survive FillSettings_to FillSettings_from FillSettings_ok FillSettings_eqb FillSettings_edits.
Proof. exact (lawful_survive _ _ _ _ _ _ FillSettings_rt FillSettings_l). Qed.
#[local] Opaque FillSettings_ok FillSettings_eqb.
#[local] Transparent ZonePolygon_ok ZonePolygon_eqb.
Lemma ZonePolygon_l : Forall (lawful ZonePolygon_ok ZonePolygon_eqb) ZonePolygon_edits.
Proof.
  repeat apply Forall_cons; [..|apply Forall_nil]; (apply law; [intros o x O F; destruct o as [a0]; unfold ZonePolygon_ok in *; cbv beta iota delta [set zp_coordinates] in *; conjs; goals; assumption|intros o x o1 S; destruct o as [a0], o1 as [b0]; unfold ZonePolygon_eqb in *; cbv beta iota delta [set zp_coordinates] in *; conjs; split; [assumption|goals; try assumption; apply refl; auto with equ]|intros o x y H; destruct o as [a0]; unfold ZonePolygon_eqb; cbv beta iota delta [set zp_coordinates]; goals; try assumption; apply refl; auto with equ|intros o O; destruct o as [a0]; unfold ZonePolygon_ok in *; cbv beta iota delta [set zp_coordinates] in *; conjs; goals; first [assumption|reflexivity]|intros o o1 S; destruct o as [a0], o1 as [b0]; unfold ZonePolygon_eqb in *; cbv beta iota delta [set zp_coordinates] in *; conjs; split; [assumption|split; intros;  goals; try assumption; apply refl; auto with equ]]).
Qed.
Lemma ZonePolygon_e : edits_survive ZonePolygon_to ZonePolygon_from ZonePolygon_ok ZonePolygon_eqb ZonePolygon_edits.
Proof. exact (lawful_survive _ _ _ _ _ _ ZonePolygon_rt ZonePolygon_l). Qed.
#[local] Opaque ZonePolygon_ok ZonePolygon_eqb.
#[local] Transparent FilledPolygon_ok FilledPolygon_eqb.
Lemma FilledPolygon_l : Forall (lawful FilledPolygon_ok FilledPolygon_eqb) FilledPolygon_edits.
Proof.
  repeat apply Forall_cons; [..|apply Forall_nil]; (apply law; [intros o x O F; destruct o as [a0 a1 a2]; unfold FilledPolygon_ok in *; cbv beta iota delta [set zf_layer zf_island zf_coordinates] in *; conjs; goals; assumption|intros o x o1 S; destruct o as [a0 a1 a2], o1 as [b0 b1 b2]; unfold FilledPolygon_eqb in *; cbv beta iota delta [set zf_layer zf_island zf_coordinates] in *; conjs; split; [assumption|goals; try assumption; apply refl; auto with equ]|intros o x y H; destruct o as [a0 a1 a2]; unfold FilledPolygon_eqb; cbv beta iota delta [set zf_layer zf_island zf_coordinates]; goals; try assumption; apply refl; auto with equ|intros o O; destruct o as [a0 a1 a2]; unfold FilledPolygon_ok in *; cbv beta iota delta [set zf_layer zf_island zf_coordinates] in *; conjs; goals; first [assumption|reflexivity]|intros o o1 S; destruct o as [a0 a1 a2], o1 as [b0 b1 b2]; unfold FilledPolygon_eqb in *; cbv beta iota delta [set zf_layer zf_island zf_coordinates] in *; conjs; split; [assumption|split; intros;  goals; try assumption; apply refl; auto with equ]]).
Qed.
Lemma FilledPolygon_e : edits_survive FilledPolygon_to FilledPolygon_from FilledPolygon_ok FilledPolygon_eqb FilledPolygon_edits.
Proof. exact (lawful_survive _ _ _ _ _ _ FilledPolygon_rt FilledPolygon_l). Qed.
#[local] Opaque FilledPolygon_ok FilledPolygon_eqb.
#[local] Transparent FillSegments_ok FillSegments_eqb.
Lemma FillSegments_l : Forall (lawful FillSegments_ok FillSegments_eqb) FillSegments_edits.
Proof.
  repeat apply Forall_cons; [..|apply Forall_nil]; (apply law; [intros o x O F; destruct o as [a0 a1]; unfold FillSegments_ok in *; cbv beta iota delta [set zs_layer zs_coordinates] in *; conjs; goals; assumption|intros o x o1 S; destruct o as [a0 a1], o1 as [b0 b1]; unfold FillSegments_eqb in *; cbv beta iota delta [set zs_layer zs_coordinates] in *; conjs; split; [assumption|goals; try assumption; apply refl; auto with equ]|intros o x y H; destruct o as [a0 a1]; unfold FillSegments_eqb; cbv beta iota delta [set zs_layer zs_coordinates]; goals; try assumption; apply refl; auto with equ|intros o O; destruct o as [a0 a1]; unfold FillSegments_ok in *; cbv beta iota delta [set zs_layer zs_coordinates] in *; conjs; goals; first [assumption|reflexivity]|intros o o1 S; destruct o as [a0 a1], o1 as [b0 b1]; unfold FillSegments_eqb in *; cbv beta iota delta [set zs_layer zs_coordinates] in *; conjs; split; [assumption|split; intros;  goals; try assumption; apply refl; auto with equ]]).
Qed.
Lemma FillSegments_e : edits_survive FillSegments_to FillSegments_from FillSegments_ok FillSegments_eqb FillSegments_edits.
Proof. exact (lawful_survive _ _ _ _ _ _ FillSegments_rt FillSegments_l). Qed.
#[local] Opaque FillSegments_ok FillSegments_eqb.
#[local] Transparent Zone_ok Zone_eqb.
Lemma Zone_l : Forall (lawful Zone_ok Zone_eqb) Zone_edits.
Proof.
  repeat apply Forall_cons; [..|apply Forall_nil]; (apply law; [intros o x O F; destruct o as [a0 a1 a2 a3 a4 a5 a6 a7 a8 a9 a10 a11 a12 a13 a14 a15 a16]; unfold Zone_ok in *; cbv beta iota delta [set zo_locked zo_net zo_netName zo_layers zo_tstamp zo_name zo_hatch zo_priority zo_connectPads zo_clearance zo_minThickness zo_filledAreasThickness zo_keepoutSettings zo_fillSettings zo_polygons zo_filledPolygons zo_fillSegments] in *; conjs; goals; assumption|intros o x o1 S; destruct o as [a0 a1 a2 a3 a4 a5 a6 a7 a8 a9 a10 a11 a12 a13 a14 a15 a16], o1 as [b0 b1 b2 b3 b4 b5 b6 b7 b8 b9 b10 b11 b12 b13 b14 b15 b16]; unfold Zone_eqb in *; cbv beta iota delta [set zo_locked zo_net zo_netName zo_layers zo_tstamp zo_name zo_hatch zo_priority zo_connectPads zo_clearance zo_minThickness zo_filledAreasThickness zo_keepoutSettings zo_fillSettings zo_polygons zo_filledPolygons zo_fillSegments] in *; conjs; split; [assumption|goals; try assumption; apply refl; auto with equ]|intros o x y H; destruct o as [a0 a1 a2 a3 a4 a5 a6 a7 a8 a9 a10 a11 a12 a13 a14 a15 a16]; unfold Zone_eqb; cbv beta iota delta [set zo_locked zo_net zo_netName zo_layers zo_tstamp zo_name zo_hatch zo_priority zo_connectPads zo_clearance zo_minThickness zo_filledAreasThickness zo_keepoutSettings zo_fillSettings zo_polygons zo_filledPolygons zo_fillSegments]; goals; try assumption; apply refl; auto with equ|intros o O; destruct o as [a0 a1 a2 a3 a4 a5 a6 a7 a8 a9 a10 a11 a12 a13 a14 a15 a16]; unfold Zone_ok in *; cbv beta iota delta [set zo_locked zo_net zo_netName zo_layers zo_tstamp zo_name zo_hatch zo_priority zo_connectPads zo_clearance zo_minThickness zo_filledAreasThickness zo_keepoutSettings zo_fillSettings zo_polygons zo_filledPolygons zo_fillSegments] in *; conjs; goals; first [assumption|reflexivity]|intros o o1 S; destruct o as [a0 a1 a2 a3 a4 a5 a6 a7 a8 a9 a10 a11 a12 a13 a14 a15 a16], o1 as [b0 b1 b2 b3 b4 b5 b6 b7 b8 b9 b10 b11 b12 b13 b14 b15 b16]; unfold Zone_eqb in *; cbv beta iota delta [set zo_locked zo_net zo_netName zo_layers zo_tstamp zo_name zo_hatch zo_priority zo_connectPads zo_clearance zo_minThickness zo_filledAreasThickness zo_keepoutSettings zo_fillSettings zo_polygons zo_filledPolygons zo_fillSegments] in *; conjs; split; [assumption|split; intros;  goals; try assumption; apply refl; auto with equ]]).
Qed.
Lemma Zone_e : edits_survive Zone_to Zone_from Zone_ok Zone_eqb Zone_edits.
Proof. exact (lawful_survive _ _ _ _ _ _ Zone_rt Zone_l). Qed.
#[local] Opaque Zone_ok Zone_eqb.
#[local] Transparent Attributes_ok1 Attributes_eqb.
Lemma Attributes_l : Forall (lawful Attributes_ok1 Attributes_eqb) Attributes_edits.
Proof.
  repeat apply Forall_cons; [..|apply Forall_nil]; (apply law; [intros o x _ F; exact F|intros o x o1 S; destruct o as [a0 a1 a2 a3 a4], o1 as [b0 b1 b2 b3 b4]; unfold Attributes_eqb in *; cbv beta iota delta [set fx_type fx_boardOnly fx_excludeFromPosFiles fx_excludeFromBom fx_allowMissingCourtyard] in *; conjs; split; [assumption|goals; try assumption; apply refl; auto with equ]|intros o x y H; destruct o as [a0 a1 a2 a3 a4]; unfold Attributes_eqb; cbv beta iota delta [set fx_type fx_boardOnly fx_excludeFromPosFiles fx_excludeFromBom fx_allowMissingCourtyard]; goals; try assumption; apply refl; auto with equ|intros o O; destruct o as [a0 a1 a2 a3 a4]; exact O|intros o o1 S; destruct o as [a0 a1 a2 a3 a4], o1 as [b0 b1 b2 b3 b4]; unfold Attributes_eqb in *; cbv beta iota delta [set fx_type fx_boardOnly fx_excludeFromPosFiles fx_excludeFromBom fx_allowMissingCourtyard] in *; conjs; split; [assumption|split; intros;  goals; try assumption; apply refl; auto with equ]]).
Qed.
Lemma Attributes_e : edits_survive Attributes_to Attributes_from Attributes_ok1 Attributes_eqb Attributes_edits.
Proof. exact (lawful_survive _ _ _ _ _ _ Attributes_rt1 Attributes_l). Qed.
#[local] Opaque Attributes_ok1 Attributes_eqb.
#[local] Transparent Model_ok Model_eqb.
Lemma Model_l : Forall (lawful Model_ok Model_eqb) Model_edits.
Proof.
  repeat apply Forall_cons; [..|apply Forall_nil]; (apply law; [intros o x O F; destruct o as [a0 a1 a2 a3 a4 a5]; unfold Model_ok in *; cbv beta iota delta [set mo_path mo_pos mo_scale mo_rotate mo_hide mo_opacity] in *; conjs; goals; assumption|intros o x o1 S; destruct o as [a0 a1 a2 a3 a4 a5], o1 as [b0 b1 b2 b3 b4 b5]; unfold Model_eqb in *; cbv beta iota delta [set mo_path mo_pos mo_scale mo_rotate mo_hide mo_opacity] in *; conjs; split; [assumption|goals; try assumption; apply refl; auto with equ]|intros o x y H; destruct o as [a0 a1 a2 a3 a4 a5]; unfold Model_eqb; cbv beta iota delta [set mo_path mo_pos mo_scale mo_rotate mo_hide mo_opacity]; goals; try assumption; apply refl; auto with equ|intros o O; destruct o as [a0 a1 a2 a3 a4 a5]; unfold Model_ok in *; cbv beta iota delta [set mo_path mo_pos mo_scale mo_rotate mo_hide mo_opacity] in *; conjs; goals; first [assumption|reflexivity]|intros o o1 S; destruct o as [a0 a1 a2 a3 a4 a5], o1 as [b0 b1 b2 b3 b4 b5]; unfold Model_eqb in *; cbv beta iota delta [set mo_path mo_pos mo_scale mo_rotate mo_hide mo_opacity] in *; conjs; split; [assumption|split; intros;  goals; try assumption; apply refl; auto with equ]]).
Qed.
Lemma Model_e : edits_survive Model_to Model_from Model_ok Model_eqb Model_edits.
Proof. exact (lawful_survive _ _ _ _ _ _ Model_rt Model_l). Qed.
#[local] Opaque Model_ok Model_eqb.
#[local] Transparent DrillDefinition_ok DrillDefinition_eqb.
Lemma DrillDefinition_l : Forall (lawful DrillDefinition_ok DrillDefinition_eqb) DrillDefinition_edits.
Proof.
  repeat apply Forall_cons; [..|apply Forall_nil]; (apply law; [intros o x O F; destruct o as [a0 a1 a2 a3]; unfold DrillDefinition_ok in *; cbv beta iota delta [set dd_oval dd_diameter dd_width dd_offset] in *; conjs; goals; assumption|intros o x o1 S; destruct o as [a0 a1 a2 a3], o1 as [b0 b1 b2 b3]; unfold DrillDefinition_eqb in *; cbv beta iota delta [set dd_oval dd_diameter dd_width dd_offset] in *; conjs; split; [assumption|goals; try assumption; apply refl; auto with equ]|intros o x y H; destruct o as [a0 a1 a2 a3]; unfold DrillDefinition_eqb; cbv beta iota delta [set dd_oval dd_diameter dd_width dd_offset]; goals; try assumption; apply refl; auto with equ|intros o O; destruct o as [a0 a1 a2 a3]; unfold DrillDefinition_ok in *; cbv beta iota delta [set dd_oval dd_diameter dd_width dd_offset] in *; conjs; goals; first [assumption|reflexivity]|intros o o1 S; destruct o as [a0 a1 a2 a3], o1 as [b0 b1 b2 b3]; unfold DrillDefinition_eqb in *; cbv beta iota delta [set dd_oval dd_diameter dd_width dd_offset] in *; conjs; split; [assumption|split; intros;  goals; try assumption; apply refl; auto with equ]]).
Qed.
Lemma DrillDefinition_e : edits_survive DrillDefinition_to DrillDefinition_from DrillDefinition_ok DrillDefinition_eqb DrillDefinition_edits.
Proof. exact (lawful_survive _ _ _ _ _ _ DrillDefinition_rt DrillDefinition_l). Qed.
#[local] Opaque DrillDefinition_ok DrillDefinition_eqb.
#[local] Transparent PadOptions_ok PadOptions_eqb.
Lemma PadOptions_l : Forall (lawful PadOptions_ok PadOptions_eqb) PadOptions_edits.
Proof.
  repeat apply Forall_cons; [..|apply Forall_nil]; (apply law; [intros o x O F; destruct o as [a0 a1]; unfold PadOptions_ok in *; cbv beta iota delta [set pq_clearance pq_anchor] in *; conjs; goals; assumption|intros o x o1 S; destruct o as [a0 a1], o1 as [b0 b1]; unfold PadOptions_eqb in *; cbv beta iota delta [set pq_clearance pq_anchor] in *; conjs; split; [assumption|goals; try assumption; apply refl; auto with equ]|intros o x y H; destruct o as [a0 a1]; unfold PadOptions_eqb; cbv beta iota delta [set pq_clearance pq_anchor]; goals; try assumption; apply refl; auto with equ|intros o O; destruct o as [a0 a1]; unfold PadOptions_ok in *; cbv beta iota delta [set pq_clearance pq_anchor] in *; conjs; goals; first [assumption|reflexivity]|intros o o1 S; destruct o as [a0 a1], o1 as [b0 b1]; unfold PadOptions_eqb in *; cbv beta iota delta [set pq_clearance pq_anchor] in *; conjs; split; [assumption|split; intros;  goals; try assumption; apply refl; auto with equ]]).
Qed.
Lemma PadOptions_e : edits_survive PadOptions_to PadOptions_from PadOptions_ok PadOptions_eqb PadOptions_edits.
Proof. exact (lawful_survive _ _ _ _ _ _ PadOptions_rt PadOptions_l). Qed.
#[local] Opaque PadOptions_ok PadOptions_eqb.
#[local] Transparent Pad_ok Pad_eqb.
Lemma Pad_l : Forall (lawful Pad_ok Pad_eqb) Pad_edits.
Proof.
  repeat apply Forall_cons; [..|apply Forall_nil]; (apply law; [intros o x O F; destruct o as [a0 a1 a2 a3 a4 a5 a6 a7 a8 a9 a10 a11 a12 a13 a14 a15 a16 a17 a18 a19 a20 a21 a22 a23 a24 a25 a26 a27]; unfold Pad_ok in *; cbv beta iota delta [set pd_number pd_type pd_shape pd_position pd_locked pd_size pd_drill pd_layers pd_property pd_removeUnusedLayers pd_keepEndLayers pd_roundrectRatio pd_chamferRatio pd_chamfer pd_net pd_tstamp pd_pinFunction pd_pinType pd_dieLength pd_solderMaskMargin pd_solderPasteMargin pd_solderPasteMarginRatio pd_clearance pd_zoneConnect pd_thermalWidth pd_thermalGap pd_customPadOptions pd_customPadPrimitives] in *; conjs; goals; assumption|intros o x o1 S; destruct o as [a0 a1 a2 a3 a4 a5 a6 a7 a8 a9 a10 a11 a12 a13 a14 a15 a16 a17 a18 a19 a20 a21 a22 a23 a24 a25 a26 a27], o1 as [b0 b1 b2 b3 b4 b5 b6 b7 b8 b9 b10 b11 b12 b13 b14 b15 b16 b17 b18 b19 b20 b21 b22 b23 b24 b25 b26 b27]; unfold Pad_eqb in *; cbv beta iota delta [set pd_number pd_type pd_shape pd_position pd_locked pd_size pd_drill pd_layers pd_property pd_removeUnusedLayers pd_keepEndLayers pd_roundrectRatio pd_chamferRatio pd_chamfer pd_net pd_tstamp pd_pinFunction pd_pinType pd_dieLength pd_solderMaskMargin pd_solderPasteMargin pd_solderPasteMarginRatio pd_clearance pd_zoneConnect pd_thermalWidth pd_thermalGap pd_customPadOptions pd_customPadPrimitives] in *; conjs; split; [assumption|goals; try assumption; apply refl; auto with equ]|intros o x y H; destruct o as [a0 a1 a2 a3 a4 a5 a6 a7 a8 a9 a10 a11 a12 a13 a14 a15 a16 a17 a18 a19 a20 a21 a22 a23 a24 a25 a26 a27]; unfold Pad_eqb; cbv beta iota delta [set pd_number pd_type pd_shape pd_position pd_locked pd_size pd_drill pd_layers pd_property pd_removeUnusedLayers pd_keepEndLayers pd_roundrectRatio pd_chamferRatio pd_chamfer pd_net pd_tstamp pd_pinFunction pd_pinType pd_dieLength pd_solderMaskMargin pd_solderPasteMargin pd_solderPasteMarginRatio pd_clearance pd_zoneConnect pd_thermalWidth pd_thermalGap pd_customPadOptions pd_customPadPrimitives]; goals; try assumption; apply refl; auto with equ|intros o O; destruct o as [a0 a1 a2 a3 a4 a5 a6 a7 a8 a9 a10 a11 a12 a13 a14 a15 a16 a17 a18 a19 a20 a21 a22 a23 a24 a25 a26 a27]; unfold Pad_ok in *; cbv beta iota delta [set pd_number pd_type pd_shape pd_position pd_locked pd_size pd_drill pd_layers pd_property pd_removeUnusedLayers pd_keepEndLayers pd_roundrectRatio pd_chamferRatio pd_chamfer pd_net pd_tstamp pd_pinFunction pd_pinType pd_dieLength pd_solderMaskMargin pd_solderPasteMargin pd_solderPasteMarginRatio pd_clearance pd_zoneConnect pd_thermalWidth pd_thermalGap pd_customPadOptions pd_customPadPrimitives] in *; conjs; goals; first [assumption|reflexivity]|intros o o1 S; destruct o as [a0 a1 a2 a3 a4 a5 a6 a7 a8 a9 a10 a11 a12 a13 a14 a15 a16 a17 a18 a19 a20 a21 a22 a23 a24 a25 a26 a27], o1 as [b0 b1 b2 b3 b4 b5 b6 b7 b8 b9 b10 b11 b12 b13 b14 b15 b16 b17 b18 b19 b20 b21 b22 b23 b24 b25 b26 b27]; unfold Pad_eqb in *; cbv beta iota delta [set pd_number pd_type pd_shape pd_position pd_locked pd_size pd_drill pd_layers pd_property pd_removeUnusedLayers pd_keepEndLayers pd_roundrectRatio pd_chamferRatio pd_chamfer pd_net pd_tstamp pd_pinFunction pd_pinType pd_dieLength pd_solderMaskMargin pd_solderPasteMargin pd_solderPasteMarginRatio pd_clearance pd_zoneConnect pd_thermalWidth pd_thermalGap pd_customPadOptions pd_customPadPrimitives] in *; conjs; split; [assumption|split; intros;  goals; try assumption; apply refl; auto with equ]]).
Qed.
Lemma Pad_e : edits_survive Pad_to Pad_from Pad_ok Pad_eqb Pad_edits.
Proof. exact (lawful_survive _ _ _ _ _ _ Pad_rt Pad_l). Qed.
#[local] Opaque Pad_ok Pad_eqb.
#[local] Transparent Footprint_ok Footprint_eqb.
Lemma Footprint_l : Forall (lawful Footprint_ok Footprint_eqb) Footprint_edits.
Proof.
  repeat apply Forall_cons; [..|apply Forall_nil]; (apply law; [intros o x O F; destruct o as [a0 a1 a2 a3 a4 a5 a6 a7 a8 a9 a10 a11 a12 a13 a14 a15 a16 a17 a18 a19 a20 a21 a22 a23 a24 a25 a26 a27 a28 a29 a30 a31]; unfold Footprint_ok in *; cbv beta iota delta [set fd_libraryNickname fd_entryName fd_version fd_generator fd_locked fd_placed fd_layer fd_tedit fd_tstamp fd_position fd_description fd_tags fd_properties fd_path fd_autoplaceCost90 fd_autoplaceCost180 fd_solderMaskMargin fd_solderPasteMargin fd_solderPasteRatio fd_clearance fd_zoneConnect fd_thermalWidth fd_thermalGap fd_attributes fd_privateLayers fd_netTiePadGroups fd_graphicItems fd_pads fd_zones fd_groups fd_models fd_filePath] in *; conjs; goals; assumption|intros o x o1 S; destruct o as [a0 a1 a2 a3 a4 a5 a6 a7 a8 a9 a10 a11 a12 a13 a14 a15 a16 a17 a18 a19 a20 a21 a22 a23 a24 a25 a26 a27 a28 a29 a30 a31], o1 as [b0 b1 b2 b3 b4 b5 b6 b7 b8 b9 b10 b11 b12 b13 b14 b15 b16 b17 b18 b19 b20 b21 b22 b23 b24 b25 b26 b27 b28 b29 b30 b31]; unfold Footprint_eqb in *; cbv beta iota delta [set fd_libraryNickname fd_entryName fd_version fd_generator fd_locked fd_placed fd_layer fd_tedit fd_tstamp fd_position fd_description fd_tags fd_properties fd_path fd_autoplaceCost90 fd_autoplaceCost180 fd_solderMaskMargin fd_solderPasteMargin fd_solderPasteRatio fd_clearance fd_zoneConnect fd_thermalWidth fd_thermalGap fd_attributes fd_privateLayers fd_netTiePadGroups fd_graphicItems fd_pads fd_zones fd_groups fd_models fd_filePath] in *; conjs; split; [assumption|goals; try assumption; apply refl; auto with equ]|intros o x y H; destruct o as [a0 a1 a2 a3 a4 a5 a6 a7 a8 a9 a10 a11 a12 a13 a14 a15 a16 a17 a18 a19 a20 a21 a22 a23 a24 a25 a26 a27 a28 a29 a30 a31]; unfold Footprint_eqb; cbv beta iota delta [set fd_libraryNickname fd_entryName fd_version fd_generator fd_locked fd_placed fd_layer fd_tedit fd_tstamp fd_position fd_description fd_tags fd_properties fd_path fd_autoplaceCost90 fd_autoplaceCost180 fd_solderMaskMargin fd_solderPasteMargin fd_solderPasteRatio fd_clearance fd_zoneConnect fd_thermalWidth fd_thermalGap fd_attributes fd_privateLayers fd_netTiePadGroups fd_graphicItems fd_pads fd_zones fd_groups fd_models fd_filePath]; goals; try assumption; apply refl; auto with equ|intros o O; destruct o as [a0 a1 a2 a3 a4 a5 a6 a7 a8 a9 a10 a11 a12 a13 a14 a15 a16 a17 a18 a19 a20 a21 a22 a23 a24 a25 a26 a27 a28 a29 a30 a31]; unfold Footprint_ok in *; cbv beta iota delta [set fd_libraryNickname fd_entryName fd_version fd_generator fd_locked fd_placed fd_layer fd_tedit fd_tstamp fd_position fd_description fd_tags fd_properties fd_path fd_autoplaceCost90 fd_autoplaceCost180 fd_solderMaskMargin fd_solderPasteMargin fd_solderPasteRatio fd_clearance fd_zoneConnect fd_thermalWidth fd_thermalGap fd_attributes fd_privateLayers fd_netTiePadGroups fd_graphicItems fd_pads fd_zones fd_groups fd_models fd_filePath] in *; conjs; goals; first [assumption|reflexivity]|intros o o1 S; destruct o as [a0 a1 a2 a3 a4 a5 a6 a7 a8 a9 a10 a11 a12 a13 a14 a15 a16 a17 a18 a19 a20 a21 a22 a23 a24 a25 a26 a27 a28 a29 a30 a31], o1 as [b0 b1 b2 b3 b4 b5 b6 b7 b8 b9 b10 b11 b12 b13 b14 b15 b16 b17 b18 b19 b20 b21 b22 b23 b24 b25 b26 b27 b28 b29 b30 b31]; unfold Footprint_eqb in *; cbv beta iota delta [set fd_libraryNickname fd_entryName fd_version fd_generator fd_locked fd_placed fd_layer fd_tedit fd_tstamp fd_position fd_description fd_tags fd_properties fd_path fd_autoplaceCost90 fd_autoplaceCost180 fd_solderMaskMargin fd_solderPasteMargin fd_solderPasteRatio fd_clearance fd_zoneConnect fd_thermalWidth fd_thermalGap fd_attributes fd_privateLayers fd_netTiePadGroups fd_graphicItems fd_pads fd_zones fd_groups fd_models fd_filePath] in *; conjs; split; [assumption|split; intros;  goals; try assumption; apply refl; auto with equ]]).
Qed.
Lemma Footprint_e now : edits_survive Footprint_to (Footprint_from now) Footprint_ok Footprint_eqb Footprint_edits.
Proof. exact (lawful_survive _ _ _ _ _ _ (Footprint_rt now) Footprint_l). Qed.
#[local] Opaque Footprint_ok Footprint_eqb.
