(** Collected children: proofs. *)
From Verif Require Import PyBase PyNum PyStr PyRe Sexpr S_Leaf S_Tree S_Reader S_Gather L_Tac L_Keep L_Gather M_Common M_Lib M_Sym M_Zone M_Fp M_Gr M_Dim M_Brd M_Footprint M_Board M_Sch M_Schematic M_Wks.

(* Symbol: the loop runs inside a recursive function *)
Lemma symbol_libId id o : Symbol_set_libId id Symbol_default = Ok o -> sy_units o = [] /\ sy_properties o = [] /\ sy_pins o = [] /\ sy_graphicItems o = [].
Proof.
  unfold Symbol_set_libId. destruct (as_text id) as [s|]; [|discriminate]. cbn [bind].
  destruct (re_match re_nick s); [|destruct (re_match re_unit s)]; cbn [bind]; intros [= <-]; repeat split; reflexivity.
Qed.
Ltac symbol_in :=
  let items := fresh "items" in let o := fresh "o" in let H := fresh "H" in intros items o H;
  destruct items as [|h [|id items]]; [discriminate H|cbn in H; destruct (is_str h "symbol"); discriminate H|];
  change (Symbol_from (VList (h :: id :: items))) with (if is_str h "symbol" then bind (Symbol_set_libId id Symbol_default) (fun o => foldM (Symbol_step Symbol_from) o items) else Err EException) in H;
  destruct (is_str h "symbol"); [|discriminate H]; cbn [skipn];
  destruct (Symbol_set_libId id Symbol_default) as [o1|] eqn:E1; [|discriminate H]; cbn [bind] in H; apply symbol_libId in E1;
  apply mapM_one;
  match goal with |- context [filter (headed ?keys) _] =>
    let G := fresh "G" in
    match goal with |- _ = Ok (?p o) =>
      match goal with |- context [mapM ?f _] =>
      assert (G : Gain p (let! parts := mapM f (filter (headed keys) items) in Ok (concat parts)) o1 (foldM (Symbol_step Symbol_from) o1 items));
      [ apply (Gain_fold p _ keys); [intros ? ? ?; solve [gkeep] | gain_item Symbol_step keys]
      | destruct (G _ H) as (xs & F & P); rewrite F, P; destruct E1 as (Q1 & Q2 & Q3 & Q4); rewrite ?Q1, ?Q2, ?Q3, ?Q4; reflexivity ]
      end
    end
  end.

Lemma Group_gather : copies_args Group_from 0 ["members"]%string gr_members.
Proof. collect_in Group_from Group_step Group_default. Qed.
Lemma RenderCachePolygon_gather : collects_args RenderCachePolygon_from 0 ["pts"]%string Position_from rp_pts.
Proof. collect_in RenderCachePolygon_from RenderCachePolygon_step RenderCachePolygon_default. Qed.
Lemma RenderCache_gather : collects RenderCache_from 0 ["polygon"]%string RenderCachePolygon_from rc_polygons.
Proof. collect_in RenderCache_from RenderCache_step RenderCache_default. Qed.
Lemma Image_gather : copies_args Image_from 0 ["data"]%string im_data.
Proof. collect_in Image_from Image_step Image_default. Qed.
Lemma LibTable_gather : collects LibTable_from 0 ["lib"]%string Library_from lt_libs.
Proof. collect_in LibTable_from LibTable_step LibTable_default. Qed.
Lemma Rule_gather : collects Rule_from 2 ["constraint"]%string Constraint_from ru_constraints.
Proof. collect_in Rule_from Rule_step Rule_default. Qed.
Lemma DesignRules_gather : collects DesignRules_from 0 ["rule"]%string Rule_from dr_rules.
Proof. collect_in DesignRules_from DesignRules_step DesignRules_default. Qed.
Lemma SyCurve_gather : collects_args SyCurve_from 0 ["pts"]%string Position_from sc_points.
Proof. collect_in SyCurve_from SyCurve_step SyCurve_default. Qed.
Lemma SyPolyLine_gather : collects_args SyPolyLine_from 0 ["pts"]%string Position_from sl_points.
Proof. collect_in SyPolyLine_from SyPolyLine_step SyPolyLine_default. Qed.
Lemma SymbolPin_gather : collects SymbolPin_from 3 ["alternate"]%string SymbolAlternativePin_from sp_alternatePins.
Proof. collect_in SymbolPin_from SymbolPin_step SymbolPin_default. Qed.
Lemma Symbol_gather : collects Symbol_from 2 ["symbol"]%string Symbol_from sy_units
  /\ collects Symbol_from 2 ["property"]%string Property_from sy_properties
  /\ collects Symbol_from 2 ["pin"]%string SymbolPin_from sy_pins
  /\ collects Symbol_from 2 ["arc"; "circle"; "curve"; "polyline"; "rectangle"; "text"; "text_box"]%string (by_head [("arc"%string, as_ SyItem_SyArc SyArc_from); ("circle"%string, as_ SyItem_SyCircle SyCircle_from); ("curve"%string, as_ SyItem_SyCurve SyCurve_from); ("polyline"%string, as_ SyItem_SyPolyLine SyPolyLine_from); ("rectangle"%string, as_ SyItem_SyRect SyRect_from); ("text"%string, as_ SyItem_SyText SyText_from); ("text_box"%string, as_ SyItem_SyTextBox SyTextBox_from)]) sy_graphicItems.
Proof. repeat apply conj; symbol_in. Qed.
Lemma SymbolLib_gather : collects SymbolLib_from 1 ["symbol"]%string Symbol_from sj_symbols.
Proof. collect_in SymbolLib_from SymbolLib_step SymbolLib_default. Qed.
Lemma ZonePolygon_gather : collects_args ZonePolygon_from 0 ["pts"]%string Position_from zp_coordinates.
Proof. collect_in ZonePolygon_from ZonePolygon_step ZonePolygon_default. Qed.
Lemma FilledPolygon_gather : collects_args FilledPolygon_from 0 ["pts"]%string Position_from zf_coordinates.
Proof. collect_in FilledPolygon_from FilledPolygon_step FilledPolygon_default. Qed.
Lemma FillSegments_gather : collects_args FillSegments_from 0 ["pts"]%string Position_from zs_coordinates.
Proof. collect_in FillSegments_from FillSegments_step FillSegments_default. Qed.
Lemma Zone_gather : copies_args Zone_from 0 ["layers"; "layer"]%string zo_layers
  /\ collects Zone_from 0 ["polygon"]%string ZonePolygon_from zo_polygons
  /\ collects Zone_from 0 ["filled_polygon"]%string FilledPolygon_from zo_filledPolygons.
Proof. repeat apply conj; collect_in Zone_from Zone_step Zone_default. Qed.
