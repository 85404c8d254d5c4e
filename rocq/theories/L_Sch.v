(** Proofs about the classes of items/schitems.py. *)
From Verif Require Import PyBase PyNum PyStr PyRe Sexpr S_Leaf S_Tree S_Id S_Fix M_Common S_Common M_Sym S_Sym M_Footprint S_Footprint M_Sch S_Sch
  L_Lex L_Tok L_Num L_Seq L_Parse L_Tac L_Common L_Fp L_Gr L_Zone L_Id L_SymId L_Symbol L_Pad L_Footprint L_Dim L_Fix L_Board.

Lemma NoConnect_wr o i n : NoConnect_ok o = true -> Wr (NoConnect_to o i n) (flat (NoConnect_tree (NoConnect_norm o))).
Proof. wr NoConnect_to NoConnect_ok NoConnect_tree NoConnect_norm. Qed.
#[export] Hint Resolve NoConnect_wr : wr.
Lemma NoConnect_idem o : NoConnect_norm (NoConnect_norm o) = NoConnect_norm o.
Proof. idem NoConnect_norm. Qed.
#[export] Hint Rewrite NoConnect_idem : idem.
Lemma NoConnect_okn o : NoConnect_ok o = true -> NoConnect_ok (NoConnect_norm o) = true.
Proof. okn NoConnect_ok NoConnect_norm. Qed.
#[export] Hint Resolve NoConnect_okn : okn.
Lemma NoConnect_hd o : exists l, NoConnect_tree o = node "no_connect" l.
Proof. eexists. reflexivity. Qed.
#[export] Hint Resolve NoConnect_hd : hd.
Lemma NoConnect_rd o : NoConnect_ok o = true -> NoConnect_from (NoConnect_tree o) = Ok o.
Proof. rd NoConnect_ok NoConnect_from NoConnect_tree NoConnect_step. Qed.
#[export] Hint Resolve NoConnect_rd : rd.
Lemma NoConnect_same o : NoConnect_eqb o (NoConnect_norm o) = true.
Proof. same NoConnect_eqb NoConnect_norm. Qed.
#[export] Hint Resolve NoConnect_same : same.
Lemma NoConnect_rt : roundtrips NoConnect_to NoConnect_from NoConnect_ok NoConnect_norm NoConnect_eqb.
Proof. exact (rt_of _ _ _ NoConnect_tree _ _ NoConnect_wr NoConnect_rd NoConnect_same NoConnect_okn NoConnect_idem). Qed.
Lemma NoConnect_fmt : conforms NoConnect_to NoConnect_from NoConnect_ok NoConnect_norm NoConnect_tree.
Proof. exact (fmt_of _ _ _ _ _ NoConnect_wr NoConnect_rd). Qed.
Lemma NoConnect_ref : refuses NoConnect_from ["no_connect"%string].
Proof. refuse NoConnect_from. Qed.
Lemma NoConnect_ign : ignores NoConnect_from 0 ["at"%string; "uuid"%string].
Proof. ign NoConnect_from NoConnect_step O. Qed.
Lemma NoConnect_win : last_wins NoConnect_from 0 ["at"%string; "uuid"%string].
Proof. wins NoConnect_from NoConnect_step O. Qed.
Global Opaque NoConnect_from NoConnect_tree NoConnect_to NoConnect_norm NoConnect_ok NoConnect_eqb.

Lemma BusEntry_wr o i n : BusEntry_ok o = true -> Wr (BusEntry_to o i n) (flat (BusEntry_tree (BusEntry_norm o))).
Proof. wr BusEntry_to BusEntry_ok BusEntry_tree BusEntry_norm. Qed.
#[export] Hint Resolve BusEntry_wr : wr.
Lemma BusEntry_idem o : BusEntry_norm (BusEntry_norm o) = BusEntry_norm o.
Proof. idem BusEntry_norm. Qed.
#[export] Hint Rewrite BusEntry_idem : idem.
Lemma BusEntry_okn o : BusEntry_ok o = true -> BusEntry_ok (BusEntry_norm o) = true.
Proof. okn BusEntry_ok BusEntry_norm. Qed.
#[export] Hint Resolve BusEntry_okn : okn.
Lemma BusEntry_hd o : exists l, BusEntry_tree o = node "bus_entry" l.
Proof. eexists. reflexivity. Qed.
#[export] Hint Resolve BusEntry_hd : hd.
Lemma BusEntry_rd o : BusEntry_ok o = true -> BusEntry_from (BusEntry_tree o) = Ok o.
Proof. rd BusEntry_ok BusEntry_from BusEntry_tree BusEntry_step. Qed.
#[export] Hint Resolve BusEntry_rd : rd.
Lemma BusEntry_same o : BusEntry_eqb o (BusEntry_norm o) = true.
Proof. same BusEntry_eqb BusEntry_norm. Qed.
#[export] Hint Resolve BusEntry_same : same.
Lemma BusEntry_rt : roundtrips BusEntry_to BusEntry_from BusEntry_ok BusEntry_norm BusEntry_eqb.
Proof. exact (rt_of _ _ _ BusEntry_tree _ _ BusEntry_wr BusEntry_rd BusEntry_same BusEntry_okn BusEntry_idem). Qed.
Lemma BusEntry_fmt : conforms BusEntry_to BusEntry_from BusEntry_ok BusEntry_norm BusEntry_tree.
Proof. exact (fmt_of _ _ _ _ _ BusEntry_wr BusEntry_rd). Qed.
Lemma BusEntry_ref : refuses BusEntry_from ["bus_entry"%string].
Proof. refuse BusEntry_from. Qed.
Lemma BusEntry_ign : ignores BusEntry_from 0 ["at"%string; "stroke"%string; "size"%string; "uuid"%string].
Proof. ign BusEntry_from BusEntry_step O. Qed.
Lemma BusEntry_win : last_wins BusEntry_from 0 ["at"%string; "stroke"%string; "size"%string; "uuid"%string].
Proof. wins BusEntry_from BusEntry_step O. Qed.
Global Opaque BusEntry_from BusEntry_tree BusEntry_to BusEntry_norm BusEntry_ok BusEntry_eqb.

(** points on one line, each after a blank *)
Lemma sch_pts_line l : forallb pos2_ok l = true -> exists s, sch_pts l = Ok s /\ Seq KW s KW (flats (map (xy_tree "xy") (map Position_norm l))).
Proof.
  intros H. destruct l as [|p l]; [exists []; split; [reflexivity|]; exact (Seq_nil KW)|].
  destruct (xy_line (p :: l) H eq_refl) as (s & Es & _ & Hs). exists s. split; [exact Es|].
  eapply Seq_weaken; [|apply (Seq_start KQ KW); [reflexivity|exact Hs]]. reflexivity.
Qed.
Lemma PolyLine_wr o i n : PolyLine_ok o = true -> Wr (PolyLine_to o i n) (flat (PolyLine_tree (PolyLine_norm o))).
Proof.
  intros H. unfold PolyLine_ok in H. facts. unfold PolyLine_to.
  destruct (sch_pts_line (pl_points o)) as (s & Es & Hs); [assumption|]. rewrite Es. cbn [bind].
  eapply Wr_eq; [wr_go|unfold PolyLine_tree, PolyLine_norm; cbn; tpeel].
Qed.
#[export] Hint Resolve PolyLine_wr : wr.
Lemma PolyLine_idem o : PolyLine_norm (PolyLine_norm o) = PolyLine_norm o.
Proof. idem PolyLine_norm. Qed.
#[export] Hint Rewrite PolyLine_idem : idem.
Lemma PolyLine_okn o : PolyLine_ok o = true -> PolyLine_ok (PolyLine_norm o) = true.
Proof. okn PolyLine_ok PolyLine_norm. Qed.
#[export] Hint Resolve PolyLine_okn : okn.
Lemma PolyLine_hd o : exists l, PolyLine_tree o = node "polyline" l.
Proof. eexists. reflexivity. Qed.
#[export] Hint Resolve PolyLine_hd : hd.
Lemma PolyLine_rd o : PolyLine_ok o = true -> PolyLine_from (PolyLine_tree o) = Ok o.
Proof. rd PolyLine_ok PolyLine_from PolyLine_tree PolyLine_step. Qed.
#[export] Hint Resolve PolyLine_rd : rd.
Lemma PolyLine_same o : PolyLine_eqb o (PolyLine_norm o) = true.
Proof. same PolyLine_eqb PolyLine_norm. Qed.
#[export] Hint Resolve PolyLine_same : same.
Lemma PolyLine_rt : roundtrips PolyLine_to PolyLine_from PolyLine_ok PolyLine_norm PolyLine_eqb.
Proof. exact (rt_of _ _ _ PolyLine_tree _ _ PolyLine_wr PolyLine_rd PolyLine_same PolyLine_okn PolyLine_idem). Qed.
Lemma PolyLine_fmt : conforms PolyLine_to PolyLine_from PolyLine_ok PolyLine_norm PolyLine_tree.
Proof. exact (fmt_of _ _ _ _ _ PolyLine_wr PolyLine_rd). Qed.
Lemma PolyLine_ref : refuses PolyLine_from ["polyline"%string].
Proof. refuse PolyLine_from. Qed.
Lemma PolyLine_ign : ignores PolyLine_from 0 ["pts"%string; "stroke"%string; "uuid"%string].
Proof. ign PolyLine_from PolyLine_step O. Qed.
Lemma PolyLine_win : last_wins PolyLine_from 0 ["stroke"%string; "uuid"%string].
Proof. wins PolyLine_from PolyLine_step O. Qed.
Global Opaque PolyLine_from PolyLine_tree PolyLine_to PolyLine_norm PolyLine_ok PolyLine_eqb.

Lemma Connection_wr o i n : Connection_ok o = true -> Wr (Connection_to o i n) (flat (Connection_tree (Connection_norm o))).
Proof.
  intros H. unfold Connection_ok in H. facts. unfold Connection_to.
  destruct (sch_pts_line (cx_points o)) as (s & Es & Hs); [assumption|]. rewrite Es. cbn [bind].
  eapply Wr_eq; [wr_go|unfold Connection_tree, Connection_norm; cbn; tpeel].
Qed.
#[export] Hint Resolve Connection_wr : wr.
Lemma Connection_rd o : Connection_ok o = true -> Connection_from (Connection_tree o) = Ok o.
Proof.
  intros H. destruct o as [t l s u]. unfold Connection_ok in H. cbn in H. andbs.
  enum_cases H t; unfold Connection_from, Connection_tree; rd_post Connection_step;
    match goal with Hst : ?st = Connection_step |- _ => rd_loop st Connection_step end.
Qed.
#[export] Hint Resolve Connection_rd : rd.
Lemma Connection_idem o : Connection_norm (Connection_norm o) = Connection_norm o.
Proof. idem Connection_norm. Qed.
#[export] Hint Rewrite Connection_idem : idem.
Lemma Connection_okn o : Connection_ok o = true -> Connection_ok (Connection_norm o) = true.
Proof. okn Connection_ok Connection_norm. Qed.
#[export] Hint Resolve Connection_okn : okn.
Lemma Connection_same o : Connection_eqb o (Connection_norm o) = true.
Proof. same Connection_eqb Connection_norm. Qed.
#[export] Hint Resolve Connection_same : same.
Lemma Connection_rt : roundtrips Connection_to Connection_from Connection_ok Connection_norm Connection_eqb.
Proof. exact (rt_of _ _ _ Connection_tree _ _ Connection_wr Connection_rd Connection_same Connection_okn Connection_idem). Qed.
Lemma Connection_fmt : conforms Connection_to Connection_from Connection_ok Connection_norm Connection_tree.
Proof. exact (fmt_of _ _ _ _ _ Connection_wr Connection_rd). Qed.
Lemma Connection_ref : refuses Connection_from ["wire"%string; "bus"%string].
Proof. refuse Connection_from. Qed.
Lemma Connection_ign : ignores Connection_from 0 ["pts"%string; "stroke"%string; "uuid"%string].
Proof. ign Connection_from Connection_step O. Qed.
Lemma Connection_win : last_wins Connection_from 0 ["stroke"%string; "uuid"%string].
Proof. wins Connection_from Connection_step O. Qed.
Global Opaque Connection_from Connection_tree Connection_to Connection_norm Connection_ok Connection_eqb.

Lemma Seq_quoted_join l : forallb txtb l = true -> Seq KC (quoted_join l) KQ (flats l).
Proof.
  induction l as [|x l IH]; intros H; [rewrite flats_nil; eapply Seq_weaken; [|apply Seq_nil]; reflexivity|].
  cbn [forallb] in H. andbs. rewrite flats_cons. destruct l as [|y l].
  - cbn [quoted_join]. rewrite flats_nil, app_nil_r. now apply Seq_quoted.
  - change (quoted_join (x :: y :: l)) with (quoted x ++ $" " ++ quoted_join (y :: l)).
    eapply Seq_app; [now apply Seq_quoted|]. eapply (Seq_app KQ $" " KC []); [now apply Seq_lit|]. exact (IH H0).
Qed.
Global Arguments quoted_join : simpl never.
#[export] Hint Resolve Seq_quoted_join : wr.
Lemma BusAlias_wr o i n : BusAlias_ok o = true -> Wr (BusAlias_to o i n) (flat (BusAlias_tree (BusAlias_norm o))).
Proof. wr BusAlias_to BusAlias_ok BusAlias_tree BusAlias_norm. Qed.
#[export] Hint Resolve BusAlias_wr : wr.
Lemma BusAlias_idem o : BusAlias_norm (BusAlias_norm o) = BusAlias_norm o.
Proof. idem BusAlias_norm. Qed.
#[export] Hint Rewrite BusAlias_idem : idem.
Lemma BusAlias_okn o : BusAlias_ok o = true -> BusAlias_ok (BusAlias_norm o) = true.
Proof. okn BusAlias_ok BusAlias_norm. Qed.
#[export] Hint Resolve BusAlias_okn : okn.
Lemma BusAlias_hd o : exists l, BusAlias_tree o = node "bus_alias" l.
Proof. eexists. reflexivity. Qed.
#[export] Hint Resolve BusAlias_hd : hd.
Lemma BusAlias_rd o : BusAlias_ok o = true -> BusAlias_from (BusAlias_tree o) = Ok o.
Proof. intros _. destruct o. reflexivity. Qed.
#[export] Hint Resolve BusAlias_rd : rd.
Lemma BusAlias_same o : BusAlias_eqb o (BusAlias_norm o) = true.
Proof. same BusAlias_eqb BusAlias_norm. Qed.
#[export] Hint Resolve BusAlias_same : same.
Lemma BusAlias_rt : roundtrips BusAlias_to BusAlias_from BusAlias_ok BusAlias_norm BusAlias_eqb.
Proof. exact (rt_of _ _ _ BusAlias_tree _ _ BusAlias_wr BusAlias_rd BusAlias_same BusAlias_okn BusAlias_idem). Qed.
Lemma BusAlias_fmt : conforms BusAlias_to BusAlias_from BusAlias_ok BusAlias_norm BusAlias_tree.
Proof. exact (fmt_of _ _ _ _ _ BusAlias_wr BusAlias_rd). Qed.
Lemma BusAlias_ref : refuses BusAlias_from ["bus_alias"%string].
Proof. refuse BusAlias_from. Qed.
Global Opaque BusAlias_from BusAlias_tree BusAlias_to BusAlias_norm BusAlias_ok BusAlias_eqb.

Lemma Text_wr o i n : Text_ok o = true -> Wr (Text_to o i n) (flat (Text_tree (Text_norm o))).
Proof.
  intros H. unfold Text_ok in H. facts. unfold Text_to.
  assert (E : exists k, len_ (tx_text o) = Ok k) by (destruct (tx_text o); try discriminate; eexists; reflexivity).
  destruct E as [k ->]. cbn [bind]. destruct (Nat.leb 50 k); (eapply Wr_eq; [wr_go|unfold Text_tree, Text_norm; cbn; tpeel]).
Qed.
#[export] Hint Resolve Text_wr : wr.
Lemma Text_idem o : Text_norm (Text_norm o) = Text_norm o.
Proof. idem Text_norm. Qed.
#[export] Hint Rewrite Text_idem : idem.
Lemma Text_okn o : Text_ok o = true -> Text_ok (Text_norm o) = true.
Proof. okn Text_ok Text_norm. Qed.
#[export] Hint Resolve Text_okn : okn.
Lemma Text_hd o : exists l, Text_tree o = node "text" l.
Proof. eexists. reflexivity. Qed.
#[export] Hint Resolve Text_hd : hd.
Lemma Text_rd o : Text_ok o = true -> Text_from (Text_tree o) = Ok o.
Proof. rd Text_ok Text_from Text_tree Text_step. Qed.
#[export] Hint Resolve Text_rd : rd.
Lemma Text_same o : Text_eqb o (Text_norm o) = true.
Proof. same Text_eqb Text_norm. Qed.
#[export] Hint Resolve Text_same : same.
Lemma Text_rt : roundtrips Text_to Text_from Text_ok Text_norm Text_eqb.
Proof. exact (rt_of _ _ _ Text_tree _ _ Text_wr Text_rd Text_same Text_okn Text_idem). Qed.
Lemma Text_fmt : conforms Text_to Text_from Text_ok Text_norm Text_tree.
Proof. exact (fmt_of _ _ _ _ _ Text_wr Text_rd). Qed.
Lemma Text_ref : refuses Text_from ["text"%string].
Proof. refuse Text_from. Qed.
Lemma Text_ign : ignores Text_from 1 ["at"%string; "effects"%string; "uuid"%string].
Proof. ign Text_from Text_step (S O). Qed.
Lemma Text_win : last_wins Text_from 1 ["at"%string; "effects"%string; "uuid"%string].
Proof. wins Text_from Text_step (S O). Qed.
Global Opaque Text_from Text_tree Text_to Text_norm Text_ok Text_eqb.

Lemma TextBox_wr o i n : TextBox_ok o = true -> Wr (TextBox_to o i n) (flat (TextBox_tree (TextBox_norm o))).
Proof. wr TextBox_to TextBox_ok TextBox_tree TextBox_norm. Qed.
#[export] Hint Resolve TextBox_wr : wr.
Lemma TextBox_idem o : TextBox_norm (TextBox_norm o) = TextBox_norm o.
Proof. idem TextBox_norm. Qed.
#[export] Hint Rewrite TextBox_idem : idem.
Lemma TextBox_okn o : TextBox_ok o = true -> TextBox_ok (TextBox_norm o) = true.
Proof. okn TextBox_ok TextBox_norm. Qed.
#[export] Hint Resolve TextBox_okn : okn.
Lemma TextBox_hd o : exists l, TextBox_tree o = node "text_box" l.
Proof. eexists. reflexivity. Qed.
#[export] Hint Resolve TextBox_hd : hd.
Lemma TextBox_rd o : TextBox_ok o = true -> TextBox_from (TextBox_tree o) = Ok o.
Proof. rd TextBox_ok TextBox_from TextBox_tree TextBox_step. Qed.
#[export] Hint Resolve TextBox_rd : rd.
Lemma TextBox_same o : TextBox_eqb o (TextBox_norm o) = true.
Proof. same TextBox_eqb TextBox_norm. Qed.
#[export] Hint Resolve TextBox_same : same.
Lemma TextBox_rt : roundtrips TextBox_to TextBox_from TextBox_ok TextBox_norm TextBox_eqb.
Proof. exact (rt_of _ _ _ TextBox_tree _ _ TextBox_wr TextBox_rd TextBox_same TextBox_okn TextBox_idem). Qed.
Lemma TextBox_fmt : conforms TextBox_to TextBox_from TextBox_ok TextBox_norm TextBox_tree.
Proof. exact (fmt_of _ _ _ _ _ TextBox_wr TextBox_rd). Qed.
Lemma TextBox_ref : refuses TextBox_from ["text_box"%string].
Proof. refuse TextBox_from. Qed.
Lemma TextBox_ign : ignores TextBox_from 1 ["at"%string; "size"%string; "effects"%string; "stroke"%string; "fill"%string; "uuid"%string].
Proof. ign TextBox_from TextBox_step (S O). Qed.
Lemma TextBox_win : last_wins TextBox_from 1 ["at"%string; "size"%string; "effects"%string; "stroke"%string; "fill"%string; "uuid"%string].
Proof. wins TextBox_from TextBox_step (S O). Qed.
Global Opaque TextBox_from TextBox_tree TextBox_to TextBox_norm TextBox_ok TextBox_eqb.

Lemma LocalLabel_wr o i n : LocalLabel_ok o = true -> Wr (LocalLabel_to o i n) (flat (LocalLabel_tree (LocalLabel_norm o))).
Proof. wr LocalLabel_to LocalLabel_ok LocalLabel_tree LocalLabel_norm. Qed.
#[export] Hint Resolve LocalLabel_wr : wr.
Lemma LocalLabel_idem o : LocalLabel_norm (LocalLabel_norm o) = LocalLabel_norm o.
Proof. idem LocalLabel_norm. Qed.
#[export] Hint Rewrite LocalLabel_idem : idem.
Lemma LocalLabel_okn o : LocalLabel_ok o = true -> LocalLabel_ok (LocalLabel_norm o) = true.
Proof. okn LocalLabel_ok LocalLabel_norm. Qed.
#[export] Hint Resolve LocalLabel_okn : okn.
Lemma LocalLabel_hd o : exists l, LocalLabel_tree o = node "label" l.
Proof. eexists. reflexivity. Qed.
#[export] Hint Resolve LocalLabel_hd : hd.
Lemma LocalLabel_rd o : LocalLabel_ok o = true -> LocalLabel_from (LocalLabel_tree o) = Ok o.
Proof. rd LocalLabel_ok LocalLabel_from LocalLabel_tree LocalLabel_step. Qed.
#[export] Hint Resolve LocalLabel_rd : rd.
Lemma LocalLabel_same o : LocalLabel_eqb o (LocalLabel_norm o) = true.
Proof. same LocalLabel_eqb LocalLabel_norm. Qed.
#[export] Hint Resolve LocalLabel_same : same.
Lemma LocalLabel_rt : roundtrips LocalLabel_to LocalLabel_from LocalLabel_ok LocalLabel_norm LocalLabel_eqb.
Proof. exact (rt_of _ _ _ LocalLabel_tree _ _ LocalLabel_wr LocalLabel_rd LocalLabel_same LocalLabel_okn LocalLabel_idem). Qed.
Lemma LocalLabel_fmt : conforms LocalLabel_to LocalLabel_from LocalLabel_ok LocalLabel_norm LocalLabel_tree.
Proof. exact (fmt_of _ _ _ _ _ LocalLabel_wr LocalLabel_rd). Qed.
Lemma LocalLabel_ref : refuses LocalLabel_from ["label"%string].
Proof. refuse LocalLabel_from. Qed.
Lemma LocalLabel_ign : ignores LocalLabel_from 1 ["at"%string; "effects"%string; "uuid"%string; "fields_autoplaced"%string].
Proof. ign LocalLabel_from LocalLabel_step (S O). Qed.
Lemma LocalLabel_win : last_wins LocalLabel_from 1 ["at"%string; "effects"%string; "uuid"%string; "fields_autoplaced"%string].
Proof. wins LocalLabel_from LocalLabel_step (S O). Qed.
Global Opaque LocalLabel_from LocalLabel_tree LocalLabel_to LocalLabel_norm LocalLabel_ok LocalLabel_eqb.

Lemma GlobalLabel_wr o i n : GlobalLabel_ok o = true -> Wr (GlobalLabel_to o i n) (flat (GlobalLabel_tree (GlobalLabel_norm o))).
Proof. wr GlobalLabel_to GlobalLabel_ok GlobalLabel_tree GlobalLabel_norm. Qed.
#[export] Hint Resolve GlobalLabel_wr : wr.
Lemma GlobalLabel_idem o : GlobalLabel_norm (GlobalLabel_norm o) = GlobalLabel_norm o.
Proof. idem GlobalLabel_norm. Qed.
#[export] Hint Rewrite GlobalLabel_idem : idem.
Lemma GlobalLabel_okn o : GlobalLabel_ok o = true -> GlobalLabel_ok (GlobalLabel_norm o) = true.
Proof. okn GlobalLabel_ok GlobalLabel_norm. Qed.
#[export] Hint Resolve GlobalLabel_okn : okn.
Lemma GlobalLabel_hd o : exists l, GlobalLabel_tree o = node "global_label" l.
Proof. eexists. reflexivity. Qed.
#[export] Hint Resolve GlobalLabel_hd : hd.
Lemma GlobalLabel_rd o : GlobalLabel_ok o = true -> GlobalLabel_from (GlobalLabel_tree o) = Ok o.
Proof. rd GlobalLabel_ok GlobalLabel_from GlobalLabel_tree GlobalLabel_step. Qed.
#[export] Hint Resolve GlobalLabel_rd : rd.
Lemma GlobalLabel_same o : GlobalLabel_eqb o (GlobalLabel_norm o) = true.
Proof. same GlobalLabel_eqb GlobalLabel_norm. Qed.
#[export] Hint Resolve GlobalLabel_same : same.
Lemma GlobalLabel_rt : roundtrips GlobalLabel_to GlobalLabel_from GlobalLabel_ok GlobalLabel_norm GlobalLabel_eqb.
Proof. exact (rt_of _ _ _ GlobalLabel_tree _ _ GlobalLabel_wr GlobalLabel_rd GlobalLabel_same GlobalLabel_okn GlobalLabel_idem). Qed.
Lemma GlobalLabel_fmt : conforms GlobalLabel_to GlobalLabel_from GlobalLabel_ok GlobalLabel_norm GlobalLabel_tree.
Proof. exact (fmt_of _ _ _ _ _ GlobalLabel_wr GlobalLabel_rd). Qed.
Lemma GlobalLabel_ref : refuses GlobalLabel_from ["global_label"%string].
Proof. refuse GlobalLabel_from. Qed.
Lemma GlobalLabel_ign : ignores GlobalLabel_from 1 ["fields_autoplaced"%string; "at"%string; "effects"%string; "property"%string; "shape"%string; "uuid"%string].
Proof. ign GlobalLabel_from GlobalLabel_step (S O). Qed.
Lemma GlobalLabel_win : last_wins GlobalLabel_from 1 ["fields_autoplaced"%string; "at"%string; "effects"%string; "shape"%string; "uuid"%string].
Proof. wins GlobalLabel_from GlobalLabel_step (S O). Qed.
Global Opaque GlobalLabel_from GlobalLabel_tree GlobalLabel_to GlobalLabel_norm GlobalLabel_ok GlobalLabel_eqb.

Lemma HierarchicalLabel_wr o i n : HierarchicalLabel_ok o = true -> Wr (HierarchicalLabel_to o i n) (flat (HierarchicalLabel_tree (HierarchicalLabel_norm o))).
Proof. wr HierarchicalLabel_to HierarchicalLabel_ok HierarchicalLabel_tree HierarchicalLabel_norm. Qed.
#[export] Hint Resolve HierarchicalLabel_wr : wr.
Lemma HierarchicalLabel_idem o : HierarchicalLabel_norm (HierarchicalLabel_norm o) = HierarchicalLabel_norm o.
Proof. idem HierarchicalLabel_norm. Qed.
#[export] Hint Rewrite HierarchicalLabel_idem : idem.
Lemma HierarchicalLabel_okn o : HierarchicalLabel_ok o = true -> HierarchicalLabel_ok (HierarchicalLabel_norm o) = true.
Proof. okn HierarchicalLabel_ok HierarchicalLabel_norm. Qed.
#[export] Hint Resolve HierarchicalLabel_okn : okn.
Lemma HierarchicalLabel_hd o : exists l, HierarchicalLabel_tree o = node "hierarchical_label" l.
Proof. eexists. reflexivity. Qed.
#[export] Hint Resolve HierarchicalLabel_hd : hd.
Lemma HierarchicalLabel_rd o : HierarchicalLabel_ok o = true -> HierarchicalLabel_from (HierarchicalLabel_tree o) = Ok o.
Proof. rd HierarchicalLabel_ok HierarchicalLabel_from HierarchicalLabel_tree HierarchicalLabel_step. Qed.
#[export] Hint Resolve HierarchicalLabel_rd : rd.
Lemma HierarchicalLabel_same o : HierarchicalLabel_eqb o (HierarchicalLabel_norm o) = true.
Proof. same HierarchicalLabel_eqb HierarchicalLabel_norm. Qed.
#[export] Hint Resolve HierarchicalLabel_same : same.
Lemma HierarchicalLabel_rt : roundtrips HierarchicalLabel_to HierarchicalLabel_from HierarchicalLabel_ok HierarchicalLabel_norm HierarchicalLabel_eqb.
Proof. exact (rt_of _ _ _ HierarchicalLabel_tree _ _ HierarchicalLabel_wr HierarchicalLabel_rd HierarchicalLabel_same HierarchicalLabel_okn HierarchicalLabel_idem). Qed.
Lemma HierarchicalLabel_fmt : conforms HierarchicalLabel_to HierarchicalLabel_from HierarchicalLabel_ok HierarchicalLabel_norm HierarchicalLabel_tree.
Proof. exact (fmt_of _ _ _ _ _ HierarchicalLabel_wr HierarchicalLabel_rd). Qed.
Lemma HierarchicalLabel_ref : refuses HierarchicalLabel_from ["hierarchical_label"%string].
Proof. refuse HierarchicalLabel_from. Qed.
Lemma HierarchicalLabel_ign : ignores HierarchicalLabel_from 1 ["at"%string; "effects"%string; "shape"%string; "uuid"%string; "fields_autoplaced"%string].
Proof. ign HierarchicalLabel_from HierarchicalLabel_step (S O). Qed.
Lemma HierarchicalLabel_win : last_wins HierarchicalLabel_from 1 ["at"%string; "effects"%string; "shape"%string; "uuid"%string; "fields_autoplaced"%string].
Proof. wins HierarchicalLabel_from HierarchicalLabel_step (S O). Qed.
Global Opaque HierarchicalLabel_from HierarchicalLabel_tree HierarchicalLabel_to HierarchicalLabel_norm HierarchicalLabel_ok HierarchicalLabel_eqb.

Lemma SymbolProjectPath_wr o i n : SymbolProjectPath_ok o = true -> Wr (SymbolProjectPath_to o i n) (flat (SymbolProjectPath_tree (SymbolProjectPath_norm o))).
Proof. wr SymbolProjectPath_to SymbolProjectPath_ok SymbolProjectPath_tree SymbolProjectPath_norm. Qed.
#[export] Hint Resolve SymbolProjectPath_wr : wr.
Lemma SymbolProjectPath_idem o : SymbolProjectPath_norm (SymbolProjectPath_norm o) = SymbolProjectPath_norm o.
Proof. idem SymbolProjectPath_norm. Qed.
#[export] Hint Rewrite SymbolProjectPath_idem : idem.
Lemma SymbolProjectPath_okn o : SymbolProjectPath_ok o = true -> SymbolProjectPath_ok (SymbolProjectPath_norm o) = true.
Proof. okn SymbolProjectPath_ok SymbolProjectPath_norm. Qed.
#[export] Hint Resolve SymbolProjectPath_okn : okn.
Lemma SymbolProjectPath_hd o : exists l, SymbolProjectPath_tree o = node "path" l.
Proof. eexists. reflexivity. Qed.
#[export] Hint Resolve SymbolProjectPath_hd : hd.
Lemma SymbolProjectPath_rd o : SymbolProjectPath_ok o = true -> SymbolProjectPath_from (SymbolProjectPath_tree o) = Ok o.
Proof. rd SymbolProjectPath_ok SymbolProjectPath_from SymbolProjectPath_tree SymbolProjectPath_step. Qed.
#[export] Hint Resolve SymbolProjectPath_rd : rd.
Lemma SymbolProjectPath_same o : SymbolProjectPath_eqb o (SymbolProjectPath_norm o) = true.
Proof. same SymbolProjectPath_eqb SymbolProjectPath_norm. Qed.
#[export] Hint Resolve SymbolProjectPath_same : same.
Lemma SymbolProjectPath_rt : roundtrips SymbolProjectPath_to SymbolProjectPath_from SymbolProjectPath_ok SymbolProjectPath_norm SymbolProjectPath_eqb.
Proof. exact (rt_of _ _ _ SymbolProjectPath_tree _ _ SymbolProjectPath_wr SymbolProjectPath_rd SymbolProjectPath_same SymbolProjectPath_okn SymbolProjectPath_idem). Qed.
Lemma SymbolProjectPath_fmt : conforms SymbolProjectPath_to SymbolProjectPath_from SymbolProjectPath_ok SymbolProjectPath_norm SymbolProjectPath_tree.
Proof. exact (fmt_of _ _ _ _ _ SymbolProjectPath_wr SymbolProjectPath_rd). Qed.
Lemma SymbolProjectPath_ref : refuses SymbolProjectPath_from ["path"%string].
Proof. refuse SymbolProjectPath_from. Qed.
Lemma SymbolProjectPath_ign : ignores SymbolProjectPath_from 1 ["reference"%string; "unit"%string].
Proof. ign SymbolProjectPath_from SymbolProjectPath_step (S O). Qed.
Lemma SymbolProjectPath_win : last_wins SymbolProjectPath_from 1 ["reference"%string; "unit"%string].
Proof. wins SymbolProjectPath_from SymbolProjectPath_step (S O). Qed.
Global Opaque SymbolProjectPath_from SymbolProjectPath_tree SymbolProjectPath_to SymbolProjectPath_norm SymbolProjectPath_ok SymbolProjectPath_eqb.

Lemma SymbolProjectInstance_wr o i n : SymbolProjectInstance_ok o = true -> Wr (SymbolProjectInstance_to o i n) (flat (SymbolProjectInstance_tree (SymbolProjectInstance_norm o))).
Proof. wr SymbolProjectInstance_to SymbolProjectInstance_ok SymbolProjectInstance_tree SymbolProjectInstance_norm. Qed.
#[export] Hint Resolve SymbolProjectInstance_wr : wr.
Lemma SymbolProjectInstance_idem o : SymbolProjectInstance_norm (SymbolProjectInstance_norm o) = SymbolProjectInstance_norm o.
Proof. idem SymbolProjectInstance_norm. Qed.
#[export] Hint Rewrite SymbolProjectInstance_idem : idem.
Lemma SymbolProjectInstance_okn o : SymbolProjectInstance_ok o = true -> SymbolProjectInstance_ok (SymbolProjectInstance_norm o) = true.
Proof. okn SymbolProjectInstance_ok SymbolProjectInstance_norm. Qed.
#[export] Hint Resolve SymbolProjectInstance_okn : okn.
Lemma SymbolProjectInstance_hd o : exists l, SymbolProjectInstance_tree o = node "project" l.
Proof. eexists. reflexivity. Qed.
#[export] Hint Resolve SymbolProjectInstance_hd : hd.
Lemma SymbolProjectInstance_rd o : SymbolProjectInstance_ok o = true -> SymbolProjectInstance_from (SymbolProjectInstance_tree o) = Ok o.
Proof. rd SymbolProjectInstance_ok SymbolProjectInstance_from SymbolProjectInstance_tree SymbolProjectInstance_step. Qed.
#[export] Hint Resolve SymbolProjectInstance_rd : rd.
Lemma SymbolProjectInstance_same o : SymbolProjectInstance_eqb o (SymbolProjectInstance_norm o) = true.
Proof. same SymbolProjectInstance_eqb SymbolProjectInstance_norm. Qed.
#[export] Hint Resolve SymbolProjectInstance_same : same.
Lemma SymbolProjectInstance_rt : roundtrips SymbolProjectInstance_to SymbolProjectInstance_from SymbolProjectInstance_ok SymbolProjectInstance_norm SymbolProjectInstance_eqb.
Proof. exact (rt_of _ _ _ SymbolProjectInstance_tree _ _ SymbolProjectInstance_wr SymbolProjectInstance_rd SymbolProjectInstance_same SymbolProjectInstance_okn SymbolProjectInstance_idem). Qed.
Lemma SymbolProjectInstance_fmt : conforms SymbolProjectInstance_to SymbolProjectInstance_from SymbolProjectInstance_ok SymbolProjectInstance_norm SymbolProjectInstance_tree.
Proof. exact (fmt_of _ _ _ _ _ SymbolProjectInstance_wr SymbolProjectInstance_rd). Qed.
Lemma SymbolProjectInstance_ref : refuses SymbolProjectInstance_from ["project"%string].
Proof. refuse SymbolProjectInstance_from. Qed.
Lemma SymbolProjectInstance_ign : ignores SymbolProjectInstance_from 1 ["path"%string].
Proof. ign SymbolProjectInstance_from SymbolProjectInstance_step (S O). Qed.
Global Opaque SymbolProjectInstance_from SymbolProjectInstance_tree SymbolProjectInstance_to SymbolProjectInstance_norm SymbolProjectInstance_ok SymbolProjectInstance_eqb.

Lemma HierarchicalPin_wr o i n : HierarchicalPin_ok o = true -> Wr (HierarchicalPin_to o i n) (flat (HierarchicalPin_tree (HierarchicalPin_norm o))).
Proof. wr HierarchicalPin_to HierarchicalPin_ok HierarchicalPin_tree HierarchicalPin_norm. Qed.
#[export] Hint Resolve HierarchicalPin_wr : wr.
Lemma HierarchicalPin_idem o : HierarchicalPin_norm (HierarchicalPin_norm o) = HierarchicalPin_norm o.
Proof. idem HierarchicalPin_norm. Qed.
#[export] Hint Rewrite HierarchicalPin_idem : idem.
Lemma HierarchicalPin_okn o : HierarchicalPin_ok o = true -> HierarchicalPin_ok (HierarchicalPin_norm o) = true.
Proof. okn HierarchicalPin_ok HierarchicalPin_norm. Qed.
#[export] Hint Resolve HierarchicalPin_okn : okn.
Lemma HierarchicalPin_hd o : exists l, HierarchicalPin_tree o = node "pin" l.
Proof. eexists. reflexivity. Qed.
#[export] Hint Resolve HierarchicalPin_hd : hd.
Lemma HierarchicalPin_rd o : HierarchicalPin_ok o = true -> HierarchicalPin_from (HierarchicalPin_tree o) = Ok o.
Proof. rd HierarchicalPin_ok HierarchicalPin_from HierarchicalPin_tree HierarchicalPin_step. Qed.
#[export] Hint Resolve HierarchicalPin_rd : rd.
Lemma HierarchicalPin_same o : HierarchicalPin_eqb o (HierarchicalPin_norm o) = true.
Proof. same HierarchicalPin_eqb HierarchicalPin_norm. Qed.
#[export] Hint Resolve HierarchicalPin_same : same.
Lemma HierarchicalPin_rt : roundtrips HierarchicalPin_to HierarchicalPin_from HierarchicalPin_ok HierarchicalPin_norm HierarchicalPin_eqb.
Proof. exact (rt_of _ _ _ HierarchicalPin_tree _ _ HierarchicalPin_wr HierarchicalPin_rd HierarchicalPin_same HierarchicalPin_okn HierarchicalPin_idem). Qed.
Lemma HierarchicalPin_fmt : conforms HierarchicalPin_to HierarchicalPin_from HierarchicalPin_ok HierarchicalPin_norm HierarchicalPin_tree.
Proof. exact (fmt_of _ _ _ _ _ HierarchicalPin_wr HierarchicalPin_rd). Qed.
Lemma HierarchicalPin_ref : refuses HierarchicalPin_from ["pin"%string].
Proof. refuse HierarchicalPin_from. Qed.
Lemma HierarchicalPin_ign : ignores HierarchicalPin_from 2 ["at"%string; "effects"%string; "uuid"%string].
Proof. ign HierarchicalPin_from HierarchicalPin_step (S (S O)). Qed.
Lemma HierarchicalPin_win : last_wins HierarchicalPin_from 2 ["at"%string; "effects"%string; "uuid"%string].
Proof. wins HierarchicalPin_from HierarchicalPin_step (S (S O)). Qed.
Global Opaque HierarchicalPin_from HierarchicalPin_tree HierarchicalPin_to HierarchicalPin_norm HierarchicalPin_ok HierarchicalPin_eqb.

Lemma HierarchicalSheetProjectPath_wr o i n : HierarchicalSheetProjectPath_ok o = true -> Wr (HierarchicalSheetProjectPath_to o i n) (flat (HierarchicalSheetProjectPath_tree (HierarchicalSheetProjectPath_norm o))).
Proof. wr HierarchicalSheetProjectPath_to HierarchicalSheetProjectPath_ok HierarchicalSheetProjectPath_tree HierarchicalSheetProjectPath_norm. Qed.
#[export] Hint Resolve HierarchicalSheetProjectPath_wr : wr.
Lemma HierarchicalSheetProjectPath_idem o : HierarchicalSheetProjectPath_norm (HierarchicalSheetProjectPath_norm o) = HierarchicalSheetProjectPath_norm o.
Proof. idem HierarchicalSheetProjectPath_norm. Qed.
#[export] Hint Rewrite HierarchicalSheetProjectPath_idem : idem.
Lemma HierarchicalSheetProjectPath_okn o : HierarchicalSheetProjectPath_ok o = true -> HierarchicalSheetProjectPath_ok (HierarchicalSheetProjectPath_norm o) = true.
Proof. okn HierarchicalSheetProjectPath_ok HierarchicalSheetProjectPath_norm. Qed.
#[export] Hint Resolve HierarchicalSheetProjectPath_okn : okn.
Lemma HierarchicalSheetProjectPath_hd o : exists l, HierarchicalSheetProjectPath_tree o = node "path" l.
Proof. eexists. reflexivity. Qed.
#[export] Hint Resolve HierarchicalSheetProjectPath_hd : hd.
Lemma HierarchicalSheetProjectPath_rd o : HierarchicalSheetProjectPath_ok o = true -> HierarchicalSheetProjectPath_from (HierarchicalSheetProjectPath_tree o) = Ok o.
Proof. rd HierarchicalSheetProjectPath_ok HierarchicalSheetProjectPath_from HierarchicalSheetProjectPath_tree HierarchicalSheetProjectPath_step. Qed.
#[export] Hint Resolve HierarchicalSheetProjectPath_rd : rd.
Lemma HierarchicalSheetProjectPath_same o : HierarchicalSheetProjectPath_eqb o (HierarchicalSheetProjectPath_norm o) = true.
Proof. same HierarchicalSheetProjectPath_eqb HierarchicalSheetProjectPath_norm. Qed.
#[export] Hint Resolve HierarchicalSheetProjectPath_same : same.
Lemma HierarchicalSheetProjectPath_rt : roundtrips HierarchicalSheetProjectPath_to HierarchicalSheetProjectPath_from HierarchicalSheetProjectPath_ok HierarchicalSheetProjectPath_norm HierarchicalSheetProjectPath_eqb.
Proof. exact (rt_of _ _ _ HierarchicalSheetProjectPath_tree _ _ HierarchicalSheetProjectPath_wr HierarchicalSheetProjectPath_rd HierarchicalSheetProjectPath_same HierarchicalSheetProjectPath_okn HierarchicalSheetProjectPath_idem). Qed.
Lemma HierarchicalSheetProjectPath_fmt : conforms HierarchicalSheetProjectPath_to HierarchicalSheetProjectPath_from HierarchicalSheetProjectPath_ok HierarchicalSheetProjectPath_norm HierarchicalSheetProjectPath_tree.
Proof. exact (fmt_of _ _ _ _ _ HierarchicalSheetProjectPath_wr HierarchicalSheetProjectPath_rd). Qed.
Lemma HierarchicalSheetProjectPath_ref : refuses HierarchicalSheetProjectPath_from ["path"%string].
Proof. refuse HierarchicalSheetProjectPath_from. Qed.
Lemma HierarchicalSheetProjectPath_ign : ignores HierarchicalSheetProjectPath_from 1 ["page"%string].
Proof. ign HierarchicalSheetProjectPath_from HierarchicalSheetProjectPath_step (S O). Qed.
Lemma HierarchicalSheetProjectPath_win : last_wins HierarchicalSheetProjectPath_from 1 ["page"%string].
Proof. wins HierarchicalSheetProjectPath_from HierarchicalSheetProjectPath_step (S O). Qed.
Global Opaque HierarchicalSheetProjectPath_from HierarchicalSheetProjectPath_tree HierarchicalSheetProjectPath_to HierarchicalSheetProjectPath_norm HierarchicalSheetProjectPath_ok HierarchicalSheetProjectPath_eqb.

Lemma HierarchicalSheetProjectInstance_wr o i n : HierarchicalSheetProjectInstance_ok o = true -> Wr (HierarchicalSheetProjectInstance_to o i n) (flat (HierarchicalSheetProjectInstance_tree (HierarchicalSheetProjectInstance_norm o))).
Proof. wr HierarchicalSheetProjectInstance_to HierarchicalSheetProjectInstance_ok HierarchicalSheetProjectInstance_tree HierarchicalSheetProjectInstance_norm. Qed.
#[export] Hint Resolve HierarchicalSheetProjectInstance_wr : wr.
Lemma HierarchicalSheetProjectInstance_idem o : HierarchicalSheetProjectInstance_norm (HierarchicalSheetProjectInstance_norm o) = HierarchicalSheetProjectInstance_norm o.
Proof. idem HierarchicalSheetProjectInstance_norm. Qed.
#[export] Hint Rewrite HierarchicalSheetProjectInstance_idem : idem.
Lemma HierarchicalSheetProjectInstance_okn o : HierarchicalSheetProjectInstance_ok o = true -> HierarchicalSheetProjectInstance_ok (HierarchicalSheetProjectInstance_norm o) = true.
Proof. okn HierarchicalSheetProjectInstance_ok HierarchicalSheetProjectInstance_norm. Qed.
#[export] Hint Resolve HierarchicalSheetProjectInstance_okn : okn.
Lemma HierarchicalSheetProjectInstance_hd o : exists l, HierarchicalSheetProjectInstance_tree o = node "project" l.
Proof. eexists. reflexivity. Qed.
#[export] Hint Resolve HierarchicalSheetProjectInstance_hd : hd.
Lemma HierarchicalSheetProjectInstance_rd o : HierarchicalSheetProjectInstance_ok o = true -> HierarchicalSheetProjectInstance_from (HierarchicalSheetProjectInstance_tree o) = Ok o.
Proof. rd HierarchicalSheetProjectInstance_ok HierarchicalSheetProjectInstance_from HierarchicalSheetProjectInstance_tree HierarchicalSheetProjectInstance_step. Qed.
#[export] Hint Resolve HierarchicalSheetProjectInstance_rd : rd.
Lemma HierarchicalSheetProjectInstance_same o : HierarchicalSheetProjectInstance_eqb o (HierarchicalSheetProjectInstance_norm o) = true.
Proof. same HierarchicalSheetProjectInstance_eqb HierarchicalSheetProjectInstance_norm. Qed.
#[export] Hint Resolve HierarchicalSheetProjectInstance_same : same.
Lemma HierarchicalSheetProjectInstance_rt : roundtrips HierarchicalSheetProjectInstance_to HierarchicalSheetProjectInstance_from HierarchicalSheetProjectInstance_ok HierarchicalSheetProjectInstance_norm HierarchicalSheetProjectInstance_eqb.
Proof. exact (rt_of _ _ _ HierarchicalSheetProjectInstance_tree _ _ HierarchicalSheetProjectInstance_wr HierarchicalSheetProjectInstance_rd HierarchicalSheetProjectInstance_same HierarchicalSheetProjectInstance_okn HierarchicalSheetProjectInstance_idem). Qed.
Lemma HierarchicalSheetProjectInstance_fmt : conforms HierarchicalSheetProjectInstance_to HierarchicalSheetProjectInstance_from HierarchicalSheetProjectInstance_ok HierarchicalSheetProjectInstance_norm HierarchicalSheetProjectInstance_tree.
Proof. exact (fmt_of _ _ _ _ _ HierarchicalSheetProjectInstance_wr HierarchicalSheetProjectInstance_rd). Qed.
Lemma HierarchicalSheetProjectInstance_ref : refuses HierarchicalSheetProjectInstance_from ["project"%string].
Proof. refuse HierarchicalSheetProjectInstance_from. Qed.
Lemma HierarchicalSheetProjectInstance_ign : ignores HierarchicalSheetProjectInstance_from 1 ["path"%string].
Proof. ign HierarchicalSheetProjectInstance_from HierarchicalSheetProjectInstance_step (S O). Qed.
Global Opaque HierarchicalSheetProjectInstance_from HierarchicalSheetProjectInstance_tree HierarchicalSheetProjectInstance_to HierarchicalSheetProjectInstance_norm HierarchicalSheetProjectInstance_ok HierarchicalSheetProjectInstance_eqb.

Lemma HierarchicalSheetInstance_wr o i n : HierarchicalSheetInstance_ok o = true -> Wr (HierarchicalSheetInstance_to o i n) (flat (HierarchicalSheetInstance_tree (HierarchicalSheetInstance_norm o))).
Proof. wr HierarchicalSheetInstance_to HierarchicalSheetInstance_ok HierarchicalSheetInstance_tree HierarchicalSheetInstance_norm. Qed.
#[export] Hint Resolve HierarchicalSheetInstance_wr : wr.
Lemma HierarchicalSheetInstance_idem o : HierarchicalSheetInstance_norm (HierarchicalSheetInstance_norm o) = HierarchicalSheetInstance_norm o.
Proof. idem HierarchicalSheetInstance_norm. Qed.
#[export] Hint Rewrite HierarchicalSheetInstance_idem : idem.
Lemma HierarchicalSheetInstance_okn o : HierarchicalSheetInstance_ok o = true -> HierarchicalSheetInstance_ok (HierarchicalSheetInstance_norm o) = true.
Proof. okn HierarchicalSheetInstance_ok HierarchicalSheetInstance_norm. Qed.
#[export] Hint Resolve HierarchicalSheetInstance_okn : okn.
Lemma HierarchicalSheetInstance_hd o : exists l, HierarchicalSheetInstance_tree o = node "path" l.
Proof. eexists. reflexivity. Qed.
#[export] Hint Resolve HierarchicalSheetInstance_hd : hd.
Lemma HierarchicalSheetInstance_rd o : HierarchicalSheetInstance_ok o = true -> HierarchicalSheetInstance_from (HierarchicalSheetInstance_tree o) = Ok o.
Proof. rd HierarchicalSheetInstance_ok HierarchicalSheetInstance_from HierarchicalSheetInstance_tree HierarchicalSheetInstance_step. Qed.
#[export] Hint Resolve HierarchicalSheetInstance_rd : rd.
Lemma HierarchicalSheetInstance_same o : HierarchicalSheetInstance_eqb o (HierarchicalSheetInstance_norm o) = true.
Proof. same HierarchicalSheetInstance_eqb HierarchicalSheetInstance_norm. Qed.
#[export] Hint Resolve HierarchicalSheetInstance_same : same.
Lemma HierarchicalSheetInstance_rt : roundtrips HierarchicalSheetInstance_to HierarchicalSheetInstance_from HierarchicalSheetInstance_ok HierarchicalSheetInstance_norm HierarchicalSheetInstance_eqb.
Proof. exact (rt_of _ _ _ HierarchicalSheetInstance_tree _ _ HierarchicalSheetInstance_wr HierarchicalSheetInstance_rd HierarchicalSheetInstance_same HierarchicalSheetInstance_okn HierarchicalSheetInstance_idem). Qed.
Lemma HierarchicalSheetInstance_fmt : conforms HierarchicalSheetInstance_to HierarchicalSheetInstance_from HierarchicalSheetInstance_ok HierarchicalSheetInstance_norm HierarchicalSheetInstance_tree.
Proof. exact (fmt_of _ _ _ _ _ HierarchicalSheetInstance_wr HierarchicalSheetInstance_rd). Qed.
Lemma HierarchicalSheetInstance_ref : refuses HierarchicalSheetInstance_from ["path"%string].
Proof. refuse HierarchicalSheetInstance_from. Qed.
Lemma HierarchicalSheetInstance_ign : ignores HierarchicalSheetInstance_from 1 ["page"%string].
Proof. ign HierarchicalSheetInstance_from HierarchicalSheetInstance_step (S O). Qed.
Lemma HierarchicalSheetInstance_win : last_wins HierarchicalSheetInstance_from 1 ["page"%string].
Proof. wins HierarchicalSheetInstance_from HierarchicalSheetInstance_step (S O). Qed.
Global Opaque HierarchicalSheetInstance_from HierarchicalSheetInstance_tree HierarchicalSheetInstance_to HierarchicalSheetInstance_norm HierarchicalSheetInstance_ok HierarchicalSheetInstance_eqb.

Lemma SymbolInstance_wr o i n : SymbolInstance_ok o = true -> Wr (SymbolInstance_to o i n) (flat (SymbolInstance_tree (SymbolInstance_norm o))).
Proof. wr SymbolInstance_to SymbolInstance_ok SymbolInstance_tree SymbolInstance_norm. Qed.
#[export] Hint Resolve SymbolInstance_wr : wr.
Lemma SymbolInstance_idem o : SymbolInstance_norm (SymbolInstance_norm o) = SymbolInstance_norm o.
Proof. idem SymbolInstance_norm. Qed.
#[export] Hint Rewrite SymbolInstance_idem : idem.
Lemma SymbolInstance_okn o : SymbolInstance_ok o = true -> SymbolInstance_ok (SymbolInstance_norm o) = true.
Proof. okn SymbolInstance_ok SymbolInstance_norm. Qed.
#[export] Hint Resolve SymbolInstance_okn : okn.
Lemma SymbolInstance_hd o : exists l, SymbolInstance_tree o = node "path" l.
Proof. eexists. reflexivity. Qed.
#[export] Hint Resolve SymbolInstance_hd : hd.
Lemma SymbolInstance_rd o : SymbolInstance_ok o = true -> SymbolInstance_from (SymbolInstance_tree o) = Ok o.
Proof. rd SymbolInstance_ok SymbolInstance_from SymbolInstance_tree SymbolInstance_step. Qed.
#[export] Hint Resolve SymbolInstance_rd : rd.
Lemma SymbolInstance_same o : SymbolInstance_eqb o (SymbolInstance_norm o) = true.
Proof. same SymbolInstance_eqb SymbolInstance_norm. Qed.
#[export] Hint Resolve SymbolInstance_same : same.
Lemma SymbolInstance_rt : roundtrips SymbolInstance_to SymbolInstance_from SymbolInstance_ok SymbolInstance_norm SymbolInstance_eqb.
Proof. exact (rt_of _ _ _ SymbolInstance_tree _ _ SymbolInstance_wr SymbolInstance_rd SymbolInstance_same SymbolInstance_okn SymbolInstance_idem). Qed.
Lemma SymbolInstance_fmt : conforms SymbolInstance_to SymbolInstance_from SymbolInstance_ok SymbolInstance_norm SymbolInstance_tree.
Proof. exact (fmt_of _ _ _ _ _ SymbolInstance_wr SymbolInstance_rd). Qed.
Lemma SymbolInstance_ref : refuses SymbolInstance_from ["path"%string].
Proof. refuse SymbolInstance_from. Qed.
Lemma SymbolInstance_ign : ignores SymbolInstance_from 1 ["reference"%string; "unit"%string; "value"%string; "footprint"%string].
Proof. ign SymbolInstance_from SymbolInstance_step (S O). Qed.
Lemma SymbolInstance_win : last_wins SymbolInstance_from 1 ["reference"%string; "unit"%string; "value"%string; "footprint"%string].
Proof. wins SymbolInstance_from SymbolInstance_step (S O). Qed.
Global Opaque SymbolInstance_from SymbolInstance_tree SymbolInstance_to SymbolInstance_norm SymbolInstance_ok SymbolInstance_eqb.

Lemma Rectangle_wr o i n : Rectangle_ok o = true -> Wr (Rectangle_to o i n) (flat (Rectangle_tree (Rectangle_norm o))).
Proof. wr Rectangle_to Rectangle_ok Rectangle_tree Rectangle_norm. Qed.
#[export] Hint Resolve Rectangle_wr : wr.
Lemma Rectangle_idem o : Rectangle_norm (Rectangle_norm o) = Rectangle_norm o.
Proof. idem Rectangle_norm. Qed.
#[export] Hint Rewrite Rectangle_idem : idem.
Lemma Rectangle_okn o : Rectangle_ok o = true -> Rectangle_ok (Rectangle_norm o) = true.
Proof. okn Rectangle_ok Rectangle_norm. Qed.
#[export] Hint Resolve Rectangle_okn : okn.
Lemma Rectangle_hd o : exists l, Rectangle_tree o = node "rectangle" l.
Proof. eexists. reflexivity. Qed.
#[export] Hint Resolve Rectangle_hd : hd.
Lemma Rectangle_rd o : Rectangle_ok o = true -> Rectangle_from (Rectangle_tree o) = Ok o.
Proof. rd Rectangle_ok Rectangle_from Rectangle_tree Rectangle_step. Qed.
#[export] Hint Resolve Rectangle_rd : rd.
Lemma Rectangle_same o : Rectangle_eqb o (Rectangle_norm o) = true.
Proof. same Rectangle_eqb Rectangle_norm. Qed.
#[export] Hint Resolve Rectangle_same : same.
Lemma Rectangle_rt : roundtrips Rectangle_to Rectangle_from Rectangle_ok Rectangle_norm Rectangle_eqb.
Proof. exact (rt_of _ _ _ Rectangle_tree _ _ Rectangle_wr Rectangle_rd Rectangle_same Rectangle_okn Rectangle_idem). Qed.
Lemma Rectangle_fmt : conforms Rectangle_to Rectangle_from Rectangle_ok Rectangle_norm Rectangle_tree.
Proof. exact (fmt_of _ _ _ _ _ Rectangle_wr Rectangle_rd). Qed.
Lemma Rectangle_ref : refuses Rectangle_from ["rectangle"%string].
Proof. refuse Rectangle_from. Qed.
Lemma Rectangle_ign : ignores Rectangle_from 0 ["start"%string; "end"%string; "stroke"%string; "fill"%string; "uuid"%string].
Proof. ign Rectangle_from Rectangle_step O. Qed.
Lemma Rectangle_win : last_wins Rectangle_from 0 ["start"%string; "end"%string; "stroke"%string; "fill"%string; "uuid"%string].
Proof. wins Rectangle_from Rectangle_step O. Qed.
Global Opaque Rectangle_from Rectangle_tree Rectangle_to Rectangle_norm Rectangle_ok Rectangle_eqb.

Lemma SchArc_wr o i n : SchArc_ok o = true -> Wr (SchArc_to o i n) (flat (SchArc_tree (SchArc_norm o))).
Proof. wr SchArc_to SchArc_ok SchArc_tree SchArc_norm. Qed.
#[export] Hint Resolve SchArc_wr : wr.
Lemma SchArc_idem o : SchArc_norm (SchArc_norm o) = SchArc_norm o.
Proof. idem SchArc_norm. Qed.
#[export] Hint Rewrite SchArc_idem : idem.
Lemma SchArc_okn o : SchArc_ok o = true -> SchArc_ok (SchArc_norm o) = true.
Proof. okn SchArc_ok SchArc_norm. Qed.
#[export] Hint Resolve SchArc_okn : okn.
Lemma SchArc_hd o : exists l, SchArc_tree o = node "arc" l.
Proof. eexists. reflexivity. Qed.
#[export] Hint Resolve SchArc_hd : hd.
Lemma SchArc_rd o : SchArc_ok o = true -> SchArc_from (SchArc_tree o) = Ok o.
Proof. rd SchArc_ok SchArc_from SchArc_tree SchArc_step. Qed.
#[export] Hint Resolve SchArc_rd : rd.
Lemma SchArc_same o : SchArc_eqb o (SchArc_norm o) = true.
Proof. same SchArc_eqb SchArc_norm. Qed.
#[export] Hint Resolve SchArc_same : same.
Lemma SchArc_rt : roundtrips SchArc_to SchArc_from SchArc_ok SchArc_norm SchArc_eqb.
Proof. exact (rt_of _ _ _ SchArc_tree _ _ SchArc_wr SchArc_rd SchArc_same SchArc_okn SchArc_idem). Qed.
Lemma SchArc_fmt : conforms SchArc_to SchArc_from SchArc_ok SchArc_norm SchArc_tree.
Proof. exact (fmt_of _ _ _ _ _ SchArc_wr SchArc_rd). Qed.
Lemma SchArc_ref : refuses SchArc_from ["arc"%string].
Proof. refuse SchArc_from. Qed.
Lemma SchArc_ign : ignores SchArc_from 0 ["start"%string; "mid"%string; "end"%string; "stroke"%string; "fill"%string; "uuid"%string].
Proof. ign SchArc_from SchArc_step O. Qed.
Lemma SchArc_win : last_wins SchArc_from 0 ["start"%string; "mid"%string; "end"%string; "stroke"%string; "fill"%string; "uuid"%string].
Proof. wins SchArc_from SchArc_step O. Qed.
Global Opaque SchArc_from SchArc_tree SchArc_to SchArc_norm SchArc_ok SchArc_eqb.

Lemma Circle_wr o i n : Circle_ok o = true -> Wr (Circle_to o i n) (flat (Circle_tree (Circle_norm o))).
Proof. wr Circle_to Circle_ok Circle_tree Circle_norm. Qed.
#[export] Hint Resolve Circle_wr : wr.
Lemma Circle_idem o : Circle_norm (Circle_norm o) = Circle_norm o.
Proof. idem Circle_norm. Qed.
#[export] Hint Rewrite Circle_idem : idem.
Lemma Circle_okn o : Circle_ok o = true -> Circle_ok (Circle_norm o) = true.
Proof. okn Circle_ok Circle_norm. Qed.
#[export] Hint Resolve Circle_okn : okn.
Lemma Circle_hd o : exists l, Circle_tree o = node "circle" l.
Proof. eexists. reflexivity. Qed.
#[export] Hint Resolve Circle_hd : hd.
Lemma Circle_rd o : Circle_ok o = true -> Circle_from (Circle_tree o) = Ok o.
Proof. rd Circle_ok Circle_from Circle_tree Circle_step. Qed.
#[export] Hint Resolve Circle_rd : rd.
Lemma Circle_same o : Circle_eqb o (Circle_norm o) = true.
Proof. same Circle_eqb Circle_norm. Qed.
#[export] Hint Resolve Circle_same : same.
Lemma Circle_rt : roundtrips Circle_to Circle_from Circle_ok Circle_norm Circle_eqb.
Proof. exact (rt_of _ _ _ Circle_tree _ _ Circle_wr Circle_rd Circle_same Circle_okn Circle_idem). Qed.
Lemma Circle_fmt : conforms Circle_to Circle_from Circle_ok Circle_norm Circle_tree.
Proof. exact (fmt_of _ _ _ _ _ Circle_wr Circle_rd). Qed.
Lemma Circle_ref : refuses Circle_from ["circle"%string].
Proof. refuse Circle_from. Qed.
Lemma Circle_ign : ignores Circle_from 0 ["center"%string; "radius"%string; "stroke"%string; "fill"%string; "uuid"%string].
Proof. ign Circle_from Circle_step O. Qed.
Lemma Circle_win : last_wins Circle_from 0 ["center"%string; "radius"%string; "stroke"%string; "fill"%string; "uuid"%string].
Proof. wins Circle_from Circle_step O. Qed.
Global Opaque Circle_from Circle_tree Circle_to Circle_norm Circle_ok Circle_eqb.


Lemma JColor_idem c : JColor_norm (JColor_norm c) = JColor_norm c.
Proof. destruct c; cbn; [now rewrite ColorRGBA_idem|reflexivity]. Qed.
#[export] Hint Rewrite JColor_idem : idem.
Lemma JColor_okn c : JColor_ok c = true -> JColor_ok (JColor_norm c) = true.
Proof. destruct c; cbn; [apply ColorRGBA_okn|discriminate]. Qed.
#[export] Hint Resolve JColor_okn : okn.
Lemma JColor_same c : JColor_eqb c (JColor_norm c) = true.
Proof. destruct c; cbn; [apply ColorRGBA_same|apply py_eqb_refl]. Qed.
#[export] Hint Resolve JColor_same : same.
(** any number as diameter; only the default comes back *)
Lemma Junction_wr_d o i n : Junction_ok (o <| jn_diameter := VInt 0 |>) = true -> numb (jn_diameter o) = true ->
  Wr (Junction_to o i n) (flat (Junction_tree (Junction_norm o <| jn_diameter := nrm (jn_diameter o) |>))).
Proof.
  intros H N. unfold Junction_ok in H. cbn in H. facts. unfold Junction_to.
  destruct (jn_color o) as [c|v] eqn:C; [|discriminate]. cbn [JColor_ok] in *.
  eapply Wr_eq; [wr_go|]. unfold Junction_tree, Junction_norm; cbn. rewrite C. cbn [JColor_norm JColor_tree]. tpeel.
Qed.
Lemma Junction_zero o : Junction_ok o = true -> o <| jn_diameter := VInt 0 |> = o /\ jn_diameter o = VInt 0.
Proof.
  intros H. unfold Junction_ok in H. andbs. destruct o as [p d c u]. cbn in *.
  assert (d = VInt 0) as -> by (destruct d as [| |[]| | |]; first [reflexivity|discriminate]). split; reflexivity.
Qed.
Lemma Junction_wr o i n : Junction_ok o = true -> Wr (Junction_to o i n) (flat (Junction_tree (Junction_norm o))).
Proof.
  intros H. destruct (Junction_zero o H) as [E D]. pose proof (Junction_wr_d o i n) as W. rewrite E, D in W. specialize (W H eq_refl).
  eapply Wr_eq; [exact W|]. unfold Junction_norm. cbn. now rewrite D.
Qed.
#[export] Hint Resolve Junction_wr : wr.
Lemma Junction_rd_d o d0 : Junction_ok o = true -> Junction_from (Junction_tree (o <| jn_diameter := d0 |>)) = Ok o.
Proof.
  intros H. destruct o as [p d c u]. unfold Junction_ok in H. cbn in H. andbs.
  destruct d as [| |[]| | |]; try discriminate. destruct c as [c|]; [|discriminate]. cbn [JColor_ok] in *. unfold Junction_tree; cbn -[xy_tree optn node]; cbn [jn_position jn_diameter jn_color jn_uuid JColor_tree].
  pose proof (pos2_rd "at"%string p eq_refl ltac:(assumption)) as P. pose proof (ColorRGBA_rd c ltac:(assumption)) as C. destruct (ColorRGBA_hd c) as [cl Ec].
  rewrite Ec in *. unfold xy_tree, node in P. red_in P. red_in C.
  unfold Junction_from. rd_post Junction_step. clear Ec.
  match goal with Hst : ?st = Junction_step |- _ =>
    assert (S : forall o x, st o x = Junction_step o x) by (now rewrite Hst); clear Hst; unfold xy_tree, node;
    do 4 (rewrite foldM_cons, S; unfold Junction_step; red_step; rewrite ?P, ?C; cbn [bind]);
    unfold optn, node; destruct (is_none u) eqn:U; [apply is_none_eq in U; subst u; reflexivity|];
    rewrite foldM_cons, S; unfold Junction_step; red_step; reflexivity end.
Qed.
Lemma Junction_rd o : Junction_ok o = true -> Junction_from (Junction_tree o) = Ok o.
Proof. intros H. pose proof (Junction_rd_d o (VInt 0) H) as R. now rewrite (proj1 (Junction_zero o H)) in R. Qed.
#[export] Hint Resolve Junction_rd : rd.
#[local] Transparent BusAlias_from.
Lemma BusAlias_shape exp o : BusAlias_from exp = Ok o -> exists members, exp = node "bus_alias" [ba_name o; node "members" members] /\ ba_members o = members.
Proof.
  unfold BusAlias_from, need_head, need_list. destruct exp as [| | | | |l]; try discriminate. cbn [bind].
  destruct l as [|h [|a [|m [|x l]]]]; cbn [bind at_ nth_error length Nat.eqb negb]; try discriminate;
    (destruct (is_str h "bus_alias") eqn:H; cbn [negb bind]; [|discriminate]); try discriminate.
  destruct m as [| | | | |m]; cbn [negb is_list]; try discriminate. destruct m as [|k m]; cbn [at_ nth_error bind]; [discriminate|].
  destruct (is_str k "members") eqn:K; cbn [negb]; [|discriminate]. intros E. inversion E; subst. exists m.
  apply is_str_eq in H, K. subst. split; reflexivity.
Qed.
#[local] Opaque BusAlias_from.
Lemma Junction_idem o : Junction_norm (Junction_norm o) = Junction_norm o.
Proof. idem Junction_norm. Qed.
#[export] Hint Rewrite Junction_idem : idem.
Lemma Junction_okn o : Junction_ok o = true -> Junction_ok (Junction_norm o) = true.
Proof. okn Junction_ok Junction_norm. Qed.
#[export] Hint Resolve Junction_okn : okn.
Lemma Junction_hd o : exists l, Junction_tree o = node "junction" l.
Proof. eexists. reflexivity. Qed.
#[export] Hint Resolve Junction_hd : hd.
Lemma Junction_same o : Junction_eqb o (Junction_norm o) = true.
Proof. same Junction_eqb Junction_norm. Qed.
#[export] Hint Resolve Junction_same : same.
Lemma Junction_rt : roundtrips Junction_to Junction_from Junction_ok Junction_norm Junction_eqb.
Proof. exact (rt_of _ _ _ Junction_tree _ _ Junction_wr Junction_rd Junction_same Junction_okn Junction_idem). Qed.
Lemma Junction_fmt : conforms Junction_to Junction_from Junction_ok Junction_norm Junction_tree.
Proof. exact (fmt_of _ _ _ _ _ Junction_wr Junction_rd). Qed.
Lemma Junction_ref : refuses Junction_from ["junction"%string].
Proof. refuse Junction_from. Qed.
Lemma Junction_ign : ignores Junction_from 0 ["at"%string; "color"%string; "diameter"%string; "uuid"%string].
Proof. ign Junction_from Junction_step O. Qed.
Lemma Junction_win : last_wins Junction_from 0 ["at"%string; "color"%string; "diameter"%string; "uuid"%string].
Proof. wins Junction_from Junction_step O. Qed.
Global Opaque Junction_from Junction_tree Junction_to Junction_norm Junction_ok Junction_eqb.

Lemma Junction_diameter o i n : Junction_ok (o <| jn_diameter := VInt 0 |>) = true -> numb (jn_diameter o) = true ->
  write_read Junction_to Junction_from o i n = Ok (Junction_norm (o <| jn_diameter := VInt 0 |>)).
Proof.
  intros H N. rewrite (wr_read _ _ _ _ _ _ (Junction_wr_d o i n H N)). apply Junction_okn in H.
  rewrite <- (Junction_rd_d _ (nrm (jn_diameter o)) H). reflexivity.
Qed.
#[local] Transparent Junction_from Junction_to.
Lemma Junction_last l d : Junction_from (node "junction" (l ++ [node "diameter" [d]]))
  = (let! o := Junction_from (node "junction" l) in Ok (o <| jn_color := JColor_val d |>)).
Proof.
  unfold Junction_from, need_head, need_list, node; cbn [app at_ nth_error bind length skipn Nat.ltb Nat.leb].
  change (is_str (VStr (lit "junction")) "junction") with true; cbn [negb bind].
  change (VStr (lit "junction") :: l ++ ?x) with ((VStr (lit "junction") :: l) ++ x). rewrite foldM_app.
  destruct (foldM _ _ _) as [o|]; [|reflexivity]. cbn [bind]. now destruct o.
Qed.
Lemma Junction_unwritable o d i n : Junction_to (o <| jn_color := JColor_val d |>) i n = Err EAttribute.
Proof. reflexivity. Qed.
#[local] Opaque Junction_from Junction_to.

Lemma NetclassFlag_wr o i n : NetclassFlag_ok o = true -> Wr (NetclassFlag_to o i n) (flat (NetclassFlag_tree (NetclassFlag_norm o))).
Proof.
  intros H. unfold NetclassFlag_ok in H. facts. unfold NetclassFlag_to.
  destruct (nf_position o) as [p|] eqn:P; [|discriminate]. destruct (nf_effects o) as [e|] eqn:E; [|discriminate]. cbn [some_ok] in *. facts.
  eapply Wr_eq; [wr_go|]. unfold NetclassFlag_tree, NetclassFlag_norm; cbn. rewrite P, E. unfold opto; cbn [option_map]. tpeel.
Qed.
#[export] Hint Resolve NetclassFlag_wr : wr.
Lemma NetclassFlag_okn o : NetclassFlag_ok o = true -> NetclassFlag_ok (NetclassFlag_norm o) = true.
Proof.
  intros H. destruct o as [t l s p e q u f]. destruct p as [p|]; [|unfold NetclassFlag_ok in H; cbn in H; andbs; discriminate].
  destruct e as [e|]; [|unfold NetclassFlag_ok in H; cbn in H; andbs; discriminate]. revert H. okn NetclassFlag_ok NetclassFlag_norm.
Qed.
#[export] Hint Resolve NetclassFlag_okn : okn.
Lemma NetclassFlag_rd o : NetclassFlag_ok o = true -> NetclassFlag_from (NetclassFlag_tree o) = Ok o.
Proof.
  intros H. destruct o as [t l s p e q u f]. destruct p as [p|]; [|unfold NetclassFlag_ok in H; cbn in H; andbs; discriminate].
  destruct e as [e|]; [|unfold NetclassFlag_ok in H; cbn in H; andbs; discriminate]. revert H.
  unfold opto. rd NetclassFlag_ok NetclassFlag_from NetclassFlag_tree NetclassFlag_step.
Qed.
#[export] Hint Resolve NetclassFlag_rd : rd.
Lemma NetclassFlag_idem o : NetclassFlag_norm (NetclassFlag_norm o) = NetclassFlag_norm o.
Proof. idem NetclassFlag_norm. Qed.
#[export] Hint Rewrite NetclassFlag_idem : idem.
Lemma NetclassFlag_hd o : exists l, NetclassFlag_tree o = node "netclass_flag" l.
Proof. eexists. reflexivity. Qed.
#[export] Hint Resolve NetclassFlag_hd : hd.
Lemma NetclassFlag_same o : NetclassFlag_eqb o (NetclassFlag_norm o) = true.
Proof. same NetclassFlag_eqb NetclassFlag_norm. Qed.
#[export] Hint Resolve NetclassFlag_same : same.
Lemma NetclassFlag_rt : roundtrips NetclassFlag_to NetclassFlag_from NetclassFlag_ok NetclassFlag_norm NetclassFlag_eqb.
Proof. exact (rt_of _ _ _ NetclassFlag_tree _ _ NetclassFlag_wr NetclassFlag_rd NetclassFlag_same NetclassFlag_okn NetclassFlag_idem). Qed.
Lemma NetclassFlag_fmt : conforms NetclassFlag_to NetclassFlag_from NetclassFlag_ok NetclassFlag_norm NetclassFlag_tree.
Proof. exact (fmt_of _ _ _ _ _ NetclassFlag_wr NetclassFlag_rd). Qed.
Lemma NetclassFlag_ref : refuses NetclassFlag_from ["netclass_flag"%string].
Proof. refuse NetclassFlag_from. Qed.
Lemma NetclassFlag_ign : ignores NetclassFlag_from 1 ["length"%string; "shape"%string; "at"%string; "fields_autoplaced"%string; "effects"%string; "uuid"%string; "property"%string].
Proof. ign NetclassFlag_from NetclassFlag_step (S O). Qed.
Lemma NetclassFlag_win : last_wins NetclassFlag_from 1 ["length"%string; "shape"%string; "at"%string; "fields_autoplaced"%string; "effects"%string; "uuid"%string].
Proof. wins NetclassFlag_from NetclassFlag_step (S O). Qed.
Global Opaque NetclassFlag_from NetclassFlag_tree NetclassFlag_to NetclassFlag_norm NetclassFlag_ok NetclassFlag_eqb.

#[local] Transparent NetclassFlag_to.
Lemma NetclassFlag_unwritable o i n : nf_effects o = None -> NetclassFlag_to o i n = Err EAttribute.
Proof. intros E. unfold NetclassFlag_to. now rewrite E. Qed.
#[local] Opaque NetclassFlag_to.

(** ** Symbols *)
Lemma ss_id_text n e o : ss_libraryNickname o = n -> ss_entryName o = e -> fp_id_ok n e = true -> SchematicSymbol_libId o = fp_id n e.
Proof.
  unfold SchematicSymbol_libId. intros -> ->. destruct n as [| | | |n|], e as [| | | |e|]; try discriminate; intros H; [reflexivity|].
  cbn in H. andbs. destruct n; [discriminate|]. reflexivity.
Qed.
Lemma ss_set_nick s n e t o : nick_form s n e t ->
  SchematicSymbol_set_libId (VStr s) o = Ok (o <| ss_libraryNickname := VStr n |> <| ss_entryName := VStr e |>).
Proof. intros F. unfold SchematicSymbol_set_libId. cbn [as_text bind]. now destruct (nick_complete _ _ _ _ F) as (m & -> & -> & ->). Qed.
Lemma ss_set_entry s o : (forall n e t, ~ nick_form s n e t) ->
  SchematicSymbol_set_libId (VStr s) o = Ok (o <| ss_libraryNickname := VNone |> <| ss_entryName := VStr s |>).
Proof. intros F. unfold SchematicSymbol_set_libId. cbn [as_text bind]. now rewrite (proj2 (nick_none s) F). Qed.
Lemma ss_id_read n e o : fp_id_ok n e = true ->
  SchematicSymbol_set_libId (VStr (fp_id n e)) o = Ok (o <| ss_libraryNickname := n |> <| ss_entryName := e |>).
Proof.
  destruct n as [| | | |n|], e as [| | | |e|]; try discriminate; cbn [fp_id_ok fp_id]; intros H; andbs.
  - apply ss_set_entry. now apply inner_colon_no.
  - apply (ss_set_nick _ n e []). repeat split; auto; try (now left); rewrite ?app_nil_r; try reflexivity; [now destruct n|now destruct e].
Qed.
Global Opaque SchematicSymbol_set_libId.
Lemma SchematicSymbol_wr o i n : SchematicSymbol_ok o = true -> Wr (SchematicSymbol_to o i n) (flat (SchematicSymbol_tree (SchematicSymbol_norm o))).
Proof.
  intros H. unfold SchematicSymbol_ok in H. facts. unfold SchematicSymbol_to.
  assert (P : pin_dict_ok (ss_pins o) = true) by assumption. unfold pin_dict_ok in P. facts.
  match goal with Hid : fp_id_ok _ _ = true |- _ => rewrite (ss_id_text _ _ o eq_refl eq_refl Hid); pose proof (fp_id_quotable _ _ Hid) end.
  assert (U : truthy (ss_uuid o) = false \/ truthy (ss_uuid o) = true /\ wordv (ss_uuid o) = true)
    by (destruct (ss_uuid o) as [| | | |[|c s]|]; try discriminate; [left; reflexivity|right; split; [reflexivity|assumption]]).
  destruct U as [T|[T W]]; rewrite T; cbv iota;
  (eapply Wr_eq; [wr_go|unfold SchematicSymbol_tree, SchematicSymbol_norm; cbn; rewrite T, ?if_nil, map_length; tpeel]).
Qed.
#[export] Hint Resolve SchematicSymbol_wr : wr.
Lemma fold_pin_dict {R} (mk : list (val * val) -> R) step (t : val * val -> val) d :
  pin_dict_ok d = true ->
  (forall acc kv, In kv d -> is_list (fst kv) = false -> step (mk acc) (t kv) = Ok (mk (dict_put acc (fst kv) (snd kv)))) ->
  foldM step (mk []) (map t d) = Ok (mk d).
Proof.
  unfold pin_dict_ok. intros H Hs. apply andb_prop in H as [H1 H2].
  enough (G : forall acc, dict_keys_ok (acc ++ d) = true -> foldM step (mk acc) (map t d) = Ok (mk (acc ++ d))) by (now apply G).
  clear H2. induction d as [|[k v] d IH]; intros acc Ha; [now rewrite app_nil_r|]. cbn [map]. rewrite foldM_cons.
  cbn [forallb fst snd] in H1. andbs.
  rewrite Hs; [|now left|now apply txtb_leaf]. cbn [bind fst snd].
  rewrite dict_put_new by (eapply dict_keys_mid; exact Ha).
  rewrite IH; [now rewrite <- app_assoc|assumption| |now rewrite <- app_assoc].
  intros acc' kv Hin. apply Hs. now right.
Qed.
Ltac rd_more st X_step ::=
  lazymatch goal with
  | H : pin_dict_ok ?d = true |- foldM st _ (map ?t ?d) = Ok ?new =>
      let p := eval pattern d in new in
      lazymatch p with
      | ?mk _ =>
          let Hst := fresh in let Hk := fresh "Hk" in
          refine (fold_pin_dict mk st t d H _); intros ? [? ?] _ Hk; cbn [fst snd] in *; cbv beta;
          match goal with E : st = X_step |- _ => rewrite E end; unfold X_step; red_step; unfold dict_set; rewrite Hk; reflexivity
      end
  end.
Ltac ev_sub ::=
  try match goal with |- context [at_ ?x 0] => sub_tree x end;
  try match goal with |- context [if ?b then $"yes" else $"no"] => is_var b; destruct b end;
  try match goal with |- context [optv ?v] => is_var v; let B := fresh "B" in unfold optv; destruct (is_none v) eqn:B; [apply is_none_eq in B; subst v|]; cbn [app] end;
  leaf_tests; red_step; try (rewrite ss_id_read by assumption; red_step); ev_more; reflexivity.
#[local] Opaque fp_id.
Lemma uuid0_eq v : uuid0_ok v = true -> truthy v = false -> v = VStr [].
Proof. destruct v as [| | | |[|]|]; try discriminate. reflexivity. Qed.
Lemma SchematicSymbol_rd o : SchematicSymbol_ok o = true -> SchematicSymbol_from (SchematicSymbol_tree o) = Ok o.
Proof.
  intros H. destruct o as [a b c d e f g h x j k l m y]. unfold SchematicSymbol_ok in H. cbn in H. facts0. fixed_subst. unfold SchematicSymbol_from, SchematicSymbol_tree. 
  cbn [ss_libraryNickname ss_entryName ss_libName ss_position ss_unit ss_inBom ss_onBoard ss_dnp ss_fieldsAutoplaced ss_uuid ss_properties ss_pins ss_mirror ss_instances].
  assert (F : forall st, st = SchematicSymbol_step -> forall b c d e f g h x k l m y, foldM st (mkSchematicSymbol a b c d e f g h x (VStr []) k l m y)
            (if truthy j then [node "uuid" [j]] else [])
          = Ok (mkSchematicSymbol a b c d e f g h x j k l m y)).
  { intros. subst st. destruct (truthy j) eqn:T; [|apply uuid0_eq in T; [subst; reflexivity|assumption]]. apply fold_one. reflexivity. }
  generalize dependent (truthy j). intros tj F.
  rd_post SchematicSymbol_step. specialize (F _ eq_refl).
  rd_loop st SchematicSymbol_step.
Qed.
#[export] Hint Resolve SchematicSymbol_rd : rd.
Lemma SchematicSymbol_idem o : SchematicSymbol_norm (SchematicSymbol_norm o) = SchematicSymbol_norm o.
Proof. idem SchematicSymbol_norm. Qed.
#[export] Hint Rewrite SchematicSymbol_idem : idem.
Lemma SchematicSymbol_okn o : SchematicSymbol_ok o = true -> SchematicSymbol_ok (SchematicSymbol_norm o) = true.
Proof. okn SchematicSymbol_ok SchematicSymbol_norm. Qed.
#[export] Hint Resolve SchematicSymbol_okn : okn.
Lemma SchematicSymbol_hd o : exists l, SchematicSymbol_tree o = node "symbol" l.
Proof. eexists. reflexivity. Qed.
#[export] Hint Resolve SchematicSymbol_hd : hd.
Lemma SchematicSymbol_same o : SchematicSymbol_eqb o (SchematicSymbol_norm o) = true.
Proof. same SchematicSymbol_eqb SchematicSymbol_norm. Qed.
#[export] Hint Resolve SchematicSymbol_same : same.
Lemma SchematicSymbol_rt : roundtrips SchematicSymbol_to SchematicSymbol_from SchematicSymbol_ok SchematicSymbol_norm SchematicSymbol_eqb.
Proof. exact (rt_of _ _ _ SchematicSymbol_tree _ _ SchematicSymbol_wr SchematicSymbol_rd SchematicSymbol_same SchematicSymbol_okn SchematicSymbol_idem). Qed.
Lemma SchematicSymbol_fmt : conforms SchematicSymbol_to SchematicSymbol_from SchematicSymbol_ok SchematicSymbol_norm SchematicSymbol_tree.
Proof. exact (fmt_of _ _ _ _ _ SchematicSymbol_wr SchematicSymbol_rd). Qed.
Lemma SchematicSymbol_ref : refuses SchematicSymbol_from ["symbol"%string].
Proof. refuse SchematicSymbol_from. Qed.
Lemma SchematicSymbol_ign : ignores SchematicSymbol_from 0 ["fields_autoplaced"%string; "lib_id"%string; "lib_name"%string; "uuid"%string; "unit"%string; "in_bom"%string; "on_board"%string; "dnp"%string; "at"%string; "property"%string; "pin"%string; "mirror"%string; "instances"%string].
Proof. ign SchematicSymbol_from SchematicSymbol_step O. Qed.
Lemma SchematicSymbol_win : last_wins SchematicSymbol_from 0 ["fields_autoplaced"%string; "lib_name"%string; "uuid"%string; "unit"%string; "in_bom"%string; "on_board"%string; "dnp"%string; "at"%string; "mirror"%string].
Proof. wins SchematicSymbol_from SchematicSymbol_step O. Qed.
Global Opaque SchematicSymbol_from SchematicSymbol_tree SchematicSymbol_to SchematicSymbol_norm SchematicSymbol_ok SchematicSymbol_eqb.

#[local] Transparent SchematicSymbol_to.
Lemma ss_uuid_none o i n : ss_uuid o = VNone -> SchematicSymbol_to o i n = SchematicSymbol_to (o <| ss_uuid := VStr [] |>) i n.
Proof. intros E. destruct o. cbn in E. subst. reflexivity. Qed.
#[local] Opaque SchematicSymbol_to.
Lemma SchematicSymbol_uuid o i n : ss_uuid o = VNone -> SchematicSymbol_ok (o <| ss_uuid := VStr [] |>) = true ->
  write_read SchematicSymbol_to SchematicSymbol_from o i n = Ok (SchematicSymbol_norm (o <| ss_uuid := VStr [] |>)).
Proof. intros E H. apply (rt_as _ _ _ _ _ o _ i n SchematicSymbol_rt); [|exact H]. now apply ss_uuid_none. Qed.
