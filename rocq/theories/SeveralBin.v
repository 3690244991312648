(** Several geometries through the writers of WKB, geo-types, SVG, GEOS and GDAL (helper lemmas for C79). *)
From Coq Require Import String Ascii.
From Coq Require Import List NArith ZArith Lia Bool.
From Coq Require Import Init.Byte.
From Verif Require Import Base BaseLemmas Event EventLemmas Claims Geom SeveralSpec.
From Verif Require WkbModel WkbSpec WkbClaims WkbRead WkbWrite WkbWriteTop WkbTop WkbMore WkbSeq.
From Verif Require GeoModel GeoSpec GeoTop SvgModel SvgSpec SvgTop XmlSpec.
From Verif Require MvtModel MvtSpec MvtTop.
From Verif Require GeosModel GeosSpec GeosTop GeosExactSpec GeosExact GdalModel GdalSpec GdalWrite GdalExactSpec GdalExact.
Import ListNotations.
Local Open Scope list_scope.

(** ** WKB *)
Section Wkb.
  Import WkbModel WkbSpec WkbClaims WkbWrite WkbWriteTop WkbSeq.
  Variables (dl : dialect) (d rd : dims) (srid : option Z) (env : list f64) (ed : dims) (ext emp : bool).
  Notation c := (with_extended_opts dl d rd srid env ed ext emp).
  Notation W := (wkb_writer c).
  Hypothesis Hs : srid_ok dl srid.
  Hypothesis Hr : asks_for_all d rd.
  Hypothesis Hd : dl <> SpatiaLite.
  Notation multi := (multi_dim rd).

  Lemma no_foot : forall n, foot c n = [].
  Proof. intros n. unfold foot. cbn [w_dialect with_extended_opts]. destruct dl, n; reflexivity || congruence. Qed.
  Lemma member_run : forall g k f n out, no_empty g -> (f = true -> dl = Wkb) ->
    run W (gevents multi k g) (mkWst f Normal n out) = (mkWst (first_after c f) Normal n (out ++ later dl d g), Ok tt).
  Proof.
    intros g k f n out E F.
    rewrite (run_geom c eq_refl multi (seq_writable dl d rd srid env ed ext emp Hs) g f n k []); [|exact E|left; apply no_foot].
    rewrite no_foot, app_nil_r, (body_ext _ _ (coord_bytes (dz d) (dm d)) _ _ _ (fun e p => wcb_eq c e p Hr) E).
    f_equal. f_equal. f_equal. unfold hd, top_hdr, later, sub_hdr, enc_wkb, enc_ewkb. cbn [w_dialect with_extended_opts w_dims].
    destruct f; [rewrite (F eq_refl); reflexivity|]. destruct dl; try reflexivity. congruence.
  Qed.
  Lemma members_run : forall ps f n out, Forall (fun p => no_empty (snd p)) ps -> (f = true -> dl = Wkb) ->
    exists f', run W (parts multi ps) (mkWst f Normal n out) = (mkWst f' Normal n (out ++ flat_map (later dl d) (map snd ps)), Ok tt).
  Proof.
    induction ps as [|p ps IH]; intros f n out H F; [exists f; cbn; now rewrite app_nil_r|].
    inversion_clear H as [|? ? H1 H2]. unfold parts. cbn [flat_map map]. rewrite run_app, member_run by assumption.
    fold (parts multi ps).
    destruct (IH (first_after c f) n (out ++ later dl d (snd p)) H2) as (f' & E).
    { destruct f; [intros _; now apply F|]. rewrite first_false. discriminate. }
    exists f'. rewrite E, <- app_assoc. reflexivity.
  Qed.
  (** the bytes: the collection of the first one, and then the others *)
  Lemma gathered_bytes : forall p ps, Forall (fun p => no_empty (snd p)) (p :: ps) ->
    write_all c (gathered multi (p :: ps)) =
    Ok (std dl d srid env ed ext emp little (GCollection [snd p]) ++ flat_map (later dl d) (map snd ps)).
  Proof.
    intros p ps H. inversion_clear H as [|? ? H1 H2].
    assert (E : no_empty (GCollection [snd p])).
    { apply WkbRead.on_geom_collection. split; [exact I|]. constructor; [exact H1|constructor]. }
    pose proof (run_geom c eq_refl multi (seq_writable dl d rd srid env ed ext emp Hs) (GCollection [snd p]) true 0%nat 0%nat [] []
      E (or_introl (no_foot 0))) as X.
    rewrite no_foot, app_nil_r, (body_ext _ _ (coord_bytes (dz d) (dm d)) _ _ _ (fun e p => wcb_eq c e p Hr) E) in X.
    cbn [app] in X.
    assert (Y : hd c true (kind_code (GCollection [snd p])) ++ body (sub_hdr c) (coord_bytes (dz d) (dm d)) (fun _ => LE) [] (GCollection [snd p]) =
                std dl d srid env ed ext emp little (GCollection [snd p])).
    { rewrite (writer_bytes_std dl d rd), no_foot, app_nil_r. reflexivity. }
    rewrite Y in X. clear Y.
    assert (F : first_after c true = true -> dl = Wkb).
    { unfold first_after. cbn. destruct dl; intros Q; try discriminate Q; reflexivity. }
    (* the same steps, with the members of the rest before the last callback *)
    unfold write_all, gathered, parts. cbn [flat_map].
    cbn [gevents length] in X.
    rewrite app_nil_r in X. cbn [run] in X |- *. unfold wst_init in *.
    change (p_step W (mkWst true Normal 0 []) (CollectionBegin 1 0))
      with (header_size c (nest_incr (mkWst true Normal 0 [])) TGeometryCollection 1) in X |- *.
    rewrite (nest_begin c eq_refl (seq_writable dl d rd srid env ed ext emp Hs)) in X |- *.
    rewrite run_app in X. rewrite member_run in X by assumption.
    rewrite <- app_assoc, run_app, member_run by assumption. rewrite run_app.
    fold (parts multi ps).
    set (out1 := _ ++ later dl d (snd p)) in *.
    destruct (members_run ps (first_after c (first_after c true)) 1 out1 H2) as (f' & G).
    { destruct (first_after c true) eqn:T; [intros _; now apply F|]. rewrite first_false. discriminate. }
    rewrite G. cbn [run] in X |- *.
    change (p_step W (mkWst ?a Normal 1 ?b) (CollectionEnd 0)) with (nest_decr (mkWst a Normal 1 b) (write_footer c)) in X |- *.
    rewrite nest_end, no_foot, app_nil_r in X |- *. apply (f_equal (fun q => w_out (fst q))) in X. cbn [fst w_out] in X.
    rewrite <- X. reflexivity.
  Qed.
End Wkb.

Section WkbApi.
  Import WkbModel WkbSpec WkbClaims.
  Lemma to_wkb_gathered : forall src dl d srid env p ps u, dl <> SpatiaLite -> srid_ok dl srid ->
    Forall (fun p => no_empty (snd p)) (p :: ps) -> delivers src (fun multi => gathered multi (p :: ps)) (Ok u) ->
    to_wkb_dialect src dl d srid env =
    Ok (std dl d srid env xy_dims false false little (GCollection [snd p]) ++ flat_map (later dl d) (map snd ps)).
  Proof.
    intros src dl d srid env p ps u D S H X. unfold to_wkb_dialect. cbv zeta.
    specialize (X _ (wkb_writer (with_opts dl d srid env)) wst_init). cbn [p_dims wkb_writer] in X. rewrite X. clear X.
    assert (R : asks_for_all d d).
    { unfold asks_for_all, multi_dim. destruct (dz d), (dm d); cbn; intros Q; try discriminate Q; split; reflexivity. }
    pose proof (gathered_bytes dl d d srid env xy_dims false false S R D p ps H) as G. unfold write_all in G.
    change (with_extended_opts dl d d srid env xy_dims false false) with (with_opts dl d srid env) in G.
    cbn [w_read_dims with_opts with_extended_opts]. destruct (run _ _ _) as [s [v|e]]; [exact G|discriminate G].
  Qed.
  (** so reading it gives the first one *)
  Lemma gathered_lost : forall src dl d srid env p ps u, dl <> SpatiaLite -> srid_ok dl srid -> env_ok dl xy_dims env ->
    Forall (fun p => conforming (dz d) (dm d) (snd p)) (p :: ps) -> encodable (snd p) -> (levels (snd p) <= 127)%nat ->
    delivers src (fun multi => gathered multi (p :: ps)) (Ok u) ->
    exists b, to_wkb_dialect src dl d srid env = Ok b /\
      delivers (fun dr => process_wkb_type_geom dl dr b)
        (fun multi => Srid (reported_srid dl srid) :: gevents multi 0 (GCollection [snd p]))
        (Ok (tt, flat_map (later dl d) (map snd ps))).
  Proof.
    intros src dl d srid env p ps u D S V H E L X. eexists. split.
    - apply (to_wkb_gathered src dl d srid env p ps u D S); [|exact X].
      eapply Forall_impl; [|exact H]. intros a A. eapply WkbWriteTop.conforming_no_empty. exact A.
    - inversion_clear H as [|? ? H1 H2].
      assert (F : WkbSeq.fine d (GCollection [snd p])).
      { refine (conj _ (conj _ _)).
        - apply WkbRead.on_geom_collection. split; [reflexivity|]. constructor; [exact E|constructor].
        - apply WkbRead.on_geom_collection. split; [exact I|]. constructor; [exact H1|constructor].
        - cbn. lia. }
      intros T q s. rewrite (WkbSeq.first_reads dl d srid env xy_dims false false _ _ F S V D).
      apply exec_calls.
  Qed.
End WkbApi.

(** ** geo-types *)
Section Geo.
  Import GeoModel GeoSpec GeoTop.
  Lemma geo_parts : forall debug ps G c C, Forall (fun p => plain (snd p) = true /\ small (snd p)) ps ->
    run (geo_writer debug) (parts false ps) (mkGw G (c :: C) None None None) =
    (mkGw G ((c ++ map (fun p => value_of (snd p)) ps) :: C) None None None, Ok tt).
  Proof.
    induction ps as [|p ps IH]; intros G c C H; [cbn; now rewrite app_nil_r|].
    inversion_clear H as [|? ? [H1 H2] H3]. unfold parts. cbn [flat_map map]. rewrite run_app.
    rewrite (written debug (snd p) H1 H2). cbn [finish_geometry g_coll g_geoms g_polys g_lines g_coords].
    fold (parts false ps). unfold set_coll. cbn. rewrite IH by assumption. rewrite <- app_assoc. reflexivity.
  Qed.
  Lemma to_geo_gathered : forall debug src ps u, Forall (fun p => plain (snd p) = true /\ small (snd p)) ps ->
    delivers src (fun multi => gathered multi ps) (Ok u) ->
    to_geo debug src = Ok (TCollection (map (fun p => value_of (snd p)) ps)).
  Proof.
    intros debug src ps u H D. unfold to_geo. specialize (D _ (geo_writer debug) gw_init).
    cbn [p_dims geo_writer] in D. rewrite D. clear D. change (multi_dim xy_dims) with false.
    unfold gathered. cbn [run].
    assert (B : p_step (geo_writer debug) gw_init (CollectionBegin (match ps with [] => 0%nat | _ => 1%nat end) 0) =
                (mkGw [] [[]] None None None, Ok tt)) by (destruct ps; reflexivity).
    rewrite B, run_app, geo_parts by exact H. reflexivity.
  Qed.
End Geo.

(** ** SVG *)
Section Svg.
  Import SvgModel SvgSpec SvgTop XmlSpec.
  Lemma svg_parts : forall fmt c ps, Forall (fun p => no_empty_point (snd p) = true) ps ->
    emits fmt c (parts false ps) (show_nodes (flat_map (fun p => drawing fmt (sv_invert c) (snd p)) ps)).
  Proof.
    induction ps as [|p ps IH]; intros H; [apply emits_nil|]. inversion_clear H as [|? ? H1 H2].
    unfold parts. cbn [flat_map]. rewrite show_app. apply emits_app; [now apply geom_emit|]. now apply IH.
  Qed.
  Lemma svg_gathered : forall fmt c ps, Forall (fun p => no_empty_point (snd p) = true) ps ->
    emits fmt c (gathered false ps) (show_nodes (flat_map (fun p => drawing fmt (sv_invert c) (snd p)) ps)).
  Proof.
    intros fmt c ps H. unfold gathered. apply wrap_silent; try reflexivity. now apply svg_parts.
  Qed.
  Lemma to_svg_several : forall A (src : dims -> prog A) fmt ps r, (forall x, xml_plain (fmt x) = true) ->
    Forall (fun p => no_empty_point (snd p) = true) ps ->
    delivers src (fun multi => parts multi ps) (Ok r) \/ delivers src (fun multi => gathered multi ps) (Ok r) ->
    exists t, to_svg fmt src = Ok t /\ parse_xml t = Some (flat_map (fun p => drawing fmt false (snd p)) ps).
  Proof.
    intros A src fmt ps r F H D. exists (show_nodes (flat_map (fun p => drawing fmt false (snd p)) ps)). split.
    - unfold to_svg. destruct D as [D|D]; specialize (D _ (svg_writer fmt (svg_new false)) ""%string);
        cbn [p_dims svg_writer] in D; rewrite D; change (multi_dim xy_dims) with false.
      + rewrite (svg_parts fmt (svg_new false) ps H). reflexivity.
      + rewrite (svg_gathered fmt (svg_new false) ps H). reflexivity.
    - apply stands_parse. apply (fine_flat _ _ ps). intros p P. exact (fine_drawing fmt (svg_new false) F (snd p)).
  Qed.
End Svg.

(** ** MVT *)
Section Mvt.
  Import MvtModel MvtSpec MvtTop.
  Variables (gsize : N) (base64 : list byte -> string) (debug : bool) (c : mcfg).
  Notation W := (mvt_writer gsize base64 debug c).
  Definition tiled (p : nat * geom) : Prop :=
    GeoSpec.plain (snd p) = true /\ tile_small gsize (snd p) /\ drawable (transform c) (snd p) = true.
  Lemma mvt_members : forall ps F R G a C, Forall tiled ps ->
    run W (parts false ps) (mkMw F R G (a :: C) None None None) =
    (mkMw F R G ((a ++ map (fun p => tile_of (transform c) (snd p)) ps) :: C) None None None, Ok tt).
  Proof.
    induction ps as [|p ps IH]; intros F R G a C H; [cbn; now rewrite app_nil_r|].
    inversion_clear H as [|? ? (H1 & H2 & H3) H4]. unfold parts. cbn [flat_map map]. rewrite run_app.
    pose proof (m_written gsize base64 debug c (snd p) H1 H2 (fst p) F R G (a :: C)) as X. cbv zeta in X. rewrite H3 in X. 
    change (multi_dim (p_dims W)) with false in X. rewrite X. cbn [mfinish mw_coll]. unfold mset_coll.
    cbn [mw_features mw_props mw_geoms mw_coll mw_polys mw_lines mw_coords].
    fold (parts false ps). rewrite IH by assumption. rewrite <- app_assoc. reflexivity.
  Qed.
  Lemma mvt_parts : forall ps F R G, Forall tiled ps ->
    run W (parts false ps) (mkMw F R G [] None None None) =
    (mkMw F R (G ++ map (fun p => tile_of (transform c) (snd p)) ps) [] None None None, Ok tt).
  Proof.
    induction ps as [|p ps IH]; intros F R G H; [cbn; now rewrite app_nil_r|].
    inversion_clear H as [|? ? (H1 & H2 & H3) H4]. unfold parts. cbn [flat_map map]. rewrite run_app.
    pose proof (m_written gsize base64 debug c (snd p) H1 H2 (fst p) F R G []) as X. cbv zeta in X. rewrite H3 in X. 
    change (multi_dim (p_dims W)) with false in X. rewrite X. cbn [mfinish mw_coll]. unfold mset_geoms.
    cbn [mw_features mw_props mw_geoms mw_coll mw_polys mw_lines mw_coords].
    fold (parts false ps). rewrite IH by assumption. rewrite <- app_assoc. reflexivity.
  Qed.
End Mvt.
Section MvtApi.
  Import MvtModel MvtSpec MvtTop.
  Definition joined_tile (c : mcfg) (l : list geom) : tgeom :=
    match l with [g] => tile_of (transform c) g | _ => MCollection (map (tile_of (transform c)) l) end.
  Lemma mvt_several : forall gsize base64 debug extent l b r t (src : dims -> prog unit) c ps u,
    mvt_new extent l b r t = Ok c -> (gsize = 48 \/ gsize = 56)%N -> Forall (tiled gsize c) ps ->
    (delivers src (fun multi => gathered multi ps) (Ok u) ->
     to_mvt gsize base64 debug extent l b r t src = Ok (mkMFeature None (MCollection (map (fun p => tile_of (transform c) (snd p)) ps)) [])) /\
    (ps <> [] -> delivers src (fun multi => parts multi ps) (Ok u) ->
     to_mvt gsize base64 debug extent l b r t src = Ok (mkMFeature None (joined_tile c (map snd ps)) [])).
  Proof.
    intros gsize base64 debug extent l b r t src c ps u N S H. split.
    - intros D. unfold to_mvt. rewrite N. change (src xy_dims) with (src (p_dims (mvt_writer gsize base64 debug c))). rewrite D.
      change (multi_dim (p_dims (mvt_writer gsize base64 debug c))) with false. unfold gathered. cbn [run].
      assert (B : p_step (mvt_writer gsize base64 debug c) mw_init (CollectionBegin (match ps with [] => 0%nat | _ => 1%nat end) 0) =
                  (mkMw [] [] [] [[]] None None None, Ok tt)).
      { destruct S as [-> | ->], ps; reflexivity. }
      rewrite B, run_app, mvt_members by exact H. reflexivity.
    - intros P D. unfold to_mvt. rewrite N. change (src xy_dims) with (src (p_dims (mvt_writer gsize base64 debug c))). rewrite D.
      change (multi_dim (p_dims (mvt_writer gsize base64 debug c))) with false.
      unfold mw_init. rewrite mvt_parts by exact H. destruct ps as [|p [|q ps]]; [congruence|reflexivity|].
      cbn. unfold into_feature, mtake. cbn. rewrite map_map. reflexivity.
  Qed.
End MvtApi.

(** ** GEOS *)
Section Geos.
  Import GeosModel GeosSpec GeosTop GeosExactSpec GeosExact.
  Variable lib : geos_lib.
  Hypothesis Hlib : sane lib.
  Definition all_pieces (ps : list (nat * geom)) : list piece := flat_map (fun p => pieces (snd p)) ps.
  Lemma geos_parts : forall ps, Forall short_piece (all_pieces ps) -> stands lib (parts false ps) (all_pieces ps).
  Proof.
    induction ps as [|p ps IH]; intros H; [apply stands_nil|]. unfold all_pieces in H. cbn [flat_map] in H.
    apply Forall_app in H. destruct H as [H1 H2]. unfold parts, all_pieces. cbn [flat_map].
    apply stands_app; [now apply stands_geom|]. now apply IH.
  Qed.
  Lemma geos_gathered : forall ps, Forall short_piece (all_pieces ps) -> stands lib (gathered false ps) (all_pieces ps).
  Proof.
    intros ps H. unfold gathered. apply stands_silent; [reflexivity|]. rewrite <- (app_nil_r (all_pieces ps)).
    apply stands_app; [now apply geos_parts|]. apply stands_silent; [reflexivity|]. apply stands_nil.
  Qed.
  Lemma geos_several : forall src ps r, Forall short_piece (all_pieces ps) ->
    delivers src (fun multi => parts multi ps) (Ok r) \/ delivers src (fun multi => gathered multi ps) (Ok r) ->
    (pass lib None (all_pieces ps) = true -> to_geos lib src = Ok (left_of (all_pieces ps) None)) /\
    (pass lib None (all_pieces ps) = false -> exists e, to_geos lib src = Err e).
  Proof.
    intros src ps r H D.
    assert (X : exists ev, stands lib ev (all_pieces ps) /\
      exec (geos_writer lib) (src xy_dims) gs_init =
      match run (geos_writer lib) ev gs_init with (s', Ok _) => (s', Ok r) | (s', Err x) => (s', Err x) end).
    { destruct D as [D|D]; specialize (D _ (geos_writer lib) gs_init); cbn [p_dims geos_writer] in D;
        change (multi_dim xy_dims) with false in D; eexists; (split; [|exact D]).
      - now apply geos_parts.
      - now apply geos_gathered. }
    destruct X as (ev & S & E). unfold to_geos. rewrite E.
    destruct (S gs_init) as (s' & e & R & _ & G). change (room_of gs_init) with (@None nat) in *. rewrite R.
    destruct (pass lib None (all_pieces ps)).
    - split; [|discriminate]. intros _. destruct (G eq_refl) as (_ & _ & Q). rewrite Q. unfold left_of.
      destruct (last_whole (all_pieces ps)); reflexivity.
    - split; [discriminate|]. intros _. exists e. reflexivity.
  Qed.
  (** of simple geometries the last one is left *)
  Lemma geos_last : forall src ps p r, Forall (fun p => simple (snd p) = true /\ short_geom (snd p) /\ accepted lib (snd p) = true) (ps ++ [p]) ->
    delivers src (fun multi => parts multi (ps ++ [p])) (Ok r) \/ delivers src (fun multi => gathered multi (ps ++ [p])) (Ok r) ->
    to_geos lib src = Ok (mkVal (gvalue (snd p)) 0%Z).
  Proof.
    intros src ps p r H D.
    assert (Q : all_pieces (ps ++ [p]) = map (fun q => Whole (snd q)) (ps ++ [p])).
    { clear D. induction H as [|a l (A & _) _ IH]; [reflexivity|]. unfold all_pieces in *. cbn [flat_map map]. rewrite IH.
      destruct a as [k g]. cbn [snd] in *. destruct g; try discriminate A; reflexivity. }
    destruct (geos_several src (ps ++ [p]) r) as [P _].
    - rewrite Q. apply Forall_map. eapply Forall_impl; [|exact H]. intros a (_ & A & _). exact A.
    - exact D.
    - rewrite P.
      + f_equal. rewrite Q, map_app. unfold left_of. rewrite last_whole_app. reflexivity.
      + rewrite Q. clear -H. generalize (@None nat). induction H as [|a l (_ & _ & A) _ IH]; intros n; [reflexivity|].
        cbn [map pass passes]. rewrite A. apply IH.
  Qed.
End Geos.

(** ** GDAL *)
Section Gdal.
  Import GdalModel GdalSpec GdalWrite GeosExactSpec GdalExactSpec GdalExact.
  Lemma gdal_parts : forall ps, Forall short_piece (all_pieces ps) -> stands (parts false ps) (all_pieces ps).
  Proof.
    induction ps as [|p ps IH]; intros H; [apply stands_nil|]. unfold all_pieces in H. cbn [flat_map] in H.
    apply Forall_app in H. destruct H as [H1 H2]. unfold parts, all_pieces. cbn [flat_map].
    apply stands_app; [now apply stands_geom|]. now apply IH.
  Qed.
  Lemma gdal_gathered : forall ps, Forall short_piece (all_pieces ps) -> stands (gathered false ps) (all_pieces ps).
  Proof.
    intros ps H. unfold gathered. apply stands_silent; [reflexivity|]. rewrite <- (app_nil_r (all_pieces ps)).
    apply stands_app; [now apply gdal_parts|]. apply stands_silent; [reflexivity|]. apply stands_nil.
  Qed.
  Lemma gdal_several : forall src ps (r : unit), Forall short_piece (all_pieces ps) ->
    delivers src (fun multi => parts multi ps) (Ok r) \/ delivers src (fun multi => gathered multi ps) (Ok r) ->
    to_gdal src = match takes (all_pieces ps) start with Ok h => Ok (held_value h) | Err e => Err e end.
  Proof.
    intros src ps r H D.
    assert (X : exists ev, stands ev (all_pieces ps) /\
      exec (gdal_writer xy_dims) (src xy_dims) (gw_with xy_dims) =
      match run (gdal_writer xy_dims) ev (gw_with xy_dims) with (s', Ok _) => (s', Ok r) | (s', Err x) => (s', Err x) end).
    { destruct D as [D|D]; specialize (D _ (gdal_writer xy_dims) (gw_with xy_dims)); cbn [p_dims gdal_writer] in D;
        change (multi_dim xy_dims) with false in D; eexists; (split; [|exact D]).
      - now apply gdal_parts.
      - now apply gdal_gathered. }
    destruct X as (ev & S & E). unfold to_gdal, to_gdal_ndim. rewrite E.
    assert (S0 : rel start (gw_with xy_dims)) by (eexists; repeat split; cbn; eauto).
    specialize (S start (gw_with xy_dims) S0). change (wd false) with xy_dims in S.
    destruct (takes (all_pieces ps) start) as [h|e].
    - destruct S as (s' & R & (q & -> & _)). rewrite R. reflexivity.
    - destruct S as (s' & R). rewrite R. reflexivity.
  Qed.
  Lemma gdal_last : forall src ps p (r : unit), Forall (fun p => simple (snd p) = true /\ short_geom (snd p)) (ps ++ [p]) ->
    delivers src (fun multi => parts multi (ps ++ [p])) (Ok r) \/ delivers src (fun multi => gathered multi (ps ++ [p])) (Ok r) ->
    to_gdal src = Ok (gvalue false (snd p)).
  Proof.
    intros src ps p r H D.
    assert (Q : all_pieces (ps ++ [p]) = map (fun q => Whole (snd q)) (ps ++ [p])).
    { clear D. induction H as [|a l (A & _) _ IH]; [reflexivity|]. unfold all_pieces in *. cbn [flat_map map]. rewrite IH.
      destruct a as [k g]. cbn [snd] in *. destruct g; try discriminate A; reflexivity. }
    rewrite (gdal_several src (ps ++ [p]) r).
    - rewrite Q, map_app, takes_app. generalize start. clear. induction ps as [|a ps IH]; intros h; [reflexivity|].
      cbn [map takes take]. apply IH.
    - rewrite Q. apply Forall_map. eapply Forall_impl; [|exact H]. intros a (_ & A). exact A.
    - exact D.
  Qed.
End Gdal.
