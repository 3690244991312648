(** The SVG properties: C43, C48 (see /verif/properties.jsonl). *)
From Coq Require Import String.
From Coq Require Import List NArith ZArith Bool.
From Verif Require Import Base Float Event Claims Geom ProcSpec FeatureSpec XmlSpec SvgModel SvgSpec SvgTop XmlExact SvgExact.
Import ListNotations.
Local Open Scope string_scope.
Local Open Scope list_scope.

(** C43: the output is balanced: it parses to the drawing of the geometry or to one svg element with
    the drawings of all features.  Missing: empty points (the writer fails) and unescaped texts.  [fmt] is
    the text of a number; numbers and names without quotes, ampersands and less-than signs, styles
    without ampersands and less-than signs. *)
Theorem C43_dataset_partial : forall fmt c gi name l, (forall x, xml_plain (fmt x) = true) ->
  plain_option name -> plain_style (sv_style c) ->
  Forall (fun f => match f_geom f with Some g => no_empty_point g = true | None => True end) l ->
  exists t, feed (svg_writer fmt c)
              (OEv (DatasetBegin name) :: flat_mapi (fun i f => feature_obs false i (gi i) f) 0 l ++ [OEv DatasetEnd]) ""%string
            = (t, Ok tt) /\ parse_xml t = Some (document fmt c name l).
Proof. exact svg_dataset. Qed.
Print Assumptions C43_dataset_partial.
(** these are all the names and styles for which the document says what it should: names and styles are
    not escaped *)
Theorem C43_dataset_exact : forall fmt c gi name l, (forall x, xml_plain (fmt x) = true) ->
  Forall (fun f => match f_geom f with Some g => no_empty_point g = true | None => True end) l ->
  exists t, feed (svg_writer fmt c)
              (OEv (DatasetBegin name) :: flat_mapi (fun i f => feature_obs false i (gi i) f) 0 l ++ [OEv DatasetEnd]) ""%string
            = (t, Ok tt) /\
    (parse_xml t = Some (document fmt c name l) <-> plain_option name /\ plain_style (sv_style c)).
Proof. exact svg_exact. Qed.
Print Assumptions C43_dataset_exact.
Example C43_dataset_exact_met : (forall x, xml_plain (hex_fmt x) = true) /\
  Forall (fun f => match f_geom f with Some g => no_empty_point g = true | None => True end) svg_features /\
  plain_style (Some "path { font-family: ""Arial"" }"%string) /\ ~ plain_option (Some "R&D"%string).
Proof. split; [exact hex_plain|]. split; [repeat constructor|]. split; [reflexivity|discriminate]. Qed.
Theorem C43_source_partial : forall A (src : dims -> prog A) fmt name l r, (forall x, xml_plain (fmt x) = true) ->
  plain_option name ->
  Forall (fun f => match f_geom f with Some g => no_empty_point g = true | None => True end) l ->
  delivers_obs src (fun multi => dataset_obs multi name l) (Ok r) ->
  exists t, to_svg fmt src = Ok t /\ parse_xml t = Some (document fmt (svg_new false) name l).
Proof. exact svg_source. Qed.
Print Assumptions C43_source_partial.
Theorem C43_geometry_partial : forall A (src : dims -> prog A) fmt idx l g r,
  (forall x, xml_plain (fmt x) = true) -> no_empty_point g = true ->
  delivers src (fun multi => map Srid l ++ gevents multi idx g) (Ok r) ->
  exists t, to_svg fmt src = Ok t /\ parse_xml t = Some (drawing fmt false g).
Proof. exact svg_geometry. Qed.
Print Assumptions C43_geometry_partial.
Theorem C43_geometry_document_partial : forall A (src : dims -> prog A) fmt idx l g r,
  (forall x, xml_plain (fmt x) = true) -> no_empty_point g = true ->
  delivers src (fun multi => map Srid l ++ gevents multi idx g) (Ok r) ->
  exists t, to_svg_document fmt src = Ok t /\
            parse_xml t = Some (document fmt (svg_new false) None [mkFeature None (Some g)]).
Proof. exact svg_geometry_document. Qed.
Print Assumptions C43_geometry_document_partial.
(** every position exactly once and in order, y negated iff the axis is inverted *)
Theorem C43_numbers : forall fmt invert, word_format fmt -> forall g idx,
  numbers (drawing fmt invert g) =
  flat_map (fun p => [fmt (fst p); fmt (if invert then f64_neg (snd p) else snd p)])
    (points_of (gevents false idx g)).
Proof. exact drawing_numbers. Qed.
Print Assumptions C43_numbers.
(** the size and the visible area given to set_dimensions *)
Theorem C43_dimensions : forall fmt c xmin ymin xmax ymax w h,
  let y0 := if sv_invert c then f64_neg ymax else ymin in
  let y1 := if sv_invert c then f64_neg ymin else ymax in
  let area := (fmt xmin ++ " " ++ fmt y0 ++ " " ++ fmt (f64_sub xmax xmin) ++ " " ++ fmt (f64_sub y1 y0))%string in
  svg_attrs fmt (set_dimensions c xmin ymin xmax ymax w h) =
  [("xmlns", "http://www.w3.org/2000/svg"); ("version", "1.2"); ("baseProfile", "tiny");
   ("width", dec w); ("height", dec h); ("viewBox", area); ("stroke-linecap", "round"); ("stroke-linejoin", "round")]
  /\ sv_invert (set_dimensions c xmin ymin xmax ymax w h) = sv_invert c
  /\ sv_style (set_dimensions c xmin ymin xmax ymax w h) = sv_style c.
Proof. intros. unfold area, y0, y1. destruct (sv_invert c) eqn:E; cbn; rewrite E; auto. Qed.
Print Assumptions C43_dimensions.
(** nothing is said about size, area and style unless it was set *)
Theorem C43_defaults : forall fmt invert,
  svg_attrs fmt (svg_new invert) =
  [("xmlns", "http://www.w3.org/2000/svg"); ("version", "1.2"); ("baseProfile", "tiny");
   ("stroke-linecap", "round"); ("stroke-linejoin", "round")]
  /\ sv_invert (svg_new invert) = invert /\ sv_style (svg_new invert) = None.
Proof. repeat split. Qed.
Print Assumptions C43_defaults.
Theorem C43_style : forall c s, sv_style (set_style c s) = s /\ sv_invert (set_style c s) = sv_invert c /\
  sv_view (set_style c s) = sv_view c /\ sv_size (set_style c s) = sv_size c.
Proof. repeat split. Qed.
Print Assumptions C43_style.
Example C43_met : (forall x, xml_plain (hex_fmt x) = true) /\ word_format hex_fmt /\
  plain_option (Some "roads"%string) /\
  Forall (fun f => match f_geom f with Some g => no_empty_point g = true | None => True end) svg_features /\
  drawing hex_fmt true svg_point =
    [Elem "path" [("d"%string, "M 1 9223372036854775810 Z"%string)] []] /\
  List.length (document hex_fmt (svg_new false) (Some "roads"%string) svg_features) = 2%nat.
Proof.
  split; [exact hex_plain|]. split; [exact hex_word|]. split; [reflexivity|].
  split; [repeat constructor|]. split; vm_compute; reflexivity.
Qed.
(** Not true without the conditions: empty points are errors, names are not escaped. *)
Theorem C43_empty_point_refuted : forall fmt c,
  exists x, run (svg_writer fmt c) (gevents false 0 GEmptyPoint) ""%string = (""%string, Err x).
Proof. exact empty_point_fails. Qed.
Print Assumptions C43_empty_point_refuted.
Theorem C43_name_refuted :
  feed (svg_writer hex_fmt (svg_new false)) (dataset_obs false (Some "R&D"%string) []) ""%string =
    (fst (feed (svg_writer hex_fmt (svg_new false)) (dataset_obs false (Some "R&D"%string) []) ""%string), Ok tt) /\
  parse_xml (fst (feed (svg_writer hex_fmt (svg_new false)) (dataset_obs false (Some "R&D"%string) []) ""%string)) = None.
Proof. exact svg_name_breaks. Qed.
Print Assumptions C43_name_refuted.

(** C48: what is drawn by paths that begin with a move.  Missing: lines (their data has no move),
    multi points, curves, surfaces of triangles (outside any path). *)
Theorem C48_visible_partial : forall fmt invert g, drawn g = true -> Forall visible (drawing fmt invert g).
Proof. exact svg_drawn. Qed.
Print Assumptions C48_visible_partial.
Example C48_met : drawn (GCollection [svg_point; GPolygon [[mkC 5%N 6%N None None]]]) = true.
Proof. reflexivity. Qed.
(** the exact class of geometries for which everything is written inside such paths *)
Theorem C48_exact : forall fmt invert, word_format fmt -> forall g,
  Forall inside (drawing fmt invert g) <-> enclosed g = true.
Proof. exact drawing_exact. Qed.
Print Assumptions C48_exact.
Theorem C48_line_refuted :
  ~ Forall visible (drawing hex_fmt false (GLineString [mkC 1%N 2%N None None; mkC 3%N 4%N None None])).
Proof. exact svg_line_hidden. Qed.
Print Assumptions C48_line_refuted.
Theorem C48_multipoint_refuted : ~ Forall visible (drawing hex_fmt false (GMultiPoint [mkC 1%N 2%N None None])).
Proof. exact svg_multipoint_hidden. Qed.
Print Assumptions C48_multipoint_refuted.
