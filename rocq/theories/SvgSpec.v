(** Vocabulary of the SVG claims (specification side): the document for a dataset. *)
From Coq Require Import String Ascii.
From Coq Require Import List NArith ZArith Lia Bool.
From Coq Require Import DecimalString.
From Verif Require Import Base Float Event Geom ProcSpec FeatureSpec XmlSpec SvgModel.
Import ListNotations.
Local Open Scope list_scope.
Local Open Scope string_scope.

Section Svg.
  Variable fmt : f64 -> string.
  Variable invert : bool.

  (** x and y of a position; y is negated iff [invert] *)
  Definition position (c : coord) : string :=
    fmt (cx c) ++ " " ++ fmt (if invert then f64_neg (cy c) else cy c) ++ " ".
  Definition positions (l : line) : string := String.concat "" (map position l).
  (** move to the first position, ..., close *)
  Definition closed (l : line) : string := "M " ++ positions l ++ "Z ".
  Definition path (d : string) : list node := [Elem "path" [("d", d)] []].

  Definition segment_nodes (s : segment) : list node :=
    match s with SegLine l => chars (closed l) | SegArc l => chars (positions l) end.
  Definition curve_nodes (c : curve) : list node :=
    match c with
    | CvLine l => chars (closed l)
    | CvArc l => chars (positions l)
    | CvCompound s => flat_map segment_nodes s
    end.
  (** what is drawn: one path per point, line, multi line and polygon; the positions of all other
      types are not inside any path *)
  Fixpoint drawing (g : geom) : list node :=
    match g with
    | GPoint c => path ("M " ++ position c ++ "Z")
    | GEmptyPoint => []
    | GMultiPoint l => chars (positions l)
    | GLineString l => path (positions l)
    | GMultiLineString l => path (String.concat "" (map closed l))
    | GPolygon r => path (String.concat "" (map closed r))
    | GMultiPolygon l => flat_map (fun r => path (String.concat "" (map closed r))) l
    | GCollection l => flat_map drawing l
    | GCircularString l => chars (positions l)
    | GCompoundCurve l => flat_map segment_nodes l
    | GCurvePolygon l => flat_map curve_nodes l
    | GMultiCurve l => flat_map curve_nodes l
    | GMultiSurface l =>
        flat_map (fun s => match s with
                           | SfPolygon r => path (String.concat "" (map closed r))
                           | SfCurvePolygon c => flat_map curve_nodes c
                           end) l
    | GTriangle r => flat_map (fun l => chars (closed l)) r
    | GPolyhedralSurface l => flat_map (fun r => path (String.concat "" (map closed r))) l
    | GTin l => flat_map (fun r => flat_map (fun l => chars (closed l)) r) l
    end.
End Svg.

(** no empty point anywhere: SvgWriter fails on them *)
Fixpoint no_empty_point (g : geom) : bool :=
  match g with
  | GEmptyPoint => false
  | GCollection l => forallb no_empty_point l
  | _ => true
  end.

(** decimal text *)
Definition dec (n : N) : string := NilZero.string_of_int (Z.to_int (Z.of_N n)).

Section Document.
  Variable fmt : f64 -> string.
  Variable c : svgcfg.

  Definition newline : node := Ch (ascii_of_N 10).
  (** attributes of the svg element *)
  Definition svg_attrs : list (string * string) :=
    ([("xmlns", "http://www.w3.org/2000/svg"); ("version", "1.2"); ("baseProfile", "tiny")] ++
    match sv_size c with Some (w, h) => [("width", dec w); ("height", dec h)] | None => [] end ++
    match sv_view c with
    | Some (xmin, ymin, xmax, ymax) =>
        [("viewBox", (fmt xmin ++ " " ++ fmt ymin ++ " " ++ fmt (f64_sub xmax xmin) ++ " " ++
                      fmt (f64_sub ymax ymin))%string)]
    | None => []
    end ++
    [("stroke-linecap", "round"); ("stroke-linejoin", "round")])%list.
  Definition feature_drawing (f : feature) : list node :=
    newline :: match f_geom f with Some g => drawing fmt (sv_invert c) g | None => [] end.
  (** one svg element with one group that contains the drawings of all features in order *)
  Definition document (name : option string) (l : list feature) : list node :=
    [newline;
     Elem "svg" (svg_attrs)
       (newline ::
        match sv_style c with Some s => [Elem "style" [] (chars s); newline] | None => [] end ++
        [Elem "g" [("id", match name with Some n => n | None => "" end)]
           (flat_map feature_drawing l ++ [newline]);
         newline])%list].
  (** texts that are written without escaping *)
  Definition plain_option (o : option string) : Prop :=
    match o with Some s => xml_plain s = true | None => True end.
  Definition plain_style (o : option string) : Prop :=
    match o with Some s => content_plain s = true | None => True end.
End Document.

(** ** Numbers *)
(** the positions of callbacks, in order *)
Definition points_of (l : list event) : list (f64 * f64) :=
  flat_map (fun e => match e with Xy x y _ => [(x, y)] | _ => [] end) l.
(** the text and the attribute values of nodes, in order *)
Fixpoint node_text (n : node) : string :=
  match n with
  | Ch ch => String ch ""
  | Elem _ attrs kids =>
      String.concat "" (map (fun p => " " ++ snd p ++ " ") attrs) ++ String.concat "" (map node_text kids)
  end.
(** blank-separated words *)
Fixpoint words (s acc : string) : list string :=
  match s with
  | "" => if String.eqb acc "" then [] else [acc]
  | String ch r =>
      if blank ch then (if String.eqb acc "" then words r "" else acc :: words r "")
      else words r (snoc acc ch)
  end.
(** all words except the commands M (move) and Z (close) *)
Definition numbers (l : list node) : list string :=
  filter (fun w => negb (String.eqb w "M") && negb (String.eqb w "Z"))
    (words (String.concat "" (map node_text l)) "").
(** a number is formatted as one word other than M and Z, without XML syntax *)
Fixpoint no_blank (s : string) : bool :=
  match s with "" => true | String ch r => negb (blank ch) && no_blank r end.
Definition word_format (fmt : f64 -> string) : Prop :=
  forall x, fmt x <> "" /\ no_blank (fmt x) = true /\ fmt x <> "M" /\ fmt x <> "Z".

(** ** Visible shapes *)
(** a path whose data begins with a move: renderers draw nothing else *)
Definition visible (n : node) : Prop := exists rest, n = Elem "path" [("d", "M " ++ rest)] [].
Definition no_lines (r : list line) : bool := match r with [] => true | _ => false end.
(** geometries drawn by paths that begin with a move *)
Fixpoint drawn (g : geom) : bool :=
  match g with
  | GPoint _ => true
  | GMultiLineString r | GPolygon r => negb (no_lines r)
  | GMultiPolygon l => forallb (fun r => negb (no_lines r)) l
  | GCollection l => forallb drawn l
  | _ => false
  end.
(** nothing is written outside of paths that begin with a move: [n] is such a path, or a path
    without data *)
Definition inside (n : node) : Prop := visible n \/ n = Elem "path" [("d", "")] [].
Definition nothing {A} (l : list A) : bool := match l with [] => true | _ => false end.
Definition segment_void (s : segment) : bool :=
  match s with SegLine _ => false | SegArc l => nothing l end.
Definition curve_void (c : curve) : bool :=
  match c with CvLine _ => false | CvArc l => nothing l | CvCompound s => forallb segment_void s end.
(** points, multi lines, polygons and what consists of polygons; anything else only if it is void *)
Fixpoint enclosed (g : geom) : bool :=
  match g with
  | GPoint _ | GEmptyPoint | GMultiLineString _ | GPolygon _ | GMultiPolygon _ | GPolyhedralSurface _ => true
  | GMultiPoint l | GLineString l | GCircularString l => nothing l
  | GCollection l => forallb enclosed l
  | GCompoundCurve l => forallb segment_void l
  | GCurvePolygon l | GMultiCurve l => forallb curve_void l
  | GMultiSurface l => forallb (fun s => match s with SfPolygon _ => true | SfCurvePolygon c => forallb curve_void c end) l
  | GTriangle r => nothing r
  | GTin l => forallb nothing l
  end.
