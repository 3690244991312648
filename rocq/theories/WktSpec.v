(** Specification side of WKT: the text of a geometry, and a reference parser for the grammar
    (OGC 06-103r4 section 7.2 without the dimension tags, which geozero never writes).
    Uses only the syntax tree [wkt] of the model. *)
From Coq Require Import String Ascii.
From Coq Require Import List NArith ZArith Lia Bool.
From Coq Require Import Numbers.DecimalString.
From Verif Require Import Base Event Geom WkbSpec WktModel.
Import ListNotations.
Local Open Scope string_scope.
Local Open Scope list_scope.

(** ** The text *)
Section Text.
  Variable fmt : f64 -> string.
  (** are z and m to be written? *)
  Variables z m : bool.

  Definition shown (c : coord) : coord :=
    mkC (cx c) (cy c) (if z then cz c else None) (if m then cm c else None).
  Definition ordinate_text (o : option f64) : string :=
    match o with Some v => " " ++ fmt v | None => "" end.
  (** x y [z] [m], or EMPTY if all of these are NaN *)
  Definition coord_text (c : coord) : string :=
    if all_nanb (shown c) then "EMPTY"
    else fmt (cx c) ++ " " ++ fmt (cy c) ++
         ordinate_text (cz (shown c)) ++ ordinate_text (cm (shown c)).

  (** members in parentheses, or EMPTY *)
  Definition group (l : list string) : string :=
    match l with [] => "EMPTY" | _ => "(" ++ String.concat "," l ++ ")" end.
  (** keyword before it *)
  Definition tagged_group (tag : string) (l : list string) : string :=
    match l with [] => tag ++ " EMPTY" | _ => tag ++ group l end.

  Definition line_text (l : line) : string := group (map coord_text l).
  Definition rings_text (r : rings) : string := group (map line_text r).
  Definition arc_text (l : line) : string := tagged_group "CIRCULARSTRING" (map coord_text l).
  Definition segment_text (s : segment) : string :=
    match s with SegLine l => line_text l | SegArc l => arc_text l end.
  Definition compound_text (l : list segment) : string :=
    tagged_group "COMPOUNDCURVE" (map segment_text l).
  Definition curve_text (c : curve) : string :=
    match c with CvLine l => line_text l | CvArc l => arc_text l | CvCompound s => compound_text s end.
  Definition curvepolygon_text (l : list curve) : string :=
    tagged_group "CURVEPOLYGON" (map curve_text l).
  Definition surface_text (s : surface) : string :=
    match s with SfPolygon r => rings_text r | SfCurvePolygon c => curvepolygon_text c end.

  Fixpoint wkt_text (g : geom) : string :=
    match g with
    | GPoint c => tagged_group "POINT" [coord_text c]
    | GEmptyPoint => "POINT EMPTY"
    | GMultiPoint l => tagged_group "MULTIPOINT" (map coord_text l)
    | GLineString l => tagged_group "LINESTRING" (map coord_text l)
    | GMultiLineString l => tagged_group "MULTILINESTRING" (map line_text l)
    | GPolygon r => tagged_group "POLYGON" (map line_text r)
    | GMultiPolygon l => tagged_group "MULTIPOLYGON" (map rings_text l)
    | GCollection l => tagged_group "GEOMETRYCOLLECTION" (map wkt_text l)
    | GCircularString l => arc_text l
    | GCompoundCurve l => compound_text l
    | GCurvePolygon l => curvepolygon_text l
    | GMultiCurve l => tagged_group "MULTICURVE" (map curve_text l)
    | GMultiSurface l => tagged_group "MULTISURFACE" (map surface_text l)
    | GTriangle r => tagged_group "TRIANGLE" (map line_text r)
    | GPolyhedralSurface l => tagged_group "POLYHEDRALSURFACE" (map rings_text l)
    | GTin l => tagged_group "TIN" (map rings_text l)
    end.
End Text.

(** no coordinate carries an ordinate the output is not configured for *)
Definition carries (z m : bool) (g : geom) : Prop :=
  on_geom True (fun _ => True)
    (fun c => (z = false -> cz c = None) /\ (m = false -> cm c = None)) (fun _ => True) g.

(** the EWKT prefix: [configured] on the writer, [announced] by the source *)
Fixpoint first_some (l : list (option Z)) : option Z :=
  match l with [] => None | Some v :: _ => Some v | None :: r => first_some r end.
Definition srid_prefix (configured : option Z) (announced : list (option Z)) : string :=
  match first_some (configured :: announced) with
  | Some v => if (v =? 0)%Z then "" else "SRID=" ++ NilZero.string_of_int (Z.to_int v) ++ ";"
  | None => ""
  end.

(** ** Reference parser.  [num] reads one number. *)
Section Parser.
  Variable num : string -> option f64.
  Variables z m : bool.

  Definition delim (a : ascii) : bool :=
    (Ascii.eqb a " " || Ascii.eqb a "," || Ascii.eqb a "(" || Ascii.eqb a ")")%char.
  (** longest prefix without delimiter *)
  Fixpoint word (s : string) : string * string :=
    match s with
    | "" => ("", "")
    | String a r => if delim a then ("", s) else let (w, t) := word r in (String a w, t)
    end.
  (** strip a literal *)
  Fixpoint lit (w s : string) : option string :=
    match w, s with
    | "", _ => Some s
    | String a w', String b s' => if Ascii.eqb a b then lit w' s' else None
    | _, _ => None
    end.

  Definition parser (A : Type) := string -> option (A * string).

  Definition p_num : parser f64 := fun s =>
    let (w, t) := word s in match num w with Some x => Some (x, t) | None => None end.
  Definition p_opt (flag : bool) : parser (option f64) := fun s =>
    if flag then
      match lit " " s with
      | Some t => match p_num t with Some (x, t) => Some (Some x, t) | None => None end
      | None => None
      end
    else Some (None, s).

  Definition qnan : f64 := 0x7FF8000000000000%N.
  Definition nan_position : coord :=
    mkC qnan qnan (if z then Some qnan else None) (if m then Some qnan else None).

  Definition p_coord : parser coord := fun s =>
    match lit "EMPTY" s with
    | Some t => Some (nan_position, t)
    | None =>
        match p_num s with
        | Some (x, t) =>
            match lit " " t with
            | Some t =>
                match p_num t with
                | Some (y, t) =>
                    match p_opt z t with
                    | Some (vz, t) =>
                        match p_opt m t with
                        | Some (vm, t) => Some (mkC x y vz vm, t)
                        | None => None
                        end
                    | None => None
                    end
                | None => None
                end
            | None => None
            end
        | None => None
        end
    end.

  (** items separated by commas up to the closing parenthesis *)
  Fixpoint p_items {A} (p : parser A) (fuel : nat) (s : string) : option (list A * string) :=
    match fuel with
    | O => None
    | S n =>
        match p s with
        | Some (a, t) =>
            match lit ")" t with
            | Some t => Some ([a], t)
            | None =>
                match lit "," t with
                | Some t =>
                    match p_items p n t with Some (l, t) => Some (a :: l, t) | None => None end
                | None => None
                end
            end
        | None => None
        end
    end.
  Definition p_paren {A} (p : parser A) : parser (list A) := fun s =>
    match lit "(" s with Some t => p_items p (String.length t) t | None => None end.
  (** members without keyword *)
  Definition p_group {A} (p : parser A) : parser (list A) := fun s =>
    match lit "EMPTY" s with Some t => Some ([], t) | None => p_paren p s end.
  (** members after a keyword *)
  Definition p_tagged {A} (p : parser A) : parser (list A) := fun s =>
    match lit " EMPTY" s with Some t => Some ([], t) | None => p_paren p s end.

  Definition p_map {A B} (f : A -> B) (p : parser A) : parser B := fun s =>
    match p s with Some (a, t) => Some (f a, t) | None => None end.
  (** [p] after the keyword [w], else [q] *)
  Definition p_or {A} (w : string) (p q : parser A) : parser A := fun s =>
    match lit w s with Some t => p t | None => q s end.

  Definition p_line : parser line := p_group p_coord.
  Definition p_rings : parser rings := p_group p_line.
  Definition p_segment : parser segment :=
    p_or "CIRCULARSTRING" (p_map SegArc (p_tagged p_coord)) (p_map SegLine p_line).
  Definition p_curve : parser curve :=
    p_or "CIRCULARSTRING" (p_map CvArc (p_tagged p_coord))
    (p_or "COMPOUNDCURVE" (p_map CvCompound (p_tagged p_segment))
          (p_map CvLine p_line)).
  Definition p_surface : parser surface :=
    p_or "CURVEPOLYGON" (p_map SfCurvePolygon (p_tagged p_curve)) (p_map SfPolygon p_rings).

  Definition p_point : parser geom := fun s =>
    match lit " EMPTY" s with
    | Some t => Some (GEmptyPoint, t)
    | None =>
        match lit "(" s with
        | Some t =>
            match p_coord t with
            | Some (c, t) => match lit ")" t with Some t => Some (GPoint c, t) | None => None end
            | None => None
            end
        | None => None
        end
    end.

  Fixpoint p_geom (fuel : nat) (s : string) : option (geom * string) :=
    match fuel with
    | O => None
    | S n =>
        let (w, t) := word s in
        if String.eqb w "POINT" then p_point t
        else if String.eqb w "MULTIPOINT" then p_map GMultiPoint (p_tagged p_coord) t
        else if String.eqb w "LINESTRING" then p_map GLineString (p_tagged p_coord) t
        else if String.eqb w "MULTILINESTRING" then p_map GMultiLineString (p_tagged p_line) t
        else if String.eqb w "POLYGON" then p_map GPolygon (p_tagged p_line) t
        else if String.eqb w "MULTIPOLYGON" then p_map GMultiPolygon (p_tagged p_rings) t
        else if String.eqb w "GEOMETRYCOLLECTION" then p_map GCollection (p_tagged (p_geom n)) t
        else if String.eqb w "CIRCULARSTRING" then p_map GCircularString (p_tagged p_coord) t
        else if String.eqb w "COMPOUNDCURVE" then p_map GCompoundCurve (p_tagged p_segment) t
        else if String.eqb w "CURVEPOLYGON" then p_map GCurvePolygon (p_tagged p_curve) t
        else if String.eqb w "MULTICURVE" then p_map GMultiCurve (p_tagged p_curve) t
        else if String.eqb w "MULTISURFACE" then p_map GMultiSurface (p_tagged p_surface) t
        else if String.eqb w "TRIANGLE" then p_map GTriangle (p_tagged p_line) t
        else if String.eqb w "POLYHEDRALSURFACE" then p_map GPolyhedralSurface (p_tagged p_rings) t
        else if String.eqb w "TIN" then p_map GTin (p_tagged p_rings) t
        else None
    end.

  Definition parse_wkt (s : string) : option geom :=
    match p_geom (String.length s) s with Some (g, "") => Some g | _ => None end.
End Parser.

(** ** Number formatting: text without delimiters that is not the word EMPTY and from which the
    number is recovered, a NaN as the quiet NaN *)
Definition canon (x : f64) : f64 := if f64_is_nan x then qnan else x.
Fixpoint no_delim (s : string) : bool :=
  match s with "" => true | String a r => negb (delim a) && no_delim r end.
Definition formats (fmt : f64 -> string) (num : string -> option f64) : Prop :=
  forall x, f64_ok x -> no_delim (fmt x) = true /\ lit "EMPTY" (fmt x) = None /\ num (fmt x) = Some (canon x).

Definition canon_coord (c : coord) : coord :=
  mkC (canon (cx c)) (canon (cy c)) (option_map canon (cz c)) (option_map canon (cm c)).
(** NaNs canonicalised *)
Definition canon_geom : geom -> geom := map_geom GPoint canon_coord.

(** every coordinate has a z iff [z] and an m iff [m] (and 64-bit ordinates) *)
Definition exactly (z m : bool) (g : geom) : Prop :=
  on_geom True (fun _ => True)
    (fun c => coord64 c /\
              (if z then cz c <> None else cz c = None) /\
              (if m then cm c <> None else cm c = None)) (fun _ => True) g.
Definition nan_free (g : geom) : Prop :=
  on_geom True (fun _ => True)
    (fun c => f64_is_nan (cx c) = false /\ f64_is_nan (cy c) = false /\
              match cz c with Some v => f64_is_nan v = false | None => True end /\
              match cm c with Some v => f64_is_nan v = false | None => True end) (fun _ => True) g.

(** ** Parsed WKT (the syntax tree of the external parser) as a geometry; [None] where a MultiPoint
    has an EMPTY member, which has no position to report *)
Fixpoint somes {A} (l : list (option A)) : option (list A) :=
  match l with
  | [] => Some []
  | None :: _ => None
  | Some a :: r => option_map (cons a) (somes r)
  end.
Fixpoint wkt_geom (w : wkt) : option geom :=
  match w with
  | WPoint None => Some GEmptyPoint
  | WPoint (Some c) => Some (GPoint c)
  | WMultiPoint l => option_map GMultiPoint (somes l)
  | WLineString l => Some (GLineString l)
  | WMultiLineString l => Some (GMultiLineString l)
  | WPolygon r => Some (GPolygon r)
  | WMultiPolygon l => Some (GMultiPolygon l)
  | WCollection l => option_map GCollection (somes (map wkt_geom l))
  end.
