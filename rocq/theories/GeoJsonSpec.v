(** Vocabulary of the GeoJSON claims (specification side): RFC 7946 on JSON values. *)
From Coq Require Import String Ascii.
From Coq Require Import List NArith ZArith Lia Bool.
From Verif Require Import Base Event Claims Geom WkbSpec ProcSpec JsonSpec FeatureSpec GeoJsonModel.
Import ListNotations.
Local Open Scope string_scope.
Local Open Scope list_scope.

(** ** Numbers *)
(** the 64 (32) bits of a number that is neither infinite nor NaN *)
Definition finite (x : f64) : bool := ((x / 2 ^ 64 =? 0) && negb ((x / 2 ^ 52) mod 2 ^ 11 =? 2047))%N.
Definition finite32 (x : N) : bool := ((x / 2 ^ 32 =? 0) && negb ((x / 2 ^ 23) mod 2 ^ 8 =? 255))%N.
(** a finite number is formatted as a JSON number from which it is recovered *)
Definition json_format (fin : N -> bool) (fmt : N -> string) (num : string -> option N) : Prop :=
  forall x, fin x = true -> json_number (fmt x) = true /\ num (fmt x) = Some x.

(** ** Geometry objects (RFC 7946 section 3.1) *)
Section Rfc.
  Variable num : string -> option f64.

  Fixpoint all {A B} (f : A -> option B) (l : list A) : option (list B) :=
    match l with
    | [] => Some []
    | a :: r =>
        match f a, all f r with Some b, Some r' => Some (b :: r') | _, _ => None end
    end.
  (** an array of items *)
  Definition items {B} (f : json -> option B) (j : json) : option (list B) :=
    match j with JArr l => all f l | _ => None end.
  (** two or more numbers; the third one is the height, further ones are ignored *)
  Definition position (j : json) : option coord :=
    match j with
    | JArr (JNum x :: JNum y :: r) =>
        match num x, num y, r with
        | Some x, Some y, [] => Some (mkC x y None None)
        | Some x, Some y, JNum z :: _ =>
            match num z with Some z => Some (mkC x y (Some z) None) | None => None end
        | _, _, _ => None
        end
    | _ => None
    end.
  (** a Point without coordinates is an empty point *)
  Definition point (j : json) : option geom :=
    match j with JArr [] => Some GEmptyPoint | _ => option_map GPoint (position j) end.
  (** the value of the first member called [k] *)
  Definition member (k : string) (l : list (string * json)) : option json :=
    match find (fun p => String.eqb (fst p) k) l with Some p => Some (snd p) | None => None end.
  Definition coordinates_of {B} (l : list (string * json)) (f : json -> option B) : option B :=
    match member "coordinates" l with Some j => f j | None => None end.

  Fixpoint geometry_of (j : json) : option geom :=
    match j with
    | JObj l =>
        match member "type" l with
        | Some (JStr t) =>
            if String.eqb t "Point" then coordinates_of l point
            else if String.eqb t "MultiPoint" then option_map GMultiPoint (coordinates_of l (items position))
            else if String.eqb t "LineString" then option_map GLineString (coordinates_of l (items position))
            else if String.eqb t "MultiLineString" then
              option_map GMultiLineString (coordinates_of l (items (items position)))
            else if String.eqb t "Polygon" then
              option_map GPolygon (coordinates_of l (items (items position)))
            else if String.eqb t "MultiPolygon" then
              option_map GMultiPolygon (coordinates_of l (items (items (items position))))
            else if String.eqb t "GeometryCollection" then
              (* the geometries of the first member called "geometries" *)
              (fix go (l : list (string * json)) : option geom :=
                 match l with
                 | [] => None
                 | (k, v) :: r =>
                     if String.eqb k "geometries" then
                       match v with
                       | JArr m =>
                           option_map GCollection
                             ((fix each (m : list json) : option (list geom) :=
                                 match m with
                                 | [] => Some []
                                 | a :: r =>
                                     match geometry_of a, each r with
                                     | Some b, Some r' => Some (b :: r')
                                     | _, _ => None
                                     end
                                 end) m)
                       | _ => None
                       end
                     else go r
                 end) l
            else None
        | _ => None
        end
    | _ => None
    end.
End Rfc.

(** ** What can be written *)
(** the geometry types of GeoJSON *)
Fixpoint geojson_kind (g : geom) : bool :=
  match g with
  | GPoint _ | GEmptyPoint | GMultiPoint _ | GLineString _ | GMultiLineString _
  | GPolygon _ | GMultiPolygon _ => true
  | GCollection l => forallb geojson_kind l
  | _ => false
  end.
(** all ordinates that are written are finite; [z]: is the height written? *)
Definition finite_coord (z : bool) (c : coord) : Prop :=
  finite (cx c) = true /\ finite (cy c) = true /\
  (z = true -> match cz c with Some v => finite v = true | None => True end).
Definition finite_geom (z : bool) (g : geom) : Prop :=
  on_geom True (fun _ => True) (finite_coord z) (fun _ => True) g.
(** GeoJSON positions have no m; the height is kept if [z] *)
Definition kept (z : bool) (c : coord) : coord :=
  mkC (cx c) (cy c) (if z then cz c else None) None.
Definition kept_geom (z : bool) : geom -> geom := map_geom GPoint (kept z).

(** ** Properties and features *)
Section Props.
  Variable num32 : string -> option N.
  Variable num : string -> option f64.

  (** [j] is the JSON value of the property value *)
  Inductive value_json : colval -> json -> Prop :=
  | json_i8 z t : decimal z t -> value_json (CByte z) (JNum t)
  | json_u8 z t : decimal z t -> value_json (CUByte z) (JNum t)
  | json_i16 z t : decimal z t -> value_json (CShort z) (JNum t)
  | json_u16 z t : decimal z t -> value_json (CUShort z) (JNum t)
  | json_i32 z t : decimal z t -> value_json (CInt z) (JNum t)
  | json_u32 z t : decimal z t -> value_json (CUInt z) (JNum t)
  | json_i64 z t : decimal z t -> value_json (CLong z) (JNum t)
  | json_u64 z t : decimal z t -> value_json (CULong z) (JNum t)
  | json_bool b : value_json (CBool b) (JBool b)
  | json_f32 x t : num32 t = Some x -> value_json (CFloat x) (JNum t)
  | json_f64 x t : num t = Some x -> value_json (CDouble x) (JNum t)
  | json_string s : value_json (CString s) (JStr s)
  | json_datetime s : value_json (CDateTime s) (JStr s)
  | json_json t j : parse_json t = Some j -> value_json (CJson t) j.

  (** values whose text is safe: finite numbers, texts without backslash and control character,
      well-formed JSON; binary values have no JSON text *)
  Definition safe_value (v : colval) : Prop :=
    match v with
    | CFloat x => finite32 x = true
    | CDouble x => finite x = true
    | CString s | CDateTime s => plain_text s = true
    | CJson t => parse_json t <> None
    | CBinary _ => False
    | _ => True
    end.

  (** properties numbered from 0 *)
  Definition from_zero (l : list (nat * string * colval)) : Prop :=
    map (fun q => fst (fst q)) l = seq 0 (length l).
  Definition safe_feature (z : bool) (f : feature) : Prop :=
    match f_props f with
    | Some l => from_zero l /\ Forall (fun q => plain_text (snd (fst q)) = true /\ safe_value (snd q)) l
    | None => True
    end /\
    match f_geom f with
    | Some g => geojson_kind g = true /\ finite_geom z g
    | None => True
    end.

  (** a dataset name is written without any escaping *)
  Fixpoint no_quote (t : string) : bool :=
    match t with "" => true | String c r => negb (Ascii.eqb c """") && no_quote r end.
  Definition safe_name (n : option string) : Prop :=
    match n with Some t => plain_text t = true /\ no_quote t = true | None => True end.

  Definition opt_list {A} (o : option A) : list A := match o with Some a => [a] | None => [] end.
  (** the object has these members in this order; a member that is [None] is absent *)
  Definition is_object (j : json) (l : list (option (string * json))) : Prop :=
    j = JObj (flat_map opt_list l).
  Definition same_option {A B} (R : A -> B -> Prop) (a : option A) (b : option B) : Prop :=
    match a, b with Some a, Some b => R a b | None, None => True | _, _ => False end.

  (** [j] is the Feature object of [f] *)
  Definition feature_json (z : bool) (f : feature) (j : json) : Prop :=
    exists props geo,
      is_object j [Some ("type", JStr "Feature");
                   option_map (fun l => ("properties", JObj l)) props;
                   option_map (fun g => ("geometry", g)) geo] /\
      same_option (Forall2 (fun q m => snd (fst q) = fst m /\ value_json (snd q) (snd m))) (f_props f) props /\
      same_option (fun g j => geometry_of num j = Some (kept_geom z g)) (f_geom f) geo.
  (** [j] is the FeatureCollection object of a dataset *)
  Definition dataset_json (z : bool) (name : option string) (l : list feature) (j : json) : Prop :=
    exists js,
      is_object j [Some ("type", JStr "FeatureCollection");
                   option_map (fun n => ("name", JStr n)) name;
                   Some ("features", JArr js)] /\
      Forall2 (feature_json z) l js.
End Props.

(** ** Lines *)
Fixpoint has_newline (t : string) : bool :=
  match t with "" => false | String c r => Ascii.eqb c (ascii_of_N 10) || has_newline r end.
(** a top level item with the number it is delivered with *)
Inductive item := IFeature (i : nat) (f : feature) | IGeometry (i : nat) (g : geom).
Definition item_obs (multi : bool) (it : item) : list obs :=
  match it with
  | IFeature i f => feature_obs multi i 0 f
  | IGeometry i g => map OEv (gevents multi i g)
  end.
(** the same item on its own *)
Definition alone (it : item) : item :=
  match it with IFeature _ f => IFeature 0 f | IGeometry _ g => IGeometry 0 g end.
Definition item_kind (it : item) : bool :=
  match it with
  | IFeature _ f => match f_geom f with Some g => geojson_kind g | None => true end
  | IGeometry _ g => geojson_kind g
  end.
(** no text of the item contains a newline *)
Definition single_line (it : item) : Prop :=
  match it with
  | IFeature _ f =>
      match f_props f with
      | Some l => Forall (fun q => has_newline (snd (fst q)) = false /\
                                   match snd q with
                                   | CString s | CDateTime s | CJson s => has_newline s = false
                                   | _ => True
                                   end) l
      | None => True
      end
  | IGeometry _ _ => True
  end.

(** ** Parsed GeoJSON as geometry *)
Definition coord_of (p : list f64) : option coord :=
  match p with
  | x :: y :: r => Some (mkC x y (hd_error r) None)
  | _ => None
  end.
(** [None]: a position with fewer than two numbers, which the parser rejects *)
Fixpoint tree_of (g : gjgeom) : option geom :=
  match g with
  | GjPoint p => option_map GPoint (coord_of p)
  | GjMultiPoint l => option_map GMultiPoint (all coord_of l)
  | GjLineString l => option_map GLineString (all coord_of l)
  | GjMultiLineString l => option_map GMultiLineString (all (all coord_of) l)
  | GjPolygon l => option_map GPolygon (all (all coord_of) l)
  | GjMultiPolygon l => option_map GMultiPolygon (all (all (all coord_of)) l)
  | GjCollection l =>
      option_map GCollection
        ((fix each (l : list gjgeom) : option (list geom) :=
            match l with
            | [] => Some []
            | a :: r => match tree_of a, each r with Some b, Some r' => Some (b :: r') | _, _ => None end
            end) l)
  end.

(** the value delivered for a JSON property value; null is not delivered *)
Inductive value_of (ser : jvalue -> string) : jvalue -> colval -> Prop :=
| of_string s : value_of ser (JvString s) (CString s)
| of_bool b : value_of ser (JvBool b) (CBool b)
| of_float x : value_of ser (JvNumber (NFloat x)) (CDouble x)
| of_negative z : value_of ser (JvNumber (NNegInt z)) (CLong z)
| of_small n : (Z.of_N n < 2 ^ 63)%Z -> value_of ser (JvNumber (NPosInt n)) (CLong (Z.of_N n))
| of_big n : (2 ^ 63 <= Z.of_N n)%Z -> value_of ser (JvNumber (NPosInt n)) (CULong (Z.of_N n))
| of_array l : value_of ser (JvArray l) (CJson (ser (JvArray l)))
| of_object l : value_of ser (JvObject l) (CJson (ser (JvObject l))).
(** the properties [l] of the document are delivered as [qs]: every entry that is not null, in order,
    under its name, with its position as index *)
Inductive delivered (ser : jvalue -> string) :
  nat -> list (string * jvalue) -> list (nat * string * colval) -> Prop :=
| delivered_nil i : delivered ser i [] []
| delivered_null i k r qs : delivered ser (S i) r qs -> delivered ser i ((k, JvNull) :: r) qs
| delivered_value i k v c r qs : value_of ser v c -> delivered ser (S i) r qs ->
    delivered ser i ((k, v) :: r) ((i, k, c) :: qs).
(** [f] is the parsed feature [p] *)
Definition is_feature_of (ser : jvalue -> string) (p : gjfeature) (f : feature) : Prop :=
  same_option (delivered ser 0) (gf_properties p) (f_props f) /\
  same_option (fun g t => tree_of g = Some t) (gf_geometry p) (f_geom f).
(** the geometries of a parsed document in order *)
Definition own_geometry (f : gjfeature) : list gjgeom :=
  match gf_geometry f with Some g => [g] | None => [] end.
Definition doc_members (g : gj) : list gjgeom :=
  match g with
  | GjFeatures l => flat_map own_geometry l
  | GjFeature f => own_geometry f
  | GjGeometry g => [g]
  end.
(** the geometries of parsed lines in order, with the numbers of their lines *)
Fixpoint line_members (i : nat) (l : list gj) : list (nat * gjgeom) :=
  match l with
  | [] => []
  | GjFeature f :: r =>
      match gf_geometry f with Some g => [(i, g)] | None => [] end ++ line_members (S i) r
  | GjGeometry g :: r => (i, g) :: line_members (S i) r
  | GjFeatures _ :: r => line_members (S i) r
  end.
(** a line is a feature or a geometry *)
Definition no_collection (x : gj) : Prop := match x with GjFeatures _ => False | _ => True end.
(** the same number, and the geometry as a tree *)
Definition member_of (m : nat * gjgeom) (t : nat * geom) : Prop :=
  fst m = fst t /\ tree_of (snd m) = Some (snd t).
(** what a line says: a feature, or a geometry without one *)
Definition is_line (ser : jvalue -> string) (l : gj) (x : feature + geom) : Prop :=
  match l, x with
  | GjFeature p, inl f => is_feature_of ser p f
  | GjGeometry g, inr t => tree_of g = Some t
  | _, _ => False
  end.
Definition line_obs (multi : bool) (i : nat) (x : feature + geom) : list obs :=
  match x with
  | inl f => feature_obs multi i 0 f
  | inr t => map OEv (gevents multi i t)
  end.
(** a line that cannot be parsed, or that is a FeatureCollection *)
Definition unusable (bad : res gj) (e : error) : Prop :=
  bad = Err e \/ (exists l, bad = Ok (GjFeatures l)) /\ e = EDataset.
