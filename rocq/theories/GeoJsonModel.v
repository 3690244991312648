(** Model of /repo/geozero/src/geojson: GeoJsonWriter, GeoJsonLineWriter and the readers of parsed
    GeoJSON.  Parsing itself (crates geojson and serde_json) is not modelled: readers take what the
    parser returns. *)
From Coq Require Import String Ascii.
From Coq Require Import List NArith ZArith Lia Bool.
From Verif Require Import Base Event Geom ProcModel.
Import ListNotations.
Local Open Scope list_scope.
Local Open Scope string_scope.

Section Writer.
  (** `{v}` for an f32 and an f64 (std::fmt::Display), not modelled further *)
  Variable fmt32 : N -> string.
  Variable fmt : f64 -> string.

  (** "\n" *)
  Definition nl : string := String (ascii_of_N 10) "".
  (** a double quote, and a text between double quotes *)
  Definition dq : string := """".

  (** colname.replace('\"', "\\\"") *)
  Fixpoint escape (s : string) : string :=
    match s with
    | "" => ""
    | String c r => if Ascii.eqb c """" then "\""" ++ escape r else String c (escape r)
    end.

  (** geojson_writer.rs:24-29; the state is the text written so far *)
  Definition gj_comma (out : string) (idx : nat) : string :=
    if Nat.ltb 0 idx then out ++ "," else out.

  (** `br#"{"type": "Kind", "coordinates": ["#` *)
  Definition kind_open (kind member opening : string) : string :=
    "{""type"": """ ++ kind ++ """, """ ++ member ++ """: " ++ opening.

  (** geojson_writer.rs:32-186.  Circular strings, compound curves, curve polygons, multicurves,
      multisurfaces, triangles, polyhedral surfaces, TINs and srid are the trait defaults. *)
  Definition gj_step (out : string) (e : event) : string * res unit :=
    let put t := (out ++ t, Ok tt) in
    let cput idx t := (gj_comma out idx ++ t, Ok tt) in
    match e with
    | DatasetBegin name =>                                                     (* 33-47 *)
        put ("{" ++ nl ++ """type"": ""FeatureCollection""" ++
             (match name with
              | Some n => "," ++ nl ++ """name"": """ ++ n ++ dq
              | None => ""
              end) ++
             "," ++ nl ++ """features"": [")
    | DatasetEnd => put "]}"                                                   (* 48-51 *)
    | FeatureBegin idx =>                                                      (* 52-58 *)
        put ((if Nat.ltb 0 idx then "," ++ nl else "") ++ "{""type"": ""Feature""")
    | FeatureEnd _ => put "}"                                                  (* 59-62 *)
    | PropertiesBegin => put ", ""properties"": {"                             (* 63-66 *)
    | PropertiesEnd => put "}"                                                 (* 67-70 *)
    | GeometryBegin => put ", ""geometry"": "                                  (* 71-74 *)
    | GeometryEnd => put ""                                                    (* 75-77 *)
    | Xy x y idx => cput idx ("[" ++ fmt x ++ "," ++ fmt y ++ "]")             (* 84-88 *)
    | Coord x y z _ _ _ idx =>                                                 (* 89-106 *)
        cput idx ("[" ++ fmt x ++ "," ++ fmt y ++
                  (match z with Some z => "," ++ fmt z | None => "" end) ++ "]")
    | EmptyPoint idx => cput idx (kind_open "Point" "coordinates" "[]}")       (* 107-112 *)
    | PointBegin idx => cput idx (kind_open "Point" "coordinates" "")          (* 113-118 *)
    | PointEnd _ => put "}"                                                    (* 119-122 *)
    | MultiPointBegin _ idx => cput idx (kind_open "MultiPoint" "coordinates" "[")   (* 123-128 *)
    | MultiPointEnd _ => put "]}"                                              (* 129-132 *)
    | LineStringBegin tagged _ idx =>                                          (* 133-142 *)
        cput idx (if tagged then kind_open "LineString" "coordinates" "[" else "[")
    | LineStringEnd tagged _ => put (if tagged then "]}" else "]")             (* 143-150 *)
    | MultiLineStringBegin _ idx => cput idx (kind_open "MultiLineString" "coordinates" "[") (* 151-156 *)
    | MultiLineStringEnd _ => put "]}"                                         (* 157-160 *)
    | PolygonBegin tagged _ idx =>                                             (* 161-170 *)
        cput idx (if tagged then kind_open "Polygon" "coordinates" "[" else "[")
    | PolygonEnd tagged _ => put (if tagged then "]}" else "]")                (* 171-178 *)
    | MultiPolygonBegin _ idx => cput idx (kind_open "MultiPolygon" "coordinates" "[")       (* 179-184 *)
    | MultiPolygonEnd _ => put "]}"                                            (* 185-188 *)
    | CollectionBegin _ idx => cput idx (kind_open "GeometryCollection" "geometries" "[")    (* 189-194 *)
    | CollectionEnd _ => put "]}"                                              (* 195-198 *)
    | e => default_step out e
    end.

  (** geojson_writer.rs:201-218 *)
  Definition name_text (n : string) : string := dq ++ escape n ++ """: ".
  (** geojson_writer.rs:220-243 *)
  Definition gj_prop (out : string) (i : nat) (n : string) (v : colval) : string * res bool :=
    let out := if Nat.ltb 0 i then out ++ ", " else out in
    match v with
    | CString t | CDateTime t => (out ++ name_text n ++ dq ++ escape t ++ dq, Ok false)
    | CBinary _ => (out, Ok false)
    | v => (out ++ name_text n ++ show_colval fmt32 fmt v, Ok false)
    end.

  (** geojson_writer.rs:8-23, 80-83 (GeoJsonWriter::with_dims; new is with_dims(out, default)) *)
  Definition geojson_writer (d : dims) : proc string := mkProc d gj_step gj_prop.

  (** mod.rs:17-52: ToJson and ProcessToJson::to_json (String::from_utf8 never fails on what the
      writer wrote, which is a concatenation of strings) *)
  Definition to_json {A} (src : dims -> prog A) : res string :=
    match exec (geojson_writer xy_dims) (src xy_dims) "" with
    | (out, Ok _) => Ok out
    | (_, Err e) => Err e
    end.

  (** ** GeoJsonLineWriter (geojson_line_writer.rs:10-239): open_contexts and the text written *)
  Definition lwstate := (nat * string)%type.

  (** run a callback of the inner GeoJsonWriter *)
  Definition lw_inner (s : lwstate) (e : event) : lwstate * res unit :=
    let (out, r) := gj_step (snd s) e in ((fst s, out), r).
  (** geojson_line_writer.rs:41-47; underflow of the counter panics (with overflow checks; builds
      without them wrap: CountModel.v) *)
  Definition end_context (s : lwstate) : lwstate * res unit :=
    match fst s with
    | O => (s, Err EPanic)
    | S n => ((n, if Nat.eqb n 0 then snd s ++ nl else snd s), Ok tt)
    end.
  (** the pattern of 117-222: manual comma, begin_context, inner callback [e] with idx 0 *)
  Definition line_begin (s : lwstate) (idx : nat) (e : event) : lwstate * res unit :=
    let out := if Nat.ltb 0 (fst s) && Nat.ltb 0 idx then snd s ++ "," else snd s in
    lw_inner (S (fst s), out) e.
  (** inner callback, then end_context *)
  Definition line_end (s : lwstate) (e : event) : lwstate * res unit :=
    match lw_inner s e with
    | (s', Ok _) => end_context s'
    | (s', Err x) => (s', Err x)
    end.

  Definition gjl_step (s : lwstate) (e : event) : lwstate * res unit :=
    match e with
    | FeatureBegin _ => lw_inner (S (fst s), snd s) (FeatureBegin 0)              (* 57-62 *)
    | FeatureEnd _ => line_end s e                                             (* 64-68 *)
    | PropertiesBegin | PropertiesEnd | GeometryBegin | GeometryEnd            (* 70-84 *)
    | Xy _ _ _ | Coord _ _ _ _ _ _ _ => lw_inner s e                              (* 92-107 *)
    | EmptyPoint idx =>                                                        (* 118-126 *)
        match line_begin s idx (EmptyPoint 0) with
        | (s', Ok _) => end_context s'
        | (s', Err x) => (s', Err x)
        end
    | PointBegin idx => line_begin s idx (PointBegin 0)                        (* 128-135 *)
    | PointEnd _ => line_end s e                                               (* 137-140 *)
    | MultiPointBegin n idx => line_begin s idx (MultiPointBegin n 0)          (* 142-149 *)
    | MultiPointEnd _ => line_end s e
    | LineStringBegin t n idx => line_begin s idx (LineStringBegin t n 0)      (* 156-163 *)
    | LineStringEnd _ _ => line_end s e
    | MultiLineStringBegin n idx => line_begin s idx (MultiLineStringBegin n 0)  (* 170-177 *)
    | MultiLineStringEnd _ => line_end s e
    | PolygonBegin t n idx => line_begin s idx (PolygonBegin t n 0)            (* 184-191 *)
    | PolygonEnd _ _ => line_end s e
    | MultiPolygonBegin n idx => line_begin s idx (MultiPolygonBegin n 0)      (* 198-205 *)
    | MultiPolygonEnd _ => line_end s e
    | CollectionBegin n idx => line_begin s idx (CollectionBegin n 0)          (* 212-219 *)
    | CollectionEnd _ => line_end s e
    | e => default_step s e          (* dataset_begin/end and the other types: trait defaults *)
    end.
  (** geojson_line_writer.rs:227-231 *)
  Definition gjl_prop (s : lwstate) (i : nat) (n : string) (v : colval) : lwstate * res bool :=
    let (out, r) := gj_prop (snd s) i n v in ((fst s, out), r).
  (** geojson_line_writer.rs:25-31, 88-90: dimensions of the inner writer are the default *)
  Definition geojson_line_writer : proc lwstate := mkProc xy_dims gjl_step gjl_prop.
End Writer.

(** ** Parsed GeoJSON (crate geojson 1.0).  A position is a list of numbers; bbox, id and foreign
    members are ignored by geozero and dropped here. *)
Inductive gjgeom : Type :=
| GjPoint (p : list f64)
| GjMultiPoint (l : list (list f64))
| GjLineString (l : list (list f64))
| GjMultiLineString (l : list (list (list f64)))
| GjPolygon (l : list (list (list f64)))
| GjMultiPolygon (l : list (list (list (list f64))))
| GjCollection (l : list gjgeom).

(** serde_json::Number and Value; a Map is the list of its entries in iteration order *)
Inductive jnumber := NFloat (x : f64) | NPosInt (n : N) | NNegInt (z : Z).
Inductive jvalue : Type :=
| JvNull
| JvBool (b : bool)
| JvNumber (n : jnumber)
| JvString (s : string)
| JvArray (l : list jvalue)
| JvObject (l : list (string * jvalue)).
Record gjfeature := mkGjFeature {
  gf_geometry : option gjgeom;
  gf_properties : option (list (string * jvalue))
}.
Inductive gj := GjFeatures (l : list gjfeature) | GjFeature (f : gjfeature) | GjGeometry (g : gjgeom).

Section Reader.
  (** serde_json::to_string of a value (never fails for a Value) *)
  Variable ser : jvalue -> string.
  (** processor.multi_dim() *)
  Variable multi : bool.

  (** geojson_reader.rs:268-289; indexing a missing ordinate panics *)
  Definition gj_coord (idx : nat) (p : list f64) : prog unit :=
    match p with
    | x :: y :: r =>
        if multi then pcall (Coord x y (hd_error r) None None None idx) else pcall (Xy x y idx)
    | _ => pfail EPanic
    end.
  (** geojson_reader.rs:291-303 *)
  Definition gj_line (tagged : bool) (idx : nat) (l : list (list f64)) : prog unit :=
    pthen (pcall (LineStringBegin tagged (length l) idx))
    (pthen (pfor gj_coord 0 l) (pcall (LineStringEnd tagged idx))).
  (** geojson_reader.rs:305-316 *)
  Definition gj_polygon (tagged : bool) (idx : nat) (l : list (list (list f64))) : prog unit :=
    pthen (pcall (PolygonBegin tagged (length l) idx))
    (pthen (pfor (gj_line false) 0 l) (pcall (PolygonEnd tagged idx))).
  (** geojson_reader.rs:164-225 *)
  Fixpoint gj_geom_n (idx : nat) (g : gjgeom) : prog unit :=
    match g with
    | GjPoint p => pthen (pcall (PointBegin idx)) (pthen (gj_coord 0 p) (pcall (PointEnd idx)))
    | GjMultiPoint l =>
        pthen (pcall (MultiPointBegin (length l) idx))
        (pthen (pfor gj_coord 0 l) (pcall (MultiPointEnd idx)))
    | GjLineString l => gj_line true idx l
    | GjMultiLineString l =>
        pthen (pcall (MultiLineStringBegin (length l) idx))
        (pthen (pfor (gj_line false) 0 l) (pcall (MultiLineStringEnd idx)))
    | GjPolygon l => gj_polygon true idx l
    | GjMultiPolygon l =>
        pthen (pcall (MultiPolygonBegin (length l) idx))
        (pthen (pfor (gj_polygon false) 0 l) (pcall (MultiPolygonEnd idx)))
    | GjCollection l =>
        pthen (pcall (CollectionBegin (length l) idx))
        (pthen ((fix go (i : nat) (l : list gjgeom) : prog unit :=
                   match l with
                   | [] => pret tt
                   | a :: r => pthen (gj_geom_n i a) (go (S i) r)
                   end) 0%nat l)
               (pcall (CollectionEnd idx)))
    end.

  (** processor.property(i, key, v)?; the answer is dropped *)
  Definition offer_prop (i : nat) (key : string) (v : colval) : prog unit :=
    CallProp i key v (fun _ => pret tt).
  (** geojson_reader.rs:228-266 *)
  Definition gj_property (i : nat) (e : string * jvalue) : prog unit :=
    let (key, v) := e in
    match v with
    | JvString s => offer_prop i key (CString s)
    | JvNumber (NFloat x) => offer_prop i key (CDouble x)                 (* is_f64 *)
    | JvNumber (NNegInt z) => offer_prop i key (CLong z)                  (* is_i64 *)
    | JvNumber (NPosInt n) =>
        if (n <=? 2 ^ 63 - 1)%N then offer_prop i key (CLong (Z.of_N n)) (* is_i64 *)
        else offer_prop i key (CULong (Z.of_N n))                        (* is_u64 *)
    | JvBool b => offer_prop i key (CBool b)
    | JvArray _ | JvObject _ => offer_prop i key (CJson (ser v))
    | JvNull => pret tt
    end.
  Definition gj_properties (l : list (string * jvalue)) : prog unit := pfor gj_property 0 l.

  Definition when_some {A} (o : option A) (f : A -> prog unit) : prog unit :=
    match o with Some a => f a | None => pret tt end.
  (** the body shared by geojson_reader.rs:89-101, 119-131 and geojson_line_reader.rs:95-115:
      feature number [idx], geometry delivered with index [gidx] *)
  Definition gj_feature (idx gidx : nat) (f : gjfeature) : prog unit :=
    pthen (pcall (FeatureBegin idx))
    (pthen (when_some (gf_properties f) (fun m =>
              pthen (pcall PropertiesBegin) (pthen (gj_properties m) (pcall PropertiesEnd))))
    (pthen (when_some (gf_geometry f) (fun g =>
              pthen (pcall GeometryBegin) (pthen (gj_geom_n gidx g) (pcall GeometryEnd))))
           (pcall (FeatureEnd idx)))).

  (** geojson_reader.rs:112-133 *)
  Definition process_geojson_feature (idx : nat) (f : gjfeature) : prog unit :=
    pthen (pcall (DatasetBegin None))
    (pthen (match gf_geometry f, gf_properties f with
            | None, None => pret tt
            | _, _ => gj_feature idx idx f
            end)
           (pcall DatasetEnd)).
  (** geojson_reader.rs:84-109 *)
  Definition process_geojson (g : gj) : prog unit :=
    match g with
    | GjFeatures l =>
        pthen (pcall (DatasetBegin None))
        (pthen (pfor (fun idx f => gj_feature idx idx f) 0 l) (pcall DatasetEnd))
    | GjFeature f => process_geojson_feature 0 f
    | GjGeometry g => gj_geom_n 0 g
    end.
  (** geojson_reader.rs:136-161 *)
  Definition process_geojson_geom (g : gj) : prog unit :=
    match g with
    | GjFeatures l =>
        pfor gj_geom_n 0 (flat_map (fun f => match gf_geometry f with Some g => [g] | None => [] end) l)
    | GjFeature f => when_some (gf_geometry f) (gj_geom_n 0)
    | GjGeometry g => gj_geom_n 0 g
    end.

  (** geojson_reader.rs:57-62 and 73-82; [doc] is the result of reading and parsing *)
  Definition read_geojson (doc : res gj) : prog unit :=
    match doc with Ok g => process_geojson g | Err e => pfail e end.
  Definition read_geojson_geom (doc : res gj) : prog unit :=
    match doc with Ok g => process_geojson_geom g | Err e => pfail e end.
  (** geojson_reader.rs:64-70; [l]: what the FeatureReader iterator yields *)
  Definition read_geojson_fc (l : list (res gjfeature)) : prog unit :=
    pfor (fun idx f => match f with Ok f => process_geojson_feature idx f | Err e => pfail e end) 0 l.

  (** ** Lines (geojson_line_reader.rs); one parse result per line *)
  (** 35-76 *)
  Fixpoint gj_lines_geom (started : bool) (idx : nat) (l : list (res gj)) : prog bool :=
    match l with
    | [] => pret started
    | line :: r =>
        let add g := pthen (if started then pret tt else pcall (CollectionBegin 1 0)) (gj_geom_n idx g) in
        match line with
        | Err e => pfail e
        | Ok (GjFeature f) =>
            match gf_geometry f with
            | Some g => pthen (add g) (gj_lines_geom true (S idx) r)
            | None => gj_lines_geom started (S idx) r
            end
        | Ok (GjGeometry g) => pthen (add g) (gj_lines_geom true (S idx) r)
        | Ok (GjFeatures _) => pfail EDataset
        end
    end.
  Definition read_geojson_line_geometries (l : list (res gj)) : prog unit :=
    pbind (gj_lines_geom false 0 l) (fun started =>
    pthen (if started then pret tt else pcall (CollectionBegin 0 0)) (pcall (CollectionEnd 0))).
  (** 79-93 *)
  Definition read_geojson_lines (l : list (res gj)) : prog unit :=
    pthen (pcall (DatasetBegin None))
    (pthen (pfor (fun idx line =>
              match line with
              | Err e => pfail e
              | Ok (GjFeature f) => gj_feature idx 0 f
              | Ok (GjGeometry g) => gj_geom_n idx g
              | Ok (GjFeatures _) => pfail EDataset
              end) 0 l)
           (pcall DatasetEnd)).
End Reader.
