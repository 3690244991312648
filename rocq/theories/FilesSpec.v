(** Vocabulary of claim C69 (specification side): datasets stored in files of one format after another. *)
From Coq Require Import String Ascii.
From Coq Require Import List NArith ZArith Lia Bool Sorted.
From Verif Require Import Base Event Claims Geom WkbModel WkbSpec WktModel WktSpec FeatureSpec JsonSpec GeoJsonModel GeoJsonSpec
  CsvModel CsvSpec ChainSpec.
Import ListNotations.
Local Open Scope list_scope.

(** What the other crates do: formatting of numbers (of f32, of f64 in GeoJSON and in WKT), texts of
    JSON values, the parsers of the crates geojson and wkt.  [t_debug]: a build with debug assertions. *)
Record tools := mkTools {
  t_debug : bool;
  t_format32 : N -> string;
  t_format : f64 -> string;
  t_wkt_format : f64 -> string;
  t_ser : jvalue -> string;
  t_geojson : string -> res gj;
  t_wkt : string -> option wkt
}.

(** a file a dataset is stored in on the way *)
Inductive file := GeoJsonFile (d : dims) | LinesFile | CsvFile.

(** the lines of a text (std::io::BufRead::lines): without the line ends LF and CR LF; what follows the
    last line end is a line unless it is empty *)
Definition newline_char : ascii := ascii_of_N 10.
Definition return_char : ascii := ascii_of_N 13.
Fixpoint without_return (s : string) : string :=
  match s with
  | EmptyString => EmptyString
  | String c EmptyString => if Ascii.eqb c return_char then EmptyString else s
  | String c r => String c (without_return r)
  end.
Fixpoint lines_from (start t : string) : list string :=
  match t with
  | EmptyString => match start with EmptyString => [] | _ => [start] end
  | String c r =>
      if Ascii.eqb c newline_char then without_return start :: lines_from EmptyString r
      else lines_from (start ++ String c EmptyString)%string r
  end.
Definition lines_of (t : string) : list string := lines_from EmptyString t.

(** write what the source delivers into a file, and read from there *)
Definition through (t : tools) (f : file) (src : dims -> prog unit) : res (dims -> prog unit) :=
  match f with
  | GeoJsonFile d =>
      match exec (geojson_writer (t_format32 t) (t_format t) d) (src d) EmptyString with
      | (text, Ok _) => Ok (fun d => read_geojson (t_ser t) (multi_dim d) (t_geojson t text))
      | (_, Err e) => Err e
      end
  | LinesFile =>
      match exec (geojson_line_writer (t_format32 t) (t_format t)) (src xy_dims) (0, EmptyString) with
      | (s, Ok _) => Ok (fun d => read_geojson_lines (t_ser t) (multi_dim d) (map (t_geojson t) (lines_of (snd s))))
      | (_, Err e) => Err e
      end
  | CsvFile =>
      on_ok (to_csv (t_format32 t) (t_wkt_format t) (t_debug t) src) (fun records =>
      match records with
      | [] => Err EFuel
      | header :: rows =>
          Ok (fun d => process_csv_features (t_wkt t) (multi_dim d) "geometry" (Ok header) (map Ok rows))
      end)
  end.
Fixpoint all_through (t : tools) (fs : list file) (src : dims -> prog unit) : res (dims -> prog unit) :=
  match fs with [] => Ok src | f :: r => on_ok (through t f src) (all_through t r) end.

(** the numbers geometries are delivered with: GeoJSON collections number them, lines and CSV do not *)
Definition numbers (f : file) : nat -> nat := match f with GeoJsonFile _ => fun i => i | _ => fun _ => 0 end.
(** after all files; [gi] before the first *)
Fixpoint finally_numbered (gi : nat -> nat) (fs : list file) : nat -> nat :=
  match fs with [] => gi | f :: r => finally_numbered (numbers f) r end.
(** the name of a dataset is not read from any of the files *)
Definition finally_named (name : option string) (fs : list file) : option string :=
  match fs with [] => name | _ => None end.

(** ** The datasets that fit into a file *)
(** texts, truth values and 64 bit integers come back from GeoJSON as they are *)
Definition stable (v : colval) : Prop :=
  match v with
  | CString s => plain_text s = true
  | CBool _ => True
  | CLong z => (- 2 ^ 63 <= z < 2 ^ 63)%Z
  | _ => False
  end.
(** properties numbered from 0, in the order in which JSON objects are kept *)
Definition orderly (l : list (nat * string * colval)) : Prop :=
  from_zero l /\ StronglySorted (fun a b => String.ltb a b = true) (map (fun q => snd (fst q)) l).
Definition json_feature (f : feature) : Prop :=
  exists l g, f_props f = Some l /\ f_geom f = Some g /\ orderly l /\
    Forall (fun q => plain_text (snd (fst q)) = true /\ stable (snd q)) l /\
    geojson_kind g = true /\ no_empty g /\ finite_geom true g /\ kept_geom true g = g.
(** texts and a geometry in two dimensions, or none *)
Definition csv_feature (f : feature) : Prop :=
  exists l, f_props f = Some l /\ Forall (fun q => exists s, snd q = CString s) l /\
    match f_geom f with
    | Some g => common g = true /\ exactly false false g /\ no_empty g /\ nan_free g
    | None => True
    end.
Definition accepts (l : list feature) (gi : nat -> nat) (name : option string) (f : file) : Prop :=
  match f with
  | GeoJsonFile d =>
      Forall json_feature l /\ Forall (fun x => option_map (kept_geom (multi_dim d)) (f_geom x) = f_geom x) l /\
      safe_name name /\ (forall i, i < length l -> gi i = 0)
  | LinesFile =>
      Forall json_feature l /\ Forall (fun x => option_map (kept_geom false) (f_geom x) = f_geom x) l /\
      (forall i, i < length l -> gi i = 0)
  | CsvFile => l <> [] /\ Forall csv_feature l /\ exists names, Forall (has_columns names) l
  end.
(** every file accepts the dataset in the form it has when it comes there *)
Fixpoint passes (l : list feature) (gi : nat -> nat) (name : option string) (fs : list file) : Prop :=
  match fs with
  | [] => True
  | f :: r => accepts l gi name f /\ passes l (numbers f) None r
  end.

(** ** What is assumed of the other crates *)
(** the parser of crate geojson follows RFC 7946: it makes of a feature (collection) object whose
    members are in order the features it stands for *)
Definition geojson_tool (t : tools) (num32 : string -> option N) (num : string -> option f64) : Prop :=
  (forall text j name fs, parse_json text = Some j -> dataset_json num32 num true name fs j -> Forall json_feature fs ->
   exists l, t_geojson t text = Ok (GjFeatures l) /\ Forall2 (is_feature_of (t_ser t)) l fs) /\
  (forall text j f, parse_json text = Some j -> feature_json num32 num true f j -> json_feature f ->
   exists x, t_geojson t text = Ok (GjFeature x) /\ is_feature_of (t_ser t) x f).
(** the parser of crate wkt follows the grammar *)
Definition wkt_tool (t : tools) (num : string -> option f64) : Prop :=
  forall text g, parse_wkt num false false text = Some g -> common g = true ->
  exists w, t_wkt t text = Some w /\ wkt_geom w = Some g.
(** numbers have no line end in them *)
Definition one_line (t : tools) : Prop :=
  (forall x, has_newline (t_format32 t x) = false) /\ (forall x, has_newline (t_format t x) = false).
