(** Vocabulary of the claims about the command line tool (specification side). *)
From Coq Require Import String Ascii.
From Coq Require Import List NArith ZArith Lia Bool.
From Verif Require Import Base Event Geom FeatureSpec ProcSpec WktModel WktSpec CsvSpec GeoJsonModel GeoJsonSpec CliModel.
Import ListNotations.
Local Open Scope string_scope.
Local Open Scope list_scope.

(** ** Paths *)
Fixpoint contains (c : ascii) (s : string) : bool :=
  match s with "" => false | String a r => Ascii.eqb a c || contains c r end.
(** [p] is a path to a file called `stem.e` *)
Definition ends_in (p e : string) : Prop :=
  exists dir stem, p = (dir ++ stem ++ "." ++ e)%string /\ (dir = "" \/ exists up, dir = (up ++ "/")%string) /\
    stem <> "" /\ contains "/" stem = false /\ contains "/" e = false /\ contains "." e = false /\ e <> "".
(** [p] is a path to a file without an extension: `name`, `.name` or `name.` *)
Definition no_extension (p : string) : Prop :=
  exists dir n, (p = (dir ++ n)%string \/ p = (dir ++ "." ++ n)%string \/ p = (dir ++ n ++ ".")%string) /\
    (dir = "" \/ exists up, dir = (up ++ "/")%string) /\ n <> "" /\ contains "/" n = false /\ contains "." n = false.
(** an URL *)
Definition url (p : string) : Prop :=
  exists rest, p = ("http:/" ++ rest)%string \/ p = ("https:/" ++ rest)%string.
(** not an URL, and not the start of one *)
Definition local (p : string) : Prop := ~ url p /\ p <> "http:" /\ p <> "https:".

(** ** Inputs *)
Inductive input_format := InCsv | InJson | InLines | InParquet | InFgb | InWkt | InHttp.
Definition input_extensions (i : input_format) : list string :=
  match i with
  | InCsv => ["csv"] | InJson => ["json"; "geojson"] | InLines => ["jsonl"; "geojsonl"]
  | InParquet => ["parquet"; "geoparquet"] | InFgb => ["fgb"] | InWkt => ["wkt"] | InHttp => ["fgb"]
  end.
Definition input_is (a : args) (i : input_format) : Prop :=
  match i with InHttp => url (a_input a) | _ => local (a_input a) end /\
  exists e, In e (input_extensions i) /\ ends_in (a_input a) e.
Definition dest_is (a : args) (e : string) : Prop := ends_in (a_dest a) e.

(** The text of the input file is a dataset of these features.  [gi]: the number each geometry is
    delivered with. *)
Inductive holds (w : world) (a : args) (ext : option extent) (text : string) :
  input_format -> option string -> (nat -> nat) -> list feature -> Prop :=
| holds_csv column headers gi rs l : a_column a = Some column ->
    w_csv w text = (Ok headers, map Ok rs) -> first_at column headers gi ->
    Forall2 (is_record (w_wkt w) headers gi) rs l -> holds w a ext text InCsv None (fun _ => 0%nat) l
| holds_collection ps l : w_json w text = Ok (GjFeatures ps) -> Forall2 (is_feature_of (w_ser w)) ps l ->
    holds w a ext text InJson None (fun i => i) l
| holds_feature pf f : w_json w text = Ok (GjFeature pf) -> is_feature_of (w_ser w) pf f ->
    gf_geometry pf <> None \/ gf_properties pf <> None ->
    holds w a ext text InJson None (fun _ => 0%nat) [f]
| holds_lines ps l : w_lines w text = map (fun p => Ok (GjFeature p)) ps -> Forall2 (is_feature_of (w_ser w)) ps l ->
    holds w a ext text InLines None (fun _ => 0%nat) l
(** what the readers of other crates select *)
| holds_parquet name gi l : delivers_obs (w_parquet w text ext) (fun multi => dataset_at multi gi name l) (Ok tt) ->
    holds w a ext text InParquet name gi l
| holds_http name gi l : delivers_obs (w_http w (a_input a) ext) (fun multi => dataset_at multi gi name l) (Ok tt) ->
    holds w a ext text InHttp name gi l
| holds_fgb name gi l : delivers_obs (w_fgb w text ext) (fun multi => dataset_at multi gi name l) (Ok tt) ->
    holds w a ext text InFgb name gi l.

(** `--extent` is absent or four numbers separated by commas *)
Definition extent_given (w : world) (a : args) (ext : option extent) : Prop :=
  match a_extent a, ext with
  | None, None => True
  | Some t, Some e => exists p q r s, t = (p ++ "," ++ q ++ "," ++ r ++ "," ++ s)%string /\
      forallb (fun x => negb (contains "," x)) [p; q; r; s] = true /\
      w_num w p = Some (e_minx e) /\ w_num w q = Some (e_miny e) /\
      w_num w r = Some (e_maxx e) /\ w_num w s = Some (e_maxy e)
  | _, _ => False
  end.

(** the geometries of a dataset, and their positions *)
Definition geometries (l : list feature) : list geom :=
  flat_map (fun f => match f_geom f with Some g => [g] | None => [] end) l.
Definition positions_of (l : list feature) : list (f64 * f64) :=
  ProcSpec.positions (map OEv (flat_map (gevents false 0) (geometries l))).
(** the extent of positions: the least and greatest numbers, all zero for none *)
Definition is_extent (l : list (f64 * f64)) (e : extent) : Prop :=
  match l with
  | [] => e = mkExtent 0%N 0%N 0%N 0%N
  | _ => ProcSpec.least (e_minx e) (map fst l) /\ ProcSpec.greatest (e_maxx e) (map fst l) /\
         ProcSpec.least (e_miny e) (map snd l) /\ ProcSpec.greatest (e_maxy e) (map snd l)
  end.
(** neither number of the first position is NaN *)
Definition first_is_number (l : list (f64 * f64)) : Prop :=
  match l with [] => True | (x, y) :: _ => f64_is_nan x = false /\ f64_is_nan y = false end.

(** the conversion can start: the destination can be created, and the input, if it is not remote, is
    another file that has this text *)
Definition ready (w : world) (a : args) (f : fs) (i : input_format) (text : string) : Prop :=
  w_creatable w (w_resolve w (a_dest a)) = true /\
  (i = InHttp \/ (w_resolve w (a_input a) <> w_resolve w (a_dest a) /\ f (w_resolve w (a_input a)) = Some text)).
(** dropping the buffered output writes all of it *)
Definition disk_ok (w : world) : Prop := forall t, w_drop w t = t.
(** after `geozero`: exit status, text of the destination, and all other files unchanged *)
Definition ends_with (w : world) (a : args) (f : fs) (st : N) (out : string) : Prop :=
  exists f', main w a f = (f', st) /\ f' (w_resolve w (a_dest a)) = Some out /\
    forall n, n <> w_resolve w (a_dest a) -> f' n = f n.

(** ** Other inputs *)
(** the input is a single geometry and no dataset *)
Inductive bare (w : world) (text : string) : input_format -> geom -> Prop :=
| bare_wkt p g : w_wkt w text = Some p -> wkt_geom p = Some g -> bare w text InWkt g
| bare_json j g : w_json w text = Ok (GjGeometry j) -> tree_of j = Some g -> bare w text InJson g.
(** the geometries of a dataset as WKT, one after the other; a comma before those with a number *)
Fixpoint texts (fmt : f64 -> string) (gi : nat -> nat) (i : nat) (l : list feature) : string :=
  match l with
  | [] => ""
  | f :: r =>
      (match f_geom f with
       | Some g => (match gi i with O => "" | _ => "," end) ++ wkt_text fmt false false g
       | None => ""
       end ++ texts fmt gi (S i) r)%string
  end.
(** the same command with another extent *)
Definition with_extent (a : args) (t : option string) : args :=
  mkArgs (a_column a) t (a_input a) (a_dest a) (a_style a).
(** values separated by commas *)
Definition values (t : string) (l : list string) : Prop :=
  t = String.concat "," l /\ l <> [] /\ forallb (fun x => negb (contains "," x)) l = true.
Definition known_inputs : list string :=
  ["csv"; "json"; "geojson"; "jsonl"; "geojsonl"; "parquet"; "geoparquet"; "fgb"; "wkt"].
Definition known_outputs : list string := ["csv"; "wkt"; "json"; "geojson"; "fgb"; "svg"].
