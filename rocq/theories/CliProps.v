(** Property C58 (the command `geozero IN OUT`).  Specification vocabulary: CliSpec.v, and those of the
    formats.  Model: CliModel.v. *)
From Coq Require Import String Ascii.
From Coq Require Import List NArith ZArith Lia Bool.
From Verif Require Import Base Float Event Claims Geom FeatureSpec ProcSpec WktModel WktSpec WktTop CsvModel CsvSpec CsvTop
  JsonSpec GeoJsonModel GeoJsonSpec GeoJsonRead GeoJsonMore XmlSpec SvgModel SvgSpec SvgTop CliModel CliSpec CliTop CliMore CliWit.
Import ListNotations.
Local Open Scope list_scope.
Local Open Scope string_scope.

(** ** C58 *)
(** no file but the destination changes *)
Theorem C58_only_dest : forall w a f n, n <> w_resolve w (a_dest a) -> fst (main w a f) n = f n.
Proof. exact only_dest. Qed.
Print Assumptions C58_only_dest.
(** the formats are those of the extensions *)
Theorem C58_extension : forall p e, ends_in p e -> extension p = Some e.
Proof. exact extension_of. Qed.
Print Assumptions C58_extension.
Example C58_extension_met : ends_in "a.b/c.tar.gz" "gz" /\ extension "a.b/c" = None /\ extension "x/.json" = None.
Proof.
  split; [|split; reflexivity]. apply (ends "a.b/" "c.tar" "gz"); try reflexivity; try discriminate.
  right. exists "a.b". reflexivity.
Qed.

(** A dataset to GeoJSON.  Missing for the full property: datasets with geometries numbered otherwise than
    0 (a GeoJSON collection numbers them), texts C22 does not cover. *)
Theorem C58_json_partial : forall w a ext f i text name gi l num32 num e,
  ready w a f i text -> disk_ok w -> extent_given w a ext -> input_is a i -> holds w a ext text i name gi l ->
  In e ["json"; "geojson"] -> dest_is a e ->
  (forall k f, nth_error l k = Some f -> f_geom f <> None -> gi k = 0%nat) ->
  json_format finite32 (w_fmt32 w) num32 -> json_format finite (w_fmt w) num ->
  safe_name name -> Forall (safe_feature false) l ->
  exists out j, ends_with w a f 0 out /\ parse_json out = Some j /\ dataset_json num32 num false name l j.
Proof.
  intros w a ext f i text name gi l num32 num e R D X I H. exact (to_json_file w a ext f i text R D X name gi l I H num32 num e).
Qed.
Print Assumptions C58_json_partial.
(** a dataset to CSV: features with the same columns *)
Theorem C58_csv_partial : forall w a ext f i text name gi l ns,
  ready w a f i text -> disk_ok w -> extent_given w a ext -> input_is a i -> holds w a ext text i name gi l ->
  dest_is a "csv" -> Forall (has_columns ns) l ->
  exists o, ends_with w a f 0 (w_csv_text w o) /\ is_table (w_fmt32 w) (w_fmt w) false ns l (o_records o) /\ o_fields o = [].
Proof.
  intros w a ext f i text name gi l ns R D X I H. exact (to_csv_file w a ext f i text R D X name gi l I H ns).
Qed.
Print Assumptions C58_csv_partial.
(** A dataset to SVG: the view box is the extent given, or that of the data.  Missing: empty points, text
    that needs escaping. *)
Theorem C58_svg_partial : forall w a ext f i text name gi l,
  ready w a f i text -> disk_ok w -> extent_given w a ext -> input_is a i -> holds w a ext text i name gi l ->
  dest_is a "svg" -> (forall x, xml_plain (w_fmt w x) = true) -> plain_option name -> plain_style (a_style a) ->
  Forall (fun f => match f_geom f with Some g => no_empty_point g = true | None => True end) l ->
  first_is_number (positions_of l) ->
  exists e out, match ext with Some x => e = x | None => is_extent (positions_of l) e end /\
    ends_with w a f 0 out /\
    parse_xml out = Some (document (w_fmt w)
      (mkSvg true (Some (e_minx e, f64_neg (e_maxy e), e_maxx e, f64_neg (e_miny e))) (a_style a) (Some (800, 600)%N)) name l).
Proof. intros w a ext f i text. exact (to_svg_file w a ext f text i). Qed.
Print Assumptions C58_svg_partial.
(** a dataset to WKT: one geometry *)
Theorem C58_wkt_partial : forall w a ext f i text name gi l g,
  ready w a f i text -> disk_ok w -> extent_given w a ext -> input_is a i -> holds w a ext text i name gi l ->
  dest_is a "wkt" -> geometries l = [g] ->
  (forall k f, nth_error l k = Some f -> f_geom f <> None -> gi k = 0%nat) ->
  ends_with w a f 0 (wkt_text (w_fmt w) false false g).
Proof. intros w a ext f i text. exact (to_wkt_file w a ext f text i). Qed.
Print Assumptions C58_wkt_partial.
(** a dataset to FlatGeobuf: what the writer of that crate makes of it *)
Theorem C58_fgb_partial : forall w a ext f i text name gi l s0,
  ready w a f i text -> disk_ok w -> extent_given w a ext -> input_is a i -> holds w a ext text i name gi l ->
  dest_is a "fgb" -> w_fgb_new w = Ok s0 ->
  let end_state := feed (w_fgb_writer w) (dataset_at (multi_dim (p_dims (w_fgb_writer w))) gi name l) s0 in
  match snd end_state with
  | Ok _ => ends_with w a f (status (snd (w_fgb_bytes w (fst end_state)))) (fst (w_fgb_bytes w (fst end_state)))
  | Err e => ends_with w a f (status (Err e)) ""
  end.
Proof. exact to_fgb_file. Qed.
Print Assumptions C58_fgb_partial.
Example C58_dataset_met : forall o, In o ["out.json"; "out.csv"; "out.svg"; "out.fgb"] ->
  let w := sample_world hex_fmt (fun t => t) in let a := sample_args "in/data.csv" o None in
  ready w a sample_files InCsv "name,geom" /\ disk_ok w /\ extent_given w a None /\ input_is a InCsv /\
  holds w a None "name,geom" InCsv None (fun _ => 0%nat) sample_features /\
  (exists e, dest_is a e /\ In e ["json"; "csv"; "svg"; "fgb"]) /\
  json_format finite (w_fmt w) read_num /\ json_format finite32 (w_fmt32 w) read_num /\ Forall (safe_feature false) sample_features /\
  Forall (has_columns ["name"]) sample_features /\ (forall x, xml_plain (w_fmt w x) = true) /\
  first_is_number (positions_of sample_features) /\ positions_of sample_features = [(0%N, 0%N); (0%N, 0%N)].
Proof.
  intros o O. cbn zeta. split; [split; [|right; split; [intros H|reflexivity]]|].
  - destruct O as [<-|[<-|[<-|[<-|[]]]]]; reflexivity.
  - destruct O as [<-|[<-|[<-|[<-|[]]]]]; inversion H.
  - split; [intros t; reflexivity|]. split; [exact I|]. split; [apply sample_input_csv|]. split; [apply sample_holds_csv|]. split.
    { destruct O as [<-|[<-|[<-|[<-|[]]]]]; [exists "json"|exists "csv"|exists "svg"|exists "fgb"]; (split; [|cbn; tauto]);
        [apply (ends "" "out" "json")|apply (ends "" "out" "csv")|apply (ends "" "out" "svg")|apply (ends "" "out" "fgb")]; try reflexivity; try discriminate; left; reflexivity. }
    split; [apply show_num_ok|]. split; [apply show_num_ok|]. split; [repeat constructor; cbn; discriminate|].
    split; [repeat constructor|]. split; [exact hex_plain|]. split; [split; reflexivity|reflexivity].
Qed.
(** a single geometry *)
Theorem C58_geometry_json : forall w a ext f i text g num e,
  ready w a f i text -> disk_ok w -> extent_given w a ext -> input_is a i -> bare w text i g ->
  In e ["json"; "geojson"] -> dest_is a e -> json_format finite (w_fmt w) num -> geojson_kind g = true -> finite_geom false g ->
  exists out j, ends_with w a f 0 out /\ parse_json out = Some j /\ geometry_of num j = Some (kept_geom false g).
Proof. intros w a ext f i text g num e R D X I B. exact (bare_json_file w a ext f i text g R D X I B num e). Qed.
Print Assumptions C58_geometry_json.
Theorem C58_geometry_wkt : forall w a ext f i text g,
  ready w a f i text -> disk_ok w -> extent_given w a ext -> input_is a i -> bare w text i g -> dest_is a "wkt" ->
  ends_with w a f 0 (wkt_text (w_fmt w) false false g).
Proof. exact bare_wkt_file. Qed.
Print Assumptions C58_geometry_wkt.
Example C58_geometry_met : let w := sample_world hex_fmt (fun t => t) in let a := sample_args "a.wkt" "b.wkt" (Some "1,2,3,4") in
  ready w a sample_files InWkt "POINT(0 0)" /\ disk_ok w /\ extent_given w a (Some (mkExtent 1%N 2%N 3%N 4%N)) /\ input_is a InWkt /\
  bare w "POINT(0 0)" InWkt sample_point /\ dest_is a "wkt" /\ geojson_kind sample_point = true /\ finite_geom false sample_point.
Proof.
  cbn zeta. split; [split; [reflexivity|right; split; [intros H; inversion H|reflexivity]]|]. split; [intros t; reflexivity|].
  split; [apply sample_extent|]. split.
  { split; [apply local_start; discriminate|]. exists "wkt". split; [left; reflexivity|].
    apply (ends "" "a" "wkt"); try reflexivity; try discriminate. left. reflexivity. }
  split; [eapply bare_wkt; reflexivity|]. split; [apply (ends "" "b" "wkt"); try reflexivity; try discriminate; left; reflexivity|].
  split; [reflexivity|]. repeat constructor.
Qed.

(** ** The extent *)
(** a value that is no number, or fewer than four values: a panic, before any file is touched *)
Theorem C58_extent_argument : forall w a f t l, a_extent a = Some t -> values t l ->
  Exists (fun s => w_num w s = None) l \/ (length l < 4)%nat -> main w a f = (f, 101%N).
Proof. exact bad_extent. Qed.
Print Assumptions C58_extent_argument.
Example C58_extent_argument_met : forall drop, values "1,x,3,4" ["1"; "x"; "3"; "4"] /\
  Exists (fun s => w_num (sample_world hex_fmt drop) s = None) ["1"; "x"; "3"; "4"] /\ values "1,2" ["1"; "2"].
Proof.
  intros. split; [repeat split; discriminate|]. split; [right; left; reflexivity|repeat split; discriminate].
Qed.
(** values after the fourth are dropped *)
Theorem C58_extent_more : forall w a f t l x0 x1 x2 x3 more, a_extent a = Some t -> values t l ->
  Forall2 (fun s x => w_num w s = Some x) l (x0 :: x1 :: x2 :: x3 :: more) ->
  exists t', values t' (firstn 4 l) /\ main w a f = main w (with_extent a (Some t')) f.
Proof. exact more_values. Qed.
Print Assumptions C58_extent_more.
Example C58_extent_more_met : forall drop, values "1,2,3,4,5" ["1"; "2"; "3"; "4"; "5"] /\
  Forall2 (fun s x => w_num (sample_world hex_fmt drop) s = Some x) ["1"; "2"; "3"; "4"; "5"] [1; 2; 3; 4; 5]%N.
Proof. intros. split; [repeat split; discriminate|repeat constructor]. Qed.
(** the geometries of CSV, GeoJSON and WKT are not selected by the extent: any two give the same *)
Theorem C58_extent_refuted : forall w a t ext ext' f i e, extent_given w a ext -> extent_given w (with_extent a t) ext' ->
  input_is a i -> In i [InCsv; InJson; InLines; InWkt] -> dest_is a e -> In e ["csv"; "wkt"; "json"; "geojson"; "fgb"] ->
  main w (with_extent a t) f = main w a f.
Proof. exact extent_unused. Qed.
Print Assumptions C58_extent_refuted.
Example C58_extent_met : forall w, w = sample_world hex_fmt (fun t => t) ->
  extent_given w (sample_args "in/data.csv" "out.wkt" None) None /\
  extent_given w (with_extent (sample_args "in/data.csv" "out.wkt" None) (Some "1,2,3,4")) (Some (mkExtent 1%N 2%N 3%N 4%N)) /\
  input_is (sample_args "in/data.csv" "out.wkt" None) InCsv.
Proof. intros w ->. split; [exact I|]. split; [apply sample_extent|apply sample_input_csv]. Qed.

(** ** Failures *)
Theorem C58_not_creatable : forall w a ext f, w_creatable w (w_resolve w (a_dest a)) = false -> extent_given w a ext ->
  main w a f = (f, 1%N).
Proof. exact not_creatable. Qed.
Print Assumptions C58_not_creatable.
Example C58_not_creatable_met : let w := sample_world hex_fmt (fun t => t) in
  w_creatable w (w_resolve w (a_dest (sample_args "a.wkt" "readonly.wkt" None))) = false.
Proof. reflexivity. Qed.
(** an error leaves the destination empty, whatever it held: the input is missing ... *)
Theorem C58_clobber_refuted : forall w a ext f e, disk_ok w -> w_creatable w (w_resolve w (a_dest a)) = true -> extent_given w a ext ->
  dest_is a e -> In e ["wkt"; "json"; "geojson"; "svg"] -> local (a_input a) ->
  w_resolve w (a_input a) <> w_resolve w (a_dest a) -> f (w_resolve w (a_input a)) = None ->
  ends_with w a f 1 "".
Proof. exact missing_input. Qed.
Print Assumptions C58_clobber_refuted.
Example C58_clobber_met : let w := sample_world hex_fmt (fun t => t) in let a := sample_args "typo.json" "out.svg" None in
  dest_is a "svg" /\ local (a_input a) /\ sample_files (w_resolve w (a_input a)) = None /\
  sample_files (w_resolve w (a_dest a)) = Some "precious".
Proof.
  cbn zeta. split; [apply (ends "" "out" "svg"); try reflexivity; try discriminate; left; reflexivity|].
  split; [apply local_start; discriminate|]. split; reflexivity.
Qed.
(** ... the extension of the destination is not known (upper case, for one): a panic *)
Theorem C58_output_refuted : forall w a ext f e, w_creatable w (w_resolve w (a_dest a)) = true -> extent_given w a ext ->
  dest_is a e -> ~ In e known_outputs -> ends_with w a f 101 "".
Proof. exact unknown_output. Qed.
Print Assumptions C58_output_refuted.
Example C58_output_met : dest_is (sample_args "two.geojson" "OUT.JSON" None) "JSON" /\ ~ In "JSON" known_outputs /\ ~ In "jsonl" known_outputs.
Proof.
  split; [apply (ends "" "OUT" "JSON"); try reflexivity; try discriminate; left; reflexivity|].
  split; intros H; cbn in H; repeat (destruct H as [H|H]; [inversion H|]); exact H.
Qed.
(** ... or that of the input, a CSV file without the name of the geometry column, a remote file that is no
    FlatGeobuf file *)
Theorem C58_input_refuted : forall w a ext f e text x, disk_ok w -> w_creatable w (w_resolve w (a_dest a)) = true -> extent_given w a ext ->
  dest_is a e -> In e ["wkt"; "json"; "geojson"; "svg"] -> local (a_input a) ->
  w_resolve w (a_input a) <> w_resolve w (a_dest a) -> f (w_resolve w (a_input a)) = Some text ->
  ends_in (a_input a) x -> ~ In x known_inputs -> ends_with w a f 101 "".
Proof. exact unknown_input. Qed.
Print Assumptions C58_input_refuted.
Example C58_input_met : ends_in "data.shp" "shp" /\ local "data.shp" /\ ~ In "shp" known_inputs /\ sample_files "data.shp" = Some "shapes".
Proof.
  split; [apply (ends "" "data" "shp"); try reflexivity; try discriminate; left; reflexivity|].
  split; [apply local_start; discriminate|]. split; [|reflexivity].
  intros H; cbn in H; repeat (destruct H as [H|H]; [inversion H|]); exact H.
Qed.
(** ... or a path without an extension *)
Theorem C58_bare_output_refuted : forall w a ext f, w_creatable w (w_resolve w (a_dest a)) = true -> extent_given w a ext ->
  no_extension (a_dest a) -> ends_with w a f 101 "".
Proof. exact bare_output. Qed.
Print Assumptions C58_bare_output_refuted.
Theorem C58_bare_input_refuted : forall w a ext f e text, disk_ok w -> w_creatable w (w_resolve w (a_dest a)) = true -> extent_given w a ext ->
  dest_is a e -> In e ["wkt"; "json"; "geojson"; "svg"] ->
  (url (a_input a) \/ local (a_input a) /\ w_resolve w (a_input a) <> w_resolve w (a_dest a) /\ f (w_resolve w (a_input a)) = Some text) ->
  no_extension (a_input a) -> ends_with w a f 101 "".
Proof. exact bare_input. Qed.
Print Assumptions C58_bare_input_refuted.
Example C58_bare_met : no_extension "out.d/json" /\ no_extension "x/.json" /\ no_extension "data." /\
  url "https://host/fgb" /\ no_extension "https://host/fgb" /\ extension "out.d/json" = None /\ extension "data." = Some "".
Proof.
  split; [exists "out.d/", "json"; split; [left; reflexivity|]; split; [right; exists "out.d"; reflexivity|]; split; [discriminate|split; reflexivity]|].
  split; [exists "x/", "json"; split; [right; left; reflexivity|]; split; [right; exists "x"; reflexivity|]; split; [discriminate|split; reflexivity]|].
  split; [exists "", "data"; split; [right; right; reflexivity|]; split; [left; reflexivity|]; split; [discriminate|split; reflexivity]|].
  split; [exists "/host/fgb"; right; reflexivity|].
  split; [exists "https://host/", "fgb"; split; [left; reflexivity|]; split; [right; exists "https://host"; reflexivity|]; split; [discriminate|split; reflexivity]|].
  split; reflexivity.
Qed.
Theorem C58_column_refuted : forall w a ext f e text, disk_ok w -> extent_given w a ext -> ready w a f InCsv text ->
  dest_is a e -> In e ["wkt"; "json"; "geojson"; "svg"] -> input_is a InCsv -> a_column a = None -> ends_with w a f 101 "".
Proof. exact no_column. Qed.
Print Assumptions C58_column_refuted.
Example C58_column_met : let w := sample_world hex_fmt (fun t => t) in let a := mkArgs None None "in/data.csv" "out.svg" None in
  ready w a sample_files InCsv "name,geom" /\ input_is a InCsv /\ dest_is a "svg" /\ sample_files (w_resolve w (a_dest a)) = Some "precious".
Proof.
  cbn zeta. split; [split; [reflexivity|right; split; [intros H; inversion H|reflexivity]]|]. split; [exact (sample_input_csv "" None)|].
  split; [apply (ends "" "out" "svg"); try reflexivity; try discriminate; left; reflexivity|reflexivity].
Qed.
Theorem C58_remote_refuted : forall w a ext f e x, disk_ok w -> w_creatable w (w_resolve w (a_dest a)) = true -> extent_given w a ext ->
  dest_is a e -> In e ["wkt"; "json"; "geojson"; "svg"] -> url (a_input a) -> ends_in (a_input a) x -> x <> "fgb" ->
  ends_with w a f 101 "".
Proof. exact remote_other. Qed.
Print Assumptions C58_remote_refuted.
Example C58_remote_met : url "https://host/data.json" /\ ends_in "https://host/data.json" "json" /\ "json" <> "fgb".
Proof.
  split; [exists "/host/data.json"; right; reflexivity|]. split; [|intros H; inversion H].
  apply (ends "https://host/" "data" "json"); try reflexivity; try discriminate. right. exists "https://host". reflexivity.
Qed.

(** ** Exit status 0 without the data *)
(** input and output are the same file: the result does not depend on what it held *)
Theorem C58_same_file_refuted : forall w a ext f g, w_resolve w (a_input a) = w_resolve w (a_dest a) ->
  w_creatable w (w_resolve w (a_dest a)) = true -> extent_given w a ext ->
  snd (main w a f) = snd (main w a g) /\ fst (main w a f) (w_resolve w (a_dest a)) = fst (main w a g) (w_resolve w (a_dest a)).
Proof. exact same_file. Qed.
Print Assumptions C58_same_file_refuted.
Example C58_same_file_met : let w := sample_world hex_fmt (fun t => t) in let a := sample_args "in/data.csv" "in/data.csv" None in
  w_resolve w (a_input a) = w_resolve w (a_dest a) /\ w_creatable w (w_resolve w (a_dest a)) = true /\ extent_given w a None /\
  snd (main w a sample_files) = 0%N.
Proof. cbn zeta. split; [reflexivity|]. split; [reflexivity|]. split; [exact I|vm_compute; reflexivity]. Qed.
(** a GeoJSON collection with two geometries to GeoJSON: no JSON text *)
Theorem C58_collection_refuted : forall w a ext f text e, ready w a f InJson text -> disk_ok w -> extent_given w a ext -> input_is a InJson ->
  In e ["json"; "geojson"] -> dest_is a e -> w_json w text = Ok (GjFeatures [empty_multipoint; empty_multipoint]) ->
  exists out, ends_with w a f 0 out /\ parse_json out = None.
Proof. exact collection_json. Qed.
Print Assumptions C58_collection_refuted.
Example C58_collection_met : let w := sample_world hex_fmt (fun t => t) in let a := sample_args "empty.json" "out.json" None in
  ready w a sample_files InJson "empty" /\ input_is a InJson /\ w_json w "empty" = Ok (GjFeatures [empty_multipoint; empty_multipoint]).
Proof.
  cbn zeta. split; [split; [reflexivity|right; split; [intros H; inversion H|reflexivity]]|]. split; [|reflexivity].
  split; [apply local_start; discriminate|]. exists "json". split; [left; reflexivity|].
  apply (ends "" "empty" "json"); try reflexivity; try discriminate. left. reflexivity.
Qed.
(** a dataset to WKT, exactly: the texts one after the other ... *)
Theorem C58_wkt_texts : forall w a ext f i text name gi l,
  ready w a f i text -> disk_ok w -> extent_given w a ext -> input_is a i -> holds w a ext text i name gi l ->
  dest_is a "wkt" -> ends_with w a f 0 (texts (w_fmt w) gi 0 l).
Proof. intros w a ext f i text. exact (to_wkt_texts w a ext f text i). Qed.
Print Assumptions C58_wkt_texts.
(** ... so two numbered geometries are no WKT *)
Theorem C58_wkt_refuted : forall w a ext f i text name gi f1 f2 l g1 g2 num,
  ready w a f i text -> disk_ok w -> extent_given w a ext -> input_is a i -> holds w a ext text i name gi (f1 :: f2 :: l) ->
  dest_is a "wkt" -> f_geom f1 = Some g1 -> f_geom f2 = Some g2 -> gi 0%nat = 0%nat -> gi 1%nat <> 0%nat ->
  formats (w_fmt w) num -> exactly false false g1 ->
  exists out, ends_with w a f 0 out /\ parse_wkt num false false out = None.
Proof. intros w a ext f i text. exact (two_texts w a ext f text i). Qed.
Print Assumptions C58_wkt_refuted.
Example C58_wkt_met : let w := sample_world show_bits (fun t => t) in let a := sample_args "two.geojson" "out.wkt" None in
  ready w a sample_files InJson "two" /\ input_is a InJson /\ formats (w_fmt w) read_bits /\
  exists l, holds w a None "two" InJson None (fun i => i) l /\
    map f_geom l = [Some (GPoint (mkC 1%N 2%N None None)); Some (GPoint (mkC 3%N 4%N None None))].
Proof.
  cbn zeta. split; [split; [reflexivity|right; split; [intros H; inversion H|reflexivity]]|]. split.
  { split; [apply local_start; discriminate|]. exists "geojson". split; [right; left; reflexivity|].
    apply (ends "" "two" "geojson"); try reflexivity; try discriminate. left. reflexivity. }
  split; [exact bits_format|]. apply sample_holds_two.
Qed.
(** a single geometry to CSV: no record, not even the header *)
Theorem C58_geometry_csv_refuted : forall w a ext f i text g,
  ready w a f i text -> disk_ok w -> extent_given w a ext -> input_is a i -> bare w text i g -> dest_is a "csv" ->
  ends_with w a f 0 (w_csv_text w csv_out_init).
Proof. exact bare_csv_file. Qed.
Print Assumptions C58_geometry_csv_refuted.
(** a single geometry to SVG: path elements without an svg element around them *)
Theorem C58_geometry_svg_refuted : forall w a ext f i text g,
  ready w a f i text -> disk_ok w -> extent_given w a ext -> input_is a i -> bare w text i g -> dest_is a "svg" ->
  no_empty_point g = true -> (forall x, xml_plain (w_fmt w x) = true) ->
  exists out, ends_with w a f 0 out /\ parse_xml out = Some (SvgSpec.drawing (w_fmt w) true g).
Proof. exact bare_svg_file. Qed.
Print Assumptions C58_geometry_svg_refuted.
Example C58_geometry_more_met : let w := sample_world hex_fmt (fun t => t) in
  (forall o, In o ["b.svg"; "b.csv"] -> ready w (sample_args "one.json" o None) sample_files InJson "one") /\
  input_is (sample_args "one.json" "b.csv" None) InJson /\ bare w "one" InJson sample_point /\ no_empty_point sample_point = true.
Proof.
  cbn zeta. split.
  { intros o O. split; [|right; split; [intros H|reflexivity]]; (destruct O as [<-|[<-|[]]]; [|]); try reflexivity; inversion H. }
  split.
  { split; [apply local_start; discriminate|]. exists "json". split; [left; reflexivity|].
    apply (ends "" "one" "json"); try reflexivity; try discriminate. left. reflexivity. }
  split; [eapply bare_json; reflexivity|reflexivity].
Qed.
(** the disk is full when the buffered text is written at the end *)
Theorem C58_disk_refuted : forall w a ext f i text g, ready w a f i text -> (forall t, w_drop w t = "") -> extent_given w a ext ->
  input_is a i -> bare w text i g -> dest_is a "wkt" -> ends_with w a f 0 "".
Proof. exact disk_full. Qed.
Print Assumptions C58_disk_refuted.
Example C58_disk_met : let w := sample_world hex_fmt (fun _ => "") in
  ready w (sample_args "a.wkt" "b.wkt" None) sample_files InWkt "POINT(0 0)" /\ (forall t, w_drop w t = "") /\
  bare w "POINT(0 0)" InWkt sample_point.
Proof.
  cbn zeta. split; [split; [reflexivity|right; split; [intros H; inversion H|reflexivity]]|]. split; [intros t; reflexivity|].
  eapply bare_wkt; reflexivity.
Qed.
