(** Lemmas behind C88. *)
From Coq Require Import String Ascii.
From Coq Require Import List NArith ZArith Lia Bool.
From Coq Require Import Init.Byte.
From Verif Require Import Base BaseLemmas Float Event Geom ProcModel ProcSpec ProcTop Claims MoveSpec.
From Verif Require WktModel GeoModel GeosModel GdalModel GpxModel GeoJsonModel MvtModel CsvModel WkbModel WkbSpec WkbClaims WkbTop ShpModel.
Import ListNotations.
Local Open Scope list_scope.

Section F.
Variable f : f64 -> f64 -> f64 * f64.
Definition fol {A} (g g' : prog A) : Prop := forall S (p : proc S) s, exec p g' s = exec (wrapped_xy f p) g s.

Lemma fol_call : forall e e', e' = on_xy f e -> fol (pcall e) (pcall e').
Proof. intros e e' -> S p s. rewrite wrap_exec. reflexivity. Qed.
Lemma fol_done : forall A (r : res A), fol (Done r) (Done r).
Proof. intros A r S p s. reflexivity. Qed.
Lemma fol_prop : forall A i n v (k k' : bool -> prog A), (forall b, fol (k b) (k' b)) -> fol (CallProp i n v k) (CallProp i n v k').
Proof.
  intros A i n v k k' H S p s. cbn. destruct (p_prop p s i n v) as [t [u|x]]; [apply H|reflexivity].
Qed.
Lemma fol_bind : forall A B (g g' : prog A) (k k' : A -> prog B), fol g g' -> (forall a, fol (k a) (k' a)) -> fol (pbind g k) (pbind g' k').
Proof.
  intros A B g g' k k' H K S p s. rewrite !exec_pbind, H. destruct (exec (wrapped_xy f p) g s) as [t [a|x]]; [apply K|reflexivity].
Qed.
Lemma fol_then : forall A (g g' : prog unit) (h h' : prog A), fol g g' -> fol h h' -> fol (pthen g h) (pthen g' h').
Proof. intros. unfold pthen. apply fol_bind; auto. Qed.
Lemma fol_for : forall A B (k : nat -> A -> prog unit) (k' : nat -> B -> prog unit) (m : A -> B) l i,
  (forall j a, fol (k j a) (k' j (m a))) -> fol (pfor k i l) (pfor k' i (map m l)).
Proof.
  intros A B k k' m l. induction l as [|a l IH]; intros i H; cbn [pfor map]; [apply fol_done|]. apply fol_then; auto.
Qed.
Lemma fol_for_same : forall A (k k' : nat -> A -> prog unit) l i,
  (forall j a, fol (k j a) (k' j a)) -> fol (pfor k i l) (pfor k' i l).
Proof. intros A k k' l i H. rewrite <- (map_id l) at 2. now apply fol_for. Qed.
Lemma fol_src : forall A (src src' : dims -> prog A), (forall d, fol (src d) (src' d)) -> reads_moved f src src'.
Proof. intros A src src' H S p s. apply H. Qed.
End F.

Ltac same_call := apply fol_call; first [reflexivity|cbn; rewrite ?map_length; reflexivity].
Ltac follow := repeat match goal with
  | |- fol _ (pcall _) (pcall _) => same_call
  | |- fol _ (pret _) (pret _) => apply fol_done
  | |- fol _ (pfail _) (pfail _) => apply fol_done
  | |- fol _ (pthen _ _) (pthen _ _) => apply fol_then
  | |- fol _ (pfor _ _ _) (pfor _ _ (map _ _)) => apply fol_for; intros ? ?
  | |- fol _ (CallProp _ _ _ _) (CallProp _ _ _ _) => apply fol_prop; intros ?
  end.

Section Readers.
Variable f : f64 -> f64 -> f64 * f64.
Notation fol := (fol f).
Lemma pair_f : forall x y, (let (a, b) := f x y in (a, b)) = (fst (f x y), snd (f x y)).
Proof. intros x y. destruct (f x y). reflexivity. Qed.
Lemma xy_f : forall x y i, on_xy f (Xy x y i) = Xy (fst (f x y)) (snd (f x y)) i.
Proof. intros x y i. cbn. destruct (f x y). reflexivity. Qed.
Lemma coord_f : forall x y z m t tm i, on_xy f (Coord x y z m t tm i) = Coord (fst (f x y)) (snd (f x y)) z m t tm i.
Proof. intros. cbn. destruct (f x y). reflexivity. Qed.

(** ** WKT, CSV *)
Lemma wkt_coord_fol : forall multi i c, fol (WktModel.wkt_coord multi i c) (WktModel.wkt_coord multi i (mv_coord f c)).
Proof. intros [] i c; apply fol_call; [rewrite coord_f|rewrite xy_f]; reflexivity. Qed.
Lemma wkt_line_fol : forall multi t i l, fol (WktModel.wkt_linestring multi t i l) (WktModel.wkt_linestring multi t i (map (mv_coord f) l)).
Proof. intros. unfold WktModel.wkt_linestring. follow. apply wkt_coord_fol. Qed.
Lemma wkt_polygon_fol : forall multi t i l, fol (WktModel.wkt_polygon multi t i l) (WktModel.wkt_polygon multi t i (map (map (mv_coord f)) l)).
Proof. intros. unfold WktModel.wkt_polygon. follow. apply wkt_line_fol. Qed.
Lemma wkt_fol : forall multi g i, fol (WktModel.process_wkt_geom_n multi i g) (WktModel.process_wkt_geom_n multi i (mv_wkt f g)).
Proof.
  intros multi. fix IH 1. intros g i. destruct g as [[c|]|l|l|l|l|l|l]; cbn [mv_wkt WktModel.process_wkt_geom_n option_map]; follow;
    auto using wkt_coord_fol, wkt_line_fol, wkt_polygon_fol.
  - match goal with |- fol (match ?a with _ => _ end) _ => destruct a; cbn [option_map]; [apply wkt_coord_fol|apply fol_done] end.
  - generalize 0. induction l as [|a l IHl]; intros k; cbn [map]; [apply fol_done|]. apply fol_then; [apply IH|apply IHl].
Qed.
Variable parse : string -> option WktModel.wkt.
Notation parse' := (fun t => option_map (mv_wkt f) (parse t)).
Lemma csv_features_fol : forall multi column headers records,
  fol (CsvModel.process_csv_features parse multi column headers records) (CsvModel.process_csv_features parse' multi column headers records).
Proof.
  intros multi column [headers|e] records; cbn [CsvModel.process_csv_features]; [|apply fol_done]. follow.
  destruct (CsvModel.position_of 0 column headers) as [gi|]; follow. apply fol_for_same. intros j [r|e]; cbn [CsvModel.csv_feature]; [|apply fol_done].
  follow; [apply fol_for_same; intros; apply fol_prop; intros; apply fol_done|]. destruct (nth_error r gi) as [t|]; follow.
  destruct (String.eqb t ""); follow. unfold CsvModel.read_wkt. destruct (parse t); cbn [option_map]; [apply wkt_fol|apply fol_done].
Qed.
Lemma csv_geoms_fol : forall multi gi records started idx,
  fol (CsvModel.csv_geoms parse multi gi started idx records) (CsvModel.csv_geoms parse' multi gi started idx records).
Proof.
  intros multi gi. induction records as [|[r|e] l IH]; intros started idx; cbn [CsvModel.csv_geoms]; [apply fol_done| |apply fol_done].
  destruct (nth_error r gi) as [t|]; [|apply fol_done]. destruct (parse t); cbn [option_map]; [|apply fol_done].
  apply fol_then; [destruct started; follow|]. apply fol_then; [apply wkt_fol|apply IH].
Qed.
Lemma csv_geom_fol : forall multi column headers records,
  fol (CsvModel.process_csv_geom parse multi column headers records) (CsvModel.process_csv_geom parse' multi column headers records).
Proof.
  intros multi column [headers|e] records; cbn [CsvModel.process_csv_geom]; [|apply fol_done].
  destruct (CsvModel.position_of 0 column headers) as [gi|]; [|apply fol_done]. apply fol_bind; [apply csv_geoms_fol|].
  intros []; follow.
Qed.

(** ** geo-types *)
Lemma geo_coord_fol : forall multi i p, fol (GeoModel.t_coord multi i p) (GeoModel.t_coord multi i (mv f p)).
Proof. intros [] i p; apply fol_call; [rewrite coord_f|rewrite xy_f]; reflexivity. Qed.
Lemma geo_line_fol : forall multi t i l, fol (GeoModel.t_linestring multi t i l) (GeoModel.t_linestring multi t i (map (mv f) l)).
Proof. intros. unfold GeoModel.t_linestring. follow. apply geo_coord_fol. Qed.
Lemma geo_polygon_fol : forall multi t i p, fol (GeoModel.t_polygon multi t i p) (GeoModel.t_polygon multi t i (mv_poly f p)).
Proof. intros multi t i [e r]. unfold GeoModel.t_polygon, mv_poly. cbn [fst snd]. follow; apply geo_line_fol. Qed.
Lemma geo_fol : forall rect tri multi g i, fol (GeoModel.t_geom rect tri multi i g) (GeoModel.t_geom rect tri multi i (mv_geo f rect tri g)).
Proof.
  intros rect tri multi. fix IH 1. intros g i. destruct g; cbn [mv_geo GeoModel.t_geom]; follow;
    auto using geo_coord_fol, geo_line_fol, geo_polygon_fol.
  generalize 0. induction l as [|a l IHl]; intros k; cbn [map]; [apply fol_done|]. apply fol_then; [apply IH|apply IHl].
Qed.

(** ** GEOS *)
Lemma seq_fol : forall z s i, fol (GeosModel.r_coord_seq z s i) (GeosModel.r_coord_seq z (mv_seq f s) i).
Proof.
  intros [] [l|l] i; cbn [mv_seq GeosModel.r_coord_seq]; follow; apply fol_call; rewrite ?coord_f, ?xy_f; reflexivity.
Qed.
Lemma seq_size_f : forall s, GeosModel.seq_size (mv_seq f s) = GeosModel.seq_size s.
Proof. intros [l|l]; apply map_length. Qed.
Lemma geos_line_fol : forall z t i s, fol (GeosModel.r_linestring z t i s) (GeosModel.r_linestring z t i (mv_seq f s)).
Proof. intros. unfold GeosModel.r_linestring. rewrite seq_size_f. follow. apply seq_fol. Qed.
Lemma geos_polygon_fol : forall z t i e l, fol (GeosModel.r_polygon z t i e l) (GeosModel.r_polygon z t i (mv_seq f e) (map (mv_seq f) l)).
Proof. intros. unfold GeosModel.r_polygon. follow; apply geos_line_fol. Qed.
Lemma geos_fol : forall z g i, fol (GeosModel.r_geom_n z g i) (GeosModel.r_geom_n z (mv_geos f g) i).
Proof.
  intros z. fix IH 1. intros g i. destruct g; cbn [mv_geos GeosModel.r_geom_n]; follow;
    auto using seq_fol, geos_line_fol, geos_polygon_fol.
  - apply geos_polygon_fol.
  - generalize 0. induction l as [|a l IHl]; intros k; cbn [map]; [apply fol_done|]. apply fol_then; [apply IH|apply IHl].
Qed.

(** ** GPX *)
Lemma gpx_line_fol : forall i l, fol (GpxModel.gpx_line i l) (GpxModel.gpx_line i (map (mv f) l)).
Proof.
  intros i [|a l]; [apply fol_done|]. unfold GpxModel.gpx_line. change (map (mv f) (a :: l)) with (mv f a :: map (mv f) l).
  cbn [length]. rewrite map_length. follow. change (mv f a :: map (mv f) l) with (map (mv f) (a :: l)). unfold GpxModel.gpx_points. follow.
Qed.
Lemma gpx_fol : forall doc, fol (GpxModel.read_gpx doc) (GpxModel.read_gpx (option_map (mv_gpx f) doc)).
Proof.
  intros [[w t r]|]; [|apply fol_done]. unfold GpxModel.read_gpx, mv_gpx, GpxModel.gpx_top_waypoints, GpxModel.gpx_wrapped.
  cbn [option_map GpxModel.gpx_waypoints GpxModel.gpx_tracks GpxModel.gpx_routes]. rewrite !map_length. follow.
  - match goal with |- fol (GpxModel.gpx_track _ ?a) _ => destruct a as [|b l]; [apply fol_done|] end.
    unfold GpxModel.gpx_track. cbn [map length]. rewrite map_length. follow.
    match goal with |- fol (pfor _ _ (?b :: ?l)) (pfor _ _ ?m) => change m with (map (map (mv f)) (b :: l)) end. follow. apply gpx_line_fol.
  - destruct r as [|b l]; [apply fol_done|]. unfold GpxModel.gpx_routes_at. cbn [map length]. rewrite map_length. follow.
    match goal with |- fol (pfor _ _ (?b :: ?l)) (pfor _ _ ?m) => change m with (map (map (mv f)) (b :: l)) end. follow. apply gpx_line_fol.
Qed.

(** ** GeoJSON *)
Lemma json_coord_fol : forall multi i p, fol (GeoJsonModel.gj_coord multi i p) (GeoJsonModel.gj_coord multi i (mv_pos f p)).
Proof. intros multi i [|x [|y r]]; [apply fol_done|apply fol_done|]. destruct multi; apply fol_call; [rewrite coord_f|rewrite xy_f]; reflexivity. Qed.
Lemma json_line_fol : forall multi t i l, fol (GeoJsonModel.gj_line multi t i l) (GeoJsonModel.gj_line multi t i (map (mv_pos f) l)).
Proof. intros. unfold GeoJsonModel.gj_line. follow. apply json_coord_fol. Qed.
Lemma json_polygon_fol : forall multi t i l, fol (GeoJsonModel.gj_polygon multi t i l) (GeoJsonModel.gj_polygon multi t i (map (map (mv_pos f)) l)).
Proof. intros. unfold GeoJsonModel.gj_polygon. follow. apply json_line_fol. Qed.
Lemma json_fol : forall multi g i, fol (GeoJsonModel.gj_geom_n multi i g) (GeoJsonModel.gj_geom_n multi i (mv_json f g)).
Proof.
  intros multi. fix IH 1. intros g i. destruct g; cbn [mv_json GeoJsonModel.gj_geom_n]; follow;
    auto using json_coord_fol, json_line_fol, json_polygon_fol.
  generalize 0. induction l as [|a l IHl]; intros k; cbn [map]; [apply fol_done|]. apply fol_then; [apply IH|apply IHl].
Qed.
Lemma json_prop_fol : forall ser i e, fol (GeoJsonModel.gj_property ser i e) (GeoJsonModel.gj_property ser i e).
Proof.
  intros ser i [k v]. cbn [GeoJsonModel.gj_property]. unfold GeoJsonModel.offer_prop. destruct v as [|b|[x|n|z]|s|l|l]; try (destruct (_ <=? _)%N); first [apply fol_done|apply fol_prop; intros; apply fol_done].
Qed.
Lemma json_feature_fol : forall ser multi i j x, fol (GeoJsonModel.gj_feature ser multi i j x) (GeoJsonModel.gj_feature ser multi i j (mv_feature f x)).
Proof.
  intros ser multi i j [g p]. unfold GeoJsonModel.gj_feature, mv_feature. cbn [GeoJsonModel.gf_geometry GeoJsonModel.gf_properties]. follow.
  - destruct p as [m|]; cbn [GeoJsonModel.when_some]; follow. apply fol_for_same. intros. apply json_prop_fol.
  - destruct g as [g|]; cbn [GeoJsonModel.when_some option_map]; follow. apply json_fol.
Qed.
Lemma json_single_fol : forall ser multi i x,
  fol (GeoJsonModel.process_geojson_feature ser multi i x) (GeoJsonModel.process_geojson_feature ser multi i (mv_feature f x)).
Proof.
  intros ser multi i x. unfold GeoJsonModel.process_geojson_feature. follow. pose proof (json_feature_fol ser multi i i x) as H.
  destruct x as [[g|] [p|]]; cbn [mv_feature GeoJsonModel.gf_geometry GeoJsonModel.gf_properties option_map] in *; first [exact H|apply fol_done].
Qed.
Lemma read_json_fol : forall ser multi doc, fol (GeoJsonModel.read_geojson ser multi doc) (GeoJsonModel.read_geojson ser multi (res_map (mv_doc f) doc)).
Proof.
  intros ser multi [[l|x|g]|e]; cbn [GeoJsonModel.read_geojson GeoJsonModel.process_geojson res_map mv_doc]; [|apply json_single_fol|apply json_fol|apply fol_done]. follow. apply json_feature_fol.
Qed.
Lemma read_json_geom_fol : forall multi doc, fol (GeoJsonModel.read_geojson_geom multi doc) (GeoJsonModel.read_geojson_geom multi (res_map (mv_doc f) doc)).
Proof.
  intros multi [[l|x|g]|e]; cbn [GeoJsonModel.read_geojson_geom GeoJsonModel.process_geojson_geom res_map mv_doc]; [| |apply json_fol|apply fol_done].
  - replace (flat_map _ (map (mv_feature f) l)) with (map (mv_json f) (flat_map (fun x => match GeoJsonModel.gf_geometry x with Some g => [g] | None => [] end) l)).
    + follow. apply json_fol.
    + induction l as [|[[g|] p] l IH]; cbn; congruence.
  - destruct x as [[g|] p]; cbn; [apply json_fol|apply fol_done].
Qed.
Lemma read_json_fc_fol : forall ser multi l, fol (GeoJsonModel.read_geojson_fc ser multi l) (GeoJsonModel.read_geojson_fc ser multi (map (res_map (mv_feature f)) l)).
Proof. intros. unfold GeoJsonModel.read_geojson_fc. follow. destruct a; cbn [res_map]; [apply json_single_fol|apply fol_done]. Qed.
Lemma read_json_lines_fol : forall ser multi l, fol (GeoJsonModel.read_geojson_lines ser multi l) (GeoJsonModel.read_geojson_lines ser multi (map (res_map (mv_doc f)) l)).
Proof.
  intros. unfold GeoJsonModel.read_geojson_lines. follow.
  destruct a as [[x|x|g]|e]; cbn [res_map mv_doc]; [apply fol_done|apply json_feature_fol|apply json_fol|apply fol_done].
Qed.
Lemma json_lines_geom_fol : forall multi l started idx,
  fol (GeoJsonModel.gj_lines_geom multi started idx l) (GeoJsonModel.gj_lines_geom multi started idx (map (res_map (mv_doc f)) l)).
Proof.
  intros multi. induction l as [|[[x|[[g|] p]|g]|e] l IH]; intros started idx;
    cbn [GeoJsonModel.gj_lines_geom map res_map mv_doc mv_feature GeoJsonModel.gf_geometry option_map]; try apply fol_done; try apply IH;
    (apply fol_then; [apply fol_then; [destruct started; follow|apply json_fol]|apply IH]).
Qed.
Lemma read_json_line_geoms_fol : forall multi l,
  fol (GeoJsonModel.read_geojson_line_geometries multi l) (GeoJsonModel.read_geojson_line_geometries multi (map (res_map (mv_doc f)) l)).
Proof. intros. unfold GeoJsonModel.read_geojson_line_geometries. apply fol_bind; [apply json_lines_geom_fol|]. intros []; follow. Qed.

(** ** GDAL *)
Section Gdal.
Variable z : bool.
Variable missing : GdalModel.pt.
Notation missing' := (mv3 f missing).
Import GdalModel.
Lemma gdal_coord_fol : forall p i, fol (r_coord z p i) (r_coord z (mv3 f p) i).
Proof.
  intros [[x y] v] i. unfold mv3, mv, r_coord. cbn [fst snd]. destruct (f x y) as [a b] eqn:E.
  apply fol_call. destruct z; [rewrite coord_f|rewrite xy_f]; rewrite E; reflexivity.
Qed.
Lemma pts_f : forall g, o_pts (mv_gdal f g) = map (mv3 f) (o_pts g). Proof. intros [k a b c d]. reflexivity. Qed.
Lemma kids_f : forall g, o_kids (mv_gdal f g) = map (mv_gdal f) (o_kids g). Proof. intros [k a b c d]. reflexivity. Qed.
Lemma kind_f : forall g, o_kind (mv_gdal f g) = o_kind g. Proof. intros [k a b c d]. reflexivity. Qed.
Lemma gdal_point_fol : forall g i, fol (r_point z missing g i) (r_point z missing' (mv_gdal f g) i).
Proof. intros g i. unfold r_point. rewrite pts_f. destruct (o_pts g) as [|p l]; apply gdal_coord_fol. Qed.
Lemma gdal_line_fol : forall g t i, fol (r_linestring z g t i) (r_linestring z (mv_gdal f g) t i).
Proof. intros. unfold r_linestring. rewrite pts_f, map_length. follow. apply gdal_coord_fol. Qed.
Lemma gdal_arc_fol : forall g i, fol (r_circularstring z g i) (r_circularstring z (mv_gdal f g) i).
Proof. intros. unfold r_circularstring. rewrite pts_f, map_length. follow. apply gdal_coord_fol. Qed.
Lemma gdal_lines_fol : forall g, fol (r_linestring_seq z g) (r_linestring_seq z (mv_gdal f g)).
Proof. intros. unfold r_linestring_seq. rewrite kids_f. follow. rewrite kind_f. destruct (o_kind a); first [apply gdal_line_fol|apply fol_done]. Qed.
Lemma gdal_polygon_fol : forall g t i, fol (r_polygon z g t i) (r_polygon z (mv_gdal f g) t i).
Proof. intros. unfold r_polygon. rewrite kids_f, map_length. follow. apply gdal_lines_fol. Qed.
Lemma gdal_triangle_fol : forall g t i, fol (r_triangle z g t i) (r_triangle z (mv_gdal f g) t i).
Proof. intros. unfold r_triangle. rewrite kids_f, map_length. follow. apply gdal_lines_fol. Qed.
Lemma gdal_compound_fol : forall g i, fol (r_compoundcurve z g i) (r_compoundcurve z (mv_gdal f g) i).
Proof.
  intros. unfold r_compoundcurve. rewrite kids_f, map_length. follow. rewrite kind_f.
  destruct (o_kind a); first [apply gdal_line_fol|apply gdal_arc_fol|apply fol_done].
Qed.
Lemma gdal_curve_fol : forall g i, fol (r_curve z g i) (r_curve z (mv_gdal f g) i).
Proof.
  intros. unfold r_curve. rewrite kind_f. destruct (o_kind g); first [apply gdal_line_fol|apply gdal_arc_fol|apply gdal_compound_fol|apply fol_done].
Qed.
Lemma gdal_curvepolygon_fol : forall g i, fol (r_curvepolygon z g i) (r_curvepolygon z (mv_gdal f g) i).
Proof. intros. unfold r_curvepolygon. rewrite kids_f, map_length. follow. apply gdal_curve_fol. Qed.
Lemma gdal_fol : forall g i, fol (r_geom_n z missing g i) (r_geom_n z missing' (mv_gdal f g) i).
Proof.
  fix IH 1. intros [k a b pts kids] i.
  assert (L : forall j, fol ((fix go (i : nat) (l : list og) : prog unit :=
      match l with [] => pret tt | a :: r => pthen (r_geom_n z missing a i) (go (S i) r) end) j kids)
    ((fix go (i : nat) (l : list og) : prog unit :=
      match l with [] => pret tt | a :: r => pthen (r_geom_n z missing' a i) (go (S i) r) end) j (map (mv_gdal f) kids))).
  { induction kids as [|x l IHl]; intros j; cbn [map]; [apply fol_done|]. apply fol_then; [apply IH|apply IHl]. }
  clear IH. pose (g := Og k a b pts kids).
  destruct k; cbn [mv_gdal r_geom_n]; rewrite ?map_length; fold (mv_gdal f); follow.
  all: try match goal with |- fol (match o_kind ?x with _ => _ end) _ => rewrite kind_f; destruct (o_kind x) end.
  all: first [apply L|apply (gdal_point_fol g)|apply gdal_point_fol|apply (gdal_line_fol g)|apply (gdal_lines_fol g)|apply (gdal_polygon_fol g)
    |apply gdal_polygon_fol|apply (gdal_arc_fol g)|apply (gdal_compound_fol g)|apply (gdal_curvepolygon_fol g)|apply (gdal_triangle_fol g)
    |apply gdal_curve_fol|apply gdal_triangle_fol|apply gdal_curvepolygon_fol|apply fol_done].
Qed.
End Gdal.

(** ** Tiles *)
Section Tile.
Variable h : MvtModel.tpos -> MvtModel.tpos.
Hypothesis Hh : forall p, f (MvtModel.f64_of_int (fst p)) (MvtModel.f64_of_int (snd p)) =
  (MvtModel.f64_of_int (fst (h p)), MvtModel.f64_of_int (snd (h p))).
Import MvtModel.
Lemma tile_coord_fol : forall multi i p, fol (m_coord multi i p) (m_coord multi i (h p)).
Proof. intros multi i p. unfold m_coord. apply fol_call. destruct multi; [rewrite coord_f|rewrite xy_f]; rewrite Hh; reflexivity. Qed.
Lemma tile_line_fol : forall multi t i l, fol (m_linestring multi t i l) (m_linestring multi t i (map h l)).
Proof. intros. unfold m_linestring. follow. apply tile_coord_fol. Qed.
Lemma tile_polygon_fol : forall multi t i p, fol (m_polygon multi t i p) (m_polygon multi t i (mv_tpoly h p)).
Proof. intros multi t i [e r]. unfold m_polygon, mv_tpoly. cbn [fst snd]. follow; apply tile_line_fol. Qed.
Lemma tile_fol : forall multi g i, fol (m_geometry multi i g) (m_geometry multi i (mv_tile h g)).
Proof.
  intros multi. fix IH 1. intros g i. destruct g; cbn [mv_tile m_geometry]; follow;
    auto using tile_coord_fol, tile_line_fol, tile_polygon_fol.
  generalize 0. induction l as [|a l IHl]; intros k; cbn [map]; [apply fol_done|]. apply fol_then; [apply IH|apply IHl].
Qed.
Lemma layer_fol : forall multi l, fol (m_layer multi l) (m_layer multi (mv_layer h l)).
Proof.
  intros multi l. unfold m_layer, mv_layer, m_feature. cbn [ml_name ml_features]. follow.
  - cbn [mv_tfeature mf_properties]. apply fol_for_same. intros k [n v]. unfold m_property. cbn [fst snd].
    destruct v; first [apply fol_done|apply fol_prop; intros; apply fol_done].
  - cbn [mv_tfeature mf_geometry]. apply tile_fol.
Qed.
End Tile.
End Readers.
