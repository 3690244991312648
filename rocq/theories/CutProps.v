(** C77: what a reader has delivered when its input breaks off is the beginning of what it delivers. *)
From Coq Require Import String Ascii.
From Coq Require Import List NArith ZArith Lia Bool.
From Verif Require Import Base Event Claims CutSpec SinkSpec CutTop CutWit WkbModel WkbClaims WkbTop WktModel GeoJsonModel CsvModel SvgModel ShpModel.
Import ListNotations.
Local Open Scope list_scope.

(** ** Bytes *)
Theorem C77_wkb : forall dl, reads_ahead (process_wkb_type_geom dl).
Proof. exact (fun dl => ext_reads _ _ (WkbInv.ext_process dl)). Qed.
Print Assumptions C77_wkb.
Theorem C77_shape : forall ck, reads_ahead (read_shape ck).
Proof. exact (fun ck => ext_reads _ _ (ShpMore.ext_shape ck)). Qed.
Print Assumptions C77_shape.
Theorem C77_shape_header : reads_ahead (fun _ => read_header).
Proof. exact (ext_reads _ _ (fun _ => ext_header)). Qed.
Print Assumptions C77_shape_header.
Theorem C77_shape_index : forall ck, reads_ahead (fun _ => read_index_file ck).
Proof. exact (fun ck => ext_reads _ _ (fun _ => ext_index ck)). Qed.
Print Assumptions C77_shape_index.
(** a line of two positions, cut behind the first one: three callbacks of five are made *)
Example C77_wkb_met : exists p t l m,
  std Wkb xy_dims None [] xy_dims false false little sample_line = p ++ t /\
  exec (recorder xy_dims false) (process_wkb_type_geom Wkb xy_dims p) [] = (l, Err EIo) /\ length l = 3 /\
  exec (recorder xy_dims false) (process_wkb_type_geom Wkb xy_dims (p ++ t)) [] = (l ++ m, Ok (tt, [])) /\ length m = 2.
Proof. exact cut_line. Qed.

(** ** Loops over the records of a shapefile that ends too early *)
Theorem C77_shapes : forall ck leftover S (q : proc S) n p t pos len s,
  loops_ahead q (consume_shapes ck leftover q n (mkIter p pos len) s)
                (consume_shapes ck leftover q n (mkIter (p ++ t) pos len) s).
Proof. exact @shapes_ahead. Qed.
Print Assumptions C77_shapes.
Theorem C77_features : forall ck leftover S (q : proc S) n p t pos len records after no s,
  loops_ahead q (consume ck leftover q n (mkFIter (mkIter p pos len) records after no) s)
                (consume ck leftover q n (mkFIter (mkIter (p ++ t) pos len) records after no) s).
Proof. exact @features_ahead. Qed.
Print Assumptions C77_features.

(** ** Lines and records *)
Theorem C77_lines : forall ser, reads_in_turn (fun d => read_geojson_lines ser (multi_dim d)).
Proof. exact lines_turn. Qed.
Print Assumptions C77_lines.
Theorem C77_lines_geometry : reads_in_turn (fun d => read_geojson_line_geometries (multi_dim d)).
Proof. exact lines_geom_turn. Qed.
Print Assumptions C77_lines_geometry.
Theorem C77_collection : forall ser, reads_in_turn (fun d => read_geojson_fc ser (multi_dim d)).
Proof. exact fc_turn. Qed.
Print Assumptions C77_collection.
Theorem C77_csv : forall parse column headers,
  reads_in_turn (fun d => process_csv_features parse (multi_dim d) column headers).
Proof. exact csv_turn. Qed.
Print Assumptions C77_csv.
Theorem C77_csv_geometry : forall parse column headers,
  reads_in_turn (fun d => process_csv_geom parse (multi_dim d) column headers).
Proof. exact csv_geom_turn. Qed.
Print Assumptions C77_csv_geometry.

(** ** What has been written by then *)
Theorem C77_wkb_output : forall dl S X (out : S -> list X) (q : proc S), appends out q -> forall p t s, exists more,
  out (fst (exec q (process_wkb_type_geom dl (p_dims q) (p ++ t)) s)) =
  out (fst (exec q (process_wkb_type_geom dl (p_dims q) p) s)) ++ more.
Proof. exact (fun dl => ahead_output _ _ (ext_reads _ _ (WkbInv.ext_process dl))). Qed.
Print Assumptions C77_wkb_output.
Theorem C77_wkb_texts : forall dl fmt32 fmt p t,
  (forall c s, begins_with (k_out (fst (exec (wkt_writer fmt c) (process_wkb_type_geom dl (k_dims c) p) s)))
                           (k_out (fst (exec (wkt_writer fmt c) (process_wkb_type_geom dl (k_dims c) (p ++ t)) s)))) /\
  (forall d s, begins_with (fst (exec (geojson_writer fmt32 fmt d) (process_wkb_type_geom dl d p) s))
                           (fst (exec (geojson_writer fmt32 fmt d) (process_wkb_type_geom dl d (p ++ t)) s))) /\
  (forall c s, begins_with (fst (exec (svg_writer fmt c) (process_wkb_type_geom dl xy_dims p) s))
                           (fst (exec (svg_writer fmt c) (process_wkb_type_geom dl xy_dims (p ++ t)) s))).
Proof. exact cut_texts. Qed.
Print Assumptions C77_wkb_texts.
Theorem C77_lines_output : forall ser S X (out : S -> list X) (q : proc S), appends out q -> forall l1 l2 e s, exists more,
  out (fst (exec q (read_geojson_lines ser (multi_dim (p_dims q)) (l1 ++ l2)) s)) =
  out (fst (exec q (read_geojson_lines ser (multi_dim (p_dims q)) (l1 ++ [Err e])) s)) ++ more.
Proof. exact (fun ser => turn_output _ _ _ (lines_turn ser)). Qed.
Print Assumptions C77_lines_output.
