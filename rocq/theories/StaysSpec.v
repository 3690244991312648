(** What C83 is stated with: output that is only added to. *)
From Coq Require Import String Ascii.
From Coq Require Import List NArith ZArith Bool.
From Verif Require Import Base Event Claims.
From Verif Require WktModel WkbModel CsvModel GeoJsonModel GeoModel MvtModel TessModel.
Import ListNotations.

(** Whatever comes later, what was written stays: the output grows at its end only.  The writer may be in any
    state, and the later callbacks may fail. *)
Definition stays {S A} (out : S -> list A) (p : proc S) : Prop :=
  forall l1 l2 s, exists more, out (fst (feed p (l1 ++ l2) s)) = out (fst (feed p l1 s)) ++ more.
(** What was written is not looked at again: with [x] written before, the same is written after it, with the same
    result.  [after x s] is the writer [s] with [x] in front of its output. *)
Definition unread {S A} (out : S -> list A) (after : list A -> S -> S) (p : proc S) : Prop :=
  forall l s x,
    out (fst (feed p l (after x s))) = x ++ out (fst (feed p l s)) /\
    snd (feed p l (after x s)) = snd (feed p l s).

(** A stream can be cut where [cut] says so (of the writer's state) and its pieces given to new writers: the outputs
    put together are the output of the whole. *)
Definition pieces {S A} (out : S -> list A) (p : proc S) (s0 : S) (cut : S -> Prop) : Prop :=
  forall l1 l2, snd (feed p l1 s0) = Ok tt -> cut (fst (feed p l1 s0)) ->
    out (fst (feed p (l1 ++ l2) s0)) = out (fst (feed p l1 s0)) ++ out (fst (feed p l2 s0)) /\
    snd (feed p (l1 ++ l2) s0) = snd (feed p l2 s0).

(** ** Outputs, and writers with something in front of their output *)
Definition chars (s : string) : list ascii := list_ascii_of_string s.
Definition text_after (x : list ascii) (s : string) : string := (string_of_list_ascii x ++ s)%string.
(** GeoJSON text sequences: how many geometries are open, and the text *)
Definition lines_after (x : list ascii) (s : nat * string) : nat * string := (fst s, text_after x (snd s)).
Definition wkt_after (x : list ascii) (s : WktModel.wktst) : WktModel.wktst :=
  WktModel.mkWktSt (WktModel.k_srid s) (WktModel.k_first s) (WktModel.k_sizes s) (text_after x (WktModel.k_out s)).
Definition wkb_after (x : list Byte.byte) (s : WkbModel.wst) : WkbModel.wst :=
  WkbModel.mkWst (WkbModel.w_first s) (WkbModel.w_state s) (WkbModel.w_nest s) (x ++ WkbModel.w_out s).
Definition csv_records (s : CsvModel.csvst) : list (list string) := CsvModel.o_records (CsvModel.cs_csv s).
Definition csv_after (x : list (list string)) (s : CsvModel.csvst) : CsvModel.csvst :=
  let o := CsvModel.cs_csv s in
  CsvModel.mkCsv (CsvModel.mkCsvOut (CsvModel.o_fields o) (x ++ CsvModel.o_records o) (CsvModel.o_count o))
    (CsvModel.cs_headers s) (CsvModel.cs_written s) (CsvModel.cs_row s) (CsvModel.cs_wkt s).
Definition features_after (x : list (GeoModel.gt * GeoModel.props)) (s : GeoModel.gf) : GeoModel.gf :=
  GeoModel.mkGf (GeoModel.f_writer s) (GeoModel.f_props s) (x ++ GeoModel.f_features s).
Definition tile_after (x : list MvtModel.mfeature) (s : MvtModel.mw) : MvtModel.mw :=
  MvtModel.mkMw (x ++ MvtModel.mw_features s) (MvtModel.mw_props s) (MvtModel.mw_geoms s) (MvtModel.mw_coll s)
    (MvtModel.mw_polys s) (MvtModel.mw_lines s) (MvtModel.mw_coords s).
Definition triangles_after (x : list TessModel.out) (s : TessModel.ts) : TessModel.ts :=
  TessModel.mkTs (TessModel.ts_started s) (TessModel.ts_path s) (TessModel.ts_open s) (x ++ TessModel.ts_out s).
