(** Property theorems: numbers as decimal text (C71). *)
From Coq Require Import String Ascii.
From Coq Require Import List NArith ZArith Lia Bool Reals.
From Verif Require Import Base Event Claims Geom WkbSpec WktModel WktSpec WktTop JsonSpec GeoJsonModel GeoJsonSpec ChainTop DecSpec DecTop DecNear DecMore.
From Verif Require MvtSpec.
Import ListNotations.
Local Open Scope string_scope.
Local Open Scope N_scope.

(** C71.  However the decimal digits are chosen, a Display whose decimals are read back meets what the
    other claims ask of the formatting of numbers. *)
Theorem C71_wkt_numbers : forall fmt, displays 52 11 fmt -> formats fmt read_f64.
Proof. exact displays_wkt. Qed.
Print Assumptions C71_wkt_numbers.
Theorem C71_json_numbers : forall fmt32 fmt, displays 23 8 fmt32 -> displays 52 11 fmt ->
  json_format finite32 fmt32 read_f32 /\ json_format finite fmt read_f64.
Proof. exact (fun f32 f H32 H => conj (displays_json32 f32 H32) (displays_json f H)). Qed.
Print Assumptions C71_json_numbers.
(** The shortest decimal that is read back is such a Display, for f64 and f32. *)
Theorem C71_shortest : displays 52 11 show_f64 /\ displays 23 8 show_f32.
Proof. exact (conj (shown 52 11 eq_refl eq_refl) (shown 23 8 eq_refl eq_refl)). Qed.
Print Assumptions C71_shortest.
(** The WKT of a geometry without NaN is read back as this geometry, bit for bit ... *)
Theorem C71_wkt : forall fmt A (src : dims -> prog A) d g r, displays 52 11 fmt ->
  exactly (dz d) (dm d) g -> nan_free g -> delivers src (fun multi => gevents multi 0 g) (Ok r) ->
  exists text, to_wkt_ndim fmt src d = Ok text /\ parse_wkt read_f64 (dz d) (dm d) text = Some g.
Proof. exact wkt_back. Qed.
Print Assumptions C71_wkt.
(** ... and so is GeoJSON. *)
Theorem C71_geojson : forall fmt32 fmt A (src : dims -> prog A) d g r, displays 52 11 fmt ->
  geojson_kind g = true -> finite_geom (multi_dim d) g -> delivers src (fun multi => gevents multi 0 g) (Ok r) ->
  exists text j, exec (geojson_writer fmt32 fmt d) (src d) "" = (text, Ok r) /\
    parse_json text = Some j /\ geometry_of read_f64 j = Some (kept_geom (multi_dim d) g).
Proof. exact geojson_back. Qed.
Print Assumptions C71_geojson.
(** What the numerals of a text are read as is right: no number is nearer ... *)
Theorem C71_nearest : forall (neg : bool) t D q x x', numeral t = Some (D, q) ->
  read_f64 (if neg then String "-" t else t) = Some x -> MvtSpec.finite x ->
  let v := (if neg then - (IZR (Z.of_N D) * powerRZ 10 q) else IZR (Z.of_N D) * powerRZ 10 q)%R in
  (Rabs (v - MvtSpec.value x) <= Rabs (v - MvtSpec.value x'))%R.
Proof. exact read_nearest. Qed.
Print Assumptions C71_nearest.
(** ... and only numerals that lie at least half a unit above the greatest number become infinite. *)
Theorem C71_overflow : forall t D q, numeral t = Some (D, q) -> read_f64 t = Some 0x7FF0000000000000 ->
  ((powerRZ 2 53 - / 2) * powerRZ 2 971 <= IZR (Z.of_N D) * powerRZ 10 q)%R.
Proof. exact read_overflow. Qed.
Print Assumptions C71_overflow.
Example C71_met :
  show_f64 0x3FB999999999999A = "0.1" /\ read_f64 "0.1" = Some 0x3FB999999999999A /\ numeral "0.1" = Some (1, (-1)%Z) /\
  show_f64 0xBFF8000000000000 = "-1.5" /\ show_f32 0x3DCCCCCD = "0.1" /\ show_f64 0x7FF0000000000000 = "inf" /\
  read_f64 "1.7976931348623159e308" = Some 0x7FF0000000000000 /\ read_f64 "1.7976931348623158e308" = Some 0x7FEFFFFFFFFFFFFF /\
  read_f64 "4.9E-324" = Some 1 /\ read_f64 "1e-400" = Some 0 /\ read_f64 "9007199254740993" = read_f64 "9007199254740992".
Proof. vm_compute. repeat split; reflexivity. Qed.
Example C71_geometry_met :
  exactly false false some_shape /\ nan_free some_shape /\ finite_geom false some_shape /\
  delivers (said some_shape) (fun multi => gevents multi 0 some_shape) (Ok tt).
Proof. repeat split; try (WkbTop.concrete). exact (said_delivers some_shape). Qed.
