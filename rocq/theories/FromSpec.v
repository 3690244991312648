(** Vocabulary of claim C70 (specification side): reading WKB into the types of other formats. *)
From Coq Require Import String Ascii.
From Coq Require Import List NArith ZArith Lia Bool.
From Coq Require Import Init.Byte.
From Verif Require Import Base Event WkbModel WktModel GeoJsonModel SvgModel DbModel FromModel.
From Verif Require GeoModel MvtModel GeosModel GdalModel.
Import ListNotations.
Local Open Scope list_scope.

(** what lies outside the crate: the formatting of numbers, sizes in memory, base64, libgeos; and whether
    debug assertions are compiled in *)
Record outside := mkOutside {
  w_debug : bool;
  w_format32 : N -> string;
  w_format : f64 -> string;
  w_gsize : N;
  w_base64 : list byte -> string;
  w_geos : GeosModel.geos_lib
}.
(** the types that implement FromWkb *)
Inductive target := AsGeo | AsWkt | AsEwkt | AsGeoJson | AsSvg | AsMvt | AsGeos | AsGdal.
Definition value (t : target) : Type :=
  match t with
  | AsGeo => GeoModel.gt
  | AsWkt | AsEwkt | AsGeoJson | AsSvg => string
  | AsMvt => MvtModel.mfeature
  | AsGeos => GeosModel.gval
  | AsGdal => GdalModel.og
  end.
(** FromWkb::from_wkb *)
Definition from_wkb (w : outside) (t : target) (dl : dialect) (b : list byte) : res (value t) :=
  match t with
  | AsGeo => GeoModel.geo_from_wkb (w_debug w) dl b
  | AsWkt => wkt_from_wkb (w_format w) dl b
  | AsEwkt => ewkt_from_wkb (w_format w) dl b
  | AsGeoJson => geojson_from_wkb (w_format32 w) (w_format w) dl b
  | AsSvg => svg_from_wkb (w_format w) dl b
  | AsMvt => MvtModel.mvt_from_wkb (w_gsize w) (w_base64 w) (w_debug w) dl b
  | AsGeos => GeosModel.geos_from_wkb (w_geos w) dl b
  | AsGdal => GdalModel.gdal_from_wkb dl b
  end.
(** to_geo, to_wkt, to_ewkt(None), to_json, to_svg, to_mvt_unscaled, to_geos, to_gdal *)
Definition to_value (w : outside) (t : target) (src : dims -> prog unit) : res (value t) :=
  match t with
  | AsGeo => GeoModel.to_geo (w_debug w) src
  | AsWkt => to_wkt (w_format w) src
  | AsEwkt => to_ewkt (w_format w) src None
  | AsGeoJson => to_json (w_format32 w) (w_format w) src
  | AsSvg => to_svg (w_format w) src
  | AsMvt => MvtModel.to_mvt_unscaled (w_gsize w) (w_base64 w) (w_debug w) src
  | AsGeos => GeosModel.to_geos (w_geos w) src
  | AsGdal => GdalModel.to_gdal src
  end.
