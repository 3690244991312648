(** Model of /repo/geozero/src/svg: SvgWriter and the conversions to SVG. *)
From Coq Require Import String Ascii.
From Coq Require Import List NArith ZArith Lia Bool.
From Verif Require Import Base Float Event ProcModel.
Import ListNotations.
Local Open Scope list_scope.
Local Open Scope string_scope.

Definition svg_nl : string := String (ascii_of_N 10) "".

(** writer.rs:7-13; what was written so far is the state of the processor *)
Record svgcfg := mkSvg {
  sv_invert : bool;
  sv_view : option (f64 * f64 * f64 * f64);
  sv_style : option string;
  sv_size : option (N * N)
}.
(** writer.rs:16-24 *)
Definition svg_new (invert : bool) : svgcfg := mkSvg invert None None None.
(** writer.rs:25-40 *)
Definition set_dimensions (c : svgcfg) (xmin ymin xmax ymax : f64) (w h : N) : svgcfg :=
  mkSvg (sv_invert c)
    (Some (if sv_invert c then (xmin, f64_neg ymax, xmax, f64_neg ymin) else (xmin, ymin, xmax, ymax)))
    (sv_style c) (Some (w, h)).
(** writer.rs:41-43 *)
Definition set_style (c : svgcfg) (s : option string) : svgcfg :=
  mkSvg (sv_invert c) (sv_view c) s (sv_size c).

Section Writer.
  (** `{v}` for an f64 (std::fmt::Display) *)
  Variable fmt : f64 -> string.
  Variable c : svgcfg.

  (** writer.rs:47-79 *)
  Definition svg_header (name : option string) : string :=
    "<?xml version=""1.0""?>" ++ svg_nl ++
    "<svg xmlns=""http://www.w3.org/2000/svg"" version=""1.2"" baseProfile=""tiny"" " ++
    (match sv_size c with
     | Some (w, h) =>
         "width=""" ++ show_z (Z.of_N w) ++ """ height=""" ++ show_z (Z.of_N h) ++ """ "
     | None => ""
     end) ++
    (match sv_view c with
     | Some (xmin, ymin, xmax, ymax) =>
         "viewBox=""" ++ fmt xmin ++ " " ++ fmt ymin ++ " " ++ fmt (f64_sub xmax xmin) ++ " " ++
         fmt (f64_sub ymax ymin) ++ """ "
     | None => ""
     end) ++
    "stroke-linecap=""round"" stroke-linejoin=""round"">" ++ svg_nl ++
    (match sv_style c with Some s => "<style>" ++ s ++ "</style>" ++ svg_nl | None => "" end) ++
    "<g id=""" ++ (match name with Some n => n | None => "" end) ++ """>".

  (** writer.rs:46-139; everything else is the trait default *)
  Definition svg_step (out : string) (e : event) : string * res unit :=
    let put t := (out ++ t, Ok tt) in
    match e with
    | DatasetBegin name => put (svg_header name)                                  (* 47-79 *)
    | DatasetEnd => put (svg_nl ++ "</g>" ++ svg_nl ++ "</svg>")                  (* 80-83 *)
    | FeatureBegin _ => put svg_nl                                                (* 84-87 *)
    | FeatureEnd _ => put ""                                                      (* 88-90 *)
    | Xy x y _ =>                                                                 (* 94-98 *)
        put (fmt x ++ " " ++ fmt (if sv_invert c then f64_neg y else y) ++ " ")
    | PointBegin _ => put "<path d=""M "                                          (* 99-102 *)
    | PointEnd _ => put "Z""/>"                                                   (* 103-106 *)
    | LineStringBegin tagged _ _ => put (if tagged then "<path d=""" else "M ")   (* 107-114 *)
    | LineStringEnd tagged _ => put (if tagged then """/>" else "Z ")             (* 115-122 *)
    | MultiLineStringBegin _ _ => put "<path d="""                                (* 123-126 *)
    | MultiLineStringEnd _ => put """/>"                                          (* 127-130 *)
    | PolygonBegin _ _ _ => put "<path d="""                                      (* 131-134 *)
    | PolygonEnd _ _ => put """/>"                                                (* 135-138 *)
    | e => default_step out e
    end.
  (** writer.rs:141: the property callback is the trait default *)
  Definition svg_writer : proc string := mkProc xy_dims svg_step default_prop.
End Writer.

(** mod.rs:40-48 (ToSvg::to_svg), 71-79 (ProcessToSvg::to_svg) and 90-99 (FromWkb); from_utf8 never
    fails on a concatenation of strings *)
Definition to_svg {A} (fmt : f64 -> string) (src : dims -> prog A) : res string :=
  match exec (svg_writer fmt (svg_new false)) (src xy_dims) "" with
  | (out, Ok _) => Ok out
  | (_, Err e) => Err e
  end.
(** mod.rs:49-61 *)
Definition to_svg_document {A} (fmt : f64 -> string) (src : dims -> prog A) : res string :=
  to_svg fmt (fun d =>
    pthen (pcall (DatasetBegin None)) (pthen (pcall (FeatureBegin 0))
    (pbind (src d) (fun _ => pthen (pcall (FeatureEnd 0)) (pcall DatasetEnd))))).
