(** Properties C15 and C16, exact extents.  Specification vocabulary: WktSpec.v ([wkt_text],
    [formats]), WktExactSpec.v ([settled], [as_written], ...).  Model: WktModel.v. *)
From Coq Require Import String Ascii.
From Coq Require Import List NArith ZArith Lia Bool.
From Verif Require Import Base Event Claims Geom WkbModel WkbSpec WkbClaims WkbTop WktModel WktSpec
  WktTop WktExactSpec WktExactTop DecSpec DecMore WktDisplay.
Import ListNotations.
Local Open Scope N_scope.
Local Open Scope list_scope.
Local Open Scope string_scope.

(** ** C15: the output is the text of the configured ordinates exactly if no position carries
    another ordinate (positions of NaNs alone apart) or no extra dimension is configured *)
Theorem C15_exact : forall A (src : dims -> prog A) l dl d srid fmt g r,
  spaceless fmt -> ordinates64 g ->
  delivers src (fun multi => map Srid l ++ gevents multi 0 g)%list (Ok r) ->
  (to_wkt_with_opts fmt src dl d srid =
   Ok ((match dl with PlainWkt => "" | Ewkt => srid_prefix srid l end) ++ wkt_text fmt (dz d) (dm d) g) <->
   (multi_dim d = true -> settled (dz d) (dm d) g)).
Proof. exact wkt_output_exact. Qed.
Print Assumptions C15_exact.
Example C15_exact_met : forall fmt, displays 52 11 fmt ->
  let g := GLineString [mkC 0 one (Some two) (Some one); mkC one two None None] in
  let src := process_wkt_geom (WLineString [mkC 0 one (Some two) (Some one); mkC one two None None]) in
  spaceless fmt /\ ordinates64 g /\ delivers src (fun multi => gevents multi 0 g) (Ok tt) /\
  settled true true g /\ ~ settled true false g.
Proof.
  intros fmt D. cbv zeta. split; [exact (proj1 (display_spaceless fmt D))|]. split; [concrete|].
  split; [apply wkt_delivers; reflexivity|]. split.
  - split; [exact I|]. repeat constructor; discriminate.
  - intros [_ H]. inversion H as [|? ? H1 ?]; subst. destruct H1 as [[_ H1]|H1]; [discriminate (H1 eq_refl)|discriminate H1].
Qed.

(** ** C16: two geometries give the same text exactly if they have the same structure and, position
    by position, the same numbers in the same order (all NaNs being one) *)
Theorem C16_exact :
  forall fmt num A B (src1 : dims -> prog A) (src2 : dims -> prog B) d g1 g2 r1 r2,
  formats fmt num -> one_nan fmt -> ordinates64 g1 -> ordinates64 g2 ->
  delivers src1 (fun multi => gevents multi 0 g1) (Ok r1) ->
  delivers src2 (fun multi => gevents multi 0 g2) (Ok r2) ->
  (to_wkt_ndim fmt src1 d = to_wkt_ndim fmt src2 d <->
   as_written (multi_dim d) g1 = as_written (multi_dim d) g2).
Proof. exact wkt_unambiguous_exact. Qed.
Print Assumptions C16_exact.
Example C16_exact_met : forall fmt, displays 52 11 fmt ->
  formats fmt read_f64 /\ one_nan fmt /\
  ordinates64 (GPoint (mkC 0 one (Some two) None)) /\
  (* z or m: confused *)
  as_written true (GPoint (mkC 0 one (Some two) None)) = as_written true (GPoint (mkC 0 one None (Some two))) /\
  (* a line of a polygon and a line *)
  as_written true (GPolygon [[]]) <> as_written true (GPolygon []) /\
  (* one NaN among numbers is kept *)
  as_written false (GPoint (p2 0 0x7FF8000000000000%N)) <> as_written false (GPoint (p2 0 0)) /\
  as_written false (GPoint (p2 0 one)) = as_written false (GPoint (mkC 0 one (Some two) None)).
Proof.
  intros fmt D. split; [exact (displays_wkt fmt D)|]. split; [exact (proj2 (display_spaceless fmt D))|].
  split; [concrete|]. split; [reflexivity|]. split; [discriminate|]. split; [discriminate|]. reflexivity.
Qed.
