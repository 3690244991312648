(** Property C57: what the tessellator makes of every geometry.  Specification vocabulary: Claims.v, Geom.v,
    TessSpec.v, TessExactSpec.v.  Model: TessModel.v. *)
From Coq Require Import String Ascii.
From Coq Require Import List NArith ZArith Lia Bool.
From Verif Require Import Base Event Claims Geom TessModel TessSpec TessMore TessWit TessExactSpec TessExact.
Import ListNotations.
Local Open Scope N_scope.
Local Open Scope list_scope.

(** Every geometry of any kind and depth, every lyon: the output, or the panic or error. *)
Theorem C57_exact : forall narrow ly src g (r : unit), delivers src (fun multi => gevents multi 0 g) (Ok r) ->
  match takes narrow ly (geom_parts g) nothing with
  | Ok h => exec (tessellator narrow ly) (src xy_dims) ts_init = (mkTs (h_open h) (h_path h) (h_open h) (h_out h), Ok r)
  | Err e => exists s, exec (tessellator narrow ly) (src xy_dims) ts_init = (s, Err e)
  end.
Proof. exact tess_exact. Qed.
Print Assumptions C57_exact.
(** Features one after the other: what is left open or not yet drawn of one goes into the next. *)
Theorem C57_features_exact : forall narrow ly gs i h,
  match takes narrow ly (flat_map geom_parts gs) h with
  | Ok h' => run (tessellator narrow ly) (flat_mapi feature i gs) (mkTs (h_open h) (h_path h) (h_open h) (h_out h)) =
             (mkTs (h_open h') (h_path h') (h_open h') (h_out h'), Ok tt)
  | Err e => exists s,
      run (tessellator narrow ly) (flat_mapi feature i gs) (mkTs (h_open h) (h_path h) (h_open h) (h_out h)) = (s, Err e)
  end.
Proof. exact tess_features. Qed.
Print Assumptions C57_features_exact.
(** A curve polygon and a polygon: the arc stays open, so that a build with checks panics at the polygon. *)
Example C57_exact_met :
  let ring := [mkC 0 0 None None; mkC 1 0 None None; mkC 1 1 None None; mkC 0 0 None None] in
  let g := GCollection [GCurvePolygon [CvArc ring]; GPolygon [ring]] in
  geom_parts g = [Loose ring; Sub ring; PolygonDone] /\
  takes (fun x => x) sample_lyon (geom_parts g) nothing = Err EPanic /\
  exists h, takes (fun x => x) sample_lyon (geom_parts (GCollection [GTin [[ring]]; GPolygon [ring]])) nothing = Ok h /\
    h_path h = [] /\ length (h_out h) = 9%nat.
Proof. cbv zeta. split; [reflexivity|]. split; [vm_compute; reflexivity|]. eexists. vm_compute. auto. Qed.
