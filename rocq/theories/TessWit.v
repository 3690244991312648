(** Witnesses for the tessellator claims. *)
From Coq Require Import String Ascii.
From Coq Require Import List NArith ZArith Lia Bool.
From Verif Require Import Base Event Claims Geom TessModel TessSpec TessTop TessMore.
Import ListNotations.
Local Open Scope N_scope.
Local Open Scope list_scope.

(** a library that makes one triangle of the first three positions *)
Definition path_points (p : list pathev) : list point32 :=
  flat_map (fun e => match e with PBegin q | PLine q => [q] | PClose => [] end) p.
Definition sample_lyon : lyon :=
  mkLyon true (fun _ => true) (fun p => Ok (path_points p, if Nat.ltb 2 (length (path_points p)) then [0; 1; 2] else [])) (fun _ => Ok tt).
Definition p2 (x y : f64) : coord := mkC x y None None.
Definition some_area : geom :=
  GCollection [GPolygon [[p2 0 0; p2 1 0; p2 1 1; p2 0 0]]; GLineString [p2 5 5; p2 6 6]; GMultiPolygon [[[p2 7 7; p2 8 7; p2 8 8; p2 7 7]; []]]].
Lemma some_area_met : areal some_area = true /\ accepted (fun x => x) sample_lyon some_area /\
  flat_map (drawn (fun x => x) sample_lyon) (areas some_area) =
  [OVertex (0, 0); OVertex (1, 0); OVertex (1, 1); OVertex (0, 0); OTriangle 0 1 2;
   OVertex (7, 7); OVertex (8, 7); OVertex (8, 8); OVertex (7, 7); OTriangle 0 1 2].
Proof.
  split; [reflexivity|]. split; [|reflexivity]. unfold accepted. split; [|split].
  - cbn. repeat (constructor; [reflexivity|]). constructor.
  - cbn. repeat (constructor; [eexists; eexists; split; [reflexivity|exists 1%nat; reflexivity]|]). constructor.
  - cbn. constructor; [exists tt; reflexivity|constructor].
Qed.
(** the OBJ text of [some_area] shows one triangle twice *)
Lemma some_obj : exists f,
  obj_lines true (flat_map (drawn (fun x => x) sample_lyon) (areas some_area)) = Ok f /\
  shown f = [(Some (0, 0), Some (1, 0), Some (1, 1)); (Some (0, 0), Some (1, 0), Some (1, 1))].
Proof. eexists. split; [vm_compute; reflexivity|vm_compute; reflexivity]. Qed.
