(** Property theorems: GeoJSON that cannot be read (C23, C26). *)
From Coq Require Import String Ascii.
From Coq Require Import List NArith ZArith Lia Bool.
From Verif Require Import Base Event Claims Geom WkbSpec FeatureSpec GeoJsonModel GeoJsonSpec GeoJsonRead GeoJsonMore GeoJsonErr.
Import ListNotations.
Local Open Scope list_scope.

(** C23: a document that cannot be parsed is reported, without a callback. *)
Theorem C23_unreadable : forall ser e,
  delivers_obs (fun d => read_geojson ser (multi_dim d) (Err e)) (fun _ => []) (Err e) /\
  delivers_obs (fun d => read_geojson_geom (multi_dim d) (Err e)) (fun _ => []) (Err e).
Proof. exact no_document. Qed.
Print Assumptions C23_unreadable.
(** Lines of features and of bare geometries, in any mixture ... *)
Theorem C23_mixed_lines : forall ser l xs, Forall2 (is_line ser) l xs ->
  delivers_obs (fun d => read_geojson_lines ser (multi_dim d) (map Ok l))
    (fun multi => OEv (DatasetBegin None) :: flat_mapi (line_obs multi) 0 xs ++ [OEv DatasetEnd]) (Ok tt).
Proof. exact mixed_lines. Qed.
Print Assumptions C23_mixed_lines.
(** ... and up to an unusable line; nothing after it is delivered, and the error is reported. *)
Theorem C23_unreadable_line : forall ser l xs bad e rest, Forall2 (is_line ser) l xs -> unusable bad e ->
  delivers_obs (fun d => read_geojson_lines ser (multi_dim d) (map Ok l ++ bad :: rest))
    (fun multi => OEv (DatasetBegin None) :: flat_mapi (line_obs multi) 0 xs) (Err e).
Proof. exact bad_line. Qed.
Print Assumptions C23_unreadable_line.
Theorem C23_unreadable_feature : forall ser l fs e rest, Forall2 (is_feature_of ser) l fs ->
  Forall (fun pf => gf_geometry pf <> None \/ gf_properties pf <> None) l ->
  delivers_obs (fun d => read_geojson_fc ser (multi_dim d) (map Ok l ++ Err e :: rest))
    (fun multi => flat_mapi (fun i f => OEv (DatasetBegin None) :: feature_obs multi i i f ++ [OEv DatasetEnd]) 0 fs) (Err e).
Proof. exact bad_feature. Qed.
Print Assumptions C23_unreadable_feature.
(** C26: the same for lines read as one geometry. *)
Theorem C26_unreadable_line : forall l ts bad e rest, Forall no_collection l ->
  Forall2 member_of (line_members 0 l) ts -> unusable bad e ->
  delivers (fun d => read_geojson_line_geometries (multi_dim d) (map Ok l ++ bad :: rest))
    (fun multi => match ts with [] => [] | _ => [CollectionBegin 1 0] end ++
                  flat_map (fun t => gevents multi (fst t) (snd t)) ts) (Err e).
Proof. exact bad_geometry_line. Qed.
Print Assumptions C26_unreadable_line.
Example C23_unreadable_met :
  Forall2 (is_line (fun _ => EmptyString)) [GjFeature (mkGjFeature None None); point_line]
    [inl (mkFeature None None); inr (GPoint (mkC 0%N 0%N None None))] /\
  Forall2 (is_feature_of (fun _ => EmptyString)) [mkGjFeature (Some (GjPoint [0%N; 0%N])) None]
    [mkFeature None (Some (GPoint (mkC 0%N 0%N None None)))] /\
  unusable (Ok (GjFeatures [])) EDataset /\ unusable (Err EIo) EIo /\
  Forall no_collection [point_line] /\ Forall2 member_of (line_members 0 [point_line]) [(0, GPoint (mkC 0%N 0%N None None))].
Proof.
  split; [repeat constructor|].
  split; [constructor; [|constructor]; split; [exact I|reflexivity]|]. split; [right; split; [eexists|]; reflexivity|].
  split; [now left|]. repeat constructor.
Qed.
