(** Properties C29-C35 (generic processors and traits).  Specification vocabulary: Claims.v ([feed],
    [delivers]), ProcSpec.v.  Model: ProcModel.v. *)
From Coq Require Import String Ascii.
From Coq Require Import List NArith ZArith Lia Bool.
From Verif Require Import Base Float Event Claims Geom ProcModel ProcSpec ProcTop.
Import ListNotations.
Local Open Scope N_scope.
Local Open Scope string_scope.
Local Open Scope list_scope.

(** ** C29 *)
(** What is missing for the full property: collection brackets and SRIDs are not delivered, an
    empty point is refused, and the dimensions of the processors are not asked for (see the
    refutations).  Everything else: *)
Theorem C29_both_succeed_partial : forall S1 S2 (p1 : proc S1) (p2 : proc S2) l s1 s2 t1 t2,
  existsb is_empty_point l = false ->
  (feed (multiplexer p1 p2) l (s1, s2) = ((t1, t2), Ok tt) <->
   feed p1 (filter passed l) s1 = (t1, Ok tt) /\ feed p2 (filter passed l) s2 = (t2, Ok tt)).
Proof. exact @mux_success. Qed.
Print Assumptions C29_both_succeed_partial.
Theorem C29_error_returned_partial : forall S1 S2 (p1 : proc S1) (p2 : proc S2) l s1 s2 t1 t2 x,
  existsb is_empty_point l = false ->
  feed (multiplexer p1 p2) l (s1, s2) = ((t1, t2), Err x) ->
  exists l1 o l2 u1 u2, filter passed l = l1 ++ o :: l2 /\
    feed p1 l1 s1 = (u1, Ok tt) /\ feed p2 l1 s2 = (u2, Ok tt) /\
    ((feed p1 [o] u1 = (t1, Err x) /\ (t2 = u2 \/ t2 = fst (feed p2 [o] u2))) \/
     (feed p1 [o] u1 = (t1, Ok tt) /\ feed p2 [o] u2 = (t2, Err x))).
Proof. exact @mux_failure. Qed.
Print Assumptions C29_error_returned_partial.
Example C29_partial_example :
  let l := map OEv (gevents false 0 (GLineString [mkC 0 1 None None; mkC 2 3 None None])) in
  existsb is_empty_point l = false /\ filter passed l = l /\
  feed (multiplexer (recorder xy_dims false) bounds_proc) l ([], None) =
    ((l, Some (mkBounds 0 1 2 3)), Ok tt) /\
  feed (multiplexer (recorder xy_dims false) bounds_proc) (l ++ [OEv (EmptyPoint 0)]) ([], None) =
    ((l, Some (mkBounds 0 1 2 3)), Err EGeometry).
Proof. vm_compute. repeat split. Qed.

(** Two recording processors never see the collection or the SRID ... *)
Theorem C29_collection_refuted : forall d,
  feed (multiplexer (recorder d false) (recorder d false))
       [OEv (Srid (Some 4326%Z)); OEv (CollectionBegin 0 0); OEv (CollectionEnd 0)] ([], []) = (([], []), Ok tt).
Proof. reflexivity. Qed.
Print Assumptions C29_collection_refuted.
(** ... an empty point fails although both accept it ... *)
Theorem C29_empty_point_refuted : forall d,
  feed (recorder d false) [OEv (EmptyPoint 0)] [] = ([OEv (EmptyPoint 0)], Ok tt) /\
  feed (multiplexer (recorder d false) (recorder d false)) [OEv (EmptyPoint 0)] ([], []) =
    (([], []), Err EGeometry).
Proof. intros d. split; reflexivity. Qed.
Print Assumptions C29_empty_point_refuted.
(** ... and z, m are never asked for whatever the processors want. *)
Theorem C29_dimensions_refuted : forall S1 S2 (p1 : proc S1) (p2 : proc S2),
  multi_dim (p_dims (multiplexer p1 p2)) = false.
Proof. exact (fun _ _ _ _ => eq_refl). Qed.
Print Assumptions C29_dimensions_refuted.

(** ** C30 *)
Theorem C30_pre_process_source : forall S (f : f64 -> f64 -> f64 * f64) (p : proc S) A (src : dims -> prog A) s,
  exec (wrapped_xy f p) (src (p_dims (wrapped_xy f p))) s =
  exec p (map_events (on_xy f) (src (p_dims p))) s.
Proof. exact (fun S f p A src s => wrap_exec f p A (src (p_dims p)) s). Qed.
Print Assumptions C30_pre_process_source.
Theorem C30_pre_process_callbacks : forall S (f : f64 -> f64 -> f64 * f64) (p : proc S) l s,
  feed (wrapped_xy f p) l s = feed p (map (on_xy_obs f) l) s.
Proof. exact @wrap_feed. Qed.
Print Assumptions C30_pre_process_callbacks.
(** wrapping twice applies the function given last first *)
Theorem C30_pre_process_twice : forall S (f g : f64 -> f64 -> f64 * f64) (p : proc S) l s,
  feed (wrapped_xy g (wrapped_xy f p)) l s =
  feed p (map (on_xy_obs (fun x y => f (fst (g x y)) (snd (g x y)))) l) s.
Proof. exact @wrap_twice. Qed.
Print Assumptions C30_pre_process_twice.
Example C30_example :
  feed (wrapped_xy (fun x y => (y, x)) (recorder xyz_dims false))
    [OEv (Srid None); OEv (Coord 1 2 (Some 3) None None None 4); OProp 0 "a" (CInt 1); OEv (Xy 5 6 7)] [] =
  ([OEv (Srid None); OEv (Coord 2 1 (Some 3) None None None 4); OProp 0 "a" (CInt 1); OEv (Xy 6 5 7)], Ok tt).
Proof. reflexivity. Qed.

(** ** C31 *)
(** What is missing for the full property: collection brackets, SRIDs and empty points are geometry
    callbacks too, and the dimensions of the processor are not asked for (refutations below). *)
Theorem C31_geometry_view_partial : forall S (p : proc S) l s,
  existsb is_empty_point l = false ->
  feed (datasource_geom p) l s = feed p (filter ds_passed l) s.
Proof. exact @ds_feed. Qed.
Print Assumptions C31_geometry_view_partial.
Theorem C31_source_partial : forall S (p : proc S) A (src : dims -> prog A) stream r s,
  delivers src stream r -> existsb is_empty_point (map OEv (stream false)) = false ->
  ds_process_geom p src s =
  match feed p (filter ds_passed (map OEv (stream false))) s with
  | (s', Ok _) => (s', r)
  | (s', Err x) => (s', Err x)
  end.
Proof. exact @ds_source. Qed.
Print Assumptions C31_source_partial.
Example C31_example : forall d,
  feed (datasource_geom (recorder d false))
    ([OEv (DatasetBegin None); OEv (FeatureBegin 0); OProp 0 "a" (CInt 1); OEv GeometryBegin] ++
     map OEv (gevents false 0 (GPoint (mkC 1 2 None None))) ++ [OEv GeometryEnd; OEv (FeatureEnd 0); OEv DatasetEnd]) [] =
  (map OEv (gevents false 0 (GPoint (mkC 1 2 None None))), Ok tt).
Proof. reflexivity. Qed.

Theorem C31_collection_refuted : forall d,
  feed (datasource_geom (recorder d false)) [OEv (Srid (Some 1%Z)); OEv (CollectionBegin 0 0); OEv (CollectionEnd 0)] [] = ([], Ok tt).
Proof. exact (fun _ => eq_refl). Qed.
Print Assumptions C31_collection_refuted.
Theorem C31_empty_point_refuted : forall d,
  feed (datasource_geom (recorder d false)) [OEv (EmptyPoint 0)] [] = ([], Err EGeometry).
Proof. exact (fun _ => eq_refl). Qed.
Print Assumptions C31_empty_point_refuted.
Theorem C31_dimensions_refuted : forall S (p : proc S), multi_dim (p_dims (datasource_geom p)) = false.
Proof. exact (fun _ _ => eq_refl). Qed.
Print Assumptions C31_dimensions_refuted.

(** ** C32 *)
(** What is missing for the full property: a NaN in the first position (see the refutation); later
    NaNs are ignored.  [least m l] says [m] itself is in [l] and below every number of [l]. *)
Theorem C32_bounds_partial : forall l,
  existsb is_empty_point l = false ->
  exists b, feed bounds_proc l None = (b, Ok tt) /\
    (b = None <-> positions l = []) /\
    (forall x y r, positions l = (x, y) :: r -> f64_is_nan x = false -> f64_is_nan y = false ->
     exists b', b = Some b' /\
       least (min_x b') (map fst (positions l)) /\ greatest (max_x b') (map fst (positions l)) /\
       least (min_y b') (map snd (positions l)) /\ greatest (max_y b') (map snd (positions l)) /\
       f64_is_nan (min_x b') = false /\ f64_is_nan (max_x b') = false /\
       f64_is_nan (min_y b') = false /\ f64_is_nan (max_y b') = false).
Proof. exact bounds_exact. Qed.
Print Assumptions C32_bounds_partial.
Example C32_bounds_partial_example :
  let l := map OEv (gevents true 0 (GMultiPoint [mkC 0x3FF0000000000000 0 (Some 7) None;
             mkC 0xC000000000000000 0x7FF8000000000000 None None; mkC 0 0x4000000000000000 None None])) in
  existsb is_empty_point l = false /\ length (positions l) = 3%nat /\
  fst (feed bounds_proc l None) =
    Some (mkBounds 0xC000000000000000 0 0x3FF0000000000000 0x4000000000000000).
Proof. vm_compute. repeat split. Qed.

(** each axis for all positions, with the exact effect of a NaN in front *)
Theorem C32_exact : forall l x y r,
  existsb is_empty_point l = false -> positions l = (x, y) :: r ->
  exists b, feed bounds_proc l None = (Some b, Ok tt) /\
    spans (min_x b) (max_x b) (map fst (positions l)) /\ spans (min_y b) (max_y b) (map snd (positions l)).
Proof. exact bounds_all. Qed.
Print Assumptions C32_exact.
Example C32_exact_met : exists r,
  positions [OEv (Xy 0x7FF8000000000000 0 0); OEv (Xy 0x3FF0000000000000 0 1)] = (0x7FF8000000000000, 0) :: r.
Proof. eexists. reflexivity. Qed.

Theorem C32_nan_first_refuted : exists l b,
  feed bounds_proc l None = (Some b, Ok tt) /\ In 0x3FF0000000000000 (map fst (positions l)) /\
  f64_is_nan (min_x b) = true /\ f64_leb (min_x b) 0x3FF0000000000000 = false.
Proof.
  exists [OEv (Xy 0x7FF8000000000000 0 0); OEv (Xy 0x3FF0000000000000 0 1)]. eexists.
  split; [vm_compute; reflexivity|]. split; [cbn; auto|]. split; vm_compute; reflexivity.
Qed.
Print Assumptions C32_nan_first_refuted.

(** ** C33 *)
Theorem C33_property_by_name : forall fmt32 fmt src l t name, offers src l ->
  let r := feature_property fmt32 fmt src t name in
  (first_by (named name) l = None -> r = Err EColumnNotFound) /\
  (forall q, first_by (named name) l = Some q ->
     (forall w, reads_as fmt32 fmt t (snd q) w -> r = Ok w) /\
     ((forall w, ~ reads_as fmt32 fmt t (snd q) w) -> r = Err EColumnType)).
Proof. exact property_spec. Qed.
Print Assumptions C33_property_by_name.
Theorem C33_property_by_index : forall fmt32 fmt src l t k, offers src l ->
  let r := feature_property_n fmt32 fmt src t k in
  (first_by (numbered k) l = None -> r = Err EColumnNotFound) /\
  (forall q, first_by (numbered k) l = Some q ->
     (forall w, reads_as fmt32 fmt t (snd q) w -> r = Ok w) /\
     ((forall w, ~ reads_as fmt32 fmt t (snd q) w) -> r = Err EColumnType)).
Proof. exact property_n_spec. Qed.
Print Assumptions C33_property_by_index.
(** a source that fails after the properties [l]: its error is returned unless the property was among
    them *)
Theorem C33_broken_by_name : forall fmt32 fmt src l e t name, breaks_off src l e ->
  let r := feature_property fmt32 fmt src t name in
  (first_by (named name) l = None -> r = Err e) /\
  (forall q, first_by (named name) l = Some q ->
     (forall w, reads_as fmt32 fmt t (snd q) w -> r = Ok w) /\
     ((forall w, ~ reads_as fmt32 fmt t (snd q) w) -> r = Err EColumnType)).
Proof. exact property_broken. Qed.
Print Assumptions C33_broken_by_name.
Theorem C33_broken_by_index : forall fmt32 fmt src l e t k, breaks_off src l e ->
  let r := feature_property_n fmt32 fmt src t k in
  (first_by (numbered k) l = None -> r = Err e) /\
  (forall q, first_by (numbered k) l = Some q ->
     (forall w, reads_as fmt32 fmt t (snd q) w -> r = Ok w) /\
     ((forall w, ~ reads_as fmt32 fmt t (snd q) w) -> r = Err EColumnType)).
Proof. exact property_n_broken. Qed.
Print Assumptions C33_broken_by_index.
Example C33_broken_example : forall fmt32 fmt,
  let l := [(0%nat, "a", CInt 5)] in
  breaks_off (broken l EIo) l EIo /\
  feature_property fmt32 fmt (broken l EIo) TI32 "a" = Ok (VInt 5) /\
  feature_property fmt32 fmt (broken l EIo) TI32 "b" = Err EIo.
Proof. intros fmt32 fmt l. split; [apply broken_breaks|]. split; reflexivity. Qed.
(** the readers ask to stop at a match and only there *)
Theorem C33_stops_at_match : forall fmt32 fmt t name k s i n v,
  snd (p_prop (property_reader fmt32 fmt t name) s i n v) = Ok (String.eqb n name) /\
  snd (p_prop (property_reader_idx fmt32 fmt t k) s i n v) = Ok (Nat.eqb i k).
Proof. exact (fun fmt32 fmt t name k s i n v => conj (reader_stops fmt32 fmt t name s i n v) (reader_idx_stops fmt32 fmt t k s i n v)). Qed.
Print Assumptions C33_stops_at_match.
Example C33_example : forall fmt32 fmt,
  let l := [(0%nat, "a", CInt 5); (1%nat, "b", CString "x"); (2%nat, "b", CInt 7)] in
  offers (offering l) l /\
  feature_property fmt32 fmt (offering l) TString "a" = Ok (VString "5") /\
  feature_property fmt32 fmt (offering l) TI32 "b" = Err EColumnType /\
  feature_property fmt32 fmt (offering l) TI32 "c" = Err EColumnNotFound /\
  feature_property_n fmt32 fmt (offering l) TI32 2 = Ok (VInt 7).
Proof. intros fmt32 fmt l. split; [apply offering_offers|]. repeat split. Qed.

(** ** C34 *)
Theorem C34_property_map : forall fmt32 fmt src l, offers src l ->
  exists m, feature_properties fmt32 fmt src = Ok m /\ NoDup (map fst m) /\
    forall n s, lookup m n = Some s <->
                exists q, last_by (named n) l = Some q /\ text_of fmt32 fmt (snd q) s.
Proof. exact map_spec. Qed.
Print Assumptions C34_property_map.
Theorem C34_broken : forall fmt32 fmt src l e, breaks_off src l e -> feature_properties fmt32 fmt src = Err e.
Proof. exact map_broken. Qed.
Print Assumptions C34_broken.
Example C34_example : forall fmt32 fmt,
  let l := [(0%nat, "a", CInt 5); (1%nat, "b", CString "x"); (2%nat, "a", CBool true)] in
  offers (offering l) l /\ feature_properties fmt32 fmt (offering l) = Ok [("a", "true"); ("b", "x")].
Proof. intros fmt32 fmt l. split; [apply offering_offers|reflexivity]. Qed.

(** ** C35 *)
(** [lp] are the properties seen: all of them, unless the processor asked to stop after one of
    them; [feed] stops at the first error. *)
Theorem C35_feature_framing : forall idx props l gsrc lg,
  offers props l -> delivers gsrc lg (Ok tt) ->
  forall S (p : proc S) s,
  exists lp rest, l = lp ++ rest /\
    exec p (feature_process idx props (gsrc (p_dims p))) s =
    feed p (OEv (FeatureBegin idx) :: OEv PropertiesBegin :: map prop_obs lp ++
            OEv PropertiesEnd :: OEv GeometryBegin :: map OEv (lg (multi_dim (p_dims p))) ++
            [OEv GeometryEnd; OEv (FeatureEnd idx)]) s /\
    (rest <> [] -> forall t0, feed p [OEv (FeatureBegin idx); OEv PropertiesBegin] s = (t0, Ok tt) ->
       exists l' i n v t t', lp = l' ++ [(i, n, v)] /\
         feed p (map prop_obs l') t0 = (t, Ok tt) /\ p_prop p t i n v = (t', Ok true)).
Proof. exact framing. Qed.
Print Assumptions C35_feature_framing.
Example C35_example :
  observe (feature_process 3 (offering [(0%nat, "a", CInt 5)]) (pcall (EmptyPoint 0))) =
  ([OEv (FeatureBegin 3); OEv PropertiesBegin; OProp 0 "a" (CInt 5); OEv PropertiesEnd;
    OEv GeometryBegin; OEv (EmptyPoint 0); OEv GeometryEnd; OEv (FeatureEnd 3)], Ok tt) /\
  delivers (fun _ => pcall (EmptyPoint 0)) (fun _ => [EmptyPoint 0]) (Ok tt).
Proof.
  split; [reflexivity|]. intros S p s. cbn. destruct (p_step p s (EmptyPoint 0)) as [s' [u|x]]; reflexivity.
Qed.
