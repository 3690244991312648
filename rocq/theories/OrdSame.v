(** What a processor asks for decides the form of positions and nothing else (helper lemmas for C66). *)
From Coq Require Import String Ascii.
From Coq Require Import List NArith ZArith Lia Bool.
From Verif Require Import Base BaseLemmas Event Geom ProcModel WkbModel WktModel GeoJsonModel SvgModel
  CsvModel GeoModel GeosModel GdalModel GpxModel MvtModel ShpModel OrdSpec.
Import ListNotations.
Local Open Scope list_scope.

(** the same callbacks but for the form of positions, and results related by [R] *)
Inductive alike {A} (R : A -> A -> Prop) : prog A -> prog A -> Prop :=
| al_ok : forall a b, R a b -> alike R (Done (Ok a)) (Done (Ok b))
| al_err : forall x, alike R (Done (Err x)) (Done (Err x))
| al_call : forall e e' k k', shadow e = shadow e' -> alike R k k' -> alike R (Call e k) (Call e' k')
| al_ign : forall e e' k k', shadow e = shadow e' -> alike R k k' -> alike R (CallIgn e k) (CallIgn e' k')
| al_prop : forall i n v k k', (forall b, alike R (k b) (k' b)) -> alike R (CallProp i n v k) (CallProp i n v k').
Lemma flat_shadow : forall S (p : proc S), flat_minded p -> forall s e, p_step p s e = p_step p s (shadow e).
Proof. intros S p H s e. destruct e; try reflexivity. apply H. Qed.
Lemma alike_exec : forall S A (p : proc S) R (g g' : prog A) d d', flat_minded p -> alike R g g' -> forall s,
  fst (exec (asking d p) g s) = fst (exec (asking d' p) g' s) /\
  match snd (exec (asking d p) g s), snd (exec (asking d' p) g' s) with
  | Ok a, Ok b => R a b
  | Err x, Err y => x = y
  | _, _ => False
  end.
Proof.
  intros S A p R g g' d d' Hp H.
  induction H as [a b H|x|e e' k k' E H IH|e e' k k' E H IH|i n v k k' H IH]; intros s; cbn [exec asking p_step p_prop].
  - now split.
  - now split.
  - rewrite (flat_shadow _ p Hp s e), (flat_shadow _ p Hp s e'), E.
    destruct (p_step p s (shadow e')) as [s' [u|x]]; [apply IH|now split].
  - rewrite (flat_shadow _ p Hp s e), (flat_shadow _ p Hp s e'), E. apply IH.
  - destruct (p_prop p s i n v) as [s' [b|x]]; [apply IH|now split].
Qed.
Lemma alike_indifferent : forall A (src : dims -> prog A), (forall d d', alike eq (src d) (src d')) -> indifferent src.
Proof.
  intros A src H S p Hp d d' s. destruct (alike_exec S A p eq (src d) (src d') d d' Hp (H d d') s) as [H1 H2].
  destruct (exec (asking d p) (src d) s) as [s1 [a|x]], (exec (asking d' p) (src d') s) as [s2 [b|y]];
    cbn in *; try contradiction; now subst.
Qed.

Lemma alike_refl : forall A (g : prog A), alike eq g g.
Proof. induction g as [[a|x]|e k IH|e k IH|i n v k IH]; now constructor. Qed.
Lemma alike_bindR : forall A B (R : A -> A -> Prop) (Q : B -> B -> Prop) (g g' : prog A) (f f' : A -> prog B),
  alike R g g' -> (forall a b, R a b -> alike Q (f a) (f' b)) -> alike Q (pbind g f) (pbind g' f').
Proof.
  intros A B R Q g g' f f' H Hf.
  induction H as [a b H|x|e e' k k' E H IH|e e' k k' E H IH|i n v k k' H IH]; cbn [pbind]; try (constructor; assumption).
  now apply Hf.
Qed.
Lemma alike_bind : forall A B Q (g g' : prog A) (f f' : A -> prog B),
  alike eq g g' -> (forall a, alike Q (f a) (f' a)) -> alike Q (pbind g f) (pbind g' f').
Proof. intros A B Q g g' f f' H Hf. eapply alike_bindR; [exact H|]. intros a b ->. apply Hf. Qed.
Lemma alike_then : forall A Q (g g' : prog unit) (f f' : prog A),
  alike eq g g' -> alike Q f f' -> alike Q (pthen g f) (pthen g' f').
Proof. intros. now apply alike_bind. Qed.
Lemma alike_for : forall A (f f' : nat -> A -> prog unit) l i,
  (forall k a, alike eq (f k a) (f' k a)) -> alike eq (pfor f i l) (pfor f' i l).
Proof. induction l as [|a l IH]; intros i H; cbn [pfor]; [now constructor|]. apply alike_then; auto. Qed.
Lemma alike_pcall : forall e e', shadow e = shadow e' -> alike eq (pcall e) (pcall e').
Proof. intros. constructor; [assumption|now constructor]. Qed.
Lemma alike_pos : forall (b b' : bool) x y z m t tm z' m' t' tm' i,
  alike eq (pcall (if b then Coord x y z m t tm i else Xy x y i)) (pcall (if b' then Coord x y z' m' t' tm' i else Xy x y i)).
Proof. intros b b1 x y z m t tm z1 m1 t1 tm1 i. destruct b, b1; now apply alike_pcall. Qed.

Ltac ali := repeat match goal with
  | |- alike _ ?g ?g => apply alike_refl
  | |- alike _ (pcall _) (pcall _) => first [apply alike_pcall; reflexivity | apply alike_pos]
  | |- alike _ (Call _ _) (Call _ _) => apply al_call; [reflexivity|]
  | |- alike _ (pthen _ _) (pthen _ _) => apply alike_then
  | |- alike _ (pbind _ _) (pbind _ _) => apply alike_bind; [|intros ?]
  | |- alike _ (pfor _ _ _) (pfor _ _ _) => apply alike_for; intros ? ?
  | |- alike _ (CallProp _ _ _ _) (CallProp _ _ _ _) => apply al_prop; intros ?
  | |- alike _ (match ?x with _ => _ end) (match ?x with _ => _ end) => destruct x
  end.

(** ** WKT *)
Lemma wkt_coord_alike : forall m m' i c, alike eq (wkt_coord m i c) (wkt_coord m' i c).
Proof. intros [] [] i c; unfold wkt_coord; ali. Qed.
Lemma wkt_alike : forall m m' g i, alike eq (process_wkt_geom_n m i g) (process_wkt_geom_n m' i g).
Proof.
  intros m m'. fix IH 1. intros [[c|]|l|l|l|r|l|l] i; cbn [process_wkt_geom_n];
    unfold wkt_polygon, wkt_linestring; ali; try apply wkt_coord_alike.
  generalize 0. induction l as [|a l IHl]; intros k; ali; [apply IH|apply IHl].
Qed.
(** ** GeoJSON *)
Lemma gj_coord_alike : forall m m' i p, alike eq (gj_coord m i p) (gj_coord m' i p).
Proof. intros [] [] i [|x [|y r]]; unfold gj_coord; ali. Qed.
Lemma gj_geom_alike : forall m m' g i, alike eq (gj_geom_n m i g) (gj_geom_n m' i g).
Proof.
  intros m m'. fix IH 1. intros [p|l|l|l|l|l|l] i; cbn [gj_geom_n];
    unfold gj_polygon, gj_line; ali; try apply gj_coord_alike.
  generalize 0. induction l as [|a l IHl]; intros k; ali; [apply IH|apply IHl].
Qed.
Lemma gj_feature_alike : forall m m' ser i j f, alike eq (gj_feature ser m i j f) (gj_feature ser m' i j f).
Proof. intros. unfold gj_feature, when_some, gj_properties. ali. apply gj_geom_alike. Qed.
Lemma gj_doc_feature_alike : forall m m' ser i f,
  alike eq (process_geojson_feature ser m i f) (process_geojson_feature ser m' i f).
Proof. intros. unfold process_geojson_feature. ali; apply gj_feature_alike. Qed.
Lemma read_geojson_alike : forall m m' ser doc, alike eq (read_geojson ser m doc) (read_geojson ser m' doc).
Proof.
  intros. unfold read_geojson, process_geojson. ali; auto using gj_feature_alike, gj_doc_feature_alike, gj_geom_alike.
Qed.
Lemma read_geojson_geom_alike : forall m m' doc, alike eq (read_geojson_geom m doc) (read_geojson_geom m' doc).
Proof. intros. unfold read_geojson_geom, process_geojson_geom, when_some. ali; apply gj_geom_alike. Qed.
Lemma read_geojson_fc_alike : forall m m' ser l, alike eq (read_geojson_fc ser m l) (read_geojson_fc ser m' l).
Proof. intros. unfold read_geojson_fc. ali. apply gj_doc_feature_alike. Qed.
Lemma read_geojson_lines_alike : forall m m' ser l, alike eq (read_geojson_lines ser m l) (read_geojson_lines ser m' l).
Proof. intros. unfold read_geojson_lines. ali; auto using gj_feature_alike, gj_geom_alike. Qed.
Lemma gj_lines_alike : forall m m' l b i, alike eq (gj_lines_geom m b i l) (gj_lines_geom m' b i l).
Proof. induction l as [|x l IH]; intros b i; cbn [gj_lines_geom]; ali; auto using gj_geom_alike. Qed.
Lemma read_geojson_line_geometries_alike : forall m m' l,
  alike eq (read_geojson_line_geometries m l) (read_geojson_line_geometries m' l).
Proof. intros. unfold read_geojson_line_geometries. ali. apply gj_lines_alike. Qed.
(** ** CSV *)
Lemma csv_features_alike : forall m m' parse c h l,
  alike eq (process_csv_features parse m c h l) (process_csv_features parse m' c h l).
Proof. intros. unfold process_csv_features. ali. unfold csv_feature, read_wkt. ali; apply wkt_alike. Qed.
Lemma csv_geoms_alike : forall m m' parse gi l b i, alike eq (csv_geoms parse m gi b i l) (csv_geoms parse m' gi b i l).
Proof. induction l as [|x l IH]; intros b i; cbn [csv_geoms]; ali; auto using wkt_alike. Qed.
Lemma csv_geom_alike : forall m m' parse c h l,
  alike eq (process_csv_geom parse m c h l) (process_csv_geom parse m' c h l).
Proof. intros. unfold process_csv_geom. ali; apply csv_geoms_alike. Qed.
(** ** geo-types *)
Lemma t_coord_alike : forall m m' i c, alike eq (t_coord m i c) (t_coord m' i c).
Proof. intros [] [] i c; unfold t_coord; ali. Qed.
Lemma geo_alike : forall m m' rect tri g i, alike eq (t_geom rect tri m i g) (t_geom rect tri m' i g).
Proof.
  intros m m' rect tri. fix IH 1. intros g i. destruct g; cbn [t_geom];
    unfold t_polygon, t_linestring; ali; try apply t_coord_alike.
  generalize 0. induction l as [|a l IHl]; intros k; ali; [apply IH|apply IHl].
Qed.
(** ** GEOS *)
Lemma geos_alike : forall z z' g i, alike eq (GeosModel.r_geom_n z g i) (GeosModel.r_geom_n z' g i).
Proof.
  intros z z'. fix IH 1. intros g i. destruct g; cbn [GeosModel.r_geom_n];
    unfold GeosModel.r_polygon, GeosModel.r_linestring, r_coord_seq; ali.
  generalize 0. induction l as [|a l IHl]; intros k; ali; [apply IH|apply IHl].
Qed.
(** ** GDAL *)
Lemma r_coord_alike : forall z z' p i, alike eq (r_coord z p i) (r_coord z' p i).
Proof. intros z z' [[x y] v] i. apply alike_pos. Qed.
Lemma r_curve_alike : forall z z' g i, alike eq (r_curve z g i) (r_curve z' g i).
Proof.
  intros. unfold r_curve, r_compoundcurve, r_circularstring, GdalModel.r_linestring. ali; apply r_coord_alike.
Qed.
Lemma gdal_alike : forall z z' missing g i, alike eq (GdalModel.r_geom_n z missing g i) (GdalModel.r_geom_n z' missing g i).
Proof.
  intros z z' missing. fix IH 1. intros [k f n l kids] i.
  destruct k; cbn [GdalModel.r_geom_n];
    unfold r_curvepolygon, r_compoundcurve, r_circularstring, r_triangle, GdalModel.r_polygon, r_linestring_seq,
      GdalModel.r_linestring, r_point; ali; try apply r_coord_alike; try apply r_curve_alike.
  generalize 0. induction kids as [|a kids IHl]; intros j; ali; [apply IH|apply IHl].
Qed.
(** ** MVT *)
Lemma m_coord_alike : forall m m' i c, alike eq (m_coord m i c) (m_coord m' i c).
Proof. intros [] [] i c; unfold m_coord; ali. Qed.
Lemma mvt_geom_alike : forall m m' g i, alike eq (m_geometry m i g) (m_geometry m' i g).
Proof.
  intros m m'. fix IH 1. intros g i. destruct g; cbn [m_geometry];
    unfold m_polygon, m_linestring; ali; try apply m_coord_alike.
  generalize 0. induction l as [|a l IHl]; intros k; ali; [apply IH|apply IHl].
Qed.
Lemma mvt_layer_alike : forall m m' l, alike eq (m_layer m l) (m_layer m' l).
Proof. intros. unfold m_layer, m_feature, m_property. ali. apply mvt_geom_alike. Qed.

(** ** Readers of bytes *)
Definition ralike {A} (R : A -> A -> Prop) (f f' : rd A) : Prop :=
  forall b, alike (fun x y => R (fst x) (fst y) /\ snd x = snd y) (f b) (f' b).
Lemma alike_weaken : forall A (R Q : A -> A -> Prop) g g', (forall a b, R a b -> Q a b) -> alike R g g' -> alike Q g g'.
Proof. intros A R Q g g' H G. induction G; constructor; auto. Qed.
Lemma ralike_refl : forall A (f : rd A), ralike eq f f.
Proof.
  intros A f b. eapply alike_weaken; [|apply alike_refl]. intros x y ->. now split.
Qed.
Lemma ralike_eq : forall A (f f' : rd A) b, ralike eq f f' -> alike eq (f b) (f' b).
Proof. intros A f f' b H. eapply alike_weaken; [|apply H]. intros [x u] [y v] [E E']. cbn in *. now subst. Qed.
Lemma ralike_bindR : forall A B (R : A -> A -> Prop) (Q : B -> B -> Prop) (f f' : rd A) (g g' : A -> rd B),
  ralike R f f' -> (forall a b, R a b -> ralike Q (g a) (g' b)) -> ralike Q (rbind f g) (rbind f' g').
Proof.
  intros A B R Q f f' g g' H Hg b. eapply alike_bindR; [apply H|]. intros [x u] [y v] [E E']. cbn in *. subst.
  now apply Hg.
Qed.
Lemma ralike_bind : forall A B (Q : B -> B -> Prop) (f f' : rd A) (g g' : A -> rd B),
  ralike eq f f' -> (forall a, ralike Q (g a) (g' a)) -> ralike Q (rbind f g) (rbind f' g').
Proof. intros A B Q f f' g g' H Hg. eapply ralike_bindR; [exact H|]. intros a b ->. apply Hg. Qed.
Lemma ralike_for : forall f f' n i, (forall k, ralike eq (f k) (f' k)) -> ralike eq (rfor f n i) (rfor f' n i).
Proof.
  induction n as [|n IH]; intros i H; cbn [rfor]; [apply ralike_refl|]. apply ralike_bind; [apply H|].
  intros. now apply IH.
Qed.
Lemma ralike_prog : forall A (g g' : prog A), alike eq g g' -> ralike eq (rprog g) (rprog g').
Proof.
  intros A g g' H b. unfold rprog. apply alike_bind; [assumption|]. intros a. constructor. now split.
Qed.
Lemma ralike_call : forall e e', shadow e = shadow e' -> ralike eq (rcall e) (rcall e').
Proof. intros e e' H b. constructor; [assumption|]. constructor. now split. Qed.
Ltac rali1 := match goal with
  | |- ralike _ ?g ?g => apply ralike_refl
  | |- ralike _ (rcall _) (rcall _) => apply ralike_call; reflexivity
  | |- ralike _ (rprog _) (rprog _) => apply ralike_prog
  | |- ralike _ (rthen _ _) (rthen _ _) => apply ralike_bind; [apply ralike_refl|intros ?]
  | |- ralike _ (rbind _ _) (rbind _ _) => apply ralike_bind; [|intros ?]
  | |- ralike _ (rfor _ _ _) (rfor _ _ _) => apply ralike_for; intros ?
  | |- ralike _ (match ?x with _ => _ end) (match ?x with _ => _ end) => destruct x
  | |- ralike _ (let x := _ in _) _ => cbv zeta
  end.
Ltac rali := repeat rali1.
(** ** WKB *)
Definition near (c c' : rawcoord) : Prop := fst (fst c) = fst (fst c').
Section Wkb.
  Variables m m' : bool.
  Lemma emit_alike : forall k c, ralike eq (emit_coord m k c) (emit_coord m' k c).
  Proof.
    intros k [[[x y] z] v]. unfold emit_coord. eapply ralike_bind.
    - apply ralike_call. now destruct m, m'.
    - intros _ b. constructor. now repeat split.
  Qed.
  Lemma coord_alike : forall i k, ralike near (process_coord m i k) (process_coord m' i k).
  Proof. intros. unfold process_coord. apply ralike_bind; [apply ralike_refl|]. intros c b.
    eapply alike_weaken; [|apply emit_alike]. cbn. intros x y [-> E]. now split. Qed.
  Lemma coord_unit_alike : forall i k, ralike eq (rbind (process_coord m i k) (fun _ => rret tt)) (rbind (process_coord m' i k) (fun _ => rret tt)).
  Proof. intros. eapply ralike_bindR; [apply coord_alike|]. intros. apply ralike_refl. Qed.
  Lemma compressed_coord_alike : forall i k c c', near c c' ->
    ralike near (process_compressed_coord m i k c) (process_compressed_coord m' i k c').
  Proof.
    intros i k [[[x y] z] v] [[[x' y'] z'] v'] H. unfold near in H. cbn in H. injection H as <- <-.
    unfold process_compressed_coord. apply ralike_bind; [apply ralike_refl|]. intros [[[rx ry] rz] rm].
    destruct m, m'; (apply ralike_bind; [apply ralike_call; reflexivity|]); intros _ b; constructor; now repeat split.
  Qed.
  Lemma compressed_alike : forall i n k c c', near c c' ->
    ralike near (compressed_loop m i n k c) (compressed_loop m' i n k c').
  Proof.
    induction n as [|n IH]; intros k c c' H; cbn [compressed_loop].
    - intros b. constructor. now split.
    - eapply ralike_bindR; [now apply compressed_coord_alike|]. intros a b Hab. now apply IH.
  Qed.
  Ltac wali := repeat (first [apply coord_unit_alike | rali1]).
  Lemma coords_alike : forall i n, ralike eq (process_coords m i n) (process_coords m' i n).
  Proof. intros. unfold process_coords. wali. Qed.
  Lemma line_alike : forall i t k, ralike eq (process_linestring m i t k) (process_linestring m' i t k).
  Proof.
    intros. unfold process_linestring. apply ralike_bind; [apply ralike_refl|]. intros len. cbv zeta.
    apply ralike_bind; [apply ralike_refl|]. intros _. apply ralike_bind; [|intros; apply ralike_refl].
    destruct (i_compressed i && Nat.ltb 0 (N.to_nat len)); [|apply coords_alike].
    eapply ralike_bindR; [apply coord_alike|]. intros c c' H. eapply ralike_bindR; [now apply compressed_alike|].
    intros _ _ _. apply coord_unit_alike.
  Qed.
  Lemma arc_alike : forall i k, ralike eq (process_circularstring m i k) (process_circularstring m' i k).
  Proof. intros. unfold process_circularstring. wali. apply coords_alike. Qed.
  Lemma polygon_alike : forall i t k, ralike eq (process_polygon m i t k) (process_polygon m' i t k).
  Proof. intros. unfold process_polygon. wali. apply line_alike. Qed.
  Lemma triangle_alike : forall i t k, ralike eq (process_triangle m i t k) (process_triangle m' i t k).
  Proof. intros. unfold process_triangle. wali. apply line_alike. Qed.
  Variable rh : info -> rd info.
  Lemma compound_alike : forall i k n, ralike eq (process_compoundcurve m rh i k n) (process_compoundcurve m' rh i k n).
  Proof. intros. unfold process_compoundcurve. wali; auto using arc_alike, line_alike. Qed.
  Lemma curve_alike : forall i k n, ralike eq (process_curve m rh i k n) (process_curve m' rh i k n).
  Proof. intros. unfold process_curve. wali; auto using arc_alike, line_alike, compound_alike. Qed.
  Lemma curvepolygon_alike : forall i k n, ralike eq (process_curvepolygon m rh i k n) (process_curvepolygon m' rh i k n).
  Proof. intros. unfold process_curvepolygon. wali; auto using curve_alike. Qed.
  Lemma geom_alike : forall fuel i k n, ralike eq (process_geom_n fuel m rh i k n) (process_geom_n fuel m' rh i k n).
  Proof.
    induction fuel as [|fuel IH]; intros i k n; cbn [process_geom_n]; wali;
      auto using coord_unit_alike, line_alike, arc_alike, polygon_alike, triangle_alike,
        compound_alike, curve_alike, curvepolygon_alike.
    apply emit_alike.
  Qed.
End Wkb.
Lemma wkb_alike : forall dl d d' b, alike eq (process_wkb_type_geom dl d b) (process_wkb_type_geom dl d' b).
Proof.
  intros. apply ralike_eq. unfold process_wkb_type_geom. rali. apply geom_alike.
Qed.
(** ** Shapefile records *)
Definition matches (zs : list f64) (cs : list (f64 * f64)) : Prop := zs = [] \/ length zs = length cs.
Lemma at_index_matches : forall zs cs o c, matches zs cs -> filled zs = true -> at_index cs o = Ok c ->
  exists v, at_index zs o = Ok v.
Proof.
  intros zs cs o c [->|H] Hf; [discriminate|]. unfold at_index. rewrite H.
  destruct (N.ltb o (N.of_nat (length cs))) eqn:E; [|discriminate]. intros _. apply N.ltb_lt in E.
  destruct (nth_error zs (N.to_nat o)) eqn:Ez; [now eexists|]. apply nth_error_None in Ez. lia.
Qed.
Definition gets (b : bool) (zs : list f64) : bool := b && filled zs.
Lemma emit_point_alike : forall b bz bm b' bz' bm' cs zs ms o i, matches zs cs -> matches ms cs ->
  alike eq (emit_point b (gets bz zs) (gets bm ms) cs zs ms o i) (emit_point b' (gets bz' zs) (gets bm' ms) cs zs ms o i).
Proof.
  intros b bz bm b' bz' bm' cs zs ms o i Hz Hm.
  unfold emit_point, plift, gets. destruct (at_index cs o) as [c|x] eqn:Ec; [|apply alike_refl]. cbn [pbind].
  pose proof (fun H => at_index_matches zs cs o c Hz H Ec) as Az.
  pose proof (fun H => at_index_matches ms cs o c Hm H Ec) as Am.
  assert (T : forall b bz bm : bool, exists z m,
    (if b then
       pbind (if bz && filled zs then Done (res_map Some (at_index zs o)) else pret None) (fun z =>
       pbind (if bm && filled ms then Done (res_map Some (at_index ms o)) else pret None) (fun m =>
       pcall (Coord (fst c) (snd c) z m None None i)))
     else pcall (Xy (fst c) (snd c) i)) = pcall (if b then Coord (fst c) (snd c) z m None None i else Xy (fst c) (snd c) i)).
  { intros e ez em. destruct e; [|now exists None, None].
    destruct ez, (filled zs), em, (filled ms); cbn [andb];
      try (destruct (Az eq_refl) as [vz ->]); try (destruct (Am eq_refl) as [vm ->]); cbn; eexists; eexists; reflexivity. }
  destruct (T b bz bm) as [z [m ->]], (T b' bz' bm') as [z' [m' ->]]. apply alike_pos.
Qed.
Lemma emit_points_alike : forall b bz bm b' bz' bm' cs zs ms o n i, matches zs cs -> matches ms cs ->
  alike eq (emit_points b (gets bz zs) (gets bm ms) cs zs ms o n i) (emit_points b' (gets bz' zs) (gets bm' ms) cs zs ms o n i).
Proof.
  induction n as [|n IH]; intros i Hz Hm; cbn [emit_points]; [apply alike_refl|].
  apply alike_then; [now apply emit_point_alike|now apply IH].
Qed.
Lemma multipart_alike : forall ck d d' b mp, matches (mp_z mp) (mp_coords mp) -> matches (mp_m mp) (mp_coords mp) ->
  alike eq (process_multipart ck d b mp) (process_multipart ck d' b mp).
Proof.
  intros ck d d' b mp Hz Hm. unfold process_multipart, process_geom_part, process_part.
  ali; now apply emit_points_alike.
Qed.
(** a reader of a list of [n] *)
Definition yields {A} (Q : A -> Prop) (f : rd A) : Prop := ralike (fun a b => a = b /\ Q a) f f.
Lemma yields_bind : forall A B Q (f : rd A) (g : A -> rd B), (forall a, yields Q (g a)) -> yields Q (rbind f g).
Proof. intros. apply ralike_bind; [apply ralike_refl|assumption]. Qed.
Lemma yields_ret : forall A (Q : A -> Prop) a, Q a -> yields Q (rret a).
Proof. intros A Q a H b. constructor. now repeat split. Qed.
Lemma yields_list : forall A (f : rd A) n, yields (fun l => length l = n) (r_list f n).
Proof.
  induction n as [|n IH]; cbn [r_list]; [now apply yields_ret|].
  apply yields_bind. intros a. eapply ralike_bindR; [exact IH|]. intros l l' [-> H]. apply yields_ret. cbn. now f_equal.
Qed.
Lemma yields_dims : forall n, yields (fun l => length l = N.to_nat n) (read_dim_values n).
Proof. intros. unfold read_dim_values. apply yields_bind. intros. apply yields_bind. intros. apply yields_list. Qed.
Lemma yields_xy : forall n, yields (fun l => length l = N.to_nat n) (read_xy n).
Proof. intros. unfold read_xy. apply yields_bind. intros. apply yields_list. Qed.
Lemma yields_opt : forall (b : bool) n, yields (fun l => l = [] \/ length l = N.to_nat n) (if b then read_dim_values n else rret []).
Proof.
  intros [] n; [|apply yields_ret; now left]. intros b. eapply alike_weaken; [|apply yields_dims].
  cbn. intros x y [[E H] E']. repeat split; auto.
Qed.
Lemma matches_of : forall zs cs (n : nat), (zs = [] \/ length zs = n) -> length cs = n -> matches zs cs.
Proof. intros zs cs n [H|H] Hc; [now left|right; congruence]. Qed.
Lemma read_multipart_yields : forall ck size has_z,
  yields (fun mp => matches (mp_z mp) (mp_coords mp) /\ matches (mp_m mp) (mp_coords mp)) (read_multipart ck size has_z).
Proof.
  intros. unfold read_multipart. cbv zeta.
  do 11 (apply yields_bind; intros ?).
  eapply ralike_bindR; [apply yields_xy|]. intros cs cs' [<- Hc].
  eapply ralike_bindR; [apply yields_opt|]. intros zs zs' [<- Hz].
  eapply ralike_bindR; [apply yields_opt|]. intros ms ms' [<- Hm].
  apply yields_ret. split; cbn [mp_z mp_m mp_coords]; eapply matches_of; eassumption.
Qed.
Lemma read_parts_alike : forall ck d d' size has_z b,
  ralike eq (read_parts ck d size has_z b) (read_parts ck d' size has_z b).
Proof.
  intros. unfold read_parts. eapply ralike_bindR; [apply read_multipart_yields|]. intros mp mp' [<- [Hz Hm]].
  apply ralike_prog. now apply multipart_alike.
Qed.
Lemma read_multipoint_alike : forall ck d d' size has_z,
  ralike eq (read_multipoint ck d size has_z) (read_multipoint ck d' size has_z).
Proof.
  intros. unfold read_multipoint. cbv zeta.
  do 8 (apply ralike_bind; [apply ralike_refl|intros ?]).
  eapply ralike_bindR; [apply yields_xy|]. intros cs cs' [<- Hc].
  eapply ralike_bindR; [apply yields_opt|]. intros zs zs' [<- Hz].
  eapply ralike_bindR; [apply yields_opt|]. intros ms ms' [<- Hm].
  apply ralike_prog. ali. apply emit_points_alike; eapply matches_of; eassumption.
Qed.
Lemma read_point_alike : forall d d' size t, ralike eq (read_point d size t) (read_point d' size t).
Proof.
  intros. unfold read_point. cbv zeta. do 6 (apply ralike_bind; [apply ralike_refl|intros ?]).
  apply ralike_bind; [|intros; apply ralike_refl].
  destruct (multi_dim d), (multi_dim d'); apply ralike_call; reflexivity.
Qed.
Lemma shape_alike : forall ck d d' b, alike eq (read_shape ck d b) (read_shape ck d' b).
Proof.
  intros. apply ralike_eq. unfold read_shape, read_shape_rec. rali;
    auto using read_point_alike, read_multipoint_alike, read_parts_alike.
Qed.
Section Files.
  Context {S : Type}.
  Variable ck : bool.
  Variable leftover : list Byte.byte -> list Byte.byte.
  Variable p : proc S.
  Hypothesis Hp : flat_minded p.
  Variables d d' : dims.
  Lemma shape_next_same : forall it s, shape_next ck leftover (asking d p) it s = shape_next ck leftover (asking d' p) it s.
  Proof.
    intros it s. unfold shape_next. destruct (N.leb _ _); [reflexivity|]. cbn [p_dims asking].
    assert (E : exec (asking d p) (read_shape ck d (it_source it)) s = exec (asking d' p) (read_shape ck d' (it_source it)) s).
    { apply (alike_indifferent _ (fun d => read_shape ck d (it_source it))); [intros; apply shape_alike|assumption]. }
    change (mkProc d (p_step p) (p_prop p)) with (asking d p). change (mkProc d' (p_step p) (p_prop p)) with (asking d' p).
    now rewrite E.
  Qed.
  Lemma shapes_same : forall n it s, shapes ck leftover (asking d p) n it s = shapes ck leftover (asking d' p) n it s.
  Proof.
    induction n as [|n IH]; intros it s; cbn [shapes]; [reflexivity|]. rewrite shape_next_same.
    destruct (shape_next _ _ _ it s) as [[it' s'] x]. now rewrite IH.
  Qed.
  Lemma tell_same : forall l s, tell (asking d p) l s = tell (asking d' p) l s.
  Proof.
    induction l as [|e l IH]; intros s; [reflexivity|]. unfold tell in *. cbn [run p_step].
    change (told (asking d p) s e) with (told (asking d' p) s e).
    destruct (told (asking d' p) s e) as [s' [u|x]]; [apply IH|reflexivity].
  Qed.
  Lemma exec_properties_same : forall r i s,
    exec (asking d p) (process_properties i r) s = exec (asking d' p) (process_properties i r) s.
  Proof. intros. apply (alike_indifferent _ (fun _ => process_properties i r)); [intros; apply alike_refl|assumption]. Qed.
  Lemma feature_next_same : forall it s,
    feature_next ck leftover (asking d p) it s = feature_next ck leftover (asking d' p) it s.
  Proof.
    intros it s. unfold feature_next. rewrite !tell_same. destruct (tell _ _ s) as [s0 [u|x]]; [|reflexivity].
    cbv zeta. destruct (N.leb _ _); [now rewrite tell_same|].
    destruct (dbf_next it) as [[record|x]|]; [|reflexivity|now rewrite tell_same].
    rewrite tell_same. destruct (tell _ _ s0) as [s1 [u1|x]]; [|reflexivity].
    rewrite exec_properties_same. destruct (exec _ _ s1) as [s2 [b|x]]; [|reflexivity].
    rewrite tell_same. destruct (tell _ _ s2) as [s3 [u3|x]]; [|reflexivity].
    rewrite shape_next_same. destruct (shape_next _ _ _ _ s3) as [[shapes s4] [[u4|x]|]]; try reflexivity.
  Qed.
  Lemma features_same : forall n it s, features ck leftover (asking d p) n it s = features ck leftover (asking d' p) n it s.
  Proof.
    induction n as [|n IH]; intros it s; cbn [features]; [reflexivity|]. rewrite feature_next_same.
    destruct (feature_next _ _ _ it s) as [[it' s'] x]. now rewrite IH.
  Qed.
End Files.
