(** Lemmas behind C86: the errors of the readers (built like SinkRead.v). *)
From Coq Require Import String Ascii.
From Coq Require Import List NArith ZArith Lia Bool.
From Coq Require Import Init.Byte.
From Verif Require Import Base BaseLemmas Event Geom ProcModel Claims TraceTop WkbModel WktModel GeoJsonModel
  CsvModel GeoModel GeosModel GdalModel GpxModel MvtModel ShpModel FaultSpec RaiseSpec.
Import ListNotations.
Local Open Scope list_scope.

Fixpoint fin {A} (own : list error) (g : prog A) : Prop :=
  match g with
  | Done (Ok _) => True
  | Done (Err x) => In x own
  | Call _ k => fin own k
  | CallIgn _ _ => False
  | CallProp _ _ _ k => forall b, fin own (k b)
  end.
Lemma fin_exec : forall A own (g : prog A), fin own g -> forall S (p : proc S) s s' x, exec p g s = (s', Err x) ->
  In x own \/ exists l o, snd (feed p l s) = Ok tt /\ feed p (l ++ [o]) s = (s', Err x).
Proof.
  induction g as [[a|y]|e k IH|e k IH|i n v k IH]; intros H S p s s' x E; cbn in *.
  - discriminate E.
  - injection E as _ <-. left. exact H.
  - destruct (p_step p s e) as [t [u|y]] eqn:F.
    + destruct (IH H _ _ _ _ _ E) as [I|(l & o & A1 & A2)]; [left; exact I|]. right. exists (OEv e :: l), o. cbn. rewrite F. split; assumption.
    + injection E as <- <-. right. exists [], (OEv e). cbn. rewrite F. split; reflexivity.
  - destruct H.
  - destruct (p_prop p s i n v) as [t [u|y]] eqn:F.
    + destruct (IH u (H u) _ _ _ _ _ E) as [I|(l & o & A1 & A2)]; [left; exact I|]. right. exists (OProp i n v :: l), o. cbn. rewrite F. split; assumption.
    + injection E as <- <-. right. exists [], (OProp i n v). cbn. rewrite F. split; reflexivity.
Qed.
Lemma fin_adds : forall A own (src : dims -> prog A), (forall d, fin own (src d)) -> adds src own.
Proof. intros A own src H S p s s' x E. exact (fin_exec _ _ _ (H _) _ _ _ _ _ E). Qed.
Lemma fin_more : forall A own own' (g : prog A), (forall x, In x own -> In x own') -> fin own g -> fin own' g.
Proof. induction g as [[a|y]|e k IH|e k IH|i n v k IH]; intros H F; cbn in *; auto. Qed.
Lemma fin_pbind : forall own A B (g : prog A) (f : A -> prog B), fin own g -> (forall a, fin own (f a)) -> fin own (pbind g f).
Proof. induction g as [[a|x]|e k IH|e k IH|i n v k IH]; intros f H Hf; cbn in *; auto. Qed.
Lemma fin_pthen : forall own A (g : prog unit) (f : prog A), fin own g -> fin own f -> fin own (pthen g f).
Proof. intros. now apply fin_pbind. Qed.
Lemma fin_pfor : forall own A (f : nat -> A -> prog unit) l i, (forall k a, In a l -> fin own (f k a)) -> fin own (pfor f i l).
Proof. induction l as [|a l IH]; intros i H; cbn [pfor]; [exact I|]. apply fin_pthen; [apply H; left; reflexivity|apply IH]. intros k b Q. apply H. right. exact Q. Qed.
Lemma fin_res : forall own A (r : res A), (forall x, r = Err x -> In x own) -> fin own (Done r).
Proof. intros own A [a|x] H; cbn; [exact I|]. apply H. reflexivity. Qed.
Lemma in_concat_intro : forall A (a : A) b l, In b l -> In a b -> In a (concat l).
Proof. intros A a b l H I. apply in_concat. exists b. split; assumption. Qed.
Ltac known := solve [cbn; auto 9].
Ltac fine := repeat match goal with
  | |- fin _ (pcall _) => exact I
  | |- fin _ (pret _) => exact I
  | |- fin _ (pfail _) => cbn [fin pfail]
  | |- fin _ (plift _) => apply fin_res
  | |- fin _ (Call _ _) => cbn [fin]
  | |- fin _ (pthen _ _) => apply fin_pthen
  | |- fin _ (pbind _ _) => apply fin_pbind; [|intros ?]
  | |- fin _ (pfor _ _ _) => apply fin_pfor; intros ? ? ?
  | |- fin _ (CallProp _ _ _ _) => intros ?
  | |- fin _ (match ?x with _ => _ end) => destruct x eqn:?
  | |- In _ _ => known
  end.

(** ** WKB *)
Definition rfin {A} own (f : rd A) : Prop := forall b, fin own (f b).
Lemma rfin_rbind : forall own A B (f : rd A) (g : A -> rd B), rfin own f -> (forall a, rfin own (g a)) -> rfin own (rbind f g).
Proof. intros own A B f g Hf Hg b. apply fin_pbind; [apply Hf|]. intros a. apply Hg. Qed.
Lemma rfin_rret : forall own A (a : A), rfin own (rret a).
Proof. intros own A a b. exact I. Qed.
Lemma rfin_rfail : forall own A e, In e own -> rfin own (@rfail A e).
Proof. intros own A e H b. exact H. Qed.
Lemma rfin_rcall : forall own e, rfin own (rcall e).
Proof. intros own e b. exact I. Qed.
Lemma rfin_rtake : forall own n, In EIo own -> rfin own (rtake n).
Proof. intros own n H b. unfold rtake. now destruct (Nat.ltb _ _). Qed.
Lemma rfin_rmap : forall own A B (f : A -> B) g, rfin own g -> rfin own (rmap f g).
Proof. intros. apply rfin_rbind; [assumption|]. intros. apply rfin_rret. Qed.
Lemma rfin_rfor : forall own f n i, (forall k, rfin own (f k)) -> rfin own (rfor f n i).
Proof.
  induction n as [|n IH]; intros i H; cbn [rfor]; [apply rfin_rret|]. apply rfin_rbind; [apply H|].
  intros. now apply IH.
Qed.
Lemma rfin_rlift : forall own A (r : res A), (forall x, r = Err x -> In x own) -> rfin own (rlift r).
Proof. intros own A r H b. unfold rlift. destruct r; [exact I|]. apply H. reflexivity. Qed.
Lemma rfin_rprog : forall own A (g : prog A), fin own g -> rfin own (rprog g).
Proof. intros own A g H b. apply fin_pbind; [assumption|]. intros. exact I. Qed.
Lemma rfin_r_list : forall own A (f : rd A) n, rfin own f -> rfin own (r_list f n).
Proof.
  induction n as [|n IH]; intros H; cbn [r_list]; [apply rfin_rret|].
  apply rfin_rbind; [assumption|]. intros. apply rfin_rbind; [now apply IH|]. intros. apply rfin_rret.
Qed.
Lemma rfin_r_f64s : forall own e n, In EIo own -> rfin own (r_f64s e n).
Proof.
  intros own e n H. induction n as [|n IH]; cbn [r_f64s]; [apply rfin_rret|].
  apply rfin_rbind; [apply rfin_rmap, rfin_rtake, H|]. intros.
  apply rfin_rbind; [exact IH|]. intros. apply rfin_rret.
Qed.
Ltac rfine := repeat match goal with
  | |- rfin _ (rret _) => apply rfin_rret
  | |- rfin _ (rfail _) => apply rfin_rfail
  | |- rfin _ (rcall _) => apply rfin_rcall
  | |- rfin _ (rtake _) => apply rfin_rtake
  | |- rfin _ (rlift _) => apply rfin_rlift
  | |- rfin _ (rprog _) => apply rfin_rprog
  | |- rfin _ (rthen _ _) => apply rfin_rbind; [apply rfin_rlift|intros ?]
  | |- rfin _ (r_u8) => apply rfin_rmap
  | |- rfin _ (r_u32 _) => apply rfin_rmap
  | |- rfin _ (r_i32 _) => apply rfin_rmap
  | |- rfin _ (r_f64 _) => apply rfin_rmap
  | |- rfin _ (r_f32 _) => apply rfin_rmap
  | |- rfin _ (rmap _ _) => apply rfin_rmap
  | |- rfin _ (r_list _ _) => apply rfin_r_list
  | |- rfin _ (r_f64s _ _) => apply rfin_r_f64s
  | |- rfin _ (rbind _ _) => apply rfin_rbind; [|intros ?]
  | |- rfin _ (rfor _ _ _) => apply rfin_rfor; intros ?
  | |- rfin _ (match ?x with _ => _ end) => destruct x eqn:?
  | |- rfin _ (let x := _ in _) => cbv zeta
  | |- In _ _ => known
  end.
Notation W := (rfin wkb_own).
Lemma w_wkb_header : W read_wkb_header.
Proof. unfold read_wkb_header. rfine. Qed.
Lemma env_errors : forall n x, gpkg_env_len n = Err x -> In x wkb_own.
Proof.
  intros n x E. assert (x = EGeometryFormat) as ->; [|known]. unfold gpkg_env_len in E.
  destruct n as [|n]; [discriminate E|]. do 3 (try discriminate E; try (injection E as <-; reflexivity); destruct n as [n|n|]);
    try discriminate E; injection E as <-; reflexivity.
Qed.
Lemma w_header : forall dl, W (WkbModel.read_header dl).
Proof.
  destruct dl; cbn [WkbModel.read_header].
  - apply w_wkb_header.
  - unfold read_ewkb_header. rfine.
  - unfold read_gpkg_header. rfine; try apply w_wkb_header. eapply env_errors. eassumption.
  - unfold read_mysql_header. rfine; try apply w_wkb_header.
  - unfold read_spatialite_header. rfine.
Qed.
Lemma w_nested : forall dl i, W (nested_header dl i).
Proof.
  destruct dl; cbn [nested_header]; intros i; unfold read_wkb_nested_header; try apply w_wkb_header.
  - unfold read_ewkb_nested_header, read_ewkb_header. rfine.
  - unfold read_spatialite_nested_header. rfine.
Qed.
Lemma w_coord_as : forall b i, W (read_coord_as b i).
Proof. intros. unfold read_coord_as. rfine. Qed.
Lemma w_emit : forall m k c, W (emit_coord m k c).
Proof. intros m k c. unfold emit_coord. rfine. Qed.
Lemma w_coord : forall m i k, W (process_coord m i k).
Proof. intros. unfold process_coord. rfine; [apply w_coord_as|apply w_emit]. Qed.
Lemma w_compressed : forall m i n k c, W (compressed_loop m i n k c).
Proof.
  induction n as [|n IH]; intros k c; cbn [compressed_loop]; rfine; [|apply IH].
  unfold process_compressed_coord. rfine. apply w_coord_as.
Qed.
Lemma w_coords : forall m i n, W (process_coords m i n).
Proof. intros. unfold process_coords. rfine. apply w_coord. Qed.
Lemma w_line : forall m i t k, W (process_linestring m i t k).
Proof. intros. unfold process_linestring. rfine; auto using w_coord, w_compressed, w_coords. Qed.
Lemma w_arc : forall m i k, W (process_circularstring m i k).
Proof. intros. unfold process_circularstring. rfine. apply w_coords. Qed.
Lemma w_polygon : forall m i t k, W (process_polygon m i t k).
Proof. intros. unfold process_polygon. rfine. apply w_line. Qed.
Lemma w_triangle : forall m i t k, W (process_triangle m i t k).
Proof. intros. unfold process_triangle. rfine. apply w_line. Qed.
Section Nested.
  Variable rh : info -> rd info.
  Hypothesis Hrh : forall i, W (rh i).
  Lemma w_compound : forall m i k n, W (process_compoundcurve m rh i k n).
  Proof. intros. unfold process_compoundcurve. rfine; auto using w_arc, w_line. Qed.
  Lemma w_curve : forall m i k n, W (process_curve m rh i k n).
  Proof. intros. unfold process_curve. rfine; auto using w_arc, w_line, w_compound. Qed.
  Lemma w_curvepolygon : forall m i k n, W (process_curvepolygon m rh i k n).
  Proof. intros. unfold process_curvepolygon. rfine; auto using w_curve. Qed.
  Lemma w_geom : forall fuel m i k n, n <= 129 -> 130 <= fuel + n -> W (process_geom_n fuel m rh i k n).
  Proof.
    induction fuel as [|fuel IH]; intros m i k n L F; cbn [process_geom_n]; [lia|].
    destruct (Nat.ltb max_nesting_depth n) eqn:E; [rfine|]. apply Nat.ltb_ge in E. unfold max_nesting_depth in E.
    rfine; auto using w_coord_as, w_emit, w_coord, w_line, w_arc, w_polygon, w_triangle,
        w_compound, w_curve, w_curvepolygon. apply IH; lia.
  Qed.
End Nested.
Lemma wkb_fin : forall dl b d, fin wkb_own (process_wkb_type_geom dl d b).
Proof.
  intros dl b d. revert b. change (W (process_wkb_type_geom dl d)). unfold process_wkb_type_geom. rfine.
  - apply w_header.
  - apply w_geom; [apply w_nested|lia|unfold geom_fuel; lia].
Qed.

(** ** WKT *)
Lemma wkt_coord_fin : forall own multi i c, fin own (wkt_coord multi i c).
Proof. intros. unfold wkt_coord. fine. Qed.
Lemma wkt_fin : forall own multi g i, fin own (process_wkt_geom_n multi i g).
Proof.
  intros own multi. fix IH 1. intros [[c|]|l|l|l|r|l|l] i; cbn [process_wkt_geom_n];
    unfold wkt_polygon, wkt_linestring; fine; try apply wkt_coord_fin.
  generalize 0. induction l as [|a l IHl]; intros k; fine; [apply IH|apply IHl].
Qed.
(** ** GeoJSON *)
Lemma gj_coord_fin : forall own multi i p, (short p = true -> In EPanic own) -> fin own (gj_coord multi i p).
Proof. intros own multi i [|x [|y r]] H; unfold gj_coord; try (apply H; reflexivity); fine. Qed.
Lemma short_in : forall p l (P : Prop), (existsb short l = true -> P) -> In p l -> short p = true -> P.
Proof. intros p l P H I S. apply H. apply existsb_exists. exists p. split; assumption. Qed.
Lemma gj_geom_fin : forall own multi g, (short_geom g = true -> In EPanic own) -> forall i, fin own (gj_geom_n multi i g).
Proof.
  intros own multi. fix IH 1. intros [p|l|l|l|l|l|l] H i; unfold short_geom in H; cbn [json_positions] in H; cbn [gj_geom_n];
    unfold gj_polygon, gj_line; fine; try (apply gj_coord_fin; intros S; eapply short_in; [exact H| |exact S]).
  - left. reflexivity.
  - assumption.
  - assumption.
  - eapply in_concat_intro; eassumption.
  - eapply in_concat_intro; eassumption.
  - match goal with I1 : In ?q l, I2 : In ?r ?q, I3 : In ?p ?r |- _ => exact (in_concat_intro _ _ _ _ (in_concat_intro _ _ _ _ I1 I2) I3) end.
  - assert (L : forall l, (existsb short (flat_map json_positions l) = true -> In EPanic own) -> forall k,
      fin own ((fix go (i : nat) (l : list gjgeom) : prog unit := match l with [] => pret tt | a :: r => pthen (gj_geom_n multi i a) (go (S i) r) end) k l)); [|exact (L l H 0)].
    clear l H. induction l as [|a l IHl]; intros H k; [exact I|]. apply fin_pthen.
    + apply IH. intros S. apply H. cbn [flat_map]. rewrite existsb_app. unfold short_geom in S. rewrite S. reflexivity.
    + apply IHl. intros S. apply H. cbn [flat_map]. rewrite existsb_app, S. apply orb_true_r.
Qed.
Lemma gj_property_fin : forall own ser i e, fin own (gj_property ser i e).
Proof. intros own ser i [k v]. unfold gj_property, offer_prop. fine. Qed.
Lemma gj_feature_fin : forall own ser multi i j f, (short_feature f = true -> In EPanic own) -> fin own (gj_feature ser multi i j f).
Proof.
  intros own ser multi i j f H. unfold gj_feature, when_some, gj_properties. fine; [apply gj_property_fin|]. apply gj_geom_fin.
  intros S. apply H. unfold short_feature. match goal with E : gf_geometry f = Some _ |- _ => rewrite E end. exact S.
Qed.
Lemma gj_doc_feature_fin : forall own ser multi i f, (short_feature f = true -> In EPanic own) -> fin own (process_geojson_feature ser multi i f).
Proof. intros. unfold process_geojson_feature. fine; now apply gj_feature_fin. Qed.
Lemma given_holds : forall b x rest, b = true -> In x (given b x ++ rest).
Proof. intros b x rest ->. left. reflexivity. Qed.
Lemma read_geojson_fin : forall ser multi doc, fin (given (holds short_doc doc) EPanic ++ unread doc) (read_geojson ser multi doc).
Proof.
  intros ser multi [g|x]; [|left; reflexivity]. unfold read_geojson, process_geojson. cbn [holds].
  destruct g as [l|f|g]; cbn [short_doc].
  - fine; apply gj_feature_fin; intros S; apply given_holds, existsb_exists; eexists; (split; [eassumption|exact S]).
  - fine; first [apply gj_feature_fin|apply gj_doc_feature_fin]; intros S; apply given_holds; exact S.
  - fine. apply gj_geom_fin. intros S. apply given_holds. exact S.
Qed.
Lemma read_geojson_geom_fin : forall multi doc, fin (given (holds short_doc doc) EPanic ++ unread doc) (read_geojson_geom multi doc).
Proof.
  intros multi [g|x]; [|left; reflexivity]. unfold read_geojson_geom, process_geojson_geom, when_some. cbn [holds].
  destruct g as [l|f|g]; cbn [short_doc].
  - apply fin_pfor. intros k g Q. apply in_flat_map in Q. destruct Q as (f & F & Q). destruct (gf_geometry f) as [g'|] eqn:E; [|destruct Q].
    destruct Q as [->|[]]. apply gj_geom_fin. intros S. apply given_holds, existsb_exists. exists f. split; [exact F|].
    unfold short_feature. rewrite E. exact S.
  - fine. apply gj_geom_fin. intros S. apply given_holds. unfold short_feature. match goal with E : gf_geometry f = Some _ |- _ => rewrite E end. exact S.
  - fine. apply gj_geom_fin. intros S. apply given_holds. exact S.
Qed.
Lemma unread_in : forall A l (x : error), In (Err x) l -> In x (flat_map (@unread A) l).
Proof. intros A l x H. apply in_flat_map. exists (Err x). split; [exact H|left; reflexivity]. Qed.
Lemma read_geojson_fc_fin : forall ser multi l,
  fin (given (existsb (holds short_feature) l) EPanic ++ flat_map unread l) (read_geojson_fc ser multi l).
Proof.
  intros. unfold read_geojson_fc. apply fin_pfor. intros k [f|x] I.
  - apply gj_doc_feature_fin. intros S. apply given_holds, existsb_exists. exists (Ok f). split; assumption.
  - apply in_or_app. right. apply unread_in. exact I.
Qed.
Lemma own_short : forall l a, In (Ok a) l -> short_doc a = true -> In EPanic (lines_own l).
Proof. intros l a I S. apply given_holds, existsb_exists. exists (Ok a). split; assumption. Qed.
Lemma own_collection : forall l f, In (Ok (GjFeatures f)) l -> In EDataset (lines_own l).
Proof. intros l f I. apply in_or_app. right. apply given_holds, existsb_exists. exists (Ok (GjFeatures f)). split; [exact I|reflexivity]. Qed.
Lemma own_unread : forall l x, In (Err x) l -> In x (lines_own l).
Proof. intros l x I. apply in_or_app. right. apply in_or_app. right. apply unread_in. exact I. Qed.
Lemma read_geojson_lines_fin : forall ser multi l, fin (lines_own l) (read_geojson_lines ser multi l).
Proof.
  intros. unfold read_geojson_lines. apply fin_pthen; [exact I|]. apply fin_pthen; [|exact I]. apply fin_pfor. intros k [[f|f|g]|x] Q.
  - exact (own_collection _ _ Q).
  - apply gj_feature_fin. exact (own_short _ _ Q).
  - apply gj_geom_fin. exact (own_short _ _ Q).
  - exact (own_unread _ _ Q).
Qed.
Lemma gj_lines_fin : forall multi all l, (forall a, In a l -> In a all) -> forall b i, fin (lines_own all) (gj_lines_geom multi b i l).
Proof.
  intros multi all. induction l as [|x l IH]; intros U b i; cbn [gj_lines_geom]; [exact I|].
  assert (U' : forall a, In a l -> In a all) by (intros a A; apply U; right; exact A).
  pose proof (U x (or_introl eq_refl)) as Q. destruct x as [[f|f|g]|x].
  - exact (own_collection _ _ Q).
  - destruct (gf_geometry f) as [g|] eqn:E; [|apply IH, U']. fine; [|apply IH, U']. apply gj_geom_fin. intros S. apply (own_short _ _ Q).
    cbn. unfold short_feature. rewrite E. exact S.
  - fine; [|apply IH, U']. apply gj_geom_fin. exact (own_short _ _ Q).
  - exact (own_unread _ _ Q).
Qed.
Lemma read_geojson_line_geometries_fin : forall multi l, fin (lines_own l) (read_geojson_line_geometries multi l).
Proof. intros. unfold read_geojson_line_geometries. fine. apply gj_lines_fin. auto. Qed.
(** ** CSV *)
Lemma csv_features_fin : forall parse multi c h l, fin (ECsv 0 :: EGeometry :: unread h ++ flat_map unread l) (process_csv_features parse multi c h l).
Proof.
  intros. unfold process_csv_features. destruct h as [h|x]; [|right; right; left; reflexivity].
  fine. unfold csv_feature, read_wkt. fine; try apply wkt_fin. right. right. apply unread_in. assumption.
Qed.
Lemma csv_geoms_fin : forall own parse multi gi, In (ECsv 0) own -> In (ECsv 1) own -> forall l, (forall x, In x (flat_map unread l) -> In x own) ->
  forall b i, fin own (csv_geoms parse multi gi b i l).
Proof.
  intros own parse multi gi A B. induction l as [|x l IH]; intros U b i; cbn [csv_geoms]; [exact I|].
  assert (U' : forall x, In x (flat_map unread l) -> In x own) by (intros y Y; apply U; cbn; apply in_or_app; right; exact Y).
  destruct x as [r|x]; [|cbn; apply U; left; reflexivity]. destruct (nth_error r gi) as [t|]; [|exact A].
  destruct (parse t); [|exact B]. fine; auto using wkt_fin.
Qed.
Lemma csv_geom_fin : forall parse multi c h l, fin (ECsv 0 :: ECsv 1 :: unread h ++ flat_map unread l) (process_csv_geom parse multi c h l).
Proof.
  intros. unfold process_csv_geom. destruct h as [h|x]; [|right; right; left; reflexivity].
  fine. apply csv_geoms_fin; [left; reflexivity|right; left; reflexivity|]. intros x H. right. right. exact H.
Qed.
(** ** geo-types *)
Lemma geo_fin : forall own rect tri multi g i, fin own (t_geom rect tri multi i g).
Proof.
  intros own rect tri multi. fix IH 1. intros g i. destruct g; cbn [t_geom];
    unfold t_polygon, t_linestring, t_coord; fine.
  generalize 0. induction l as [|a l IHl]; intros k; fine; [apply IH|apply IHl].
Qed.
(** ** GEOS *)
Lemma geos_fin : forall own z g i, fin own (GeosModel.r_geom_n z g i).
Proof.
  intros own z. fix IH 1. intros g i. destruct g; cbn [GeosModel.r_geom_n];
    unfold GeosModel.r_polygon, GeosModel.r_linestring, r_coord_seq; fine.
  generalize 0. induction l as [|a l IHl]; intros k; fine; [apply IH|apply IHl].
Qed.
(** ** GDAL *)
Notation G := (fin [EGeometryFormat]).
Lemma r_coord_fin : forall z p i, G (r_coord z p i).
Proof. intros z [[x y] v] i. exact I. Qed.
Lemma r_curve_fin : forall z g i, G (r_curve z g i).
Proof.
  intros. unfold r_curve, r_compoundcurve, r_circularstring, GdalModel.r_linestring. fine; apply r_coord_fin.
Qed.
Lemma gdal_fin : forall z missing g i, G (GdalModel.r_geom_n z missing g i).
Proof.
  intros z missing. fix IH 1. intros [k f n l kids] i.
  destruct k; cbn [GdalModel.r_geom_n];
    unfold r_curvepolygon, r_compoundcurve, r_circularstring, r_triangle, GdalModel.r_polygon, r_linestring_seq,
      GdalModel.r_linestring, r_point; fine; try apply r_coord_fin; try apply r_curve_fin.
  generalize 0. induction kids as [|a kids IHl]; intros j; fine; [apply IH|apply IHl].
Qed.
(** ** GPX *)
Lemma gpx_fin : forall doc, fin (match doc with None => [EGeometry] | Some _ => [] end) (read_gpx doc).
Proof.
  intros [doc|]; [|left; reflexivity].
  unfold read_gpx, gpx_top_waypoints, gpx_wrapped, gpx_routes_at, gpx_track, gpx_line, gpx_points. fine.
Qed.
(** ** MVT *)
Lemma mvt_geom_fin : forall own multi g i, fin own (m_geometry multi i g).
Proof.
  intros own multi. fix IH 1. intros g i. destruct g; cbn [m_geometry];
    unfold m_polygon, m_linestring, m_coord; fine.
  generalize 0. induction l as [|a l IHl]; intros k; fine; [apply IH|apply IHl].
Qed.
Lemma mvt_layer_fin : forall own multi l, fin own (m_layer multi l).
Proof. intros. unfold m_layer, m_feature, m_property. fine. apply mvt_geom_fin. Qed.
(** ** Shapefile records *)
Notation H := (fin shape_own).
Notation R := (rfin shape_own).
Lemma panics : forall x, x = EPanic -> In x shape_own.
Proof. intros x ->. known. Qed.
Lemma index_err : forall A (l : list A) i x, at_index l i = Err x -> x = EPanic.
Proof. intros A l i x E. unfold at_index in E. destruct (N.ltb _ _); [destruct (nth_error _ _); [discriminate E|]|]; now injection E as <-. Qed.
Lemma some_index_err : forall A B (f : A -> B) r x, (forall x, r = Err x -> x = EPanic) -> res_map f r = Err x -> x = EPanic.
Proof. intros A B f [a|y] x H E; [discriminate E|]. injection E as <-. apply H. reflexivity. Qed.
Lemma bind_err : forall A B (r : res A) (f : A -> res B) x, (forall x, r = Err x -> x = EPanic) -> (forall a x, f a = Err x -> x = EPanic) ->
  res_bind r f = Err x -> x = EPanic.
Proof. intros A B [a|y] f x H K E; cbn in E; [exact (K a x E)|]. injection E as <-. apply H. reflexivity. Qed.
Lemma uadd_err : forall ck a b x, uadd ck a b = Err x -> x = EPanic.
Proof. intros ck a b x E. unfold uadd in E. destruct (N.ltb _ _); [discriminate E|]. destruct ck; [|discriminate E]. now injection E as <-. Qed.
Lemma umul_err : forall ck a b x, umul ck a b = Err x -> x = EPanic.
Proof. intros ck a b x E. unfold umul in E. destruct (N.ltb _ _); [discriminate E|]. destruct ck; [|discriminate E]. now injection E as <-. Qed.
Lemma usub_err : forall ck a b x, usub ck a b = Err x -> x = EPanic.
Proof. intros ck a b x E. unfold usub in E. destruct (N.leb _ _); [discriminate E|]. destruct ck; [|discriminate E]. now injection E as <-. Qed.
Lemma i32_err : forall ck z x, i32_op ck z = Err x -> x = EPanic.
Proof. intros ck z x E. unfold i32_op in E. destruct (fits_i32 z); [discriminate E|]. destruct ck; [|discriminate E]. now injection E as <-. Qed.
Lemma reserve_err : forall a b x, reserve a b = Err x -> x = EPanic.
Proof. intros a b x E. unfold reserve in E. destruct (N.ltb _ _); [discriminate E|]. now injection E as <-. Qed.
Lemma slice_err : forall A (l : list A) a b x, slice l a b = Err x -> x = EPanic.
Proof. intros A l a b x E. unfold slice in E. destruct (_ && _); [discriminate E|]. now injection E as <-. Qed.
Lemma dim_err : forall ck n x, multipart_dim_value_size ck n = Err x -> x = EPanic.
Proof. intros ck n x. apply bind_err; [apply umul_err|]. intros a y. apply uadd_err. Qed.
Lemma size_err : forall ck n m x, multipart_record_size ck n m = Err x -> x = EPanic.
Proof.
  intros ck n m x. apply bind_err; [apply umul_err|]. intros a y. apply bind_err; [apply uadd_err|]. intros b z.
  apply bind_err; [apply umul_err|]. intros c w. apply uadd_err.
Qed.
Lemma detect_err : forall c l i x, detect_loop c l i = Err x -> x = EPanic.
Proof.
  induction l as [|[s e] l IH]; intros i x E; cbn [detect_loop] in E; [discriminate E|]. revert E. apply bind_err.
  - intros y. destruct (Nat.eqb i 0); [discriminate|]. apply some_index_err. intros z. apply slice_err.
  - intros a y. apply some_index_err. intros z. apply IH.
Qed.
Ltac panic := intros ? ?; apply panics; solve
  [eapply index_err; eassumption|eapply uadd_err; eassumption|eapply umul_err; eassumption|eapply usub_err; eassumption
  |eapply i32_err; eassumption|eapply reserve_err; eassumption|eapply slice_err; eassumption|eapply dim_err; eassumption
  |eapply size_err; eassumption|eapply some_index_err; [intros ?; apply index_err|eassumption]
  |eapply some_index_err; [intros ?; apply detect_err|eassumption]|discriminate].
Lemma emit_point_fin : forall a b c d e f g i, H (emit_point a b c d e f g i).
Proof. intros. unfold emit_point. fine; panic. Qed.
Lemma emit_points_fin : forall a b c d e f g n i, H (emit_points a b c d e f g n i).
Proof. induction n as [|n IH]; intros i; cbn [emit_points]; fine; [apply emit_point_fin|apply IH]. Qed.
Lemma multipart_fin : forall ck d b mp, H (process_multipart ck d b mp).
Proof.
  intros. unfold process_multipart, process_geom_part, process_part, detect_polys. fine; try apply emit_points_fin; panic.
Qed.
Lemma dim_values_fin : forall n, R (read_dim_values n).
Proof. intros. unfold read_dim_values, read_bbox. rfine; panic. Qed.
Lemma xy_fin : forall n, R (read_xy n).
Proof. intros. unfold read_xy. rfine; panic. Qed.
Lemma shape_fin : forall ck d b, H (read_shape ck d b).
Proof.
  intros ck d b. revert b. change (R (read_shape ck d)).
  unfold read_shape, read_shape_rec, read_shape_type, read_point, read_multipoint, read_parts, read_multipart, read_multipatch, read_bbox.
  rfine; auto using dim_values_fin, xy_fin, multipart_fin; try panic; fine; try apply emit_points_fin.
Qed.
Lemma properties_fin : forall own r i, fin own (process_properties i r).
Proof. induction r as [|[n v] r IH]; intros i; cbn [process_properties]; fine; apply IH. Qed.
Lemma shp_header_fin : forall b, fin [EIo; EShp 1; EShp 2] (ShpModel.read_header b).
Proof. intros b. revert b. change (rfin [EIo; EShp 1; EShp 2] ShpModel.read_header). unfold ShpModel.read_header, read_shape_type. rfine. Qed.
Lemma shx_fin : forall ck b, fin [EIo; EShp 1; EShp 2; EPanic] (read_index_file ck b).
Proof.
  intros ck b. revert b. change (rfin [EIo; EShp 1; EShp 2; EPanic] (read_index_file ck)). unfold read_index_file. rfine.
  - intros b. eapply fin_more; [|apply shp_header_fin]. cbn. tauto.
  - intros x E. rewrite (i32_err _ _ _ E). known.
  - intros x E. rewrite (i32_err _ _ _ E). known.
  - intros x E. rewrite (reserve_err _ _ _ E). known.
Qed.

(** ** Every error occurs *)
Definition nest (n : nat) : list byte := concat (repeat [x01; x07; x00; x00; x00; x01; x00; x00; x00] n).
Definition deep (dl : dialect) : list byte :=
  match dl with
  | Wkb | Ewkb => nest 131
  | Geopackage => [x47; x50; x00; x01; x00; x00; x00; x00] ++ nest 131
  | MySQL => [x00; x00; x00; x00] ++ nest 131
  | SpatiaLite => [x00; x01] ++ repeat x00 36 ++ [x7c; x07; x00; x00; x00; x01; x00; x00; x00]
                  ++ concat (repeat [x69; x07; x00; x00; x00; x01; x00; x00; x00] 131)
  end.
Definition odd (dl : dialect) : list byte :=
  match dl with
  | Wkb | Ewkb => [x01; xff; x00; x00; x00]
  | MySQL => [x00; x00; x00; x00; x01; xff; x00; x00; x00]
  | Geopackage => [x00; x00]
  | SpatiaLite => [x01]
  end.
Lemma wkb_each : forall dl x, In x wkb_own -> exists b, raises (fun d => process_wkb_type_geom dl d b) x.
Proof.
  intros dl x [<-|[<-|[<-|[]]]].
  - exists []. intros d. destruct dl; vm_compute; reflexivity.
  - exists (odd dl). intros d. destruct dl; vm_compute; reflexivity.
  - exists (deep dl). intros d. destruct dl; vm_compute; reflexivity.
Qed.
Definition words (l : list Z) : list byte := flat_map (fun z => bytes_of LE 4 (i32_to_u32 z)) l.
Definition bewords (l : list Z) : list byte := flat_map (fun z => bytes_of BE 4 (i32_to_u32 z)) l.
Lemma shape_each : forall ck x, In x shape_own -> exists b, raises (fun d => read_shape ck d b) x.
Proof.
  intros ck x [<-|[<-|[<-|[<-|[]]]]].
  - exists []. intros d. vm_compute. reflexivity.
  - exists (bewords [1; 2]%Z ++ words [2]%Z). intros d. destruct ck; vm_compute; reflexivity.
  - exists (bewords [1; 5]%Z ++ words [1]%Z). intros d. destruct ck; vm_compute; reflexivity.
  - exists (bewords [1; -10]%Z ++ words [31]%Z). intros d. destruct ck; vm_compute; reflexivity.
Qed.
Lemma shp_header_each : forall x, In x [EIo; EShp 1; EShp 2] -> exists b, raises (fun _ => ShpModel.read_header b) x.
Proof.
  intros x [<-|[<-|[<-|[]]]].
  - exists []. intros d. vm_compute. reflexivity.
  - exists [x00; x00; x00; x00]. intros d. vm_compute. reflexivity.
  - exists (bewords [9994]%Z ++ repeat x00 24 ++ words [0; 2]%Z). intros d. vm_compute. reflexivity.
Qed.
Lemma shx_each : forall ck x, In x [EIo; EShp 1; EShp 2; EPanic] -> exists b, raises (fun _ => read_index_file ck b) x.
Proof.
  intros ck x [<-|[<-|[<-|[<-|[]]]]].
  - exists []. intros d. vm_compute. reflexivity.
  - exists [x00; x00; x00; x00]. intros d. vm_compute. reflexivity.
  - exists (bewords [9994]%Z ++ repeat x00 24 ++ words [0; 2]%Z). intros d. vm_compute. reflexivity.
  - exists (bewords [9994]%Z ++ repeat x00 20 ++ bewords [0]%Z ++ words [0; 1]%Z ++ repeat x00 64). intros d. destruct ck; vm_compute; reflexivity.
Qed.
