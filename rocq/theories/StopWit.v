(** Multiplexers and small files (helper lemmas for C60 and C61). *)
From Coq Require Import String Ascii.
From Coq Require Import List NArith ZArith Lia Bool.
From Verif Require Import Base BaseLemmas Event Claims Geom FeatureSpec ProcModel ProcSpec ProcTop JsonSpec GeoJsonModel GeoJsonSpec
  GeoJsonRead WkbSpec CsvModel MvtModel MvtSpec MvtTop MvtWit GeoModel GeoSpec SvgModel SvgTop ShpModel ShpSpec ShpTop ShpFeatures ShpMore StopSpec StopTop StopConv.
Import ListNotations.
Local Open Scope list_scope.

(** ** The callbacks of a file reach both halves of a multiplexer *)
Definition thru (o : obs) : bool := passed o && negb (is_empty_point o).
Lemma thru_flat : forall A (f : nat -> A -> list obs) l i, (forall i a, forallb thru (f i a) = true) ->
  forallb thru (flat_mapi f i l) = true.
Proof. intros A f l. induction l as [|a l IH]; intros i H; cbn; [reflexivity|]. now rewrite forallb_app, H, IH. Qed.
Lemma thru_map_flat : forall A (f : nat -> A -> list event) l i,
  (forall i a, forallb thru (map OEv (f i a)) = true) -> forallb thru (map OEv (flat_mapi f i l)) = true.
Proof. intros A f l. induction l as [|a l IH]; intros i H; cbn; [reflexivity|]. now rewrite map_app, forallb_app, H, IH. Qed.
Lemma thru_coords : forall multi l i, forallb thru (map OEv (mapi (ev_coord multi) i l)) = true.
Proof. intros multi l. induction l as [|c l IH]; intros i; cbn; [reflexivity|]. rewrite IH. now destruct multi. Qed.
Lemma thru_line : forall multi t i l, forallb thru (map OEv (ev_line multi t i l)) = true.
Proof. intros. unfold ev_line, ev_coords. cbn. now rewrite map_app, forallb_app, thru_coords. Qed.
Lemma thru_polygon : forall multi t i l, forallb thru (map OEv (ev_polygon multi t i l)) = true.
Proof. intros. unfold ev_polygon. cbn. rewrite map_app, forallb_app, thru_map_flat; [reflexivity|]. intros. apply thru_line. Qed.
Lemma thru_shape : forall multi d sh g, represents d sh g -> forallb thru (map OEv (gevents multi 0 g)) = true.
Proof.
  intros multi d sh g H. destruct H; cbn [gevents].
  - cbn. now destruct multi.
  - cbn. unfold ev_coords. now rewrite map_app, forallb_app, thru_coords.
  - cbn. rewrite map_app, forallb_app, thru_map_flat; [reflexivity|]. intros. apply thru_line.
  - cbn. rewrite map_app, forallb_app, thru_map_flat; [reflexivity|]. intros. apply thru_polygon.
Qed.
Lemma thru_dataset : forall multi name xs,
  Forall (fun x => exists d sh g, represents d sh g /\ f_geom x = Some g) xs ->
  forallb thru (FeatureSpec.dataset_obs multi name xs) = true.
Proof.
  intros multi name xs H. unfold FeatureSpec.dataset_obs. cbn. rewrite forallb_app. apply andb_true_intro. split; [|reflexivity].
  assert (E : forall i, forallb thru (flat_mapi (fun i f => FeatureSpec.feature_obs multi i 0 f) i xs) = true); [|apply E].
  induction H as [|x xs (d & sh & g & R & G) H IH]; intros i; cbn [flat_mapi]; [reflexivity|]. rewrite forallb_app, IH, andb_true_r.
  unfold FeatureSpec.feature_obs. rewrite G. cbn. rewrite !forallb_app. cbn. rewrite !forallb_app, (thru_shape multi d sh g R). cbn.
  rewrite andb_true_r. destruct (FeatureSpec.f_props x) as [l|]; [|reflexivity]. cbn. rewrite forallb_app. cbn. rewrite andb_true_r.
  induction l as [|q l IHl]; [reflexivity|exact IHl].
Qed.
Lemma thru_both : forall l, forallb thru l = true -> filter passed l = l /\ existsb is_empty_point l = false.
Proof.
  induction l as [|o l IH]; cbn; intros H; [now split|]. apply andb_prop in H. destruct H as [H1 H2].
  destruct (IH H2) as [E1 E2]. unfold thru in H1. apply andb_prop in H1. destruct H1 as [P N]. rewrite P, E1, E2.
  split; [reflexivity|]. destruct (is_empty_point o); [discriminate|reflexivity].
Qed.
Lemma first_thru : forall d l xs, Forall2 (first_feature d) l xs ->
  Forall (fun x => exists d sh g, represents d sh g /\ f_geom x = Some g) xs.
Proof. intros d l xs H. induction H as [|f x l xs (P & g & R & G) H IH]; constructor; eauto. Qed.
Lemma entry_thru : forall d l xs, Forall2 (entry_feature d) l xs ->
  Forall (fun x => exists d sh g, represents d sh g /\ f_geom x = Some g) xs.
Proof. intros d l xs H. induction H as [|f x l xs (P & g & R & G) H IH]; constructor; eauto. Qed.
Lemma mux_dataset : forall S1 S2 (p1 : proc S1) (p2 : proc S2) multi name xs s1 s2 t1 t2,
  Forall (fun x => exists d sh g, represents d sh g /\ f_geom x = Some g) xs ->
  feed p1 (FeatureSpec.dataset_obs multi name xs) s1 = (t1, Ok tt) ->
  feed p2 (FeatureSpec.dataset_obs multi name xs) s2 = (t2, Ok tt) ->
  feed (multiplexer p1 p2) (FeatureSpec.dataset_obs multi name xs) (s1, s2) = ((t1, t2), Ok tt).
Proof.
  intros S1 S2 p1 p2 multi name xs s1 s2 t1 t2 H E1 E2.
  destruct (thru_both _ (thru_dataset multi name xs H)) as [F N]. apply mux_success; [exact N|]. now rewrite F.
Qed.
Lemma mux_first : forall ck leftover S1 S2 (p1 : proc S1) (p2 : proc S2) h l rest more after,
  Forall entry_ok l -> announces h l -> Forall has_geometry l -> stops_first p2 ->
  exists it xs, iter_features ck h (shp_body l ++ rest)
                  (Some (map (fun f => Ok (en_record f)) l ++ more, after)) = Ok it /\
    Forall2 (first_feature xy_dims) l xs /\
    forall s1 s2 t1 t2,
      feed p1 (FeatureSpec.dataset_obs false None xs) s1 = (t1, Ok tt) ->
      feed p2 (FeatureSpec.dataset_obs false None xs) s2 = (t2, Ok tt) ->
      consume ck leftover (multiplexer p1 p2) (S (length l)) it (s1, s2) = ((t1, t2), Some (Ok tt)).
Proof.
  intros ck leftover S1 S2 p1 p2 h l rest more after Hl Hh Hg Hp.
  destruct (shp_first ck leftover _ (multiplexer p1 p2) h l rest more after Hl Hh Hg eq_refl (stops_mux _ _ _ _ Hp))
    as (it & xs & E & Hx & H).
  exists it, xs. repeat split; auto. intros s1 s2 t1 t2 E1 E2. apply H.
  apply mux_dataset; auto. eapply first_thru; exact Hx.
Qed.
Lemma mux_all : forall ck leftover S1 S2 (p1 : proc S1) (p2 : proc S2) h l rest more after,
  Forall entry_ok l -> announces h l -> Forall has_geometry l -> takes_all p2 ->
  exists it xs, iter_features ck h (shp_body l ++ rest)
                  (Some (map (fun f => Ok (en_record f)) l ++ more, after)) = Ok it /\
    Forall2 (entry_feature xy_dims) l xs /\
    forall s1 s2 t1 t2,
      feed p1 (FeatureSpec.dataset_obs false None xs) s1 = (t1, Ok tt) ->
      feed p2 (FeatureSpec.dataset_obs false None xs) s2 = (t2, Ok tt) ->
      consume ck leftover (multiplexer p1 p2) (S (length l)) it (s1, s2) = ((t1, t2), Some (Ok tt)).
Proof.
  intros ck leftover S1 S2 p1 p2 h l rest more after Hl Hh Hg Hp.
  destruct (shp_dataset ck leftover _ (multiplexer p1 p2) h l rest more after Hl Hh Hg eq_refl (takes_mux _ _ _ _ Hp))
    as (it & xs & E & Hx & H).
  exists it, xs. repeat split; auto. intros s1 s2 t1 t2 E1 E2. apply H.
  apply mux_dataset; auto. eapply entry_thru; exact Hx.
Qed.

(** ** Small files *)
(** a point with two attributes *)
Definition pair (a b : option string) : entry :=
  mkEntry [("a"%string, Character a); ("b"%string, Character b)] 1 (dot f1).
(** the second record has no [b] *)
Definition last_null : list entry := [pair (Some "1") (Some "2"); pair (Some "3") None]%string.
(** the second record has no [a] *)
Definition first_null : list entry := [pair (Some "1") (Some "2"); pair None (Some "4")]%string.
Lemma pair_ok : forall a b, entry_ok (pair a b).
Proof. assert (H0 : f64_ok f1) by reflexivity. intros a b. split; [unfold is_i32; cbn; lia|]. split; [vm_compute; reflexivity|]. cbn. repeat split; assumption. Qed.
Lemma nulls_ok : (Forall entry_ok last_null /\ announces two_dots_header last_null /\ Forall has_geometry last_null) /\
  (Forall entry_ok first_null /\ announces two_dots_header first_null /\ Forall has_geometry first_null).
Proof.
  split; (split; [repeat constructor; apply pair_ok|split; [split; vm_compute; reflexivity|repeat constructor]]).
Qed.
Lemma row_lost : forall ck leftover fmt32 fmt after, exists it s row,
  iter_features ck two_dots_header (shp_body last_null) (Some (map (fun f => Ok (en_record f)) last_null, after)) = Ok it /\
  consume ck leftover (csv_writer fmt32 fmt false xy_dims) 3 it csv_init = (s, Some (Ok tt)) /\
  o_records (cs_csv s) = [["geometry"; "a"; "b"]; [row; "1"; "2"]]%string /\ o_fields (cs_csv s) = [row; "3"]%string.
Proof.
  intros [] leftover fmt32 fmt after; eexists _, _, _;
    (split; [vm_compute; reflexivity|]; split; [vm_compute; reflexivity|]; split; vm_compute; reflexivity).
Qed.
Lemma row_panic : forall ck leftover fmt32 fmt debug after, exists it s,
  iter_features ck two_dots_header (shp_body first_null) (Some (map (fun f => Ok (en_record f)) first_null, after)) = Ok it /\
  consume ck leftover (csv_writer fmt32 fmt debug xy_dims) 3 it csv_init = (s, Some (Err EPanic)).
Proof.
  intros ck leftover fmt32 fmt debug after.
  destruct ck, debug; eexists _, _; (split; [vm_compute; reflexivity|]); vm_compute; reflexivity.
Qed.

(** a single record without a shape *)
Definition nowhere : list entry := [mkEntry [("a"%string, Logical (Some true))] 1 Null].
Definition nowhere_header : header := mkHeader 56 (repeat f0 8) Point 1000.
Lemma nowhere_ok : Forall entry_ok nowhere /\ announces nowhere_header nowhere.
Proof.
  split; [|split; vm_compute; reflexivity]. constructor; [|constructor]. split; [unfold is_i32; cbn; lia|].
  split; [vm_compute; reflexivity|exact I].
Qed.
Lemma nowhere_text : forall ck leftover fmt32 fmt d after, exists it out,
  iter_features ck nowhere_header (shp_body nowhere) (Some (map (fun f => Ok (en_record f)) nowhere, after)) = Ok it /\
  consume ck leftover (geojson_writer fmt32 fmt d) 2 it ""%string = (out, Some (Ok tt)) /\ parse_json out = None.
Proof.
  intros [] leftover fmt32 fmt d after; eexists _, _;
    (split; [vm_compute; reflexivity|]; split; [vm_compute; reflexivity|]; vm_compute; reflexivity).
Qed.

Lemma dots_met : Forall entry_ok two_dots /\ announces two_dots_header two_dots /\ Forall has_geometry two_dots /\
  Forall (fun f => map fst (offered (en_record f)) = ["name"; "note"]%string) two_dots /\
  Forall (fun f => Forall (fun c => finite_coord false (visible xy_dims c)) (positions (en_shape f)) /\
                   Forall (fun q => plain_text (fst q) = true /\ safe_value (snd q)) (offered (en_record f))) two_dots /\
  (forall gsize f g, In f two_dots -> represents xy_dims (en_shape f) g ->
     small g /\ tile_small gsize g /\ MvtSpec.drawable (transform plain_cfg) g = true).
Proof.
  split; [apply two_dots_ok|]. split; [apply two_dots_ok|]. split; [repeat constructor|]. split; [repeat constructor|].
  split.
  - repeat constructor; cbn; try discriminate; reflexivity.
  - intros gsize f g [<-|[<-|[]]] R; inversion R; subst; repeat split.
Qed.
Lemma island_met : Forall entry_ok (firstn 2 places) /\ Forall has_geometry (firstn 2 places) /\
  announces (mkHeader 352 (repeat f0 8) PolygonZ 1000) (firstn 2 places).
Proof.
  split; [apply Forall_forall; intros x Hx; eapply (proj1 (Forall_forall _ _) places_ok); cbn in *; tauto|].
  split; [repeat constructor|]. split; vm_compute; reflexivity.
Qed.
