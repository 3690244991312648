(** Shapefiles into the writers (helper lemmas for C60 and C61). *)
From Coq Require Import String Ascii.
From Coq Require Import List NArith ZArith Lia Bool.
From Verif Require Import Base BaseLemmas Event Claims Geom FeatureSpec ProcModel WkbSpec JsonSpec GeoJsonModel GeoJsonSpec GeoJsonTop
  CsvModel CsvSpec CsvTop SvgModel SvgSpec SvgTop GeoModel GeoSpec GeoWkb MvtModel MvtSpec MvtWit
  ShpModel ShpSpec ShpTop ShpFeatures StopSpec StopTop.
Import ListNotations.
Local Open Scope list_scope.

(** ** Which writers take all properties *)
Lemma takes_geojson : forall fmt32 fmt d, takes_all (geojson_writer fmt32 fmt d).
Proof. intros fmt32 fmt d s i n v. cbn. unfold gj_prop. destruct v; discriminate. Qed.
Lemma takes_lines : forall fmt32 fmt, takes_all (geojson_line_writer fmt32 fmt).
Proof.
  intros fmt32 fmt s i n v. cbn. unfold gjl_prop.
  pose proof (takes_geojson fmt32 fmt xy_dims (snd s) i n v) as H. cbn in H.
  destruct (gj_prop fmt32 fmt (snd s) i n v) as [o r]. exact H.
Qed.
Lemma takes_csv : forall fmt32 fmt debug d, takes_all (csv_writer fmt32 fmt debug d).
Proof.
  intros fmt32 fmt debug d s i n v. cbn. unfold csv_prop. destruct (cs_written s); [|discriminate].
  destruct (nth_error (cs_headers s) (i + 1)) as [h|]; [|discriminate]. destruct (String.eqb n h); discriminate.
Qed.
Lemma takes_mvt : forall gsize base64 debug c, takes_all (mvt_writer gsize base64 debug c).
Proof. intros gsize base64 debug c s i n v. cbn. unfold mvt_prop. discriminate. Qed.
Lemma takes_map : forall fmt32 fmt, takes_all (property_map fmt32 fmt).
Proof. intros fmt32 fmt s i n v. cbn. discriminate. Qed.
Lemma takes_wrapped : forall S f (p : proc S), takes_all p -> takes_all (wrapped_xy f p).
Proof. intros S f p H. exact H. Qed.
Lemma takes_mux : forall S1 S2 (p1 : proc S1) (p2 : proc S2), takes_all p2 -> takes_all (multiplexer p1 p2).
Proof.
  intros S1 S2 p1 p2 H [s1 s2] i n v. cbn. pose proof (H s2 i n v) as N.
  destruct (p_prop p1 s1 i n v) as [t1 r1], (p_prop p2 s2 i n v) as [t2 r2]. destruct r1; cbn; [exact N|discriminate].
Qed.

(** ** Which processors ask to stop at once *)
Lemma stops_default : forall S d (f : S -> event -> S * res unit), stops_first (mkProc d f default_prop).
Proof. intros S d f s i n v. cbn. discriminate. Qed.
Lemma stops_mux : forall S1 S2 (p1 : proc S1) (p2 : proc S2), stops_first p2 -> stops_first (multiplexer p1 p2).
Proof.
  intros S1 S2 p1 p2 H [s1 s2] i n v. cbn. pose proof (H s2 i n v) as N.
  destruct (p_prop p1 s1 i n v) as [t1 r1], (p_prop p2 s2 i n v) as [t2 r2]. destruct r1; cbn; [exact N|discriminate].
Qed.
Lemma stops_feature : forall debug, stops_first (feature_writer debug).
Proof. intros debug s i n v. cbn. unfold feature_prop. repeat (match goal with |- context [match ?x with _ => _ end] => destruct x end; cbn); discriminate. Qed.

Definition seen_first (a : act) : list obs :=
  match a with
  | Tell e | Do e => [OEv e]
  | Offer l => mapi (fun k q => OProp k (fst q) (snd q)) 0 (firstn 1 l)
  end.
Section Stopping.
  Context {S : Type} (p : proc S) (Hp : stops_first p).
  Lemma perform_first : forall l s s', feed p (flat_map seen_first l) s = (s', Ok tt) -> perform p l s = (s', Ok tt).
  Proof.
    induction l as [|[e|e|q] l IH]; intros s s' H; cbn [perform flat_map seen_first feed app] in *.
    - exact H.
    - destruct (p_step p s e) as [s1 [[]|x]]; [now apply IH|discriminate].
    - destruct (p_step p s e) as [s1 [[]|x]]; [now apply IH|discriminate].
    - destruct q as [|[n v] q]; cbn [firstn mapi app feed offer fst snd] in *; [now apply IH|].
      pose proof (Hp s 0 n v) as N. destruct (p_prop p s 0 n v) as [s1 [[]|x]]; cbn [snd] in N.
      + now apply IH.
      + congruence.
      + discriminate.
  Qed.
End Stopping.
Lemma first_numbered : forall r,
  mapi (fun k q => OProp k (fst q) (snd q)) 0 (firstn 1 (offered r)) = map prop_obs (firstn 1 (numbered r)).
Proof. intros r. unfold numbered. destruct (offered r) as [|q t]; reflexivity. Qed.
Lemma first_do : forall l, flat_map seen_first (map Do l) = map OEv l.
Proof. induction l as [|e l IH]; cbn; [reflexivity|now rewrite IH]. Qed.
Lemma first_features : forall d l evs, plain_dims d -> Forall has_geometry l -> events_of d l evs ->
  exists xs, Forall2 (first_feature d) l xs /\
    forall i, flat_map seen_first (flat_mapi feature_acts i (combine l evs)) =
              flat_mapi (fun i f => FeatureSpec.feature_obs (multi_dim d) i 0 f) i xs.
Proof.
  intros d l evs Hd Hl H. induction H as [|f ev l evs Hf H IH].
  - exists []. split; [constructor|reflexivity].
  - inversion Hl as [|? ? Hg Hl']; subst. destruct (IH Hl') as (xs & Hx & E).
    destruct (shape_geometry d f ev Hd Hg Hf) as (g & Hr & ->).
    exists (mkFeature (Some (firstn 1 (numbered (en_record f)))) (Some g) :: xs). split.
    + constructor; [|exact Hx]. split; [reflexivity|]. exists g. split; [exact Hr|reflexivity].
    + intros i. cbn [combine flat_mapi]. rewrite flat_map_app, E. f_equal. unfold feature_acts, FeatureSpec.feature_obs.
      cbn [fst snd FeatureSpec.f_props f_geom]. rewrite !flat_map_app, first_do.
      cbn [flat_map seen_first]. rewrite first_numbered. cbn [app]. now rewrite <- !app_assoc.
Qed.
Lemma shp_first : forall ck leftover S (p : proc S) h l rest more after,
  Forall entry_ok l -> announces h l -> Forall has_geometry l -> plain_dims (p_dims p) -> stops_first p ->
  exists it xs, iter_features ck h (shp_body l ++ rest)
                  (Some (map (fun f => Ok (en_record f)) l ++ more, after)) = Ok it /\
    Forall2 (first_feature (p_dims p)) l xs /\
    forall s s', feed p (FeatureSpec.dataset_obs (multi_dim (p_dims p)) None xs) s = (s', Ok tt) ->
      consume ck leftover p (Datatypes.S (length l)) it s = (s', Some (Ok tt)).
Proof.
  intros ck leftover S p h l rest more after Hl Hh Hg Hd Hp. unfold announces in Hh. destruct Hh as [Hh1 Hh2].
  destruct (consume_from ck leftover S p rest more after (Z.to_N (h_length h * 2)) l 100 0 Hl) as (evs & He & Hc); [lia|lia|].
  destruct (first_features (p_dims p) l evs Hd Hg He) as (xs & Hx & E).
  eexists. exists xs. split; [apply iter_features_ok; lia|]. split; [exact Hx|].
  intros s s' H. specialize (Hc s). unfold in_front in Hc. etransitivity; [exact Hc|]. cbn [Nat.eqb].
  assert (P : perform p (file_acts (combine l evs)) s = (s', Ok tt)).
  { apply (perform_first p Hp). unfold file_acts. cbn [flat_map seen_first app]. rewrite flat_map_app, E. exact H. }
  unfold file_acts in P. cbn [app]. rewrite P. reflexivity.
Qed.

(** ** The two forms of a dataset *)
Lemma as_ftr : forall multi name xs,
  Forall (fun x => exists ps g, FeatureSpec.f_props x = Some ps /\ f_geom x = Some g) xs ->
  FeatureSpec.dataset_obs multi name xs = GeoSpec.dataset_obs multi name (map ftr_of xs).
Proof.
  intros multi name xs H. unfold FeatureSpec.dataset_obs, GeoSpec.dataset_obs. f_equal. f_equal.
  assert (E : forall i, flat_mapi (fun i f => FeatureSpec.feature_obs multi i 0 f) i xs =
                        flat_mapi (GeoSpec.feature_obs multi) i (map ftr_of xs)); [|apply E].
  induction H as [|x xs (ps & g & P & G) H IH]; intros i; cbn [flat_mapi map]; [reflexivity|]. rewrite IH. f_equal.
  unfold FeatureSpec.feature_obs, GeoSpec.feature_obs, ftr_of. rewrite P, G. cbn [fst snd flat_mapi app].
  rewrite app_nil_r. cbn [app]. rewrite <- !app_assoc. reflexivity.
Qed.
Lemma entry_both : forall d l xs, Forall2 (entry_feature d) l xs ->
  Forall (fun x => exists ps g, FeatureSpec.f_props x = Some ps /\ f_geom x = Some g) xs.
Proof. intros d l xs H. induction H as [|f x l xs (P & g & _ & G) H IH]; constructor; eauto. Qed.
Lemma first_both : forall d l xs, Forall2 (first_feature d) l xs ->
  Forall (fun x => exists ps g, FeatureSpec.f_props x = Some ps /\ f_geom x = Some g) xs.
Proof. intros d l xs H. induction H as [|f x l xs (P & g & _ & G) H IH]; constructor; eauto. Qed.
Lemma Forall2_back : forall A B (R : A -> B -> Prop) (P : A -> Prop) (Q : B -> Prop) l xs,
  (forall a b, R a b -> P a -> Q b) -> Forall2 R l xs -> Forall P l -> Forall Q xs.
Proof. intros A B R P Q l xs H F. induction F; intros G; inversion G; subst; constructor; eauto. Qed.

(** ** Positions *)
Lemma represents_on : forall d sh g (P : coord -> Prop), represents d sh g ->
  Forall (fun c => P (visible d c)) (positions sh) -> on_geom True (fun _ => True) P (fun _ => True) g.
Proof.
  intros d sh g P H. destruct H as [v c|v m e l|v m e parts|v m e rings polys (G & _)]; cbn [positions on_geom]; intros F.
  - inversion F; subst. now split.
  - split; [exact I|]. now rewrite Forall_map.
  - split; [exact I|]. rewrite Forall_map. rewrite Forall_concat in F. eapply Forall_impl; [|exact F].
    intros x Hx. split; [exact I|]. now rewrite Forall_map.
  - split; [exact I|]. subst rings. rewrite Forall_map. rewrite !Forall_concat in F. eapply Forall_impl; [|exact F].
    intros r Hr. split; [exact I|]. rewrite Forall_map. eapply Forall_impl; [|exact Hr].
    intros x Hx. split; [exact I|]. now rewrite Forall_map.
Qed.
Lemma represents_kind : forall d sh g, represents d sh g ->
  geojson_kind g = true /\ plain g = true /\ no_empty_point g = true.
Proof. intros d sh g H. destruct H; repeat split. Qed.

Lemma mapi_zero : forall A B (f : nat -> A -> B) (g : B -> nat) l n, (forall i a, g (f i a) = i) ->
  map g (mapi f n l) = seq n (length l).
Proof. intros A B f g l. induction l as [|a l IH]; intros n H; cbn; [reflexivity|]. now rewrite H, IH. Qed.
Lemma mapi_length : forall A B (f : nat -> A -> B) l n, length (mapi f n l) = length l.
Proof. intros A B f l. induction l as [|a l IH]; intros n; cbn; [reflexivity|]. now rewrite IH. Qed.
Lemma numbered_values : forall r (P : string -> colval -> Prop), Forall (fun q => P (fst q) (snd q)) (offered r) ->
  Forall (fun q => P (snd (fst q)) (snd q)) (numbered r).
Proof.
  intros r P. unfold numbered. generalize 0. induction (offered r) as [|q l IH]; intros n H; cbn; constructor; inversion H; subst; cbn; auto.
Qed.
Lemma numbered_names : forall r, map fst (numbered r) =
  combine (seq 0 (length (map fst (offered r)))) (map fst (offered r)).
Proof.
  intros r. unfold numbered. generalize 0. induction (offered r) as [|q l IH]; intros n; cbn; [reflexivity|]. now rewrite IH.
Qed.

(** ** Conversions *)
Lemma filter_all : forall A (f : A -> bool) l, (forall y, In y l -> f y = true) -> filter f l = l.
Proof. induction l as [|a l IH]; cbn; intros H; [reflexivity|]. rewrite (H a (or_introl eq_refl)), IH; auto. Qed.
Lemma shp_to_geojson : forall ck leftover fmt32 fmt num32 num d h l rest more after,
  Forall entry_ok l -> announces h l -> Forall has_geometry l -> plain_dims d ->
  json_format GeoJsonSpec.finite32 fmt32 num32 -> json_format GeoJsonSpec.finite fmt num ->
  Forall (fun f => Forall (fun c => finite_coord (multi_dim d) (visible d c)) (positions (en_shape f)) /\
                   Forall (fun q => plain_text (fst q) = true /\ safe_value (snd q)) (offered (en_record f))) l ->
  exists it xs out j, iter_features ck h (shp_body l ++ rest)
                  (Some (map (fun f => Ok (en_record f)) l ++ more, after)) = Ok it /\
    Forall2 (entry_feature d) l xs /\
    consume ck leftover (geojson_writer fmt32 fmt d) (S (length l)) it ""%string = (out, Some (Ok tt)) /\
    parse_json out = Some j /\ dataset_json num32 num (multi_dim d) None xs j.
Proof.
  intros ck leftover fmt32 fmt num32 num d h l rest more after Hl Hh Hg Hd F32 F Hs.
  destruct (shp_dataset ck leftover _ (geojson_writer fmt32 fmt d) h l rest more after Hl Hh Hg Hd (takes_geojson _ _ _))
    as (it & xs & E & Hx & H).
  destruct (dataset_written fmt32 fmt d num32 num F32 F None xs I) as (out & j & W & J & D).
  { eapply Forall2_back; [|exact Hx|exact Hs]. intros f x (P & g & R & G) (A & B).
    split; [rewrite P|rewrite G].
    - split; [|now apply (numbered_values _ (fun n v => plain_text n = true /\ safe_value v))].
      unfold from_zero, numbered. rewrite mapi_length. now apply mapi_zero.
    - split; [now destruct (represents_kind _ _ _ R)|]. eapply represents_on; [exact R|exact A]. }
  exists it, xs, out, j. repeat split; auto.
Qed.

Lemma shp_to_csv : forall ck leftover fmt32 fmt debug d ns h l rest more after,
  Forall entry_ok l -> announces h l -> Forall has_geometry l -> plain_dims d ->
  Forall (fun f => map fst (offered (en_record f)) = ns) l ->
  exists it xs s, iter_features ck h (shp_body l ++ rest)
                  (Some (map (fun f => Ok (en_record f)) l ++ more, after)) = Ok it /\
    Forall2 (entry_feature d) l xs /\
    consume ck leftover (csv_writer fmt32 fmt debug d) (S (length l)) it csv_init = (s, Some (Ok tt)) /\
    is_table fmt32 fmt (multi_dim d) ns xs (o_records (cs_csv s)).
Proof.
  intros ck leftover fmt32 fmt debug d ns h l rest more after Hl Hh Hg Hd Hn.
  destruct (shp_dataset ck leftover _ (csv_writer fmt32 fmt debug d) h l rest more after Hl Hh Hg Hd (takes_csv _ _ _ _))
    as (it & xs & E & Hx & H).
  destruct (CsvTop.dataset_feed fmt32 fmt debug d (fun _ => 0) None ns xs) as (s & W & T & _).
  { eapply Forall2_back; [|exact Hx|exact Hn]. intros f x (P & _) N. unfold has_columns, the_props. rewrite P.
    rewrite numbered_names, N. reflexivity. }
  exists it, xs, s. repeat split; auto.
Qed.

Lemma shp_to_svg : forall ck leftover fmt c h l rest more after,
  Forall entry_ok l -> announces h l -> Forall has_geometry l ->
  (forall x, XmlSpec.xml_plain (fmt x) = true) -> plain_style (sv_style c) ->
  exists it xs t, iter_features ck h (shp_body l ++ rest)
                  (Some (map (fun f => Ok (en_record f)) l ++ more, after)) = Ok it /\
    Forall2 (fun f x => exists g, represents xy_dims (en_shape f) g /\ f_geom x = Some g) l xs /\
    consume ck leftover (svg_writer fmt c) (S (length l)) it ""%string = (t, Some (Ok tt)) /\
    XmlSpec.parse_xml t = Some (document fmt c None xs).
Proof.
  intros ck leftover fmt c h l rest more after Hl Hh Hg F Hs.
  destruct (shp_first ck leftover _ (svg_writer fmt c) h l rest more after Hl Hh Hg eq_refl (stops_default _ _ _))
    as (it & xs & E & Hx & H).
  destruct (svg_dataset fmt c (fun _ => 0) None xs F I Hs) as (t & W & T).
  { eapply Forall2_back with (P := fun _ => True); [|exact Hx|now apply Forall_forall]. intros f x (_ & g & R & G) _. rewrite G.
    now destruct (represents_kind _ _ _ R) as (_ & _ & K). }
  exists it, xs, t. repeat split; auto.
  clear - Hx. induction Hx as [|f x l xs (_ & g & R & G) Hx IH]; constructor; eauto.
Qed.

Lemma shp_to_mvt : forall ck leftover gsize base64 debug c h l rest more after,
  Forall entry_ok l -> announces h l -> Forall has_geometry l ->
  (forall f g, In f l -> represents xy_dims (en_shape f) g ->
     tile_small gsize g /\ drawable (transform c) g = true) ->
  exists it s, iter_features ck h (shp_body l ++ rest)
                  (Some (map (fun f => Ok (en_record f)) l ++ more, after)) = Ok it /\
    consume ck leftover (mvt_writer gsize base64 debug c) (S (length l)) it mw_init = (s, Some (Ok tt)) /\
    Forall2 (fun f m => mf_id m = None /\
               (exists g, represents xy_dims (en_shape f) g /\ mf_geometry m = tile_of (transform c) g) /\
               Forall2 (fun q p => fst p = fst q /\ stored base64 (snd q) (snd p)) (offered (en_record f)) (mf_properties m))
      l (mw_features s).
Proof.
  intros ck leftover gsize base64 debug c h l rest more after Hl Hh Hg Hs.
  destruct (shp_dataset ck leftover _ (mvt_writer gsize base64 debug c) h l rest more after Hl Hh Hg eq_refl (takes_mvt _ _ _ _))
    as (it & xs & E & Hx & H).
  destruct (features_stored gsize base64 debug c None (map ftr_of xs)) as (s & W & T).
  { rewrite Forall_map. eapply Forall2_back with (P := fun f => In f l); [|exact Hx|now apply Forall_forall].
    intros f x (P & g & R & G) Hin. unfold ftr_of. rewrite P, G. cbn [snd forallb].
    destruct (represents_kind _ _ _ R) as (_ & K & _). destruct (Hs f g Hin R) as (A & B). rewrite K, B.
    repeat split; auto. }
  exists it, s. repeat split; auto.
  - apply H. rewrite (as_ftr _ _ _ (entry_both _ _ _ Hx)). exact W.
  - rewrite filter_all in T.
    2:{ intros y Hy. apply in_map_iff in Hy. destruct Hy as (x & <- & Hin).
        destruct (proj1 (Forall_forall _ _) (entry_both _ _ _ Hx) x Hin) as (ps & g & P & G). unfold ftr_of. now rewrite G. }
    clear - Hx T. revert T. generalize (mw_features s) as ms. induction Hx as [|f x l xs (P & g & R & G) Hx IH]; intros ms T; inversion T as [|? m ? ms' (I1 & I2 & I3) T']; subst; constructor; auto.
    split; [exact I1|]. unfold ftr_of in I2, I3. rewrite P, G in *. cbn [fst snd tile_joined] in *. split; [exists g; now split|].
    clear - I3. unfold numbered in I3. revert I3. generalize (mf_properties m). generalize 0.
    induction (offered (en_record f)) as [|q t IH]; intros n ps I3; cbn in I3; inversion I3 as [|? p ? ps' (A & B) I3']; subst; constructor; eauto.
Qed.

(** ** geo_types features *)
Lemma shp_to_geo : forall ck leftover debug h l rest more after,
  Forall entry_ok l -> announces h l -> Forall has_geometry l ->
  (forall f g, In f l -> represents xy_dims (en_shape f) g -> small g) ->
  exists it s, iter_features ck h (shp_body l ++ rest)
                  (Some (map (fun f => Ok (en_record f)) l ++ more, after)) = Ok it /\
    consume ck leftover (feature_writer debug) (S (length l)) it gf_init = (s, Some (Ok tt)) /\
    Forall2 (fun f (r : gt * props) =>
               (exists g, represents xy_dims (en_shape f) g /\ fst r = value_of g) /\
               snd r = firstn 1 (offered (en_record f)))
      l (f_features s).
Proof.
  intros ck leftover debug h l rest more after Hl Hh Hg Hs.
  destruct (shp_first ck leftover _ (feature_writer debug) h l rest more after Hl Hh Hg eq_refl (stops_feature _))
    as (it & xs & E & Hx & H).
  destruct (features_spec debug None (map ftr_of xs)) as (s & W & T).
  { rewrite Forall_map. eapply Forall2_back with (P := fun f => In f l); [|exact Hx|now apply Forall_forall].
    intros f x (P & g & R & G) Hin. unfold ftr_of. rewrite P, G. cbn [snd forallb].
    destruct (represents_kind _ _ _ R) as (_ & K & _). pose proof (Hs f g Hin R) as A. rewrite K.
    repeat split; auto. discriminate. }
  exists it, s. repeat split; auto.
  - apply H. rewrite (as_ftr _ _ _ (first_both _ _ _ Hx)). exact W.
  - clear - Hx T. revert T. generalize (f_features s) as ms. induction Hx as [|f x l xs (P & g & R & G) Hx IH]; intros ms T; inversion T as [|? m ? ms' (I1 & I2 & I3) T']; subst; constructor; auto.
    unfold ftr_of in I1, I3. rewrite P, G in *. cbn [fst snd joined] in *. split; [exists g; now split|].
    clear - I2 I3. unfold numbered in I3. destruct m as [v ps]. cbn [snd] in *.
    destruct (offered (en_record f)) as [|[n0 v0] t]; cbn [firstn mapi fst snd] in *.
    + destruct ps as [|[n w] ps]; [reflexivity|]. specialize (I3 n). cbn in I3. rewrite String.eqb_refl in I3. discriminate.
    + destruct ps as [|[n w] ps].
      * specialize (I3 n0). unfold last_value in I3. cbn in I3. rewrite String.eqb_refl in I3. discriminate.
      * pose proof (I3 n) as A. unfold last_value in A. cbn in A. rewrite String.eqb_refl in A.
        destruct (String.eqb_spec n0 n) as [->|]; [|discriminate]. cbn in A. injection A as ->. f_equal.
        destruct ps as [|[n1 w1] ps]; [reflexivity|]. exfalso. inversion I2 as [|? ? N _]; subst.
        specialize (I3 n1). unfold last_value in I3. cbn in I3. rewrite String.eqb_refl in I3.
        cbn in N. destruct (String.eqb_spec n n1) as [->|]; [apply N; now left|].
        cbn in I3. destruct (String.eqb_spec n1 n); [congruence|]. discriminate.
Qed.
