(** CSV tables, line-delimited GeoJSON and GeoJSON documents as sources of several geometries
    (helper lemmas for C79). *)
From Coq Require Import String Ascii.
From Coq Require Import List NArith ZArith Lia Bool.
From Verif Require Import Base BaseLemmas Event EventLemmas Claims Geom SeveralSpec SeveralText SeveralJson SeveralBin.
From Verif Require Import WkbSpec WktModel WktSpec.
From Verif Require GeoModel GeoSpec GeoTop GeoJsonModel GeoJsonSpec GeoJsonRead GeoJsonMore GeoJsonErr CsvModel CsvSpec CsvTop JsonSpec.
From Verif Require WkbModel WkbClaims MvtModel MvtSpec GeosModel GeosSpec GdalModel GdalSpec.
Import ListNotations.
Local Open Scope list_scope.

Lemma carries_nothing : forall ps, (multi_dim xy_dims = true -> Forall (fun p : nat * geom => carries false false (snd p)) ps).
Proof. intros ps H. discriminate H. Qed.

Section Csv.
  Import CsvModel CsvSpec.
  Variables (parse : string -> option wkt) (column : string) (headers : list string) (gi : nat) (rs : list (list string)) (gs : list geom).
  Hypothesis Hc : first_at column headers gi.
  Hypothesis Hm : Forall2 (is_member parse gi) rs gs.
  Notation src := (fun d => process_csv_geom parse (multi_dim d) column (Ok headers) (map Ok rs)).
  Lemma csv_gathered : delivers src (fun multi => gathered multi (numbered gs)) (Ok tt).
  Proof.
    pose proof (CsvTop.read_geom parse column headers gi rs gs Hc Hm) as D. intros S p s. rewrite (D S p s).
    rewrite gathered_numbered. reflexivity.
  Qed.
  Lemma csv_wkt : forall fmt, to_wkt fmt src = Ok (wkt_text fmt false false (GCollection gs)).
  Proof.
    intros fmt. unfold to_wkt. 
    pose proof (to_wkt_gathered_exact unit src fmt PlainWkt xy_dims None [] (numbered gs) tt false false
      (fun _ => conj eq_refl eq_refl) (carries_nothing _) csv_gathered) as [_ X].
    rewrite numbered_snd in X. exact (X (numbered_order gs)).
  Qed.
  Lemma csv_geo : forall debug, Forall (fun g => GeoSpec.plain g = true /\ GeoSpec.small g) gs ->
    GeoModel.to_geo debug src = Ok (GeoModel.TCollection (map GeoSpec.value_of gs)).
  Proof.
    intros debug H. rewrite (to_geo_gathered debug src (numbered gs) tt); [|
      |exact csv_gathered].
    - rewrite <- (map_map snd GeoSpec.value_of), numbered_snd. reflexivity.
    - rewrite <- (numbered_snd gs), Forall_map in H. exact H.
  Qed.
  Lemma csv_json : forall fmt32 fmt num, GeoJsonSpec.json_format GeoJsonSpec.finite fmt num ->
    Forall (fun g => GeoJsonSpec.geojson_kind g = true /\ GeoJsonSpec.finite_geom false g) gs ->
    exists t j, GeoJsonModel.to_json fmt32 fmt src = Ok t /\ JsonSpec.parse_json t = Some j /\
      GeoJsonSpec.geometry_of num j = Some (GeoJsonSpec.kept_geom false (GCollection gs)).
  Proof.
    intros fmt32 fmt num F H.
    assert (U : Forall (usable xy_dims) (numbered gs)).
    { rewrite <- (numbered_snd gs), Forall_map in H. exact H. }
    destruct (json_gathered fmt32 fmt xy_dims num F (numbered gs) U (numbered_order gs)) as (t & j & R & P & G).
    exists t, j. split; [|split; [exact P|now rewrite numbered_snd in G]]. unfold GeoJsonModel.to_json.
    pose proof (csv_gathered _ (GeoJsonModel.geojson_writer fmt32 fmt xy_dims) ""%string) as D.
    cbn [p_dims GeoJsonModel.geojson_writer] in D. rewrite D. unfold GeoJsonModel.geojson_writer in *.
    change (multi_dim xy_dims) with false in *. rewrite R. reflexivity.
  Qed.
End Csv.

Section Lines.
  Import GeoJsonModel GeoJsonSpec.
  Variables (l : list gj) (ts : list (nat * geom)).
  Hypothesis Hn : Forall no_collection l.
  Hypothesis Ht : Forall2 member_of (line_members 0 l) ts.
  Notation src := (fun d => read_geojson_line_geometries (multi_dim d) (map Ok l)).
  Lemma lines_gathered : delivers src (fun multi => gathered multi ts) (Ok tt).
  Proof. exact (GeoJsonMore.lines_stream l ts Hn Ht). Qed.
  Lemma lines_wkt : forall fmt,
    to_wkt fmt src = Ok (wkt_text fmt false false (GCollection (map snd ts))) <-> in_order ts.
  Proof.
    intros fmt. unfold to_wkt.
    exact (to_wkt_gathered_exact unit src fmt PlainWkt xy_dims None [] ts tt false false
      (fun _ => conj eq_refl eq_refl) (carries_nothing _) lines_gathered).
  Qed.
  Lemma lines_geo : forall debug, Forall (fun p => GeoSpec.plain (snd p) = true /\ GeoSpec.small (snd p)) ts ->
    GeoModel.to_geo debug src = Ok (GeoModel.TCollection (map GeoSpec.value_of (map snd ts))).
  Proof. intros debug H. rewrite (to_geo_gathered debug src ts tt H lines_gathered), map_map. reflexivity. Qed.
  Lemma lines_json : forall fmt32 fmt num, json_format finite fmt num ->
    Forall (fun p => geojson_kind (snd p) = true /\ finite_geom false (snd p)) ts ->
    exists t, to_json fmt32 fmt src = Ok t /\
      (in_order ts -> exists j, JsonSpec.parse_json t = Some j /\
         geometry_of num j = Some (kept_geom false (GCollection (map snd ts)))) /\
      (~ in_order ts -> JsonSpec.parse_json t = None).
  Proof.
    intros fmt32 fmt num F U.
    pose proof (lines_gathered _ (geojson_writer fmt32 fmt xy_dims) ""%string) as D. cbn [p_dims geojson_writer] in D.
    assert (X : exists out, run (geojson_writer fmt32 fmt xy_dims) (gathered false ts) ""%string = (out, Ok tt)).
    { eexists. apply (gathered_emit fmt32 fmt xy_dims ts). eapply Forall_impl; [|exact U]. intros a A. apply A. }
    destruct X as (out & R). exists out. split; [|split].
    - unfold to_json. rewrite D. unfold geojson_writer in *. change (multi_dim xy_dims) with false. rewrite R. reflexivity.
    - intros O. destruct (json_gathered fmt32 fmt xy_dims num F ts U O) as (t & j & R' & P & G).
      change (multi_dim xy_dims) with false in R'. rewrite R in R'. injection R' as <-. exists j. split; [exact P|exact G].
    - intros O. destruct (json_gathered_bad fmt32 fmt xy_dims num F ts U O) as (t & R' & P).
      change (multi_dim xy_dims) with false in R'. rewrite R in R'. injection R' as <-. exact P.
  Qed.
End Lines.

Section Documents.
  Import GeoJsonModel GeoJsonSpec.
  Variables (g : gj) (ts : list geom).
  Hypothesis Ht : Forall2 (fun g t => tree_of g = Some t) (doc_members g) ts.
  Notation src := (fun d => read_geojson_geom (multi_dim d) (Ok g)).
  Lemma doc_parts : delivers src (fun multi => parts multi (numbered ts)) (Ok tt).
  Proof.
    pose proof (GeoJsonMore.view_stream g ts Ht) as D. intros S p s. rewrite (D S p s), numbered_parts. reflexivity.
  Qed.
  Lemma cat_numbered : forall (f : geom -> string) l,
    cat (map (fun p => lead (fst p) ++ f (snd p))%string (numbered l)) = String.concat "," (map f l).
  Proof. intros f l. rewrite (cat_order f (numbered l) (numbered_order l)), numbered_snd. reflexivity. Qed.
  Lemma doc_wkt : forall fmt, ts <> [] ->
    to_wkt fmt src = Ok (String.concat "," (map (wkt_text fmt false false) ts)).
  Proof.
    intros fmt N. unfold to_wkt.
    rewrite (to_wkt_parts unit src fmt PlainWkt xy_dims None [] (numbered ts) tt false false
      (fun _ => conj eq_refl eq_refl) (carries_nothing _)); [|destruct ts; cbn; congruence|exact doc_parts].
    now rewrite cat_numbered.
  Qed.
  Lemma doc_unreadable : forall fmt num, WktSpec.formats fmt num -> (2 <= length ts)%nat ->
    Forall (exactly false false) ts ->
    exists t, to_wkt fmt src = Ok t /\ parse_wkt num false false t = None.
  Proof.
    intros fmt num F L E. eexists. split; [apply doc_wkt; destruct ts; cbn in L; [lia|congruence]|].
    rewrite <- cat_numbered. destruct ts as [|a [|b l]]; [cbn in L; lia..|].
    inversion_clear E. unfold numbered. cbn [length seq combine].
    apply (several_unreadable fmt num false false (0%nat, a) (1%nat, b)); [exact F|assumption|cbn; lia|reflexivity].
  Qed.
  Lemma doc_json : forall fmt32 fmt num, json_format finite fmt num -> (2 <= length ts)%nat ->
    Forall (fun t => geojson_kind t = true /\ finite_geom false t) ts ->
    exists t js, to_json fmt32 fmt src = Ok t /\ JsonSpec.parse_json t = None /\
      JsonSpec.parse_json ("[" ++ t ++ "]")%string = Some (JsonSpec.JArr js) /\
      map (geometry_of num) js = map (fun t => Some (kept_geom false t)) ts.
  Proof.
    intros fmt32 fmt num F L H.
    assert (U : Forall (usable xy_dims) (numbered ts)).
    { rewrite <- (numbered_snd ts), Forall_map in H. exact H. }
    destruct (json_parts fmt32 fmt xy_dims num F (numbered ts) U (numbered_order ts)) as (t & js & R & P & G).
    change (multi_dim xy_dims) with false in *.
    exists t, js. repeat split.
    - unfold to_json. pose proof (doc_parts _ (geojson_writer fmt32 fmt xy_dims) ""%string) as D.
      cbn [p_dims geojson_writer] in D. rewrite D. unfold geojson_writer in *. change (multi_dim xy_dims) with false in *. rewrite R. reflexivity.
    - destruct ts as [|a [|b l]]; [cbn in L; lia..|]. unfold numbered in *. cbn [length seq combine] in *.
      destruct (json_parts_bad fmt32 fmt xy_dims num F _ _ _ U) as (t' & R' & P').
      change (multi_dim xy_dims) with false in R'. rewrite R in R'. injection R' as <-. exact P'.
    - exact P.
    - rewrite G, <- (map_map snd (fun t => Some (kept_geom false t))), numbered_snd. reflexivity.
  Qed.
End Documents.

(** ** Statements with the vocabulary spelled out *)
Section Out.
  Import SeveralBin.
  Lemma wkt_bare : forall A (src : dims -> prog A) fmt d ps r z m, ps <> [] ->
    (multi_dim d = false -> z = false /\ m = false) ->
    (multi_dim d = true -> Forall (fun p => carries z m (snd p)) ps) ->
    delivers src (fun multi => parts multi ps) (Ok r) ->
    to_wkt_ndim fmt src d = Ok (cat (map (fun p => lead (fst p) ++ wkt_text fmt z m (snd p))%string ps)).
  Proof.
    intros A src fmt d ps r z m N F H D. unfold to_wkt_ndim.
    exact (to_wkt_parts A src fmt PlainWkt d None [] ps r z m F H N D).
  Qed.
  Lemma wkt_gathered_iff : forall A (src : dims -> prog A) fmt d ps r z m,
    (multi_dim d = false -> z = false /\ m = false) ->
    (multi_dim d = true -> Forall (fun p => carries z m (snd p)) ps) ->
    delivers src (fun multi => gathered multi ps) (Ok r) ->
    (to_wkt_ndim fmt src d = Ok (wkt_text fmt z m (GCollection (map snd ps))) <-> in_order ps).
  Proof.
    intros A src fmt d ps r z m F H D. unfold to_wkt_ndim.
    exact (to_wkt_gathered_exact A src fmt PlainWkt d None [] ps r z m F H D).
  Qed.
  Lemma wkt_bare_lost : forall A (src : dims -> prog A) fmt num d ps r z m, WktSpec.formats fmt num ->
    in_order ps -> (2 <= length ps)%nat -> Forall (fun p => exactly z m (snd p)) ps ->
    (multi_dim d = false -> z = false /\ m = false) ->
    (multi_dim d = true -> Forall (fun p => carries z m (snd p)) ps) ->
    delivers src (fun multi => parts multi ps) (Ok r) ->
    exists t, to_wkt_ndim fmt src d = Ok t /\ parse_wkt num z m t = None.
  Proof.
    intros A src fmt num d ps r z m Fm O L E F H D. destruct ps as [|p [|q ps]]; [cbn in L; lia..|].
    eexists. split; [apply (wkt_bare A src fmt d (p :: q :: ps) r z m); [discriminate|exact F|exact H|exact D]|].
    inversion_clear E. destruct O as [O1 O2]. inversion_clear O2.
    now apply several_unreadable.
  Qed.
  Lemma mvt_both : forall gsize base64 debug extent l b r t (src : dims -> prog unit) c ps u,
    MvtModel.mvt_new extent l b r t = Ok c -> (gsize = 48 \/ gsize = 56)%N ->
    Forall (fun p => GeoSpec.plain (snd p) = true /\ MvtSpec.tile_small gsize (snd p) /\
                     MvtSpec.drawable (MvtModel.transform c) (snd p) = true) ps ->
    let tiles := map (fun p => MvtSpec.tile_of (MvtModel.transform c) (snd p)) ps in
    (delivers src (fun multi => gathered multi ps) (Ok u) ->
     MvtModel.to_mvt gsize base64 debug extent l b r t src = Ok (MvtModel.mkMFeature None (MvtModel.MCollection tiles) [])) /\
    (ps <> [] -> delivers src (fun multi => parts multi ps) (Ok u) ->
     MvtModel.to_mvt gsize base64 debug extent l b r t src =
     Ok (MvtModel.mkMFeature None (match tiles with [one] => one | _ => MvtModel.MCollection tiles end) [])).
  Proof.
    intros gsize base64 debug extent l b r t src c ps u N S H tiles.
    destruct (mvt_several gsize base64 debug extent l b r t src c ps u N S H) as [A B]. split; [exact A|].
    intros P D. rewrite (B P D). unfold joined_tile, tiles. rewrite <- (map_map snd). 
    destruct ps as [|p [|q ps]]; [congruence|reflexivity|reflexivity].
  Qed.
End Out.

Section DocumentsMore.
  Import GeoJsonModel GeoJsonSpec.
  Variables (g : gj) (ts : list geom).
  Hypothesis Ht : Forall2 (fun g t => tree_of g = Some t) (doc_members g) ts.
  Notation src := (fun d => read_geojson_geom (multi_dim d) (Ok g)).
  Lemma doc_geo : forall debug, ts <> [] -> forallb GeoSpec.plain ts = true -> Forall GeoSpec.small ts ->
    GeoModel.to_geo debug src = Ok (GeoSpec.joined ts).
  Proof.
    intros debug N P S. apply (GeoTop.to_geo_several debug src ts tt P S N). exact (GeoJsonMore.view_stream g ts Ht).
  Qed.
  Lemma doc_geos : forall lib t l, GeosSpec.sane lib -> ts = l ++ [t] ->
    Forall (fun t => GeosSpec.simple t = true /\ GeosSpec.short_geom t /\ GeosSpec.accepted lib t = true) ts ->
    GeosModel.to_geos lib src = Ok (GeosModel.mkVal (GeosSpec.gvalue t) 0%Z).
  Proof.
    intros lib t l L E H. pose proof doc_parts as D. specialize (D g ts Ht). rewrite <- (numbered_snd ts), Forall_map in H.
    assert (X : exists ps p, numbered ts = ps ++ [p] /\ snd p = t).
    { destruct (exists_last (l := numbered ts)) as (ps & p & Q).
      - intros Q. apply (f_equal (map snd)) in Q. rewrite numbered_snd, E in Q. destruct l; discriminate Q.
      - exists ps, p. split; [exact Q|]. apply (f_equal (map snd)) in Q. rewrite numbered_snd, E, map_app in Q.
        apply app_inj_tail in Q. now destruct Q as [_ ->]. }
    destruct X as (ps & p & Q & <-). rewrite Q in *. exact (SeveralBin.geos_last lib L src ps p tt H (or_introl D)).
  Qed.
  Lemma doc_gdal : forall t l, ts = l ++ [t] ->
    Forall (fun t => GdalSpec.simple t = true /\ GdalSpec.short_geom t) ts ->
    GdalModel.to_gdal src = Ok (GdalSpec.gvalue false t).
  Proof.
    intros t l E H. pose proof doc_parts as D. specialize (D g ts Ht). rewrite <- (numbered_snd ts), Forall_map in H.
    assert (X : exists ps p, numbered ts = ps ++ [p] /\ snd p = t).
    { destruct (exists_last (l := numbered ts)) as (ps & p & Q).
      - intros Q. apply (f_equal (map snd)) in Q. rewrite numbered_snd, E in Q. destruct l; discriminate Q.
      - exists ps, p. split; [exact Q|]. apply (f_equal (map snd)) in Q. rewrite numbered_snd, E, map_app in Q.
        apply app_inj_tail in Q. now destruct Q as [_ ->]. }
    destruct X as (ps & p & Q & <-). rewrite Q in *. exact (SeveralBin.gdal_last src ps p tt H (or_introl D)).
  Qed.
End DocumentsMore.
