(** Witnesses for claim C69: tools that follow the grammars, a dataset, and one that is lost. *)
From Coq Require Import String Ascii DecimalString.
From Coq Require Import List NArith ZArith Lia Bool Sorted.
From Verif Require Import Base BaseLemmas Event EventLemmas Claims Geom WkbModel WkbSpec WkbTop WktModel WktSpec WktTop
  ProcSpec ProcTop FeatureSpec JsonSpec JsonLemmas GeoJsonModel GeoJsonSpec GeoJsonWrite GeoJsonTop GeoJsonLines GeoJsonRead GeoJsonMore
  CsvModel CsvSpec CsvTop ChainSpec ChainTop FilesSpec FilesTop.
Import ListNotations.
Local Open Scope list_scope.
Local Open Scope string_scope.

(** ** A parser for feature objects *)
Definition as_number (s : string) : jvalue :=
  match option_map Z.of_int (NilZero.int_of_string s) with
  | Some z => JvNumber (if (z <? 0)%Z then NNegInt z else NPosInt (Z.to_N z))
  | None => JvNull
  end.
Definition as_value (j : json) : jvalue :=
  match j with JStr s => JvString s | JBool b => JvBool b | JNum s => as_number s | _ => JvNull end.
Definition as_feature (num : string -> option f64) (j : json) : gjfeature :=
  match j with
  | JObj [_; (_, JObj l); (_, g)] =>
      mkGjFeature (option_map as_geojson (geometry_of num g)) (Some (map (fun m => (fst m, as_value (snd m))) l))
  | _ => mkGjFeature None None
  end.
Definition as_document (num : string -> option f64) (j : json) : gj :=
  match j with
  | JObj ((_, JStr "Feature") :: _) => GjFeature (as_feature num j)
  | JObj [_; (_, JArr l)] | JObj [_; _; (_, JArr l)] => GjFeatures (map (as_feature num) l)
  | _ => GjFeatures []
  end.
Definition some_tools (debug : bool) : tools :=
  mkTools debug show_num show_num show_bits (fun _ => "")
    (fun t => match parse_json t with Some j => Ok (as_document read_num j) | None => Err EGeometry end)
    (fun t => option_map as_wkt (parse_wkt read_bits false false t)).

Lemma stable_read : forall num32 num ser v j, stable v -> value_json num32 num v j -> value_of ser (as_value j) v.
Proof.
  intros num32 num ser v j S V. inversion V; subst; cbn [stable] in S; try contradiction; cbn [as_value]; try constructor.
  unfold as_number. destruct H as [-> _]. destruct (Z.ltb_spec z 0); [constructor|].
  rewrite <- (Z2N.id z) at 2 by lia. constructor. rewrite Z2N.id; lia.
Qed.
Lemma members_read : forall num32 num ser l k ms, map (fun q => fst (fst q)) l = seq k (length l) ->
  Forall (fun q => plain_text (snd (fst q)) = true /\ stable (snd q)) l ->
  Forall2 (fun q m => snd (fst q) = fst m /\ value_json num32 num (snd q) (snd m)) l ms ->
  delivered ser k (map (fun m => (fst m, as_value (snd m))) ms) l.
Proof.
  intros num32 num ser l. induction l as [|[[i n] v] l IH]; intros k ms Z V M.
  - inversion M. constructor.
  - inversion M as [|? [n' j] ? ms' [A B] M']; subst. cbn [fst snd] in *. subst n'.
    cbn [map length seq fst] in Z. injection Z as -> Z. inversion_clear V as [|? ? [_ V1] V2]. cbn [fst snd map] in *.
    constructor; [eapply stable_read; eassumption|]. now apply IH.
Qed.
Lemma feature_read : forall num32 num ser f j, json_feature f -> feature_json num32 num true f j ->
  is_feature_of ser (as_feature num j) f.
Proof.
  intros num32 num ser f j (l & g & P & G & [O _] & V & K & N & _ & KT) (props & geo & OB & A & B).
  rewrite P, G in *. destruct props as [ms|]; [|contradiction]. destruct geo as [x|]; [|contradiction].
  unfold is_object in OB. cbn in OB, A, B. subst j. unfold is_feature_of, as_feature. rewrite P, G. cbn [gf_properties gf_geometry same_option]. split.
  - eapply members_read; eassumption.
  - rewrite B, KT. cbn. rewrite as_geojson_tree by assumption. now rewrite KT.
Qed.
Lemma some_geojson_tool : forall debug num32, geojson_tool (some_tools debug) num32 read_num.
Proof.
  intros debug num32. split.
  - intros text j name fs P (js & O & A) R. cbn [t_geojson some_tools]. rewrite P.
    exists (map (as_feature read_num) js). split.
    + f_equal. unfold is_object in O. subst j. destruct name; reflexivity.
    + clear P O. revert R. induction A as [|f x l js A _ IH]; intros R; [constructor|].
      inversion_clear R. cbn [map]. constructor; [eapply feature_read; eassumption|auto].
  - intros text j f P A R. cbn [t_geojson some_tools]. rewrite P.
    exists (as_feature read_num j). split; [|eapply feature_read; eassumption].
    destruct A as (props & geo & O & _). unfold is_object in O. subst j. destruct props, geo; reflexivity.
Qed.
Lemma some_wkt_tool : forall debug, wkt_tool (some_tools debug) read_bits.
Proof.
  intros debug text g P K. cbn [t_wkt some_tools]. rewrite P. eexists. split; [reflexivity|]. now apply as_wkt_geom.
Qed.
Lemma some_one_line : forall debug, one_line (some_tools debug).
Proof. intros debug. split; apply show_num_line. Qed.

(** ** A dataset *)
Definition village (n : string) (g : geom) : feature :=
  mkFeature (Some [(0%nat, "name", CString n); (1%nat, "pop", CString "12")]) (Some g).
Definition villages : list feature :=
  [village "A""B" (GPoint (mkC 1%N 2%N None None));
   village "C" (GPolygon [[mkC 0%N 0%N None None; mkC 1%N 0%N None None; mkC 0%N 0%N None None]; []])].
Definition some_files : list file := [LinesFile; CsvFile; GeoJsonFile xyz_dims; CsvFile; LinesFile; LinesFile; GeoJsonFile xy_dims].
Lemma villages_json : Forall json_feature villages.
Proof.
  repeat constructor; (eexists; eexists; repeat (split; [reflexivity|]); split;
    [split; [reflexivity|repeat constructor]|]; split; [repeat constructor|]; repeat (split; [reflexivity || concrete|]); reflexivity).
Qed.
Lemma villages_csv : Forall csv_feature villages.
Proof.
  repeat constructor; (eexists; split; [reflexivity|]; split; [repeat constructor; eexists; reflexivity|];
    repeat (split; [reflexivity || concrete|]); concrete).
Qed.
Lemma villages_columns : Forall (has_columns ["name"; "pop"]) villages.
Proof. repeat constructor. Qed.
Lemma villages_flat : forall z, Forall (fun x => option_map (kept_geom z) (f_geom x) = f_geom x) villages.
Proof. intros [|]; repeat constructor. Qed.
Lemma some_files_passed : passes villages (fun _ => 0%nat) (Some "towns") some_files.
Proof.
  pose proof villages_json as J. pose proof villages_csv as C. pose proof villages_columns as H.
  assert (C1 : forall gi name, accepts villages gi name CsvFile).
  { intros gi name. split; [discriminate|]. split; [exact C|]. eexists; exact H. }
  assert (L1 : forall name, accepts villages (fun _ => 0%nat) name LinesFile).
  { intros name. split; [exact J|]. split; [apply villages_flat|reflexivity]. }
  assert (G1 : forall d name, safe_name name -> accepts villages (fun _ => 0%nat) name (GeoJsonFile d)).
  { intros d name N. split; [exact J|]. split; [apply villages_flat|]. split; [exact N|reflexivity]. }
  cbn [passes some_files numbers]. repeat (split; [first [apply C1|apply L1|apply G1; exact I]|]). exact I.
Qed.

(** ** Lines and CSV in any order *)
Lemma kept_flat : forall g, geojson_kind g = true -> exactly false false g -> kept_geom false g = g.
Proof.
  unfold kept_geom. intros g K X. apply exactly_flat in X. revert g K X.
  assert (C : forall c : coord, cz c = None /\ cm c = None -> kept false c = c).
  { intros [x y z m] [A B]. cbn in *. now subst. }
  assert (L : forall l : line, Forall (fun c => cz c = None /\ cm c = None) l -> map (kept false) l = l).
  { intros l H. apply WkbReadTop.map_id_in. rewrite Forall_forall in H. auto. }
  assert (R : forall l : rings, Forall (fun l => True /\ Forall (fun c => cz c = None /\ cm c = None) l) l -> map (map (kept false)) l = l).
  { intros l H. apply WkbReadTop.map_id_in. rewrite Forall_forall in H. intros a A. apply L, H, A. }
  intros g. induction g using geom_ind'; intros K X; try discriminate K; cbn [map_geom]; try reflexivity.
  - f_equal. apply C. apply X.
  - f_equal. apply L. apply X.
  - f_equal. apply L. apply X.
  - f_equal. apply R. apply X.
  - f_equal. apply R. apply X.
  - f_equal. destruct X as [_ X]. apply WkbReadTop.map_id_in. rewrite Forall_forall in X. intros a A. apply R, (X a A).
  - apply WkbRead.on_geom_collection in X. destruct X as [_ X]. f_equal. cbn [geojson_kind] in K. revert K X.
    induction H as [|a l A _ IH]; intros K X; [reflexivity|]. cbn [forallb] in K. apply andb_prop in K. destruct K as [K1 K2].
    inversion_clear X as [|? ? X1 X2]. cbn [map]. now rewrite (A K1 X1), (IH K2 X2).
Qed.
Lemma passes_lines_csv : forall l fs name, l <> [] -> Forall json_feature l -> Forall csv_feature l ->
  (exists names, Forall (has_columns names) l) -> Forall (fun f => f = LinesFile \/ f = CsvFile) fs ->
  passes l (fun _ => 0%nat) name fs.
Proof.
  intros l fs name NE J C H A. revert name.
  assert (K : Forall (fun x => option_map (kept_geom false) (f_geom x) = f_geom x) l).
  { clear - J C. revert C. induction J as [|f l (ps & g & P & G & _ & _ & KD & _) _ IH]; intros C; [constructor|].
    inversion_clear C as [|? ? C1 C2]. constructor; [|now apply IH]. destruct C1 as (ps' & _ & _ & X). rewrite G in *.
    destruct X as (_ & X & _ & _). cbn. f_equal. now apply kept_flat. }
  induction A as [|f fs A _ IH]; intros name; [exact I|].
  cbn [passes]. destruct A as [->| ->]; cbn [numbers].
  - split; [|apply IH]. split; [exact J|]. split; [exact K|reflexivity].
  - split; [|apply IH]. split; [exact NE|]. split; [exact C|exact H].
Qed.

(** ** A GeoJSON file made from a GeoJSON file *)
Definition nowhere : feature := mkFeature (Some []) (Some (GMultiPoint [])).
Lemma geojson_twice : Forall json_feature [nowhere; nowhere] /\
  (forall z, Forall (fun x => option_map (kept_geom z) (f_geom x) = f_geom x) [nowhere; nowhere]) /\
  forall fmt32 fmt d src, arrives src (fun i => i) None [nowhere; nowhere] ->
    exists out, exec (geojson_writer fmt32 fmt d) (src d) EmptyString = (out, Ok tt) /\ parse_json out = None.
Proof.
  split; [|split].
  - repeat constructor; (eexists; eexists; repeat (split; [reflexivity|]); split;
    [split; [reflexivity|constructor]|]; split; [constructor|]; repeat (split; [reflexivity || concrete|]); reflexivity).
  - intros z. repeat constructor.
  - intros fmt32 fmt d src H. pose proof (H _ (geojson_writer fmt32 fmt d) EmptyString) as E.
    cbn [p_dims geojson_writer] in E. eexists. split; [rewrite E; reflexivity|]. vm_compute. reflexivity.
Qed.

Lemma lines_csv_chain : forall t num32 num wnum,
  json_format finite32 (t_format32 t) num32 -> json_format GeoJsonSpec.finite (t_format t) num -> formats (t_wkt_format t) wnum ->
  geojson_tool t num32 num -> wkt_tool t wnum -> one_line t ->
  forall fs src name l, l <> [] -> Forall json_feature l -> Forall csv_feature l ->
  (exists names, Forall (has_columns names) l) -> Forall (fun f => f = LinesFile \/ f = CsvFile) fs -> fs <> [] ->
  delivers_obs src (fun multi => dataset_obs multi name l) (Ok tt) ->
  exists src', all_through t fs src = Ok src' /\ delivers_obs src' (fun multi => dataset_obs multi None l) (Ok tt).
Proof.
  intros t num32 num wnum F32 F WF GT WT OL fs src name l NE J C HC A NF H.
  destruct (files_chain t num32 num wnum F32 F WF GT WT OL fs src (fun _ => 0%nat) name l
              (passes_lines_csv l fs name NE J C HC A) H) as (src' & E & D).
  exists src'. split; [exact E|].
  assert (Z : finally_numbered (fun _ => 0%nat) fs = fun _ => 0%nat).
  { clear - A. induction A as [|f fs B _ IH]; [reflexivity|]. cbn [finally_numbered].
    destruct B as [->| ->]; exact IH. }
  rewrite Z in D. destruct fs; [congruence|exact D].
Qed.
Lemma some_tools_met : forall debug, let t := some_tools debug in
  json_format finite32 (t_format32 t) read_num /\ json_format GeoJsonSpec.finite (t_format t) read_num /\
  formats (t_wkt_format t) read_bits /\ geojson_tool t read_num read_num /\ wkt_tool t read_bits /\ one_line t /\
  passes villages (fun _ => 0%nat) (Some "towns"%string) some_files /\ Forall json_feature villages /\ Forall csv_feature villages.
Proof.
  intros debug t. split; [apply show_num_ok|]. split; [apply show_num_ok|]. split; [exact bits_format|].
  split; [apply some_geojson_tool|]. split; [apply some_wkt_tool|]. split; [apply some_one_line|].
  split; [apply some_files_passed|]. split; [apply villages_json|apply villages_csv].
Qed.
