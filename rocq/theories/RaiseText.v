(** Lemmas behind C86: what comes of reading GeoJSON and CSV. *)
From Coq Require Import String Ascii.
From Coq Require Import List NArith ZArith Lia Bool.
From Verif Require Import Base BaseLemmas Event Geom ProcModel Claims WktModel GeoJsonModel CsvModel GdalModel FaultSpec RaiseSpec RaiseTop.
Import ListNotations.
Local Open Scope list_scope.

Fixpoint outcome {A} (g : prog A) : res A :=
  match g with
  | Done r => r
  | Call _ k | CallIgn _ k => outcome k
  | CallProp _ _ _ k => outcome (k false)
  end.
Lemma outcome_run : forall A d (g : prog A) s, snd (exec (recorder d false) g s) = outcome g.
Proof. induction g as [r|e k IH|e k IH|i n v k IH]; intros s; cbn; auto. Qed.
Lemma outcome_comes : forall A (src : dims -> prog A) r, (forall d, outcome (src d) = r) -> comes_to src r.
Proof. intros A src r H d. rewrite outcome_run. apply H. Qed.
Lemma outcome_bind : forall A B (g : prog A) (f : A -> prog B), outcome (pbind g f) = res_bind (outcome g) (fun a => outcome (f a)).
Proof. induction g as [[a|x]|e k IH|e k IH|i n v k IH]; intros f; cbn; auto. Qed.
Lemma outcome_then : forall A (g : prog unit) (f : prog A), outcome (pthen g f) = res_bind (outcome g) (fun _ => outcome f).
Proof. intros. apply outcome_bind. Qed.
Lemma outcome_call : forall A e (f : prog A), outcome (pthen (pcall e) f) = outcome f.
Proof. reflexivity. Qed.
Definition verdict (o : option error) : res unit := match o with Some x => Err x | None => Ok tt end.
Lemma outcome_for : forall A (f : nat -> A -> prog unit) w l i, (forall k a, In a l -> outcome (f k a) = verdict (w a)) ->
  outcome (pfor f i l) = first_of (map w l).
Proof.
  induction l as [|a l IH]; intros i H; [reflexivity|]. cbn [pfor map first_of]. rewrite outcome_then, (H i a (or_introl eq_refl)).
  destruct (w a); [reflexivity|]. apply IH. intros k b Q. apply H. right. exact Q.
Qed.
Definition when (b : bool) : option error := if b then Some EPanic else None.
Lemma first_when : forall A (f : A -> bool) l, first_of (map (fun a => when (f a)) l) = verdict (when (existsb f l)).
Proof. intros A f. induction l as [|a l IH]; [reflexivity|]. cbn. destruct (f a); [reflexivity|exact IH]. Qed.
Lemma last_ok : forall r (k : res unit), k = Ok tt -> res_bind r (fun _ => k) = r.
Proof. intros [[]|x] k ->; reflexivity. Qed.
Lemma for_when : forall A (f : nat -> A -> prog unit) w l i, (forall k a, In a l -> outcome (f k a) = verdict (when (w a))) ->
  outcome (pfor f i l) = verdict (when (existsb w l)).
Proof. intros A f w l i H. rewrite (outcome_for _ f (fun a => when (w a)) l i H). apply first_when. Qed.

(** ** GeoJSON *)
Lemma coord_outcome : forall multi i p, outcome (gj_coord multi i p) = verdict (when (short p)).
Proof. intros multi i [|x [|y r]]; try reflexivity. unfold gj_coord. destruct multi; reflexivity. Qed.
Lemma line_outcome : forall multi t i l, outcome (gj_line multi t i l) = verdict (when (existsb short l)).
Proof.
  intros. unfold gj_line. rewrite outcome_call, outcome_then. rewrite last_ok by reflexivity.
  apply for_when. intros k a _. apply coord_outcome.
Qed.
Lemma exists_concat : forall A (f : A -> bool) l, existsb f (concat l) = existsb (existsb f) l.
Proof. induction l as [|a l IH]; [reflexivity|]. cbn. rewrite existsb_app, IH. reflexivity. Qed.
Lemma exists_flat : forall A B (f : B -> bool) (g : A -> list B) l, existsb f (flat_map g l) = existsb (fun a => existsb f (g a)) l.
Proof. induction l as [|a l IH]; [reflexivity|]. cbn. rewrite existsb_app, IH. reflexivity. Qed.
Lemma polygon_outcome : forall multi t i l, outcome (gj_polygon multi t i l) = verdict (when (existsb short (concat l))).
Proof.
  intros. unfold gj_polygon. rewrite outcome_call, outcome_then. rewrite last_ok by reflexivity. rewrite exists_concat.
  apply for_when. intros k a _. apply line_outcome.
Qed.
Lemma geom_outcome : forall multi g i, outcome (gj_geom_n multi i g) = verdict (when (short_geom g)).
Proof.
  intros multi. fix IH 1. intros [p|l|l|l|l|l|l] i; unfold short_geom; cbn [json_positions gj_geom_n].
  - rewrite outcome_call, outcome_then. rewrite last_ok by reflexivity. rewrite coord_outcome. cbn. rewrite orb_false_r. reflexivity.
  - rewrite outcome_call, outcome_then. rewrite last_ok by reflexivity. apply for_when. intros k a _. apply coord_outcome.
  - apply line_outcome.
  - rewrite outcome_call, outcome_then. rewrite last_ok by reflexivity. rewrite exists_concat. apply for_when. intros k a _. apply line_outcome.
  - apply polygon_outcome.
  - rewrite outcome_call, outcome_then. rewrite last_ok by reflexivity. rewrite !exists_concat. apply for_when. intros k a _.
    rewrite polygon_outcome, exists_concat. reflexivity.
  - rewrite outcome_call, outcome_then. rewrite last_ok by reflexivity. rewrite exists_flat. generalize 0.
    induction l as [|a l IHl]; intros k; [reflexivity|]. rewrite outcome_then, IH. unfold short_geom. cbn [existsb].
    destruct (existsb short (json_positions a)); [reflexivity|]. exact (IHl (S k)).
Qed.
Lemma property_outcome : forall ser i e, outcome (gj_property ser i e) = Ok tt.
Proof. intros ser i [k v]. unfold gj_property, offer_prop. destruct v; try reflexivity; destruct n; try reflexivity; destruct (N.leb _ _); reflexivity. Qed.
Lemma all_fine : forall A (l : list A), first_of (map (fun _ => None) l) = Ok tt.
Proof. induction l; auto. Qed.
Lemma properties_outcome : forall ser l, outcome (gj_properties ser l) = Ok tt.
Proof.
  intros. unfold gj_properties. rewrite (outcome_for _ _ (fun _ => None)); [apply all_fine|]. intros k a _. apply property_outcome.
Qed.
Lemma feature_outcome : forall ser multi i j f, outcome (gj_feature ser multi i j f) = verdict (when (short_feature f)).
Proof.
  intros. unfold gj_feature, short_feature. rewrite outcome_call, outcome_then.
  assert (P : outcome (when_some (gf_properties f) (fun m => pthen (pcall PropertiesBegin) (pthen (gj_properties ser m) (pcall PropertiesEnd)))) = Ok tt).
  { unfold when_some. destruct (gf_properties f); [|reflexivity]. rewrite outcome_call, outcome_then, properties_outcome. reflexivity. }
  rewrite P. cbn [res_bind]. rewrite outcome_then. rewrite last_ok by reflexivity. unfold when_some. destruct (gf_geometry f) as [g|]; [|reflexivity].
  rewrite outcome_call, outcome_then. rewrite last_ok by reflexivity. apply geom_outcome.
Qed.
Lemma doc_feature_outcome : forall ser multi i f, outcome (process_geojson_feature ser multi i f) = verdict (when (short_feature f)).
Proof.
  intros. unfold process_geojson_feature. rewrite outcome_call, outcome_then. rewrite last_ok by reflexivity.
  destruct (gf_geometry f) eqn:G, (gf_properties f) eqn:P; try apply feature_outcome. unfold short_feature. rewrite G. reflexivity.
Qed.
Theorem geojson_comes : forall ser doc, comes_to (fun d => read_geojson ser (multi_dim d) doc) (first_of [of_doc doc]).
Proof.
  intros ser doc. apply outcome_comes. intros d. unfold read_geojson, process_geojson. destruct doc as [[l|f|g]|x]; [| | |reflexivity].
  - rewrite outcome_call, outcome_then. rewrite last_ok by reflexivity. rewrite (for_when _ _ short_feature); [cbn; destruct (existsb _ _); reflexivity|].
    intros k a _. apply feature_outcome.
  - rewrite doc_feature_outcome. cbn. destruct (short_feature f); reflexivity.
  - rewrite geom_outcome. cbn. destruct (short_geom g); reflexivity.
Qed.
Theorem geojson_geom_comes : forall doc, comes_to (fun d => read_geojson_geom (multi_dim d) doc) (first_of [of_doc doc]).
Proof.
  intros doc. apply outcome_comes. intros d. unfold read_geojson_geom, process_geojson_geom, when_some. destruct doc as [[l|f|g]|x]; [| | |reflexivity].
  - rewrite (for_when _ _ short_geom) by (intros k a _; apply geom_outcome). cbn. rewrite exists_flat.
    replace (existsb (fun a => existsb short_geom match gf_geometry a with Some g => [g] | None => [] end) l) with (existsb short_feature l).
    + destruct (existsb short_feature l); reflexivity.
    + induction l as [|f l IH]; [reflexivity|]. cbn [existsb]. rewrite IH. f_equal. unfold short_feature. destruct (gf_geometry f); cbn; [|reflexivity].
      rewrite orb_false_r. reflexivity.
  - cbn. unfold short_feature. destruct (gf_geometry f) as [g|]; [|reflexivity]. rewrite geom_outcome. destruct (short_geom g); reflexivity.
  - rewrite geom_outcome. cbn. destruct (short_geom g); reflexivity.
Qed.
Theorem geojson_fc_comes : forall ser l, comes_to (fun d => read_geojson_fc ser (multi_dim d) l) (first_of (map of_feature l)).
Proof.
  intros ser l. apply outcome_comes. intros d. unfold read_geojson_fc. apply outcome_for. intros k [f|x] _; [|reflexivity].
  rewrite doc_feature_outcome. reflexivity.
Qed.
Theorem geojson_lines_come : forall ser l, comes_to (fun d => read_geojson_lines ser (multi_dim d) l) (first_of (map of_line l)).
Proof.
  intros ser l. apply outcome_comes. intros d. unfold read_geojson_lines. rewrite outcome_call, outcome_then. rewrite last_ok by reflexivity.
  apply outcome_for. intros k [[f|f|g]|x] _; try reflexivity; [apply feature_outcome|apply geom_outcome].
Qed.
Lemma lines_outcome : forall multi l b i, res_map (fun _ => tt) (outcome (gj_lines_geom multi b i l)) = first_of (map of_line l).
Proof.
  intros multi. induction l as [|x l IH]; intros b i; [reflexivity|]. cbn [gj_lines_geom map first_of].
  destruct x as [[f|f|g]|x]; try reflexivity.
  - cbn [of_line of_doc short_doc]. unfold short_feature. destruct (gf_geometry f) as [g|] eqn:G; [|apply IH].
    rewrite !outcome_then. replace (outcome (if b then pret tt else pcall (CollectionBegin 1 0))) with (Ok tt) by (destruct b; reflexivity).
    cbn [res_bind]. rewrite geom_outcome. unfold when. destruct (short_geom g); [reflexivity|]. apply IH.
  - cbn [of_line of_doc short_doc]. rewrite !outcome_then. replace (outcome (if b then pret tt else pcall (CollectionBegin 1 0))) with (Ok tt) by (destruct b; reflexivity).
    cbn [res_bind]. rewrite geom_outcome. unfold when. destruct (short_geom g); [reflexivity|]. apply IH.
Qed.
Theorem geojson_line_geometries_come : forall l, comes_to (fun d => read_geojson_line_geometries (multi_dim d) l) (first_of (map of_line l)).
Proof.
  intros l. apply outcome_comes. intros d. unfold read_geojson_line_geometries. rewrite outcome_bind.
  rewrite <- (lines_outcome (multi_dim d) l false 0). destruct (outcome (gj_lines_geom _ _ _ _)) as [[|]|x]; reflexivity.
Qed.

(** ** CSV *)
Lemma wkt_outcome : forall multi g i, outcome (process_wkt_geom_n multi i g) = Ok tt.
Proof.
  intros multi g i. destruct (outcome (process_wkt_geom_n multi i g)) as [[]|x] eqn:E; [reflexivity|].
  assert (F : forall A own (q : prog A) x, fin own q -> outcome q = Err x -> In x own).
  { clear. induction q as [[a|y]|e k IH|e k IH|j n v k IH]; intros x F E; cbn in *; try discriminate E; try (injection E as <-; exact F); try (apply IH; assumption); try (destruct F; fail).
    exact (IH false x (F false) E). }
  destruct (F _ [] _ _ (wkt_fin [] multi g i) E).
Qed.
Lemma column_found : forall name l i gi, position_of i name l = Some (i + gi) <-> is_column name l gi.
Proof.
  intros name. induction l as [|h l IH]; intros i gi; cbn [position_of].
  - split; [discriminate|]. intros [H _]. destruct gi; discriminate H.
  - destruct (String.eqb h name) eqn:E.
    + apply String.eqb_eq in E. subst h. split.
      * intros H. injection H as H. assert (gi = 0) as -> by lia. split; [reflexivity|]. intros k K. lia.
      * intros [H N]. destruct gi as [|gi]; [f_equal; lia|]. destruct (N 0); [lia|reflexivity].
    + apply String.eqb_neq in E. destruct gi as [|gi].
      * split.
        -- intros H. exfalso. assert (L : forall l i j, position_of i name l = Some j -> i <= j).
           { clear. induction l as [|h l IH]; intros i j H; [discriminate H|]. cbn in H. destruct (String.eqb h name); [injection H; lia|]. apply IH in H. lia. }
           apply L in H. lia.
        -- intros [H _]. cbn in H. injection H as ->. now elim E.
      * replace (i + S gi) with (S i + gi) by lia. rewrite IH. split; intros [H N]; (split; [exact H|]).
        -- intros [|k] K; [cbn; intros Q; injection Q as ->; now elim E|]. apply (N k). lia.
        -- intros k K. apply (N (S k)). lia.
Qed.
Lemma column_absent : forall name l i, position_of i name l = None <-> ~ In name l.
Proof.
  intros name. induction l as [|h l IH]; intros i; cbn; [tauto|]. destruct (String.eqb h name) eqn:E.
  - apply String.eqb_eq in E. split; [discriminate|]. intros H. elim H. left. exact E.
  - apply String.eqb_neq in E. rewrite IH. tauto.
Qed.
Lemma csv_row_outcome : forall parse multi gi h i r, outcome (csv_feature parse multi gi h i r) = verdict (of_record parse gi true r).
Proof.
  intros. unfold csv_feature. destruct r as [r|x]; [|reflexivity]. rewrite !outcome_call, outcome_then.
  rewrite (outcome_for _ _ (fun _ => None)) by reflexivity. rewrite all_fine. cbn [res_bind]. rewrite outcome_call. cbn [of_record].
  destruct (nth_error r gi) as [t|]; [|reflexivity]. rewrite outcome_then. rewrite last_ok by reflexivity. cbn [andb].
  destruct (String.eqb t ""); [reflexivity|]. rewrite outcome_call, outcome_then. rewrite last_ok by reflexivity. unfold read_wkt.
  destruct (parse t); [apply wkt_outcome|reflexivity].
Qed.
Theorem csv_comes : forall parse column headers records gi, is_column column headers gi ->
  comes_to (fun d => process_csv_features parse (multi_dim d) column (Ok headers) records) (first_of (map (of_record parse gi true) records)).
Proof.
  intros parse column headers records gi H. apply outcome_comes. intros d. unfold process_csv_features. rewrite outcome_call.
  rewrite (proj2 (column_found column headers 0 gi) H). rewrite outcome_then. rewrite last_ok by reflexivity.
  apply outcome_for. intros k a _. apply csv_row_outcome.
Qed.
Lemma csv_geoms_outcome : forall parse multi gi l b i,
  res_map (fun _ => tt) (outcome (csv_geoms parse multi gi b i l)) = first_of (map (of_record parse gi false) l).
Proof.
  intros parse multi gi. induction l as [|x l IH]; intros b i; [reflexivity|]. cbn [csv_geoms map first_of of_record].
  destruct x as [r|x]; [|reflexivity]. cbn [of_record]. destruct (nth_error r gi) as [t|]; [|reflexivity]. cbn [andb]. destruct (parse t); [|reflexivity].
  rewrite !outcome_then. replace (outcome (if b then pret tt else pcall (CollectionBegin 1 0))) with (Ok tt) by (destruct b; reflexivity).
  cbn [res_bind]. rewrite wkt_outcome. apply IH.
Qed.
Theorem csv_geometries_come : forall parse column headers records gi, is_column column headers gi ->
  comes_to (fun d => process_csv_geom parse (multi_dim d) column (Ok headers) records) (first_of (map (of_record parse gi false) records)).
Proof.
  intros parse column headers records gi H. apply outcome_comes. intros d. unfold process_csv_geom.
  rewrite (proj2 (column_found column headers 0 gi) H). rewrite outcome_bind. rewrite <- (csv_geoms_outcome parse (multi_dim d) gi records false 0).
  destruct (outcome (csv_geoms _ _ _ _ _ _)) as [[|]|x]; reflexivity.
Qed.
Theorem csv_headers_come : forall parse column headers records, (forall h, headers = Ok h -> ~ In column h) ->
  let x := match headers with Err x => x | Ok _ => ECsv 0 end in
  comes_to (fun d => process_csv_features parse (multi_dim d) column headers records) (Err x) /\
  comes_to (fun d => process_csv_geom parse (multi_dim d) column headers records) (Err x).
Proof.
  intros parse column [h|x] records H; [|split; intros d; reflexivity]. specialize (H h eq_refl).
  split; apply outcome_comes; intros d; unfold process_csv_features, process_csv_geom; rewrite ?outcome_call, (proj2 (column_absent column h 0) H); reflexivity.
Qed.
(** ** A reader and a writer together *)
Theorem conversion_fails : forall A (src : dims -> prog A) own S (p : proc S) s0 ways, adds src own -> fails_only p s0 ways ->
  forall s' x, exec p (src (p_dims p)) s0 = (s', Err x) -> In x own \/ exists o, In x (ways o).
Proof.
  intros A src own S p s0 ways HA HF s' x E. destruct (HA _ _ _ _ _ E) as [I|(l & o & L & F)]; [left; exact I|].
  right. exists o. apply (HF l o x L). rewrite F. reflexivity.
Qed.
