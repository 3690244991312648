(** What GeoJsonWriter and GeoJsonLineWriter write (helper lemmas for C21-C26). *)
From Coq Require Import String Ascii.
From Coq Require Import List NArith ZArith Lia Bool.
From Coq Require Import Numbers.DecimalString Numbers.DecimalFacts Numbers.DecimalPos Numbers.DecimalN.
From Verif Require Import Base BaseLemmas Event EventLemmas Claims Geom WkbSpec ProcModel ProcSpec ProcTop
  JsonSpec JsonLemmas FeatureSpec GeoJsonModel GeoJsonSpec.
Import ListNotations.
Local Open Scope list_scope.
Local Open Scope string_scope.

Definition comma_text (k : nat) : string := if Nat.ltb 0 k then "," else "".
Lemma comma_put : forall out k, gj_comma out k = out ++ comma_text k.
Proof. intros out [|k]; cbn; [now rewrite sapp_nil|reflexivity]. Qed.

Lemma escape_quotes : forall t, escape t = esc_quotes t.
Proof.
  induction t as [|c t IH]; [reflexivity|]. cbn [escape esc_quotes]. rewrite IH.
  replace (is_quote c) with (Ascii.eqb c """"); [reflexivity|].
  destruct c as [[] [] [] [] [] [] [] []]; reflexivity.
Qed.

Lemma collection_events : forall multi idx l,
  gevents multi idx (GCollection l) =
  (CollectionBegin (length l) idx :: flat_mapi (gevents multi) 0 l ++ [CollectionEnd idx])%list.
Proof.
  intros multi idx l. cbn [gevents]. f_equal. f_equal. generalize 0%nat.
  induction l as [|a l IH]; intros i; cbn [flat_mapi]; [reflexivity|]. now rewrite IH.
Qed.
Lemma coords_events : forall multi l, ev_coords multi l = flat_mapi (fun k c0 => [ev_coord multi k c0]) 0 l.
Proof. intros. unfold ev_coords. now rewrite flat_mapi_mapi. Qed.

Section Text.
  Variable fmt : f64 -> string.
  Variable multi : bool.

  Definition ctext (c : coord) : string :=
    "[" ++ fmt (cx c) ++ "," ++ fmt (cy c) ++
    (if multi then match cz c with Some z => "," ++ fmt z | None => "" end else "") ++ "]".
  Definition arr (l : list string) : string := "[" ++ concat_sep "," l ++ "]".
  Definition obj (kind member text : string) : string := kind_open kind member "" ++ text ++ "}".
  Definition ltext (l : line) : string := arr (map ctext l).
  Definition rtext (r : rings) : string := arr (map ltext r).
  Fixpoint gtext (g : geom) : string :=
    match g with
    | GPoint c => obj "Point" "coordinates" (ctext c)
    | GEmptyPoint => obj "Point" "coordinates" "[]"
    | GMultiPoint l => obj "MultiPoint" "coordinates" (arr (map ctext l))
    | GLineString l => obj "LineString" "coordinates" (arr (map ctext l))
    | GMultiLineString l => obj "MultiLineString" "coordinates" (arr (map ltext l))
    | GPolygon r => obj "Polygon" "coordinates" (arr (map ltext r))
    | GMultiPolygon l => obj "MultiPolygon" "coordinates" (arr (map rtext l))
    | GCollection l => obj "GeometryCollection" "geometries" (arr (map gtext l))
    | _ => ""
    end.
End Text.

Section Writer.
  Variable fmt32 : N -> string.
  Variable fmt : f64 -> string.
  Variable d : dims.
  Notation W := (geojson_writer fmt32 fmt d).
  Notation multi := (multi_dim d).

  Definition emits (l : list event) (t : string) : Prop := forall out, run W l out = (out ++ t, Ok tt).

  Lemma coord_emit : forall k c, emits [ev_coord multi k c] (comma_text k ++ ctext fmt multi c).
  Proof.
    intros k c out. unfold ev_coord, ctext. destruct multi; cbn [run p_step geojson_writer gj_step];
    rewrite comma_put, !sapp_assoc; reflexivity.
  Qed.

  Lemma members_emit : forall A (ev : nat -> A -> list event) (tx : A -> string) l i,
    (forall k a, In a l -> emits (ev k a) (comma_text k ++ tx a)) ->
    emits (flat_mapi ev i l) (if Nat.ltb 0 i then sep_all "," (map tx l) else concat_sep "," (map tx l)).
  Proof.
    induction l as [|a l IH]; intros i H out; cbn [flat_mapi].
    - destruct i; cbn; now rewrite sapp_nil.
    - rewrite run_app, (H i a (or_introl eq_refl) out).
      rewrite (IH (S i)) by (intros; apply H; now right). f_equal.
      destruct i; cbn [Nat.ltb Nat.leb comma_text map concat_sep sep_all fold_right append];
        rewrite !sapp_assoc; reflexivity.
  Qed.

  Lemma container_emit : forall A b e idx opn cls (ev : nat -> A -> list event) (tx : A -> string) l,
    (forall out, gj_step fmt out b = (gj_comma out idx ++ opn ++ "[", Ok tt)) ->
    (forall out, gj_step fmt out e = (out ++ "]" ++ cls, Ok tt)) ->
    (forall k a, In a l -> emits (ev k a) (comma_text k ++ tx a)) ->
    emits (b :: flat_mapi ev 0 l ++ [e])%list (comma_text idx ++ opn ++ arr (map tx l) ++ cls).
  Proof.
    intros A b e idx opn cls ev tx l Hb He Hl out. cbn [app run geojson_writer p_step]. rewrite Hb.
    rewrite run_app. rewrite (members_emit A ev tx l 0 Hl). cbn [Nat.ltb Nat.leb run p_step geojson_writer].
    rewrite He, comma_put. unfold arr. rewrite !sapp_assoc. reflexivity.
  Qed.

  Lemma coords_ok : forall l k (a : coord), In a l ->
    emits [ev_coord multi k a] (comma_text k ++ ctext fmt multi a).
  Proof. intros. apply coord_emit. Qed.

  Lemma line_emit : forall k l, emits (ev_line multi false k l) (comma_text k ++ ltext fmt multi l).
  Proof.
    intros k l. unfold ev_line. rewrite coords_events.
    pose proof (container_emit _ (LineStringBegin false (length l) k) (LineStringEnd false k) k "" ""
      _ _ l (fun _ => eq_refl) (fun _ => eq_refl) (coords_ok l)) as H.
    rewrite sapp_nil in H. exact H.
  Qed.
  Lemma polygon_emit : forall k r, emits (ev_polygon multi false k r) (comma_text k ++ rtext fmt multi r).
  Proof.
    intros k r. unfold ev_polygon.
    pose proof (container_emit _ (PolygonBegin false (length r) k) (PolygonEnd false k) k "" ""
      (ev_line multi false) (ltext fmt multi) r (fun _ => eq_refl) (fun _ => eq_refl) (fun k a _ => line_emit k a)) as H.
    rewrite sapp_nil in H. exact H.
  Qed.

  Lemma geom_emit : forall g idx, geojson_kind g = true ->
    emits (gevents multi idx g) (comma_text idx ++ gtext fmt multi g).
  Proof.
    induction g using geom_ind'; intros idx K; try discriminate K.
    - intros out. change (gevents multi idx (GPoint c))
        with ([PointBegin idx] ++ [ev_coord multi 0 c] ++ [PointEnd idx])%list.
      rewrite run_app. cbn [run p_step geojson_writer gj_step].
      rewrite run_app, (coord_emit 0 c). cbn [run p_step geojson_writer gj_step].
      rewrite comma_put. cbn [gtext comma_text Nat.ltb Nat.leb append]. unfold obj.
      rewrite !sapp_assoc. reflexivity.
    - intros out. cbn [gevents run p_step geojson_writer gj_step]. rewrite comma_put, !sapp_assoc. reflexivity.
    - cbn [gevents gtext]. rewrite coords_events. unfold obj.
      exact (container_emit _ (MultiPointBegin (length l) idx) (MultiPointEnd idx) idx
        (kind_open "MultiPoint" "coordinates" "") "}" _ _ l (fun _ => eq_refl) (fun _ => eq_refl) (coords_ok l)).
    - cbn [gevents gtext]. unfold ev_line. rewrite coords_events. unfold obj.
      exact (container_emit _ (LineStringBegin true (length l) idx) (LineStringEnd true idx) idx
        (kind_open "LineString" "coordinates" "") "}" _ _ l (fun _ => eq_refl) (fun _ => eq_refl) (coords_ok l)).
    - cbn [gevents gtext]. unfold obj.
      exact (container_emit _ (MultiLineStringBegin (length l) idx) (MultiLineStringEnd idx) idx
        (kind_open "MultiLineString" "coordinates" "") "}" _ _ l (fun _ => eq_refl) (fun _ => eq_refl)
        (fun k a _ => line_emit k a)).
    - cbn [gevents gtext]. unfold obj, ev_polygon.
      exact (container_emit _ (PolygonBegin true (length l) idx) (PolygonEnd true idx) idx
        (kind_open "Polygon" "coordinates" "") "}" _ _ l (fun _ => eq_refl) (fun _ => eq_refl)
        (fun k a _ => line_emit k a)).
    - cbn [gevents gtext]. unfold obj.
      exact (container_emit _ (MultiPolygonBegin (length l) idx) (MultiPolygonEnd idx) idx
        (kind_open "MultiPolygon" "coordinates" "") "}" _ _ l (fun _ => eq_refl) (fun _ => eq_refl)
        (fun k a _ => polygon_emit k a)).
    - rewrite collection_events.
      change (gtext fmt multi (GCollection l))
        with (obj "GeometryCollection" "geometries" (arr (map (gtext fmt multi) l))). unfold obj.
      apply (container_emit _ (CollectionBegin (length l) idx) (CollectionEnd idx) idx
        (kind_open "GeometryCollection" "geometries" "") "}"); try reflexivity.
      intros k a Ha. rewrite Forall_forall in H. apply H; [exact Ha|].
      cbn [geojson_kind] in K. rewrite forallb_forall in K. auto.
  Qed.
End Writer.

(** ** The JSON value of the text *)
Lemma kind_denotes : forall kind mem t j,
  plain_text kind = true -> esc_quotes kind = kind -> plain_text mem = true -> esc_quotes mem = mem ->
  denotes t j -> denotes (obj kind mem t) (JObj [("type", JStr kind); (mem, j)]).
Proof.
  intros kind mem t j K1 K2 M1 M2 D.
  assert (E : obj kind mem t =
    "{" ++ concat_sep ", " [member_text "type" (quoted (esc_quotes kind)); member_text mem t] ++ "}").
  { unfold obj, kind_open, concat_sep, sep_all, member_text, quoted. cbn [fold_right].
    rewrite K2, M2, !sapp_nil. cbn [append esc_quotes]. rewrite !sapp_assoc. cbn [append].
    rewrite !sapp_assoc. cbn [append]. rewrite ?sapp_assoc. reflexivity. }
  rewrite E. apply denotes_obj; try reflexivity; [|apply joins_space].
  constructor; [apply member_ok; [reflexivity|now apply denotes_str]|].
  constructor; [now apply member_ok|constructor].
Qed.

Lemma arr_denotes : forall A (tx : A -> string) (f : A -> json) l,
  (forall a, In a l -> denotes (tx a) (f a)) -> denotes (arr (map tx l)) (JArr (map f l)).
Proof.
  intros. unfold arr. apply denotes_arr; try reflexivity; [now apply Forall2_map_l|apply joins_comma].
Qed.

Section Value.
  Variable fmt : f64 -> string.
  Variable num : string -> option f64.
  Variable z : bool.
  Hypothesis F : json_format finite fmt num.

  Definition cjson (c : coord) : json :=
    JArr (JNum (fmt (cx c)) :: JNum (fmt (cy c)) ::
          (if z then match cz c with Some v => [JNum (fmt v)] | None => [] end else [])).
  Definition ljson (l : line) : json := JArr (map cjson l).
  Definition rjson (r : rings) : json := JArr (map ljson r).
  Definition ojson (kind mem : string) (j : json) : json := JObj [("type", JStr kind); (mem, j)].
  Fixpoint gjson (g : geom) : json :=
    match g with
    | GPoint c => ojson "Point" "coordinates" (cjson c)
    | GEmptyPoint => ojson "Point" "coordinates" (JArr [])
    | GMultiPoint l => ojson "MultiPoint" "coordinates" (JArr (map cjson l))
    | GLineString l => ojson "LineString" "coordinates" (JArr (map cjson l))
    | GMultiLineString l => ojson "MultiLineString" "coordinates" (JArr (map ljson l))
    | GPolygon r => ojson "Polygon" "coordinates" (JArr (map ljson r))
    | GMultiPolygon l => ojson "MultiPolygon" "coordinates" (JArr (map rjson l))
    | GCollection l => ojson "GeometryCollection" "geometries" (JArr (map gjson l))
    | _ => JNull
    end.

  Lemma ctext_denotes : forall c, finite_coord z c -> denotes (ctext fmt z c) (cjson c).
  Proof.
    intros c (Hx & Hy & Hz).
    assert (E : ctext fmt z c = "[" ++ concat_sep "," (fmt (cx c) :: fmt (cy c) ::
       (if z then match cz c with Some v => [fmt v] | None => [] end else [])) ++ "]").
    { unfold ctext, concat_sep, sep_all. cbn [fold_right].
      destruct z; [destruct (cz c)|]; cbn [fold_right]; rewrite !sapp_assoc, ?sapp_nil; reflexivity. }
    rewrite E. apply denotes_arr; try reflexivity; [|apply joins_comma].
    constructor; [apply denotes_num, F, Hx|]. constructor; [apply denotes_num, F, Hy|].
    destruct z; [|constructor]. specialize (Hz eq_refl). destruct (cz c) as [v|]; [|constructor].
    constructor; [apply denotes_num, F, Hz|constructor].
  Qed.
  Lemma ltext_denotes : forall l, Forall (finite_coord z) l -> denotes (ltext fmt z l) (ljson l).
  Proof.
    intros l H. apply arr_denotes. intros a Ha. apply ctext_denotes. rewrite Forall_forall in H. auto.
  Qed.
  Notation on := (on_line (finite_coord z) (fun _ => True)).
  Lemma lines_denotes : forall l, Forall on l -> denotes (arr (map (ltext fmt z) l)) (JArr (map ljson l)).
  Proof.
    intros l H. apply arr_denotes. intros a Ha. apply ltext_denotes. rewrite Forall_forall in H.
    apply (H a Ha).
  Qed.
  Lemma gtext_denotes : forall g, geojson_kind g = true -> finite_geom z g -> denotes (gtext fmt z g) (gjson g).
  Proof.
    induction g using geom_ind'; intros K G; try discriminate K; cbn [gtext gjson];
      apply kind_denotes; try reflexivity.
    - apply ctext_denotes, G.
    - apply parse_denotes. reflexivity.
    - apply arr_denotes. intros a Ha. apply ctext_denotes. destruct G as [_ G]. rewrite Forall_forall in G. auto.
    - apply arr_denotes. intros a Ha. apply ctext_denotes. destruct G as [_ G]. rewrite Forall_forall in G. auto.
    - apply lines_denotes, G.
    - apply lines_denotes, G.
    - apply arr_denotes. intros a Ha. apply lines_denotes. destruct G as [_ G]. rewrite Forall_forall in G.
      apply (G a Ha).
    - apply arr_denotes. intros a Ha. rewrite Forall_forall in H. apply H; [exact Ha| |].
      + cbn [geojson_kind] in K. rewrite forallb_forall in K. auto.
      + destruct G as [_ G]. clear -G Ha. induction l as [|b l IH]; [contradiction|].
        destruct G as [G1 G2], Ha as [<-|Ha]; auto.
  Qed.

  (** ** Decoding it again *)
  Lemma all_map : forall A B C (f : A -> B) (h : B -> option C) (k : A -> C) l,
    (forall a, In a l -> h (f a) = Some (k a)) -> all h (map f l) = Some (map k l).
  Proof.
    induction l as [|a l IH]; intros H; cbn [map all]; [reflexivity|].
    rewrite (H a (or_introl eq_refl)), IH by (intros; apply H; now right). reflexivity.
  Qed.
  Lemma position_ok : forall c, finite_coord z c -> position num (cjson c) = Some (kept z c).
  Proof.
    intros c (Hx & Hy & Hz). unfold position, cjson, kept.
    destruct (F _ Hx) as [_ ->]. destruct (F _ Hy) as [_ ->].
    destruct z; [|reflexivity]. specialize (Hz eq_refl). destruct (cz c) as [v|]; [|reflexivity].
    destruct (F _ Hz) as [_ ->]. reflexivity.
  Qed.
  Lemma positions_ok : forall l, Forall (finite_coord z) l ->
    items (position num) (ljson l) = Some (map (kept z) l).
  Proof.
    intros l H. unfold items, ljson. apply all_map. rewrite Forall_forall in H. intros. apply position_ok; auto.
  Qed.
  Lemma lines_ok : forall l, Forall on l ->
    items (items (position num)) (JArr (map ljson l)) = Some (map (map (kept z)) l).
  Proof.
    intros l H. unfold items at 1. apply all_map. rewrite Forall_forall in H. intros a Ha.
    apply positions_ok, (H a Ha).
  Qed.
  Lemma gjson_ok : forall g, geojson_kind g = true -> finite_geom z g ->
    geometry_of num (gjson g) = Some (kept_geom z g).
  Proof.
    induction g using geom_ind'; intros K G; try discriminate K.
    - cbn -[point]. unfold coordinates_of. cbn -[point]. unfold point. 
      unfold cjson at 1. rewrite (position_ok c) by apply G. reflexivity.
    - reflexivity.
    - cbn -[items]. unfold coordinates_of. cbn -[items].
      change (JArr (map cjson l)) with (ljson l). rewrite positions_ok by apply G. reflexivity.
    - cbn -[items]. unfold coordinates_of. cbn -[items].
      change (JArr (map cjson l)) with (ljson l). rewrite positions_ok by apply G. reflexivity.
    - cbn -[items]. unfold coordinates_of. cbn -[items]. rewrite lines_ok by apply G. reflexivity.
    - cbn -[items]. unfold coordinates_of. cbn -[items]. rewrite lines_ok by apply G. reflexivity.
    - cbn -[items]. unfold coordinates_of. cbn -[items]. unfold items at 1.
      rewrite (all_map _ _ _ rjson _ (map (map (kept z)))); [reflexivity|].
      intros a Ha. apply lines_ok. destruct G as [_ G]. rewrite Forall_forall in G. apply (G a Ha).
    - cbn. unfold kept_geom. cbn [map_geom].
      match goal with |- option_map _ (?e (map gjson l)) = _ => assert (X : e (map gjson l) = Some (map (map_geom GPoint (kept z)) l)) end.
      { destruct G as [_ G]. cbn [geojson_kind] in K. induction l as [|a l IH]; [reflexivity|].
        cbn [map]. cbn [forallb] in K. apply andb_true_iff in K. destruct K as [Ka Kl], G as [Ga Gl].
        inversion H as [|? ? Ha Hl]; subst. rewrite (Ha Ka Ga), (IH Hl Kl Gl). reflexivity. }
      rewrite X. reflexivity.
  Qed.
End Value.
