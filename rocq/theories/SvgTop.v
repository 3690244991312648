(** What SvgWriter writes (helper lemmas for C43). *)
From Coq Require Import String Ascii.
From Coq Require Import List NArith ZArith Lia Bool.
From Coq Require Import Numbers.DecimalString.
From Verif Require Import Base BaseLemmas Float Event EventLemmas Claims Geom ProcModel ProcSpec ProcTop
  FeatureSpec JsonLemmas GeoJsonWrite GeoJsonLines XmlSpec SvgModel SvgSpec.
Import ListNotations.
Local Open Scope list_scope.
Local Open Scope string_scope.

(** ** The text *)
Definition join (l : list string) : string := String.concat "" l.
Lemma join_cons : forall a l, join (a :: l) = a ++ join l.
Proof. intros a [|b l]; unfold join; cbn [String.concat]; [now rewrite sapp_nil|reflexivity]. Qed.
Lemma join_app : forall a b, join (a ++ b)%list = join a ++ join b.
Proof. induction a as [|x a IH]; intros b; [reflexivity|]. cbn [app]. now rewrite !join_cons, IH, sapp_assoc. Qed.

(** serialised nodes *)
Fixpoint show_node (n : node) : string :=
  match n with
  | Ch c => String c ""
  | Elem k a kids =>
      "<" ++ k ++ join (map (fun p => " " ++ fst p ++ "=""" ++ snd p ++ """") a) ++
      match kids with
      | [] => "/>"
      | _ => ">" ++ join (map show_node kids) ++ "</" ++ k ++ ">"
      end
  end.
Definition show_nodes (l : list node) : string := join (map show_node l).
Lemma show_app : forall a b, show_nodes (a ++ b)%list = show_nodes a ++ show_nodes b.
Proof. intros. unfold show_nodes. now rewrite map_app, join_app. Qed.
Lemma show_chars : forall s, show_nodes (chars s) = s.
Proof.
  induction s as [|c s IH]; [reflexivity|]. unfold show_nodes, chars in *. cbn [list_ascii_of_string map].
  rewrite join_cons, IH. reflexivity.
Qed.
Lemma show_flat : forall A (f : A -> list node) l, show_nodes (flat_map f l) = join (map (fun a => show_nodes (f a)) l).
Proof. induction l as [|a l IH]; [reflexivity|]. cbn [flat_map map]. now rewrite show_app, join_cons, IH. Qed.
Lemma show_path : forall d, show_nodes (path d) = "<path d=""" ++ d ++ """/>".
Proof. intros d. unfold show_nodes, path, join. cbn. rewrite ?sapp_assoc, ?sapp_nil. reflexivity. Qed.

Section Writer.
  Variable fmt : f64 -> string.
  Variable c : svgcfg.
  Notation W := (svg_writer fmt c).
  Notation pos := (position fmt (sv_invert c)).
  Notation poss := (positions fmt (sv_invert c)).
  Notation clo := (closed fmt (sv_invert c)).
  Notation drw := (drawing fmt (sv_invert c)).

  Definition emits (l : list event) (t : string) : Prop := forall out, run W l out = (out ++ t, Ok tt).
  Lemma emits_nil : emits [] "".
  Proof. intros out. cbn. now rewrite sapp_nil. Qed.
  Lemma emits_app : forall a b s t, emits a s -> emits b t -> emits (a ++ b) (s ++ t).
  Proof. intros a b s t A B out. now rewrite run_app, A, B, sapp_assoc. Qed.
  Lemma emits_one : forall e t, (forall out, svg_step fmt c out e = (out ++ t, Ok tt)) -> emits [e] t.
  Proof. intros e t H out. cbn [run p_step svg_writer]. now rewrite H. Qed.
  Lemma emits_wrap : forall b e l s t u, (forall out, svg_step fmt c out b = (out ++ s, Ok tt)) ->
    (forall out, svg_step fmt c out e = (out ++ u, Ok tt)) -> emits l t -> emits (b :: l ++ [e])%list (s ++ t ++ u).
  Proof.
    intros b e l s t u B E L. change (b :: l ++ [e])%list with ([b] ++ l ++ [e])%list.
    apply emits_app; [now apply emits_one|]. apply emits_app; [exact L|now apply emits_one].
  Qed.
  Lemma emits_flat : forall A (ev : nat -> A -> list event) (tx : A -> string) l i,
    (forall k a, In a l -> emits (ev k a) (tx a)) -> emits (flat_mapi ev i l) (join (map tx l)).
  Proof.
    induction l as [|a l IH]; intros i H; cbn [flat_mapi map]; [apply emits_nil|].
    rewrite join_cons. apply emits_app; [apply H; now left|apply IH; intros; apply H; now right].
  Qed.
  Lemma silent : forall e, (forall out : string, svg_step fmt c out e = (out, Ok tt)) ->
    forall out, svg_step fmt c out e = (out ++ "", Ok tt).
  Proof. intros e H out. now rewrite sapp_nil. Qed.

  Lemma coord_emit : forall k p, emits [ev_coord false k p] (pos p).
  Proof. intros. apply emits_one. intros out. reflexivity. Qed.
  Lemma coords_emit : forall l, emits (ev_coords false l) (poss l).
  Proof. intros. rewrite coords_events. apply (emits_flat _ _ pos). intros. apply coord_emit. Qed.
  Lemma line_emit : forall k l, emits (ev_line false false k l) (clo l).
  Proof. intros. apply emits_wrap; try reflexivity. apply coords_emit. Qed.
  Ltac quiet := apply silent; reflexivity.
  Lemma arc_emit : forall k l, emits (ev_arc false k l) (poss l).
  Proof.
    intros. rewrite <- (sapp_nil (poss l)). change (poss l ++ "") with ("" ++ poss l ++ "").
    apply emits_wrap; [quiet..|apply coords_emit].
  Qed.
  Lemma polygon_emit : forall k t r, emits (ev_polygon false t k r) (show_nodes (path (join (map clo r)))).
  Proof.
    intros. rewrite show_path. apply emits_wrap; try reflexivity. apply emits_flat. intros; apply line_emit.
  Qed.
  Lemma wrap_silent : forall b e l t, (forall out : string, svg_step fmt c out b = (out, Ok tt)) ->
    (forall out : string, svg_step fmt c out e = (out, Ok tt)) -> emits l t -> emits (b :: l ++ [e])%list t.
  Proof.
    intros b e l t B E L. rewrite <- (sapp_nil t). change (t ++ "") with ("" ++ t ++ "").
    apply emits_wrap; [now apply silent..|exact L].
  Qed.
  Lemma flat_nodes : forall A (ev : nat -> A -> list event) (ns : A -> list node) l i,
    (forall k a, In a l -> emits (ev k a) (show_nodes (ns a))) ->
    emits (flat_mapi ev i l) (show_nodes (flat_map ns l)).
  Proof. intros. rewrite show_flat. now apply emits_flat. Qed.
  Lemma segment_emit : forall k s, emits (ev_segment false k s) (show_nodes (segment_nodes fmt (sv_invert c) s)).
  Proof. intros k [l|l]; cbn [segment_nodes ev_segment]; rewrite show_chars; [apply line_emit|apply arc_emit]. Qed.
  Lemma compound_emit : forall k l, emits (ev_compound false k l)
    (show_nodes (flat_map (segment_nodes fmt (sv_invert c)) l)).
  Proof. intros. apply wrap_silent; try reflexivity. apply flat_nodes. intros; apply segment_emit. Qed.
  Lemma curve_emit : forall k s, emits (ev_curve false k s) (show_nodes (curve_nodes fmt (sv_invert c) s)).
  Proof.
    intros k [l|l|l]; cbn [curve_nodes ev_curve]; rewrite ?show_chars;
      [apply line_emit|apply arc_emit|apply compound_emit].
  Qed.
  Lemma curvepolygon_emit : forall k l, emits (ev_curvepolygon false k l)
    (show_nodes (flat_map (curve_nodes fmt (sv_invert c)) l)).
  Proof. intros. apply wrap_silent; try reflexivity. apply flat_nodes. intros; apply curve_emit. Qed.
  Lemma triangle_emit : forall k t r, emits (ev_triangle false t k r)
    (show_nodes (flat_map (fun l => chars (clo l)) r)).
  Proof.
    intros. apply wrap_silent; try reflexivity. apply flat_nodes. intros. rewrite show_chars. apply line_emit.
  Qed.

  Lemma geom_emit : forall g idx, no_empty_point g = true -> emits (gevents false idx g) (show_nodes (drw g)).
  Proof.
    induction g using geom_ind'; intros idx K; try discriminate K.
    7: { rewrite collection_events. cbn [drawing]. apply wrap_silent; try reflexivity. apply flat_nodes.
         intros k a Ha. rewrite Forall_forall in H. apply H; [exact Ha|]. cbn [no_empty_point] in K.
         rewrite forallb_forall in K. auto. }
    all: cbn [drawing gevents]; rewrite ?show_path, ?show_chars.
    - change [PointBegin idx; ev_coord false 0 c0; PointEnd idx]
        with (PointBegin idx :: [ev_coord false 0 c0] ++ [PointEnd idx])%list.
      replace ("<path d=""" ++ ("M " ++ pos c0 ++ "Z") ++ """/>")
        with ("<path d=""M " ++ pos c0 ++ "Z""/>") by (cbn [append]; now rewrite !sapp_assoc).
      apply emits_wrap; try reflexivity. apply coord_emit.
    - apply wrap_silent; try reflexivity. apply coords_emit.
    - apply emits_wrap; try reflexivity. apply coords_emit.
    - apply emits_wrap; try reflexivity. apply emits_flat. intros; apply line_emit.
    - rewrite <- show_path. apply polygon_emit.
    - apply wrap_silent; try reflexivity. apply flat_nodes. intros; apply polygon_emit.
    - apply arc_emit.
    - apply compound_emit.
    - apply curvepolygon_emit.
    - apply wrap_silent; try reflexivity. apply flat_nodes. intros; apply curve_emit.
    - apply wrap_silent; try reflexivity. apply flat_nodes. intros k [r|r] _; [apply polygon_emit|apply curvepolygon_emit].
    - apply triangle_emit.
    - apply wrap_silent; try reflexivity. apply flat_nodes. intros; apply polygon_emit.
    - apply wrap_silent; try reflexivity. apply flat_nodes. intros; apply triangle_emit.
  Qed.

  Definition drawable (f : feature) : Prop :=
    match f_geom f with Some g => no_empty_point g = true | None => True end.
  Lemma feature_feed : forall i gi f out, drawable f ->
    feed W (feature_obs false i gi f) out = (out ++ show_nodes (feature_drawing fmt c f), Ok tt).
  Proof.
    intros i gi f out K. unfold feature_obs, feature_drawing. cbn [feed p_step svg_writer svg_step].
    assert (P : forall l o, feed W (map prop_obs l) o = (o, Ok tt)).
    { clear. induction l as [|q l IH]; intros o; cbn; [reflexivity|apply IH]. }
    assert (P' : forall o, feed W (match f_props f with
       | Some l => OEv PropertiesBegin :: map prop_obs l ++ [OEv PropertiesEnd] | None => [] end)%list o = (o, Ok tt)).
    { intros o. destruct (f_props f); [|reflexivity]. cbn [feed p_step svg_writer svg_step default_step].
      rewrite feed_app, P. reflexivity. }
    rewrite feed_app, P', feed_app.
    assert (G : forall o, feed W (match f_geom f with
       | Some g => OEv GeometryBegin :: map OEv (gevents false gi g) ++ [OEv GeometryEnd] | None => [] end)%list o
       = (o ++ show_nodes (match f_geom f with Some g => drw g | None => [] end), Ok tt)).
    { intros o. unfold drawable in K. destruct (f_geom f) as [g|]; [|cbn; now rewrite sapp_nil].
      cbn [feed p_step svg_writer svg_step default_step]. rewrite feed_app, feed_run, (geom_emit g gi K).
      reflexivity. }
    rewrite G. cbn [feed p_step svg_writer svg_step]. rewrite sapp_nil.
    match goal with |- context [show_nodes (newline :: ?l)] => change (newline :: l) with ([newline] ++ l)%list end.
    rewrite show_app, sapp_assoc. reflexivity.
  Qed.
  Lemma features_feed : forall gi l i out, Forall drawable l ->
    feed W (flat_mapi (fun i f => feature_obs false i (gi i) f) i l) out =
    (out ++ show_nodes (flat_map (feature_drawing fmt c) l), Ok tt).
  Proof.
    induction l as [|f l IH]; intros i out H; cbn [flat_mapi flat_map].
    { cbn. now rewrite sapp_nil. }
    inversion H as [|? ? H1 H2]; subst. rewrite feed_app, feature_feed by exact H1. rewrite IH by exact H2.
    now rewrite show_app, sapp_assoc.
  Qed.

  Definition header_text (name : option string) : string := svg_header fmt c name.
  Lemma dataset_feed : forall gi name l out, Forall drawable l ->
    feed W (OEv (DatasetBegin name) :: flat_mapi (fun i f => feature_obs false i (gi i) f) 0 l ++ [OEv DatasetEnd])%list out =
    (out ++ svg_header fmt c name ++ show_nodes (flat_map (feature_drawing fmt c) l) ++
     svg_nl ++ "</g>" ++ svg_nl ++ "</svg>", Ok tt).
  Proof.
    intros gi name l out H. cbn [feed p_step svg_writer svg_step]. rewrite feed_app, features_feed by exact H.
    cbn [feed p_step svg_writer svg_step]. now rewrite !sapp_assoc.
  Qed.
End Writer.

(** ** Parsing it *)
Lemma lex_app : forall a b s, xml_lex s (a ++ b) =
  match xml_lex s a with
  | Some (s', ts) => match xml_lex s' b with Some (s'', ts') => Some (s'', ts ++ ts')%list | None => None end
  | None => None
  end.
Proof.
  induction a as [|x a IH]; intros b s; cbn [append xml_lex].
  - destruct (xml_lex s b) as [[s'' ts']|]; reflexivity.
  - destruct (xml_step s x) as [[s' ts]|]; [|reflexivity]. rewrite IH.
    destruct (xml_lex s' a) as [[s2 t2]|]; [|reflexivity].
    destruct (xml_lex s2 b) as [[s3 t3]|]; [|reflexivity]. now rewrite app_assoc.
Qed.
Lemma tree_app : forall a b st, xml_tree st (a ++ b)%list =
  match xml_tree st a with Some st' => xml_tree st' b | None => None end.
Proof.
  induction a as [|x a IH]; intros b st; cbn [app xml_tree]; [reflexivity|].
  destruct (xml_build st x); [apply IH|reflexivity].
Qed.
(** a text that is content and stands for these nodes *)
Definition adds (st : list xframe * list node) (l : list node) : list xframe * list node := fold_left (fun s n => xml_add n s) l st.
Definition stands (t : string) (l : list node) : Prop :=
  exists ts, xml_lex SContent t = Some (SContent, ts) /\ forall st, xml_tree st ts = Some (adds st l).
Lemma stands_nil : stands "" [].
Proof. exists []. split; [reflexivity|intros; reflexivity]. Qed.
Lemma stands_app : forall a b l m, stands a l -> stands b m -> stands (a ++ b) (l ++ m).
Proof.
  intros a b l m (ta & A1 & A2) (tb & B1 & B2). exists (ta ++ tb)%list. split.
  - now rewrite lex_app, A1, B1.
  - intros st. rewrite tree_app, A2, B2. unfold adds. now rewrite fold_left_app.
Qed.
Lemma style_content : forall s, content_plain s = true -> stands s (chars s).
Proof.
  induction s as [|x s IH]; intros H; [apply stands_nil|]. cbn [content_plain] in H. apply andb_true_iff in H.
  destruct H as [Hx Hs]. change (String x s) with (String x "" ++ s). change (chars (String x "" ++ s)) with ([Ch x] ++ chars s)%list.
  apply stands_app; [|now apply IH]. exists [XChar x]. split; [|reflexivity].
  rewrite !andb_true_iff, !negb_true_iff in Hx. destruct Hx as [H1 H2].
  cbn [xml_lex xml_step]. now rewrite H1, H2.
Qed.
Lemma plain_is_content : forall s, xml_plain s = true -> content_plain s = true.
Proof.
  induction s as [|x s IH]; cbn [xml_plain content_plain]; [reflexivity|]. unfold plain_c. rewrite !andb_true_iff.
  intros [[[A B] _] H]. auto.
Qed.
Lemma plain_content : forall s, xml_plain s = true -> stands s (chars s).
Proof. intros s H. apply style_content. now apply plain_is_content. Qed.
Lemma stands_parse : forall t l, stands t l -> parse_xml t = Some l.
Proof.
  intros t l (ts & H1 & H2). unfold parse_xml. rewrite H1, H2.
  assert (X : forall l top, adds ([], top) l = ([], top ++ l)%list).
  { clear. induction l as [|n l IH]; intros top; cbn; [now rewrite app_nil_r|]. unfold adds in IH. rewrite IH, <- app_assoc. reflexivity. }
  rewrite X. reflexivity.
Qed.
Lemma value_lex : forall v n a k acc, xml_plain v = true ->
  xml_lex (SValue n a k acc) (v ++ """") = Some (SAfter n (a ++ [(k, (acc ++ v)%string)]), [])%list.
Proof.
  induction v as [|x v IH]; intros n a k acc H; cbn [append].
  - cbn. now rewrite sapp_nil.
  - cbn [xml_plain] in H. apply andb_true_iff in H. destruct H as [Hx Hv].
    unfold plain_c in Hx. rewrite !andb_true_iff, !negb_true_iff in Hx. destruct Hx as [[H1 H2] H3].
    cbn [xml_lex xml_step]. rewrite H1, H2, H3. cbn [orb]. rewrite IH by exact Hv. unfold snoc.
    rewrite sapp_assoc. reflexivity.
Qed.
Lemma name_lex : forall k n a acc, forallb name_c (list_ascii_of_string k) = true ->
  xml_lex (SAttr n a acc) (k ++ "=""") = Some (SValue n a (acc ++ k) "", []).
Proof.
  induction k as [|x k IH]; intros n a acc H; cbn [append].
  - cbn. now rewrite sapp_nil.
  - cbn [list_ascii_of_string forallb] in H. apply andb_true_iff in H. destruct H as [Hx Hk].
    cbn [xml_lex xml_step]. rewrite Hx, IH by exact Hk. unfold snoc. now rewrite sapp_assoc.
Qed.
(** an attribute, with or without a blank before it *)
Lemma attr_lex : forall k v n a, k <> "" -> forallb name_c (list_ascii_of_string k) = true -> xml_plain v = true ->
  xml_lex (SAttrs n a) (k ++ "=""" ++ v ++ """") = Some (SAfter n (a ++ [(k, v)]), [])%list.
Proof.
  intros k v n a N K V. destruct k as [|x k]; [congruence|].
  cbn [list_ascii_of_string forallb] in K. apply andb_true_iff in K. destruct K as [Kx Kk].
  change (String x k ++ "=""" ++ v ++ """") with (String x (k ++ "=""" ++ v ++ """")). cbn [xml_lex xml_step].
  assert (B : blank x = false).
  { clear -Kx. destruct x as [[] [] [] [] [] [] [] []]; try discriminate Kx; reflexivity. }
  rewrite B, Kx.   replace (k ++ "=""" ++ v ++ """") with ((k ++ "=""") ++ v ++ """") by now rewrite sapp_assoc.
  rewrite lex_app, name_lex by exact Kk. rewrite value_lex by exact V. reflexivity.
Qed.
Lemma attr_blank_lex : forall k v n a, k <> "" -> forallb name_c (list_ascii_of_string k) = true -> xml_plain v = true ->
  xml_lex (SAttrs n a) (k ++ "=""" ++ v ++ """ ") = Some (SAttrs n (a ++ [(k, v)]), [])%list.
Proof.
  intros k v n a N K V. replace (k ++ "=""" ++ v ++ """ ") with ((k ++ "=""" ++ v ++ """") ++ " ")
    by (rewrite !sapp_assoc; reflexivity).
  rewrite lex_app, attr_lex by assumption. reflexivity.
Qed.

Lemma path_stands : forall d, xml_plain d = true -> stands ("<path d=""" ++ d ++ """/>") (path d).
Proof.
  intros d H. exists [XEmpty "path" [("d", d)]]. split; [|intros; reflexivity].
  replace ("<path d=""" ++ d ++ """/>") with ("<path " ++ ("d" ++ "=""" ++ d ++ """") ++ "/>").
  2: { cbn [append]. rewrite ?sapp_assoc. reflexivity. }
  rewrite lex_app. change (xml_lex SContent "<path ") with (Some (SAttrs "path" [], @nil xtoken)). cbn iota.
  rewrite lex_app, attr_lex by (try discriminate; auto). reflexivity.
Qed.

Lemma xml_plain_app : forall a b, xml_plain (a ++ b) = xml_plain a && xml_plain b.
Proof. induction a as [|x a IH]; intros b; cbn; [reflexivity|]. now rewrite IH, andb_assoc. Qed.
Lemma xml_plain_join : forall l, forallb xml_plain l = true -> xml_plain (join l) = true.
Proof.
  induction l as [|a l IH]; intros H; [reflexivity|]. cbn [forallb] in H. apply andb_true_iff in H.
  rewrite join_cons, xml_plain_app, (proj1 H), IH by apply H. reflexivity.
Qed.

Section Parse.
  Variable fmt : f64 -> string.
  Variable c : svgcfg.
  Hypothesis F : forall x, xml_plain (fmt x) = true.
  Notation pos := (position fmt (sv_invert c)).
  Notation poss := (positions fmt (sv_invert c)).
  Notation clo := (closed fmt (sv_invert c)).
  Notation drw := (drawing fmt (sv_invert c)).

  Lemma pos_plain : forall p, xml_plain (pos p) = true.
  Proof. intros. unfold position. now rewrite !xml_plain_app, !F. Qed.
  Lemma join_map_plain : forall A (f : A -> string) l, (forall a, xml_plain (f a) = true) -> xml_plain (join (map f l)) = true.
  Proof. intros A f l H. apply xml_plain_join. induction l; cbn; [reflexivity|]. now rewrite H. Qed.
  Lemma poss_plain : forall l, xml_plain (poss l) = true.
  Proof. intros. apply join_map_plain. apply pos_plain. Qed.
  Lemma clo_plain : forall l, xml_plain (clo l) = true.
  Proof. intros. unfold closed. now rewrite !xml_plain_app, poss_plain. Qed.
  (** nodes whose text stands for them *)
  Definition fine (l : list node) : Prop := stands (show_nodes l) l.
  Lemma fine_app : forall a b, fine a -> fine b -> fine (a ++ b).
  Proof. intros. unfold fine. rewrite show_app. now apply stands_app. Qed.
  Lemma fine_flat : forall A (f : A -> list node) l, (forall a, In a l -> fine (f a)) -> fine (flat_map f l).
  Proof.
    induction l as [|a l IH]; intros H; cbn [flat_map]; [apply stands_nil|].
    apply fine_app; [apply H; now left|apply IH; intros; apply H; now right].
  Qed.
  Lemma fine_chars : forall s, xml_plain s = true -> fine (chars s).
  Proof. intros. unfold fine. rewrite show_chars. now apply plain_content. Qed.
  Lemma fine_path : forall d, xml_plain d = true -> fine (path d).
  Proof. intros. unfold fine. rewrite show_path. now apply path_stands. Qed.
  Lemma fine_rings : forall r, fine (path (join (map clo r))).
  Proof. intros. apply fine_path. apply join_map_plain, clo_plain. Qed.
  Lemma fine_segment : forall s, fine (segment_nodes fmt (sv_invert c) s).
  Proof. intros []; apply fine_chars; [apply clo_plain|apply poss_plain]. Qed.
  Lemma fine_curve : forall s, fine (curve_nodes fmt (sv_invert c) s).
  Proof.
    intros []; cbn [curve_nodes]; try apply fine_chars; [apply clo_plain|apply poss_plain|].
    apply fine_flat. intros; apply fine_segment.
  Qed.
  Lemma fine_drawing : forall g, fine (drw g).
  Proof.
    induction g using geom_ind'; cbn [drawing].
    - apply fine_path. now rewrite !xml_plain_app, pos_plain.
    - apply stands_nil.
    - apply fine_chars, poss_plain.
    - apply fine_path, poss_plain.
    - apply fine_rings.
    - apply fine_rings.
    - apply fine_flat. intros; apply fine_rings.
    - apply fine_flat. rewrite Forall_forall in H. exact H.
    - apply fine_chars, poss_plain.
    - apply fine_flat. intros; apply fine_segment.
    - apply fine_flat. intros; apply fine_curve.
    - apply fine_flat. intros; apply fine_curve.
    - apply fine_flat. intros [r|r] _; [apply fine_rings|]. apply fine_flat. intros; apply fine_curve.
    - apply fine_flat. intros; apply fine_chars, clo_plain.
    - apply fine_flat. intros; apply fine_rings.
    - apply fine_flat. intros. apply fine_flat. intros; apply fine_chars, clo_plain.
  Qed.
  Lemma fine_features : forall l, fine (flat_map (feature_drawing fmt c) l).
  Proof.
    intros. apply fine_flat. intros f _. unfold feature_drawing.
    match goal with |- fine (newline :: ?l) => change (newline :: l) with ([newline] ++ l)%list end.
    apply fine_app.
    - unfold fine. exists [XChar (ascii_of_N 10)]. split; [reflexivity|intros; reflexivity].
    - destruct (f_geom f); [apply fine_drawing|apply stands_nil].
  Qed.

  Lemma int_plain : forall z, xml_plain (show_z z) = true.
  Proof.
    assert (U : forall u, xml_plain (NilEmpty.string_of_uint u) = true) by (induction u; cbn; auto).
    assert (V : forall u, xml_plain (NilZero.string_of_uint u) = true) by (intros []; [reflexivity|apply U..]).
    intros z. unfold show_z. destruct (Z.to_int z); cbn [NilZero.string_of_int]; [apply V|].
    cbn [xml_plain]. rewrite V. reflexivity.
  Qed.

  (** an element with content *)
  Lemma elem_stands : forall opn k a t l, stands t l ->
    xml_lex SContent opn = Some (SContent, [XOpen k a]) ->
    xml_lex SContent ("</" ++ k ++ ">") = Some (SContent, [XClose k]) ->
    stands (opn ++ t ++ "</" ++ k ++ ">") [Elem k a l].
  Proof.
    intros opn k a t l (ts & T1 & T2) O C. exists ([XOpen k a] ++ ts ++ [XClose k])%list. split.
    - rewrite lex_app, O, lex_app, T1, C. reflexivity.
    - intros st. cbn [app xml_tree xml_build]. rewrite tree_app, T2.
      assert (X : forall l kids fr top, adds ((k, a, kids) :: fr, top) l = ((k, a, kids ++ l)%list :: fr, top)).
      { clear. induction l as [|n l IH]; intros; cbn; [now rewrite app_nil_r|]. unfold adds in IH. rewrite IH, <- app_assoc. reflexivity. }
      rewrite X. cbn [xml_tree xml_build fst snd app]. rewrite String.eqb_refl. destruct st as [[|[[k' a'] kids'] fr] top]; reflexivity.
  Qed.

  (** the start tag of the svg element *)
  Definition svg_opening : string := "<svg xmlns=""http://www.w3.org/2000/svg"" version=""1.2"" baseProfile=""tiny"" " ++
     (match sv_size c with
     | Some (w, h) => "width=""" ++ show_z (Z.of_N w) ++ """ height=""" ++ show_z (Z.of_N h) ++ """ "
     | None => "" end) ++
     (match sv_view c with
     | Some (xmin, ymin, xmax, ymax) =>
         "viewBox=""" ++ fmt xmin ++ " " ++ fmt ymin ++ " " ++ fmt (f64_sub xmax xmin) ++ " " ++
         fmt (f64_sub ymax ymin) ++ """ "
     | None => "" end) ++ "stroke-linecap=""round"" stroke-linejoin=""round"">".
  Lemma opening_lex : xml_lex SContent svg_opening = Some (SContent, [XOpen "svg" (svg_attrs fmt c)]).
  Proof.
    unfold svg_opening. rewrite lex_app.
    change (xml_lex SContent "<svg xmlns=""http://www.w3.org/2000/svg"" version=""1.2"" baseProfile=""tiny"" ")
      with (Some (SAttrs "svg" [("xmlns", "http://www.w3.org/2000/svg"); ("version", "1.2"); ("baseProfile", "tiny")], @nil xtoken)).
    cbn iota. unfold svg_attrs.
    match goal with |- context [SAttrs "svg" ?x] => generalize x as a0 end. intros a0.
    assert (SZ : xml_lex (SAttrs "svg" a0) (match sv_size c with
       | Some (w, h) => "width=""" ++ show_z (Z.of_N w) ++ """ height=""" ++ show_z (Z.of_N h) ++ """ " | None => "" end)
       = Some (SAttrs "svg" (a0 ++ match sv_size c with Some (w, h) => [("width", dec w); ("height", dec h)] | None => [] end), [])%list).
    { destruct (sv_size c) as [[w h]|]; [|cbn; now rewrite app_nil_r].
      replace ("width=""" ++ show_z (Z.of_N w) ++ """ height=""" ++ show_z (Z.of_N h) ++ """ ")
        with (("width" ++ "=""" ++ show_z (Z.of_N w) ++ """ ") ++ ("height" ++ "=""" ++ show_z (Z.of_N h) ++ """ "))
        by (rewrite !sapp_assoc; reflexivity).
      rewrite lex_app, attr_blank_lex by (try discriminate; auto using int_plain).
      rewrite attr_blank_lex by (try discriminate; auto using int_plain). unfold dec. now rewrite <- app_assoc. }
    rewrite lex_app, SZ.
    match goal with |- context [(a0 ++ ?x ++ _)%list] => rewrite (app_assoc a0 x); generalize (a0 ++ x)%list as a1 end.
    intros a1.
    assert (VB : xml_lex (SAttrs "svg" a1) (match sv_view c with
       | Some (xmin, ymin, xmax, ymax) => "viewBox=""" ++ fmt xmin ++ " " ++ fmt ymin ++ " " ++ fmt (f64_sub xmax xmin) ++ " " ++
           fmt (f64_sub ymax ymin) ++ """ " | None => "" end)
       = Some (SAttrs "svg" (a1 ++ match sv_view c with
       | Some (xmin, ymin, xmax, ymax) => [("viewBox", (fmt xmin ++ " " ++ fmt ymin ++ " " ++ fmt (f64_sub xmax xmin) ++ " " ++
           fmt (f64_sub ymax ymin))%string)] | None => [] end), [])%list).
    { destruct (sv_view c) as [[[[x0 y0] x1] y1]|]; [|cbn; now rewrite app_nil_r].
      match goal with |- _ = Some (SAttrs _ (a1 ++ [("viewBox", ?v)]), _) =>
        match goal with |- xml_lex _ ?t = _ =>
          replace t with ("viewBox" ++ "=""" ++ v ++ """ ") by (rewrite !sapp_assoc; reflexivity) end end.
      apply attr_blank_lex; [discriminate|reflexivity|]. now rewrite !xml_plain_app, !F. }
    rewrite lex_app, VB. cbn iota.
    match goal with |- context [(a1 ++ ?x ++ _)%list] => rewrite (app_assoc a1 x); generalize (a1 ++ x)%list as a2 end.
    intros a2. cbn. rewrite <- !app_assoc. reflexivity.
  Qed.
  Lemma document_stands : forall name l, plain_option name -> plain_style (sv_style c) ->
    stands (svg_header fmt c name ++ show_nodes (flat_map (feature_drawing fmt c) l) ++
            svg_nl ++ "</g>" ++ svg_nl ++ "</svg>")
           (document fmt c name l).
  Proof.
    intros name l N S. set (kids := show_nodes (flat_map (feature_drawing fmt c) l)).
    set (nm := match name with Some n => n | None => "" end).
    assert (Np : xml_plain nm = true) by (unfold nm; destruct name; [exact N|reflexivity]).
    assert (NL : stands svg_nl [newline]).
    { exists [XChar (ascii_of_N 10)]. split; [reflexivity|intros; reflexivity]. }
    pose (opn := svg_opening).
    pose (sty := match sv_style c with Some s => "<style>" ++ s ++ "</style>" ++ svg_nl | None => "" end).
    assert (E : svg_header fmt c name ++ kids ++ svg_nl ++ "</g>" ++ svg_nl ++ "</svg>" =
      "<?xml version=""1.0""?>" ++ svg_nl ++
      (opn ++ (svg_nl ++ sty ++ (("<g id=""" ++ nm ++ """>") ++ (kids ++ svg_nl) ++ "</" ++ "g" ++ ">") ++ svg_nl) ++ "</" ++ "svg" ++ ">")).
    { unfold svg_header, opn, svg_opening. fold nm. fold sty. rewrite !sapp_assoc. reflexivity. }
    rewrite E. unfold document.
    assert (PI : stands "<?xml version=""1.0""?>" []) by (exists []; split; [reflexivity|intros; reflexivity]).
    match goal with |- stands _ [newline; ?x] => change [newline; x] with ([] ++ [newline] ++ [x])%list end.
    apply (stands_app _ _ [] _ PI). apply (stands_app _ _ [newline] _ NL).
    apply elem_stands; [|clear E; unfold opn|reflexivity].
    - match goal with |- stands _ (newline :: ?a ++ [?b; newline]) =>
        change (newline :: a ++ [b; newline])%list with ([newline] ++ a ++ [b] ++ [newline])%list end.
      apply stands_app; [exact NL|]. apply stands_app; [|apply stands_app; [|exact NL]].
      + unfold sty. destruct (sv_style c) as [s|]; [|apply stands_nil].
        change [Elem "style" [] (chars s); newline] with ([Elem "style" [] (chars s)] ++ [newline])%list.
        replace ("<style>" ++ s ++ "</style>" ++ svg_nl) with (("<style>" ++ s ++ "</" ++ "style" ++ ">") ++ svg_nl)
          by (rewrite !sapp_assoc; reflexivity).
        apply stands_app; [|exact NL]. apply elem_stands; [now apply style_content|reflexivity|reflexivity].
      + apply elem_stands; [| |reflexivity].
        * apply stands_app; [apply fine_features|exact NL].
        * replace ("<g id=""" ++ nm ++ """>") with ("<g " ++ ("id" ++ "=""" ++ nm ++ """") ++ ">").
          2: { cbn [append]. rewrite ?sapp_assoc. reflexivity. }
          rewrite lex_app. change (xml_lex SContent "<g ") with (Some (SAttrs "g" [], @nil xtoken)). cbn iota.
          rewrite lex_app, attr_lex by (try discriminate; auto). reflexivity.
    - apply opening_lex.
  Qed.
End Parse.

(** ** Numbers *)
Definition gives (t : string) (ws : list string) : Prop := forall r, words (t ++ r) "" = (ws ++ words r "")%list.
Lemma gives_nil : gives "" [].
Proof. intros r. reflexivity. Qed.
Lemma gives_app : forall a b u v, gives a u -> gives b v -> gives (a ++ b) (u ++ v).
Proof. intros a b u v A B r. now rewrite sapp_assoc, A, B, app_assoc. Qed.
Lemma gives_join : forall A (f : A -> string) (g : A -> list string) l, (forall a, In a l -> gives (f a) (g a)) ->
  gives (join (map f l)) (flat_map g l).
Proof.
  induction l as [|a l IH]; intros H; cbn [map flat_map]; [apply gives_nil|]. rewrite join_cons.
  apply gives_app; [apply H; now left|apply IH; intros; apply H; now right].
Qed.
Lemma words_acc : forall w r acc, no_blank w = true -> words (w ++ r) acc = words r (acc ++ w).
Proof.
  induction w as [|x w IH]; intros r acc H; cbn [append]; [now rewrite sapp_nil|].
  cbn [no_blank] in H. apply andb_true_iff in H. destruct H as [Hx Hw]. apply negb_true_iff in Hx.
  cbn [words]. rewrite Hx, IH by exact Hw. unfold snoc. now rewrite sapp_assoc.
Qed.
Lemma gives_word : forall w, w <> "" -> no_blank w = true -> gives (w ++ " ") [w].
Proof.
  intros w N B r. rewrite sapp_assoc, words_acc by exact B. cbn [append words].
  change (blank " ") with true. cbn iota. destruct (String.eqb_spec w ""); [contradiction|reflexivity].
Qed.

Section Numbers.
  Variable fmt : f64 -> string.
  Variable invert : bool.
  Hypothesis F : word_format fmt.
  Notation pos := (position fmt invert).
  Notation poss := (positions fmt invert).
  Notation clo := (closed fmt invert).
  Definition both (p : f64 * f64) : list string := [fmt (fst p); fmt (if invert then f64_neg (snd p) else snd p)].
  Definition keep (w : string) : bool := negb (String.eqb w "M") && negb (String.eqb w "Z").
  Lemma keep_fmt : forall x, keep (fmt x) = true.
  Proof.
    intros x. destruct (F x) as (_ & _ & M & Z). unfold keep.
    destruct (String.eqb_spec (fmt x) "M"); [contradiction|]. destruct (String.eqb_spec (fmt x) "Z"); [contradiction|reflexivity].
  Qed.
  (** texts whose numbers are these *)
  Definition has (t : string) (ns : list string) : Prop := exists ws, gives t ws /\ filter keep ws = ns.
  Lemma has_nil : has "" [].
  Proof. exists []. split; [apply gives_nil|reflexivity]. Qed.
  Lemma has_app : forall a b u v, has a u -> has b v -> has (a ++ b) (u ++ v).
  Proof.
    intros a b u v (wa & A & <-) (wb & B & <-). exists (wa ++ wb)%list. split; [now apply gives_app|apply filter_app].
  Qed.
  Lemma has_join : forall A (f : A -> string) (g : A -> list string) l, (forall a, In a l -> has (f a) (g a)) ->
    has (join (map f l)) (flat_map g l).
  Proof.
    induction l as [|a l IH]; intros H; cbn [map flat_map]; [apply has_nil|]. rewrite join_cons.
    apply has_app; [apply H; now left|apply IH; intros; apply H; now right].
  Qed.
  Lemma has_M : has "M " [].
  Proof. exists ["M"]. split; [intros r; reflexivity|reflexivity]. Qed.
  Lemma has_Z : has "Z " [].
  Proof. exists ["Z"]. split; [intros r; reflexivity|reflexivity]. Qed.
  Lemma has_blank : has " " [].
  Proof. exists []. split; [intros r; reflexivity|reflexivity]. Qed.
  Definition cboth (c : coord) := both (cx c, cy c).
  Lemma has_pos : forall c, has (pos c) (cboth c).
  Proof.
    intros c. exists (cboth c). split.
    - unfold position, cboth, both. cbn [fst snd].
      replace (fmt (cx c) ++ " " ++ fmt (if invert then f64_neg (cy c) else cy c) ++ " ")
        with ((fmt (cx c) ++ " ") ++ (fmt (if invert then f64_neg (cy c) else cy c) ++ " ")) by now rewrite sapp_assoc.
      apply (gives_app _ _ [_] [_]); apply gives_word; apply F.
    - unfold cboth, both. cbn [filter]. now rewrite !keep_fmt.
  Qed.
  Definition lboth (l : line) : list string := flat_map cboth l.
  Lemma has_poss : forall l, has (poss l) (lboth l).
  Proof. intros. apply has_join. intros; apply has_pos. Qed.
  Lemma has_clo : forall l, has (clo l) (lboth l).
  Proof.
    intros. unfold closed. apply (has_app _ _ [] (lboth l)); [apply has_M|]. rewrite <- (app_nil_r (lboth l)).
    apply has_app; [apply has_poss|apply has_Z].
  Qed.
  Definition tx (l : list node) : string := join (map node_text l).
  Lemma tx_app : forall a b, tx (a ++ b)%list = tx a ++ tx b.
  Proof. intros. unfold tx. now rewrite map_app, join_app. Qed.
  Lemma tx_chars : forall s, tx (chars s) = s.
  Proof.
    induction s as [|x s IH]; [reflexivity|]. unfold tx, chars in *. cbn [list_ascii_of_string map].
    rewrite join_cons, IH. reflexivity.
  Qed.
  Lemma tx_path : forall d, tx (path d) = " " ++ d ++ " ".
  Proof. intros. unfold tx, path, join. cbn. rewrite ?sapp_nil. reflexivity. Qed.
  Definition nodes_have (l : list node) (ns : list string) : Prop := has (tx l) ns.
  Lemma nodes_flat : forall A (f : A -> list node) (g : A -> list string) l, (forall a, In a l -> nodes_have (f a) (g a)) ->
    nodes_have (flat_map f l) (flat_map g l).
  Proof.
    unfold nodes_have. induction l as [|a l IH]; intros H; cbn [flat_map]; [apply has_nil|]. rewrite tx_app.
    apply has_app; [apply H; now left|apply IH; intros; apply H; now right].
  Qed.
  Lemma nodes_chars : forall s ns, has s ns -> nodes_have (chars s) ns.
  Proof. intros. unfold nodes_have. now rewrite tx_chars. Qed.
  Lemma nodes_path : forall d ns, has (d ++ " ") ns -> nodes_have (path d) ns.
  Proof. intros. unfold nodes_have. rewrite tx_path. apply (has_app _ _ []); [apply has_blank|assumption]. Qed.
  Lemma nodes_path' : forall d ns, has d ns -> nodes_have (path d) ns.
  Proof. intros. apply nodes_path. rewrite <- (app_nil_r ns). apply has_app; [assumption|apply has_blank]. Qed.
  Lemma nodes_rings : forall r, nodes_have (path (join (map clo r))) (flat_map lboth r).
  Proof. intros. apply nodes_path', has_join. intros; apply has_clo. Qed.
  Definition sboth (s : segment) : list string := match s with SegLine l | SegArc l => lboth l end.
  Definition vboth (s : curve) : list string :=
    match s with CvLine l | CvArc l => lboth l | CvCompound l => flat_map sboth l end.
  Lemma nodes_segment : forall s, nodes_have (segment_nodes fmt invert s) (sboth s).
  Proof. intros []; apply nodes_chars; [apply has_clo|apply has_poss]. Qed.
  Lemma nodes_curve : forall s, nodes_have (curve_nodes fmt invert s) (vboth s).
  Proof.
    intros [l|l|l]; cbn [curve_nodes vboth]; [apply nodes_chars, has_clo|apply nodes_chars, has_poss|].
    apply nodes_flat. intros; apply nodes_segment.
  Qed.

  (** the positions of the callbacks *)
  Definition pb (l : list event) : list string := flat_map both (points_of l).
  Lemma pb_app : forall a b, pb (a ++ b)%list = (pb a ++ pb b)%list.
  Proof. intros. unfold pb, points_of. now rewrite !flat_map_app. Qed.
  Lemma pb_flat : forall A (ev : nat -> A -> list event) (g : A -> list string) l i, (forall k a, In a l -> pb (ev k a) = g a) ->
    pb (flat_mapi ev i l) = flat_map g l.
  Proof.
    induction l as [|a l IH]; intros i H; cbn [flat_mapi flat_map]; [reflexivity|].
    rewrite pb_app, H by now left. f_equal. apply IH. intros; apply H; now right.
  Qed.
  Lemma pb_cons : forall e l, points_of [e] = [] -> pb (e :: l) = pb l.
  Proof. intros e l H. change (e :: l) with ([e] ++ l)%list. rewrite pb_app. unfold pb at 1. now rewrite H. Qed.
  Lemma pb_wrap : forall b e l, points_of [b] = [] -> points_of [e] = [] -> pb (b :: l ++ [e])%list = pb l.
  Proof.
    intros b e l B E. rewrite pb_cons by exact B. rewrite pb_app. unfold pb at 2. rewrite E. apply app_nil_r.
  Qed.
  Lemma pb_coords : forall l, pb (ev_coords false l) = lboth l.
  Proof. intros. rewrite coords_events. apply pb_flat. intros k [x y z m] _. reflexivity. Qed.
  Lemma pb_line' : forall t k l, pb (ev_line false t k l) = lboth l.
  Proof. intros. unfold ev_line. rewrite pb_wrap by reflexivity. apply pb_coords. Qed.
  Lemma pb_arc : forall k l, pb (ev_arc false k l) = lboth l.
  Proof. intros. unfold ev_arc. rewrite pb_wrap by reflexivity. apply pb_coords. Qed.
  Lemma pb_polygon : forall t k r, pb (ev_polygon false t k r) = flat_map lboth r.
  Proof. intros. unfold ev_polygon. rewrite pb_wrap by reflexivity. apply pb_flat. intros; apply pb_line'. Qed.
  Lemma pb_triangle : forall t k r, pb (ev_triangle false t k r) = flat_map lboth r.
  Proof. intros. unfold ev_triangle. rewrite pb_wrap by reflexivity. apply pb_flat. intros; apply pb_line'. Qed.
  Lemma pb_segment : forall k s, pb (ev_segment false k s) = sboth s.
  Proof. intros k [l|l]; [apply pb_line'|apply pb_arc]. Qed.
  Lemma pb_compound : forall k l, pb (ev_compound false k l) = flat_map sboth l.
  Proof. intros. unfold ev_compound. rewrite pb_wrap by reflexivity. apply pb_flat. intros; apply pb_segment. Qed.
  Lemma pb_curve : forall k s, pb (ev_curve false k s) = vboth s.
  Proof. intros k [l|l|l]; [apply pb_line'|apply pb_arc|apply pb_compound]. Qed.
  Lemma pb_curvepolygon : forall k l, pb (ev_curvepolygon false k l) = flat_map vboth l.
  Proof. intros. unfold ev_curvepolygon. rewrite pb_wrap by reflexivity. apply pb_flat. intros; apply pb_curve. Qed.

  Definition fboth (s : surface) : list string :=
    match s with SfPolygon r => flat_map lboth r | SfCurvePolygon l => flat_map vboth l end.
  Fixpoint gboth (g : geom) : list string :=
    match g with
    | GPoint c => cboth c
    | GEmptyPoint => []
    | GMultiPoint l | GLineString l | GCircularString l => lboth l
    | GMultiLineString r | GPolygon r | GTriangle r => flat_map lboth r
    | GMultiPolygon l | GPolyhedralSurface l | GTin l => flat_map (fun r => flat_map lboth r) l
    | GCollection l => flat_map gboth l
    | GCompoundCurve l => flat_map sboth l
    | GCurvePolygon l | GMultiCurve l => flat_map vboth l
    | GMultiSurface l => flat_map fboth l
    end.
  Lemma pb_geom : forall g idx, pb (gevents false idx g) = gboth g.
  Proof.
    induction g using geom_ind'; intros idx.
    8: { rewrite collection_events. cbn [gboth]. rewrite pb_wrap by reflexivity. apply pb_flat.
         rewrite Forall_forall in H. intros; now apply H. }
    all: cbn [gevents gboth]; try reflexivity.
    - rewrite pb_wrap by reflexivity. apply pb_coords.
    - apply pb_line'.
    - rewrite pb_wrap by reflexivity. apply pb_flat. intros; apply pb_line'.
    - apply pb_polygon.
    - rewrite pb_wrap by reflexivity. apply pb_flat. intros; apply pb_polygon.
    - apply pb_arc.
    - apply pb_compound.
    - apply pb_curvepolygon.
    - rewrite pb_wrap by reflexivity. apply pb_flat. intros; apply pb_curve.
    - rewrite pb_wrap by reflexivity. apply pb_flat. intros k [r|r] _; [apply pb_polygon|apply pb_curvepolygon].
    - apply pb_triangle.
    - rewrite pb_wrap by reflexivity. apply pb_flat. intros; apply pb_polygon.
    - rewrite pb_wrap by reflexivity. apply pb_flat. intros; apply pb_triangle.
  Qed.
  Lemma nodes_geom : forall g, nodes_have (drawing fmt invert g) (gboth g).
  Proof.
    induction g using geom_ind'; cbn [drawing gboth].
    - apply nodes_path. rewrite !sapp_assoc. apply (has_app _ _ [] (cboth c)); [apply has_M|].
      rewrite <- (app_nil_r (cboth c)). apply has_app; [apply has_pos|apply has_Z].
    - apply has_nil.
    - apply nodes_chars, has_poss.
    - apply nodes_path', has_poss.
    - apply nodes_rings.
    - apply nodes_rings.
    - apply nodes_flat. intros; apply nodes_rings.
    - apply nodes_flat. rewrite Forall_forall in H. exact H.
    - apply nodes_chars, has_poss.
    - apply nodes_flat. intros; apply nodes_segment.
    - apply nodes_flat. intros; apply nodes_curve.
    - apply nodes_flat. intros; apply nodes_curve.
    - apply nodes_flat. intros [r|r] _; [apply nodes_rings|]. apply nodes_flat. intros; apply nodes_curve.
    - apply nodes_flat. intros; apply nodes_chars, has_clo.
    - apply nodes_flat. intros; apply nodes_rings.
    - apply nodes_flat. intros. apply nodes_flat. intros; apply nodes_chars, has_clo.
  Qed.
  Lemma drawing_numbers : forall g idx,
    numbers (drawing fmt invert g) = flat_map both (points_of (gevents false idx g)).
  Proof.
    intros g idx. fold (pb (gevents false idx g)). rewrite pb_geom. destruct (nodes_geom g) as (ws & H & <-).
    unfold numbers. fold keep. specialize (H ""). rewrite sapp_nil in H. unfold tx, join in H. rewrite H.
    cbn [words String.eqb]. now rewrite app_nil_r.
  Qed.
End Numbers.

(** ** The statements *)
Lemma srids_emit : forall fmt c l, emits fmt c (map Srid l) "".
Proof.
  induction l as [|x l IH]; intros out; cbn; [now rewrite sapp_nil|]. apply IH.
Qed.
Lemma svg_geometry : forall A (src : dims -> prog A) fmt idx l g r,
  (forall x, xml_plain (fmt x) = true) -> no_empty_point g = true ->
  delivers src (fun multi => map Srid l ++ gevents multi idx g)%list (Ok r) ->
  exists t, to_svg fmt src = Ok t /\ parse_xml t = Some (drawing fmt false g).
Proof.
  intros A src fmt idx l g r F E D. exists (show_nodes (drawing fmt false g)). split.
  - unfold to_svg. specialize (D _ (svg_writer fmt (svg_new false)) ""). cbn [p_dims svg_writer] in D. rewrite D.
    cbn [multi_dim xy_dims]. change (multi_dim xy_dims) with false.
    rewrite (emits_app _ _ _ _ _ _ (srids_emit _ _ _) (geom_emit fmt (svg_new false) g idx E)). reflexivity.
  - apply stands_parse. exact (fine_drawing fmt (svg_new false) F g).
Qed.
Lemma svg_dataset : forall fmt c gi name l, (forall x, xml_plain (fmt x) = true) ->
  plain_option name -> plain_style (sv_style c) ->
  Forall (fun f => match f_geom f with Some g => no_empty_point g = true | None => True end) l ->
  exists t, feed (svg_writer fmt c)
              (OEv (DatasetBegin name) :: flat_mapi (fun i f => feature_obs false i (gi i) f) 0 l ++ [OEv DatasetEnd])%list ""
            = (t, Ok tt) /\ parse_xml t = Some (document fmt c name l).
Proof.
  intros fmt c gi name l F N S E. eexists. split; [apply dataset_feed; exact E|].
  apply stands_parse. now apply document_stands.
Qed.
Lemma svg_source : forall A (src : dims -> prog A) fmt name l r, (forall x, xml_plain (fmt x) = true) ->
  plain_option name ->
  Forall (fun f => match f_geom f with Some g => no_empty_point g = true | None => True end) l ->
  delivers_obs src (fun multi => dataset_obs multi name l) (Ok r) ->
  exists t, to_svg fmt src = Ok t /\ parse_xml t = Some (document fmt (svg_new false) name l).
Proof.
  intros A src fmt name l r F N E D.
  destruct (svg_dataset fmt (svg_new false) (fun _ => 0%nat) name l F N I E) as (t & H1 & H2).
  exists t. split; [|exact H2]. unfold to_svg. specialize (D _ (svg_writer fmt (svg_new false)) "").
  cbn [p_dims svg_writer] in D. rewrite D. change (multi_dim xy_dims) with false. unfold dataset_obs. rewrite H1. reflexivity.
Qed.
Lemma svg_geometry_document : forall A (src : dims -> prog A) fmt idx l g r,
  (forall x, xml_plain (fmt x) = true) -> no_empty_point g = true ->
  delivers src (fun multi => map Srid l ++ gevents multi idx g)%list (Ok r) ->
  exists t, to_svg_document fmt src = Ok t /\
            parse_xml t = Some (document fmt (svg_new false) None [mkFeature None (Some g)]).
Proof.
  intros A src fmt idx l g r F E D.
  pose (c := svg_new false).
  exists ("" ++ svg_header fmt c None ++ show_nodes (flat_map (feature_drawing fmt c) [mkFeature None (Some g)]) ++
     svg_nl ++ "</g>" ++ svg_nl ++ "</svg>"). split.
  - unfold to_svg_document, to_svg. fold c.
    specialize (D _ (svg_writer fmt c)). cbn [p_dims svg_writer] in D. change (multi_dim xy_dims) with false in D.
    cbn [pthen pbind pcall pret exec p_step svg_writer svg_step].
    rewrite exec_pbind, D, (emits_app _ _ _ _ _ _ (srids_emit _ _ _) (geom_emit fmt c g idx E)).
    cbn [exec p_step svg_writer svg_step pthen pbind pcall pret flat_map].
    f_equal. unfold feature_drawing. cbn [append f_geom]. rewrite app_nil_r.
    match goal with |- context [show_nodes (newline :: ?a)] => change (newline :: a) with ([newline] ++ a)%list end.
    rewrite show_app, !sapp_assoc. reflexivity.
  - apply stands_parse. cbn [append]. apply document_stands; [exact F|exact I|exact I].
Qed.

(** ** Examples and counterexamples *)
Definition hex_fmt (x : f64) : string := show_z (Z.of_N x).
Lemma hex_plain : forall x, xml_plain (hex_fmt x) = true.
Proof. intros. apply int_plain. Qed.
Lemma hex_word : word_format hex_fmt.
Proof.
  assert (U : forall u, no_blank (NilEmpty.string_of_uint u) = true) by (induction u; cbn; auto).
  assert (V : forall u, NilZero.string_of_uint u <> "" /\ no_blank (NilZero.string_of_uint u) = true /\
     NilZero.string_of_uint u <> "M" /\ NilZero.string_of_uint u <> "Z").
  { intros u. destruct u; repeat split; try discriminate; try reflexivity; apply U. }
  intros x. unfold hex_fmt, show_z. destruct (Z.to_int (Z.of_N x)) as [u|u]; cbn [NilZero.string_of_int]; [apply V|].
  destruct (V u) as (_ & B & _). repeat split; try discriminate. exact B.
Qed.
Definition svg_point : geom := GPoint (mkC 1%N 2%N None None).
Definition svg_features : list feature :=
  [mkFeature (Some [(0%nat, "a", CBool true)]) (Some svg_point);
   mkFeature None None;
   mkFeature None (Some (GCollection [GLineString [mkC 3%N 4%N None None]; GPolygon [[mkC 5%N 6%N None None]]]))].
Lemma empty_point_fails : forall fmt c, exists x, run (svg_writer fmt c) (gevents false 0 GEmptyPoint) "" = ("", Err x).
Proof. intros. eexists. reflexivity. Qed.
Lemma svg_name_breaks :
  feed (svg_writer hex_fmt (svg_new false)) (dataset_obs false (Some "R&D") []) "" =
    (fst (feed (svg_writer hex_fmt (svg_new false)) (dataset_obs false (Some "R&D") []) ""), Ok tt) /\
  parse_xml (fst (feed (svg_writer hex_fmt (svg_new false)) (dataset_obs false (Some "R&D") []) "")) = None.
Proof. split; vm_compute; reflexivity. Qed.

Lemma svg_drawn : forall fmt invert g, drawn g = true -> Forall visible (drawing fmt invert g).
Proof.
  intros fmt invert.
  assert (R : forall r, negb (no_lines r) = true -> Forall visible (path (join (map (closed fmt invert) r)))).
  { intros [|l r] H; [discriminate|]. constructor; [|constructor]. cbn [map]. rewrite join_cons. unfold closed.
    rewrite !sapp_assoc. eexists. reflexivity. }
  induction g using geom_ind'; intros D; try discriminate D; cbn [drawing drawn] in *.
  - constructor; [|constructor]. eexists. reflexivity.
  - now apply R.
  - now apply R.
  - rewrite Forall_flat_map. apply Forall_forall. intros r Hr. apply R. rewrite forallb_forall in D. auto.
  - rewrite Forall_flat_map. rewrite Forall_forall in H. apply Forall_forall. intros r Hr.
    rewrite forallb_forall in D. apply H; auto.
Qed.
Lemma svg_line_hidden : ~ Forall visible (drawing hex_fmt false (GLineString [mkC 1%N 2%N None None; mkC 3%N 4%N None None])).
Proof. intros H. inversion H as [|n l [r E] _]; subst. vm_compute in E. discriminate. Qed.
Lemma svg_multipoint_hidden : ~ Forall visible (drawing hex_fmt false (GMultiPoint [mkC 1%N 2%N None None])).
Proof. intros H. vm_compute in H. inversion H as [|n l [r E] _]; subst. discriminate. Qed.
