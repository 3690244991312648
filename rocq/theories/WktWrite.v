(** WktWriter produces the text of WktSpec (helper lemmas for C15, C17). *)
From Coq Require Import String Ascii.
From Coq Require Import List NArith ZArith Lia Bool.
From Verif Require Import Base BaseLemmas Event EventLemmas Claims Geom WkbSpec WktModel WktSpec.
Import ListNotations.
Local Open Scope list_scope.
Local Open Scope string_scope.

Lemma sapp_assoc : forall a b c : string, (a ++ b) ++ c = a ++ b ++ c.
Proof. induction a as [|x a IH]; intros b c; cbn; [reflexivity|now rewrite IH]. Qed.
Lemma sapp_nil : forall a : string, a ++ "" = a.
Proof. induction a as [|x a IH]; cbn; [reflexivity|now rewrite IH]. Qed.

Definition comma_text (idx : nat) : string := match idx with O => "" | S _ => "," end.

Section Writer.
  Variable fmt : f64 -> string.
  Variable c : wktcfg.
  Notation w := (wkt_writer fmt c).
  Let d := k_dims c.
  (** the ordinates shown; none if the consumer asks for no extra dimension *)
  Variables zz mm : bool.
  Hypothesis flags : multi_dim (k_dims c) = false -> zz = false /\ mm = false.
  Notation ct := (coord_text fmt zz mm).
  Notation multi := (multi_dim d).

  Definition settled (s : wktst) : Prop := k_dialect c = PlainWkt \/ k_first s = false.

  Lemma put_put : forall s a b, put (put s a) b = put s (a ++ b).
  Proof. intros. unfold put. cbn. now rewrite sapp_assoc. Qed.
  Lemma put_settled : forall s a, settled s -> settled (put s a).
  Proof. intros s a [H|H]; [left|right]; assumption. Qed.
  Lemma put_empty : forall s, put s "" = s.
  Proof. intros []. unfold put. cbn. now rewrite sapp_nil. Qed.

  Lemma header_settled : forall s, settled s -> wkt_header c s = s.
  Proof.
    intros s H. unfold wkt_header. destruct (k_first s) eqn:E; [|reflexivity].
    destruct H as [->|H]; [reflexivity|congruence].
  Qed.

  Lemma comma_put : forall s i, wkt_comma s i = put s (comma_text i).
  Proof. intros s [|i]; unfold wkt_comma; cbn; [now rewrite put_empty|reflexivity]. Qed.

  (** [emits l t]: the callbacks [l] append [t] *)
  Definition emits (l : list event) (t : string) : Prop :=
    forall s, settled s -> run w l s = (put s t, Ok tt).

  Definition push (s : wktst) (n : nat) : wktst := mkWktSt (k_srid s) (k_first s) (n :: k_sizes s) (k_out s).

  Definition open_text (tag : string) (tagged : bool) (size idx : nat) : string :=
    comma_text idx ++ (if tagged then tag else "") ++
    (match size with O => (if tagged then " " else "") ++ "EMPTY" | _ => "(" end).

  Lemma begin_settled : forall s tag tagged size idx, settled s ->
    geom_begin c s tag tagged size idx = put (push s size) (open_text tag tagged size idx).
  Proof.
    intros s tag tagged size idx H. unfold geom_begin. rewrite header_settled, comma_put by exact H.
    unfold open_text, push. destruct tagged, size; cbn [Nat.eqb]; unfold put; cbn;
      rewrite ?sapp_assoc; reflexivity.
  Qed.

  (** members of a container, each preceded by its comma *)
  Lemma members_emit : forall A (ev : nat -> A -> list event) (tx : A -> string) l i,
    (forall k a, In a l -> emits (ev k a) (comma_text k ++ tx a)) ->
    emits (flat_mapi ev i l)
      (match i, l with _, [] => "" | O, _ => String.concat "," (map tx l)
       | S _, _ => "," ++ String.concat "," (map tx l) end).
  Proof.
    induction l as [|a l IH]; intros i H s Hs; cbn [flat_mapi].
    - destruct i; cbn; now rewrite put_empty.
    - rewrite run_app, (H i a (or_introl eq_refl) s Hs).
      rewrite (IH (S i) (fun k a Ha => H k a (or_intror Ha)) _ (put_settled _ _ Hs)), put_put.
      f_equal. f_equal. destruct l as [|b l]; destruct i; cbn [map String.concat comma_text append];
        rewrite ?sapp_nil; reflexivity.
  Qed.

  Lemma container_emit : forall A b e tag tagged idx (ev : nat -> A -> list event) (tx : A -> string) l,
    (forall s, wkt_step fmt c s b = (geom_begin c s tag tagged (length l) idx, Ok tt)) ->
    (forall s, wkt_step fmt c s e = geom_end s) ->
    (forall k a, In a l -> emits (ev k a) (comma_text k ++ tx a)) ->
    emits (b :: flat_mapi ev 0 l ++ [e])
      (comma_text idx ++ (if tagged then tagged_group tag (map tx l) else group (map tx l))).
  Proof.
    intros A b e tag tagged idx ev tx l Hb He Hl s Hs. cbn [app run wkt_writer p_step].
    rewrite Hb, begin_settled by exact Hs.
    assert (Hp : settled (put (push s (length l)) (open_text tag tagged (length l) idx))) by exact Hs.
    rewrite run_app, (members_emit A ev tx l 0 Hl _ Hp). cbn [run p_step wkt_writer]. rewrite He.
    unfold geom_end, push, put, open_text. cbn [k_sizes k_out k_srid k_first].
    destruct l as [|a l]; cbn [length Nat.ltb Nat.leb].
    - destruct tagged; cbn [map tagged_group group]; rewrite ?sapp_nil, ?sapp_assoc; reflexivity.
    - change (map tx (a :: l)) with (tx a :: map tx l).
      destruct tagged; cbv beta iota delta [tagged_group group];
        rewrite !sapp_assoc; reflexivity.
  Qed.

  Lemma fits_shown : forall c0, (zz = false -> cz c0 = None) /\ (mm = false -> cm c0 = None) ->
    shown zz mm c0 = c0.
  Proof.
    intros [x y z m] [Hz Hm]. unfold shown. cbn [cx cy cz cm] in *.
    destruct zz, mm; rewrite ?Hz, ?Hm by reflexivity; reflexivity.
  Qed.

  Definition carried (c0 : coord) : Prop :=
    (zz = false -> cz c0 = None) /\ (mm = false -> cm c0 = None).

  (** if the consumer asks for no extra dimension nothing needs to be assumed *)
  Lemma coord_emit : forall k c0, (multi = true -> carried c0) ->
    emits [ev_coord multi k c0] (comma_text k ++ ct c0).
  Proof.
    intros k c0 Hc s Hs. unfold ev_coord. cbn [run wkt_writer p_step].
    destruct multi eqn:E; cbn [wkt_step]; rewrite comma_put.
    - specialize (Hc eq_refl). unfold coord_text. rewrite (fits_shown c0 Hc).
      unfold all_nanb. unfold opt_is_nan.
      destruct (f64_is_nan (cx c0) && f64_is_nan (cy c0) &&
        (match cz c0 with Some x => f64_is_nan x | None => true end) &&
        (match cm c0 with Some x => f64_is_nan x | None => true end)).
      + now rewrite put_put.
      + destruct (cz c0), (cm c0); cbn [ordinate_text]; rewrite ?put_put, ?sapp_assoc, ?sapp_nil; reflexivity.
    - destruct (flags E) as [Ez Em]. unfold coord_text, shown, all_nanb. rewrite Ez, Em. cbn [cx cy cz cm].
      rewrite !andb_true_r. destruct (f64_is_nan (cx c0) && f64_is_nan (cy c0)).
      + now rewrite put_put.
      + cbn [ordinate_text]. rewrite put_put, ?sapp_assoc; cbn [append]; rewrite ?sapp_nil; reflexivity.
  Qed.

  Notation P := (fun c0 => (zz = false -> cz c0 = None) /\ (mm = false -> cm c0 = None)).
  Notation Q := (fun _ : nat => True).
  (** hypothesis on geometries: nothing if no extra dimension is asked for *)
  Notation when X := (multi = true -> X).

  Lemma coords_events : forall l, ev_coords multi l = flat_mapi (fun k c0 => [ev_coord multi k c0]) 0 l.
  Proof. intros. unfold ev_coords. now rewrite flat_mapi_mapi. Qed.

  Lemma coords_ok : forall l, when (on_line P Q l) -> forall k a, In a l ->
    emits [ev_coord multi k a] (comma_text k ++ ct a).
  Proof.
    intros l H k a Ha. apply coord_emit. intros Hm. destruct (H Hm) as [_ Hl].
    rewrite Forall_forall in Hl. apply Hl. exact Ha.
  Qed.

  Lemma line_emit : forall tagged idx l, when (on_line P Q l) ->
    emits (ev_line multi tagged idx l)
      (comma_text idx ++ (if tagged then tagged_group "LINESTRING" (map ct l) else group (map ct l))).
  Proof.
    intros tagged idx l H. unfold ev_line. rewrite coords_events.
    apply container_emit; try reflexivity. apply coords_ok. exact H.
  Qed.

  Lemma arc_emit : forall idx l, when (on_line P Q l) ->
    emits (ev_arc multi idx l) (comma_text idx ++ arc_text fmt zz mm l).
  Proof.
    intros idx l H. unfold ev_arc. rewrite coords_events.
    apply (container_emit _ _ _ "CIRCULARSTRING" true); try reflexivity. apply coords_ok. exact H.
  Qed.

  Lemma all_in : forall A (X : A -> Prop) l, when (Q (length l) /\ Forall X l) ->
    forall a, In a l -> when (X a).
  Proof. intros A X l H a Ha Hm. destruct (H Hm) as [_ Hl]. rewrite Forall_forall in Hl. auto. Qed.

  Lemma rings_emit : forall b e tag tagged idx l,
    (forall s, wkt_step fmt c s b = (geom_begin c s tag tagged (length l) idx, Ok tt)) ->
    (forall s, wkt_step fmt c s e = geom_end s) ->
    when (on_rings P Q l) ->
    emits (b :: flat_mapi (ev_line multi false) 0 l ++ [e])
      (comma_text idx ++ (if tagged then tagged_group tag (map (line_text fmt zz mm) l)
                          else group (map (line_text fmt zz mm) l))).
  Proof.
    intros b e tag tagged idx l Hb He H.
    apply (container_emit _ b e tag tagged idx (ev_line multi false) (line_text fmt zz mm));
      auto.
    intros k a Ha. apply (line_emit false). apply (all_in _ _ _ H a Ha).
  Qed.

  Lemma polygon_emit : forall tagged idx r, when (on_rings P Q r) ->
    emits (ev_polygon multi tagged idx r)
      (comma_text idx ++ (if tagged then tagged_group "POLYGON" (map (line_text fmt zz mm) r)
                          else rings_text fmt zz mm r)).
  Proof. intros. apply rings_emit; auto. Qed.
  Lemma triangle_emit : forall tagged idx r, when (on_rings P Q r) ->
    emits (ev_triangle multi tagged idx r)
      (comma_text idx ++ (if tagged then tagged_group "TRIANGLE" (map (line_text fmt zz mm) r)
                          else rings_text fmt zz mm r)).
  Proof. intros. apply rings_emit; auto. Qed.

  Lemma segment_emit : forall k s, when (on_segment P Q s) ->
    emits (ev_segment multi k s) (comma_text k ++ segment_text fmt zz mm s).
  Proof. intros k [l|l] H; [apply (line_emit false)|apply arc_emit]; exact H. Qed.

  Lemma compound_emit : forall k l, when (Q (length l) /\ Forall (on_segment P Q) l) ->
    emits (ev_compound multi k l) (comma_text k ++ compound_text fmt zz mm l).
  Proof.
    intros k l H. apply (container_emit _ _ _ "COMPOUNDCURVE" true); try reflexivity.
    intros j a Ha. apply segment_emit. apply (all_in _ _ _ H a Ha).
  Qed.

  Lemma curve_emit : forall k s, when (on_curve P Q s) ->
    emits (ev_curve multi k s) (comma_text k ++ curve_text fmt zz mm s).
  Proof.
    intros k [l|l|l] H; [apply (line_emit false)|apply arc_emit|apply compound_emit]; exact H.
  Qed.

  Lemma curvepolygon_emit : forall k l, when (Q (length l) /\ Forall (on_curve P Q) l) ->
    emits (ev_curvepolygon multi k l) (comma_text k ++ curvepolygon_text fmt zz mm l).
  Proof.
    intros k l H. apply (container_emit _ _ _ "CURVEPOLYGON" true); try reflexivity.
    intros j a Ha. apply curve_emit. apply (all_in _ _ _ H a Ha).
  Qed.

  Lemma surface_emit : forall k s, when (on_surface P Q s) ->
    emits (ev_surface multi k s) (comma_text k ++ surface_text fmt zz mm s).
  Proof. intros k [l|l] H; [apply (polygon_emit false)|apply curvepolygon_emit]; exact H. Qed.

  Lemma collection_events : forall idx l,
    gevents multi idx (GCollection l) =
    (CollectionBegin (length l) idx :: flat_mapi (gevents multi) 0 l ++ [CollectionEnd idx])%list.
  Proof.
    intros idx l. cbn [gevents]. f_equal. f_equal. generalize 0%nat.
    induction l as [|a l IH]; intros i; cbn [flat_mapi]; [reflexivity|]. now rewrite IH.
  Qed.

  Lemma geom_emit : forall g idx, when (carries zz mm g) ->
    emits (gevents multi idx g) (comma_text idx ++ wkt_text fmt zz mm g).
  Proof.
    induction g using geom_ind'; intros idx Hg.
    - (* point *)
      change (gevents multi idx (GPoint c0)) with
        (PointBegin idx :: flat_mapi (fun k a => [ev_coord multi k a]) 0 [c0] ++ [PointEnd idx])%list.
      change (wkt_text fmt zz mm (GPoint c0)) with (tagged_group "POINT" (map ct [c0])).
      apply (container_emit _ _ _ "POINT" true); try reflexivity.
      intros k a [<-|[]]. apply coord_emit. intros Hm. apply (Hg Hm).
    - (* empty point *)
      intros s Hs. cbn [gevents run wkt_writer p_step wkt_step]. rewrite begin_settled by exact Hs.
      unfold geom_end, put, push. cbn [k_sizes k_out k_srid k_first Nat.ltb Nat.leb].
      destruct idx; reflexivity.
    - cbn [gevents]. rewrite coords_events. apply (container_emit _ _ _ "MULTIPOINT" true); try reflexivity.
      apply coords_ok. exact Hg.
    - apply (line_emit true). exact Hg.
    - apply (rings_emit _ _ "MULTILINESTRING" true); auto.
    - apply (polygon_emit true). exact Hg.
    - apply (container_emit _ _ _ "MULTIPOLYGON" true); try reflexivity.
      intros k a Ha. apply (polygon_emit false). apply (all_in _ _ _ Hg a Ha).
    - (* collection *)
      rewrite collection_events.
      change (wkt_text fmt zz mm (GCollection l))
        with (tagged_group "GEOMETRYCOLLECTION" (map (wkt_text fmt zz mm) l)).
      apply (container_emit _ _ _ "GEOMETRYCOLLECTION" true); try reflexivity.
      intros k a Ha. rewrite Forall_forall in H. apply H; [exact Ha|].
      intros Hm. specialize (Hg Hm). destruct Hg as [_ Hg]. clear -Hg Ha.
      induction l as [|b l IH]; [contradiction|]. destruct Hg as [H1 H2], Ha as [<-|Ha]; auto.
    - apply arc_emit. exact Hg.
    - apply compound_emit. exact Hg.
    - apply curvepolygon_emit. exact Hg.
    - apply (container_emit _ _ _ "MULTICURVE" true); try reflexivity.
      intros k a Ha. apply curve_emit. apply (all_in _ _ _ Hg a Ha).
    - apply (container_emit _ _ _ "MULTISURFACE" true); try reflexivity.
      intros k a Ha. apply surface_emit. apply (all_in _ _ _ Hg a Ha).
    - apply (triangle_emit true). exact Hg.
    - apply (container_emit _ _ _ "POLYHEDRALSURFACE" true); try reflexivity.
      intros k a Ha. apply (polygon_emit false). apply (all_in _ _ _ Hg a Ha).
    - apply (container_emit _ _ _ "TIN" true); try reflexivity.
      intros k a Ha. apply (triangle_emit false). apply (all_in _ _ _ Hg a Ha).
  Qed.
End Writer.

Section Top.
  Variable fmt : f64 -> string.
  Variable c : wktcfg.
  Notation w := (wkt_writer fmt c).

  Lemma header_settles : forall s, settled c (wkt_header c s).
  Proof.
    intros s. unfold settled, wkt_header. destruct (k_first s) eqn:E; [|auto].
    destruct (k_dialect c); [auto|]. right. cbn [k_srid].
    destruct (k_srid s) as [[]|]; reflexivity.
  Qed.

  Lemma begin_header : forall s tag tagged size idx,
    geom_begin c (wkt_header c s) tag tagged size idx = geom_begin c s tag tagged size idx.
  Proof.
    intros. unfold geom_begin. now rewrite (header_settled c (wkt_header c s) (header_settles s)).
  Qed.

  Lemma run_header : forall g s, run w (gevents (multi_dim (k_dims c)) 0 g) (wkt_header c s) =
                                 run w (gevents (multi_dim (k_dims c)) 0 g) s.
  Proof.
    intros g s.
    destruct g; unfold gevents, ev_line, ev_arc, ev_polygon, ev_triangle, ev_compound, ev_curvepolygon;
      cbn [app run wkt_writer p_step wkt_step]; rewrite begin_header; reflexivity.
  Qed.

  Lemma run_srids : forall l s, run w (map Srid l) s =
    (mkWktSt (first_some (k_srid s :: l)) (k_first s) (k_sizes s) (k_out s), Ok tt).
  Proof.
    induction l as [|v l IH]; intros s; cbn [map run].
    - destruct s as [[v|] f z o]; reflexivity.
    - cbn [wkt_writer p_step wkt_step]. rewrite IH. cbn [k_srid k_first k_sizes k_out].
      f_equal. f_equal. cbn [first_some]. destruct (k_srid s), v; reflexivity.
  Qed.

  Lemma header_prefix : forall srid l,
    k_out (wkt_header c (mkWktSt (first_some (srid :: l)) true [] "")) =
    match k_dialect c with PlainWkt => "" | Ewkt => srid_prefix srid l end.
  Proof.
    intros srid l. unfold wkt_header. cbn [k_first]. destruct (k_dialect c); [reflexivity|].
    unfold srid_prefix. cbn [k_srid]. destruct (first_some _) as [v|]; [|reflexivity].
    destruct (Z.eqb_spec v 0) as [->|Hv]; [reflexivity|]. destruct v; [congruence|reflexivity|reflexivity].
  Qed.

  Lemma wkt_output : forall zz mm srid l l2 g,
    (multi_dim (k_dims c) = false -> zz = false /\ mm = false) ->
    (multi_dim (k_dims c) = true -> carries zz mm g) ->
    exists s, run w (map Srid l ++ gevents (multi_dim (k_dims c)) 0 g ++ map Srid l2) (wkt_init srid) = (s, Ok tt) /\
      k_out s = (match k_dialect c with PlainWkt => "" | Ewkt => srid_prefix srid l end) ++
                wkt_text fmt zz mm g.
  Proof.
    intros zz mm srid l l2 g Hf Hg. eexists. rewrite run_app, run_srids. cbn [wkt_init k_srid k_first k_sizes k_out].
    rewrite run_app, <- run_header.
    rewrite (geom_emit fmt c zz mm Hf g 0 Hg _ (header_settles _)). rewrite run_srids.
    split; [reflexivity|]. cbn [k_out put]. now rewrite header_prefix.
  Qed.
End Top.

Lemma to_wkt_opts : forall A (src : dims -> prog A) l dl d srid fmt zz mm g r,
  delivers src (fun multi => map Srid l ++ gevents multi 0 g)%list (Ok r) ->
  (multi_dim d = false -> zz = false /\ mm = false) ->
  (multi_dim d = true -> carries zz mm g) ->
  to_wkt_with_opts fmt src dl d srid =
  Ok ((match dl with PlainWkt => "" | Ewkt => srid_prefix srid l end) ++ wkt_text fmt zz mm g).
Proof.
  intros A src l dl d srid fmt zz mm g r H Hf Hg. unfold to_wkt_with_opts.
  pose proof (H _ (wkt_writer fmt (mkWktCfg d dl)) (wkt_init srid)) as E.
  cbn [wkt_writer p_dims k_dims] in E. rewrite E.
  destruct (wkt_output fmt (mkWktCfg d dl) zz mm srid l [] g Hf Hg) as (s & H1 & H2).
  cbn [map] in H1. rewrite app_nil_r in H1. cbn [k_dims] in H1. unfold wkt_writer in *. rewrite H1, H2. reflexivity.
Qed.
