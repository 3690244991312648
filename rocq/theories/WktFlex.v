(** The texts of positions determine the text of a geometry: a copy of the reference parser that
    reads positions with any given parser (helper for C16_exact). *)
From Coq Require Import String Ascii.
From Coq Require Import List NArith ZArith Lia Bool.
From Verif Require Import Base BaseLemmas Event EventLemmas Geom WkbSpec WktSpec WktWrite WktParse WktExactSpec.
Import ListNotations.
Local Open Scope list_scope.
Local Open Scope string_scope.

Section Flex.
  Variable pc : parser coord.

  Definition f_line : parser line := p_group pc.
  Definition f_rings : parser rings := p_group f_line.
  Definition f_segment : parser segment :=
    p_or "CIRCULARSTRING" (p_map SegArc (p_tagged pc)) (p_map SegLine f_line).
  Definition f_curve : parser curve :=
    p_or "CIRCULARSTRING" (p_map CvArc (p_tagged pc))
    (p_or "COMPOUNDCURVE" (p_map CvCompound (p_tagged f_segment))
          (p_map CvLine f_line)).
  Definition f_surface : parser surface :=
    p_or "CURVEPOLYGON" (p_map SfCurvePolygon (p_tagged f_curve)) (p_map SfPolygon f_rings).

  Definition f_point : parser geom := fun s =>
    match lit " EMPTY" s with
    | Some t => Some (GEmptyPoint, t)
    | None =>
        match lit "(" s with
        | Some t =>
            match pc t with
            | Some (c, t) => match lit ")" t with Some t => Some (GPoint c, t) | None => None end
            | None => None
            end
        | None => None
        end
    end.

  Fixpoint f_geom (fuel : nat) (s : string) : option (geom * string) :=
    match fuel with
    | O => None
    | S n =>
        let (w, t) := word s in
        if String.eqb w "POINT" then f_point t
        else if String.eqb w "MULTIPOINT" then p_map GMultiPoint (p_tagged pc) t
        else if String.eqb w "LINESTRING" then p_map GLineString (p_tagged pc) t
        else if String.eqb w "MULTILINESTRING" then p_map GMultiLineString (p_tagged f_line) t
        else if String.eqb w "POLYGON" then p_map GPolygon (p_tagged f_line) t
        else if String.eqb w "MULTIPOLYGON" then p_map GMultiPolygon (p_tagged f_rings) t
        else if String.eqb w "GEOMETRYCOLLECTION" then p_map GCollection (p_tagged (f_geom n)) t
        else if String.eqb w "CIRCULARSTRING" then p_map GCircularString (p_tagged pc) t
        else if String.eqb w "COMPOUNDCURVE" then p_map GCompoundCurve (p_tagged f_segment) t
        else if String.eqb w "CURVEPOLYGON" then p_map GCurvePolygon (p_tagged f_curve) t
        else if String.eqb w "MULTICURVE" then p_map GMultiCurve (p_tagged f_curve) t
        else if String.eqb w "MULTISURFACE" then p_map GMultiSurface (p_tagged f_surface) t
        else if String.eqb w "TRIANGLE" then p_map GTriangle (p_tagged f_line) t
        else if String.eqb w "POLYHEDRALSURFACE" then p_map GPolyhedralSurface (p_tagged f_rings) t
        else if String.eqb w "TIN" then p_map GTin (p_tagged f_rings) t
        else None
    end.

  Definition flex_wkt (s : string) : option geom :=
    match f_geom (String.length s) s with Some (g, "") => Some g | _ => None end.
End Flex.

(** the input ends or goes on with a comma or a parenthesis *)
Definition ends (s : string) : Prop :=
  match s with "" => True | String a _ => delim a && negb (Ascii.eqb a " "%char) = true end.
Lemma ends_stops : forall s, ends s -> stops s.
Proof. intros [|a s] H; [exact I|]. cbn in *. apply andb_true_iff in H. exact (proj1 H). Qed.

Section Parse.
  Variable fmt : f64 -> string.
  Variables z m : bool.
  Variable pc : parser coord.
  Variable st : coord -> coord.
  Notation ct := (coord_text fmt z m).
  Notation P := coord64.
  Notation Q := (fun _ : nat => True).
  Definition reads {A} (p : parser A) (t : string) (a : A) : Prop :=
    forall s, ends s -> p (t ++ s) = Some (a, s).
  Lemma reads_items : forall A B (p : parser B) (tx : A -> string) (f : A -> B) l fuel s,
    l <> [] -> (length l <= fuel)%nat -> (forall a, In a l -> reads p (tx a) (f a)) ->
    p_items p fuel (String.concat "," (map tx l) ++ ")" ++ s) = Some (map f l, s).
  Proof.
    induction l as [|a l IH]; intros fuel s Hn Hf H; [congruence|].
    destruct fuel as [|fuel]; [cbn in Hf; lia|]. cbn [p_items].
    destruct l as [|b l].
    - cbn [map String.concat]. rewrite (H a (or_introl eq_refl)); [|reflexivity].
      now rewrite lit_app.
    - change (String.concat "," (map tx (a :: b :: l)))
        with (tx a ++ "," ++ String.concat "," (map tx (b :: l))).
      rewrite !sapp_assoc. rewrite (H a (or_introl eq_refl)); [|reflexivity].
      change (lit ")" ("," ++ ?t)) with (@None string). cbv iota. rewrite lit_app.
      rewrite IH; [reflexivity|discriminate|cbn in *; lia|intros; apply H; now right].
  Qed.

  Lemma reads_paren : forall A B (p : parser B) (tx : A -> string) (f : A -> B) l s,
    l <> [] -> (forall a, In a l -> reads p (tx a) (f a)) ->
    p_paren p ("(" ++ String.concat "," (map tx l) ++ ")" ++ s) = Some (map f l, s).
  Proof.
    intros A B p tx f l s Hn H. unfold p_paren. rewrite lit_app. apply reads_items; auto.
    rewrite !slength_app. pose proof (concat_length (map tx l)). rewrite map_length in H0. cbn [String.length]. lia.
  Qed.

  Lemma reads_group : forall A B (p : parser B) (tx : A -> string) (f : A -> B) l,
    (forall a, In a l -> reads p (tx a) (f a)) ->
    reads (p_group p) (group (map tx l)) (map f l).
  Proof.
    intros A B p tx f [|a l] H s Hs; unfold p_group.
    - cbn [map group]. now rewrite lit_app.
    - change (group (map tx (a :: l))) with ("(" ++ String.concat "," (map tx (a :: l)) ++ ")").
      rewrite !sapp_assoc. change (lit "EMPTY" ("(" ++ ?t)) with (@None string). cbv iota.
      apply reads_paren; [discriminate|exact H].
  Qed.

  Lemma reads_tagged : forall A B (p : parser B) (tx : A -> string) (f : A -> B) tag l s,
    (forall a, In a l -> reads p (tx a) (f a)) -> no_delim tag = true ->
    exists t, tagged_group tag (map tx l) ++ s = tag ++ t /\ stops t /\ p_tagged p t = Some (map f l, s).
  Proof.
    intros A B p tx f tag [|a l] s H Ht; unfold p_tagged.
    - exists (" EMPTY" ++ s). cbn [map tagged_group]. rewrite sapp_assoc, lit_app. repeat split.
    - exists ("(" ++ String.concat "," (map tx (a :: l)) ++ ")" ++ s).
      change (tagged_group tag (map tx (a :: l)))
        with (tag ++ "(" ++ String.concat "," (map tx (a :: l)) ++ ")").
      split; [rewrite !sapp_assoc; reflexivity|]. split; [reflexivity|].
      change (lit " EMPTY" ("(" ++ ?t)) with (@None string). cbv iota.
      apply reads_paren; [discriminate|exact H].
  Qed.

  Lemma reads_map : forall A B (f : A -> B) p t a, reads p t a -> reads (p_map f p) t (f a).
  Proof. intros A B f p t a H s Hs. unfold p_map. now rewrite (H s Hs). Qed.

  Lemma reads_or_kw : forall A B C (g : list B -> C) (p : parser B) (q : parser C) (tx : A -> string)
      (f : A -> B) tag l,
    (forall a, In a l -> reads p (tx a) (f a)) -> no_delim tag = true ->
    reads (p_or tag (p_map g (p_tagged p)) q) (tagged_group tag (map tx l)) (g (map f l)).
  Proof.
    intros A B C g p q tx f tag l H Ht s Hs.
    destruct (reads_tagged A B p tx f tag l s H Ht) as (t & E & _ & P).
    unfold p_or. rewrite E, lit_app. unfold p_map. now rewrite P.
  Qed.

  Hypothesis PC : forall c, coord64 c -> reads pc (ct c) (st c).

  Lemma P_coord : forall c, P c -> reads (pc) (ct c) (st c).
  Proof. exact PC. Qed.
  Lemma line_coords : forall l, on_line P Q l -> forall a, In a l -> reads (pc) (ct a) (st a).
  Proof. intros l [_ H] a Ha. rewrite Forall_forall in H. apply P_coord, H, Ha. Qed.

  Lemma reads_line : forall l, on_line P Q l ->
    reads (f_line pc) (line_text fmt z m l) (map st l).
  Proof. intros l H. apply reads_group. apply line_coords. exact H. Qed.

  Lemma reads_rings : forall r, on_rings P Q r ->
    reads (f_rings pc) (rings_text fmt z m r) (map (map st) r).
  Proof.
    intros r [_ H]. apply reads_group. intros a Ha. rewrite Forall_forall in H.
    apply reads_line, H, Ha.
  Qed.

  Lemma reads_segment : forall s, on_segment P Q s ->
    reads (f_segment pc) (segment_text fmt z m s) (map_segment st s).
  Proof.
    intros [l|l] H; cbn [segment_text map_segment].
    - intros s Hs. unfold f_segment, p_or, line_text.
      rewrite group_no_kw; try reflexivity; try exact (ends_stops _ Hs); [|discriminate].
      pose proof (reads_line l H s Hs) as E. unfold line_text in E. unfold p_map. now rewrite E.
    - unfold f_segment, arc_text. apply reads_or_kw; [apply line_coords; exact H|reflexivity].
  Qed.

  Lemma reads_curve : forall s, on_curve P Q s ->
    reads (f_curve pc) (curve_text fmt z m s) (map_curve st s).
  Proof.
    intros [l|l|l] H; cbn [curve_text map_curve].
    - intros s Hs. unfold f_curve, p_or, line_text.
      rewrite !group_no_kw; try reflexivity; try exact (ends_stops _ Hs); try discriminate.
      pose proof (reads_line l H s Hs) as E. unfold line_text in E. unfold p_map. now rewrite E.
    - unfold f_curve, arc_text. apply reads_or_kw; [apply line_coords; exact H|reflexivity].
    - intros s Hs. unfold f_curve. unfold p_or at 1. unfold compound_text.
      rewrite tagged_no_kw; try reflexivity; try exact (ends_stops _ Hs).
      apply reads_or_kw; [|reflexivity|exact Hs]. destruct H as [_ H]. intros a Ha.
      rewrite Forall_forall in H. apply reads_segment, H, Ha.
  Qed.

  Lemma reads_surface : forall s, on_surface P Q s ->
    reads (f_surface pc) (surface_text fmt z m s) (map_surface st s).
  Proof.
    intros [r|l] H; cbn [surface_text map_surface].
    - intros s Hs. unfold f_surface, p_or, rings_text.
      rewrite group_no_kw; try reflexivity; try exact (ends_stops _ Hs); [|discriminate].
      pose proof (reads_rings r H s Hs) as E. unfold rings_text in E. unfold p_map. now rewrite E.
    - unfold f_surface, curvepolygon_text. apply reads_or_kw; [|reflexivity].
      destruct H as [_ H]. intros a Ha. rewrite Forall_forall in H. apply reads_curve, H, Ha.
  Qed.

  Lemma reads_kw : forall A B (g : list B -> geom) (p : parser B) (tx : A -> string) (f : A -> B) tag l n,
    (forall a, In a l -> reads p (tx a) (f a)) -> no_delim tag = true ->
    (forall s t, word s = (tag, t) -> f_geom pc (S n) s = p_map g (p_tagged p) t) ->
    reads (f_geom pc (S n)) (tagged_group tag (map tx l)) (g (map f l)).
  Proof.
    intros A B g p tx f tag l n H Ht Hp s Hs.
    destruct (reads_tagged A B p tx f tag l s H Ht) as (t & E & St & Pt).
    rewrite (Hp _ t); [unfold p_map; now rewrite Pt|]. rewrite E. apply word_app; assumption.
  Qed.

  Lemma all_on : forall A (X : A -> Prop) (R : A -> Prop) l, Q (length l) /\ Forall X l ->
    (forall a, X a -> R a) -> forall a, In a l -> R a.
  Proof. intros A X R l [_ H] HR a Ha. rewrite Forall_forall in H. auto. Qed.

  Lemma reads_geom : forall g n, ordinates64 g -> (coll_depth g < n)%nat ->
    reads (f_geom pc n) (wkt_text fmt z m g) ((map_geom GPoint st) g).
  Proof.
    induction g using geom_ind'; intros n Hg Hn; (destruct n as [|n]; [lia|]).
    - (* point *)
      destruct Hg as [Hc _]. intros s Hs.
      change (wkt_text fmt z m (GPoint c)) with ("POINT" ++ "(" ++ ct c ++ ")").
      rewrite !sapp_assoc. cbn [f_geom].
      rewrite (word_app "POINT" ("(" ++ ct c ++ ")" ++ s)); [|reflexivity|reflexivity].
      cbn [String.eqb Ascii.eqb Bool.eqb]. unfold f_point.
      change (lit " EMPTY" ("(" ++ ?t)) with (@None string). cbv iota.
      rewrite lit_app, (P_coord c Hc (")" ++ s)), lit_app; reflexivity.
    - (* empty *)
      intros s Hs. change (wkt_text fmt z m GEmptyPoint) with ("POINT" ++ " EMPTY").
      rewrite sapp_assoc. cbn [f_geom].
      rewrite (word_app "POINT" (" EMPTY" ++ s)); [|reflexivity|reflexivity].
      cbn [String.eqb Ascii.eqb Bool.eqb]. unfold f_point. now rewrite lit_app.
    - apply reads_kw with (g := GMultiPoint) (p := pc);
        [apply line_coords; exact Hg|reflexivity|]. intros s t E. cbn [f_geom]. now rewrite E.
    - apply reads_kw with (g := GLineString) (p := pc);
        [apply line_coords; exact Hg|reflexivity|]. intros s t E. cbn [f_geom]. now rewrite E.
    - apply reads_kw with (g := GMultiLineString) (p := f_line pc);
        [eapply all_on; [exact Hg|apply reads_line]|reflexivity|].
      intros s t E. cbn [f_geom]. now rewrite E.
    - apply reads_kw with (g := GPolygon) (p := f_line pc);
        [eapply all_on; [exact Hg|apply reads_line]|reflexivity|].
      intros s t E. cbn [f_geom]. now rewrite E.
    - apply reads_kw with (g := GMultiPolygon) (p := f_rings pc);
        [eapply all_on; [exact Hg|apply reads_rings]|reflexivity|].
      intros s t E. cbn [f_geom]. now rewrite E.
    - (* collection *)
      change (wkt_text fmt z m (GCollection l))
        with (tagged_group "GEOMETRYCOLLECTION" (map (wkt_text fmt z m) l)).
      change ((map_geom GPoint st) (GCollection l)) with (GCollection (map (map_geom GPoint st) l)).
      apply reads_kw with (g := GCollection) (p := f_geom pc n); [|reflexivity|].
      + intros a Ha. rewrite Forall_forall in H. apply H; [exact Ha| |].
        * destruct Hg as [_ Hg]. clear -Hg Ha.
          induction l as [|b l IH]; [contradiction|]. destruct Hg as [H1 H2], Ha as [<-|Ha]; auto.
        * clear -Hn Ha. cbn [coll_depth] in Hn.
          assert (coll_depth a <= (fix go (l : list geom) : nat :=
            match l with [] => 0 | a :: r => Nat.max (coll_depth a) (go r) end) l)%nat; [|lia].
          clear Hn. induction l as [|b l IH]; [contradiction|]. destruct Ha as [<-|Ha]; [lia|].
          specialize (IH Ha). lia.
      + intros s t E. cbn [f_geom]. now rewrite E.
    - apply reads_kw with (g := GCircularString) (p := pc);
        [apply line_coords; exact Hg|reflexivity|]. intros s t E. cbn [f_geom]. now rewrite E.
    - apply reads_kw with (g := GCompoundCurve) (p := f_segment pc);
        [eapply all_on; [exact Hg|apply reads_segment]|reflexivity|].
      intros s t E. cbn [f_geom]. now rewrite E.
    - apply reads_kw with (g := GCurvePolygon) (p := f_curve pc);
        [eapply all_on; [exact Hg|apply reads_curve]|reflexivity|].
      intros s t E. cbn [f_geom]. now rewrite E.
    - apply reads_kw with (g := GMultiCurve) (p := f_curve pc);
        [eapply all_on; [exact Hg|apply reads_curve]|reflexivity|].
      intros s t E. cbn [f_geom]. now rewrite E.
    - apply reads_kw with (g := GMultiSurface) (p := f_surface pc);
        [eapply all_on; [exact Hg|apply reads_surface]|reflexivity|].
      intros s t E. cbn [f_geom]. now rewrite E.
    - apply reads_kw with (g := GTriangle) (p := f_line pc);
        [eapply all_on; [exact Hg|apply reads_line]|reflexivity|].
      intros s t E. cbn [f_geom]. now rewrite E.
    - apply reads_kw with (g := GPolyhedralSurface) (p := f_rings pc);
        [eapply all_on; [exact Hg|apply reads_rings]|reflexivity|].
      intros s t E. cbn [f_geom]. now rewrite E.
    - apply reads_kw with (g := GTin) (p := f_rings pc);
        [eapply all_on; [exact Hg|apply reads_rings]|reflexivity|].
      intros s t E. cbn [f_geom]. now rewrite E.
  Qed.

  Lemma flex_text : forall g, ordinates64 g ->
    flex_wkt pc (wkt_text fmt z m g) = Some (map_geom GPoint st g).
  Proof.
    intros g H. unfold flex_wkt.
    pose proof (reads_geom g (String.length (wkt_text fmt z m g)) H (depth_bound fmt z m g) "" I) as E.
    rewrite sapp_nil in E. now rewrite E.
  Qed.
End Parse.
