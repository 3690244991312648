(** The reference parser recovers the geometry from the text (helper lemmas for C16). *)
From Coq Require Import String Ascii.
From Coq Require Import List NArith ZArith Lia Bool.
From Verif Require Import Base BaseLemmas Event EventLemmas Geom WkbSpec WktSpec WktWrite.
Import ListNotations.
Local Open Scope list_scope.
Local Open Scope string_scope.

(** the input ends or goes on with a delimiter *)
Definition stops (s : string) : Prop := match s with "" => True | String a _ => delim a = true end.

Lemma word_app : forall w s, no_delim w = true -> stops s -> word (w ++ s) = (w, s).
Proof.
  induction w as [|a w IH]; intros s Hw Hs.
  - destruct s as [|b s]; [reflexivity|]. cbn in *. now rewrite Hs.
  - cbn in Hw. apply andb_true_iff in Hw. destruct Hw as [Ha Hw]. cbn.
    apply negb_true_iff in Ha. now rewrite Ha, IH.
Qed.
Lemma lit_app : forall w s, lit w (w ++ s) = Some s.
Proof. induction w as [|a w IH]; intros s; [reflexivity|]. cbn. now rewrite Ascii.eqb_refl. Qed.

Lemma lit_word : forall v w s, lit v w = None -> no_delim v = true -> no_delim w = true -> stops s ->
  lit v (w ++ s) = None.
Proof.
  induction v as [|a v IH]; intros [|b w] s H Hv Hw Hs; cbn [lit append] in *; try discriminate.
  - destruct s as [|b s]; [reflexivity|]. cbn [no_delim] in Hv. apply andb_true_iff in Hv.
    destruct (Ascii.eqb_spec a b) as [->|]; [|reflexivity]. cbn in Hs. rewrite Hs in Hv. now destruct Hv.
  - cbn [no_delim] in *. apply andb_true_iff in Hv, Hw.
    destruct (Ascii.eqb a b); [|reflexivity]. apply IH; tauto.
Qed.

Section Parse.
  Variable fmt : f64 -> string.
  Variable num : string -> option f64.
  Variables z m : bool.
  Hypothesis F : formats fmt num.

  Notation ct := (coord_text fmt z m).
  Notation st := canon_coord.

  (** [parses p t a]: [p] reads [a] from [t] followed by a delimiter *)
  Definition parses {A} (p : parser A) (t : string) (a : A) : Prop :=
    forall s, stops s -> p (t ++ s) = Some (a, s).

  Lemma parses_num : forall x, f64_ok x -> parses (p_num num) (fmt x) (canon x).
  Proof.
    intros x Hx s Hs. destruct (F x Hx) as (H1 & H2 & H3). unfold p_num. now rewrite word_app, H3.
  Qed.

  Definition has (b : bool) (o : option f64) : Prop := if b then o <> None else o = None.

  Lemma parses_opt : forall b o, has b o -> of64_ok o ->
    parses (p_opt num b) (ordinate_text fmt o) (option_map canon o).
  Proof.
    intros [] [x|] H Hx s Hs; cbn in H; try congruence; cbn [ordinate_text].
    - unfold p_opt. rewrite sapp_assoc, lit_app, (parses_num x Hx s Hs). reflexivity.
    - reflexivity.
  Qed.

  Lemma stops_ordinate : forall o s, stops s -> stops (ordinate_text fmt o ++ s).
  Proof. intros [x|] s H; [reflexivity|exact H]. Qed.

  Lemma has_shown : forall c, has z (cz c) -> has m (cm c) -> shown z m c = c.
  Proof. intros [x y cz' cm'] H1 H2. unfold shown, has in *. cbn in *. destruct z, m; subst; reflexivity. Qed.

  Lemma canon_nan : forall x, f64_is_nan x = true -> canon x = qnan.
  Proof. intros x H. unfold canon. now rewrite H. Qed.

  Lemma parses_coord : forall c, coord64 c -> has z (cz c) -> has m (cm c) -> parses (p_coord num z m) (ct c) (st c).
  Proof.
    intros c (Bx & By & Bz & Bm) Hz Hm s Hs. unfold coord_text. rewrite has_shown by assumption.
    destruct (all_nanb c) eqn:E.
    - unfold p_coord. rewrite lit_app. f_equal. f_equal. unfold nan_position, st.
      unfold all_nanb in E. rewrite !andb_true_iff in E. destruct E as [[[H1 H2] H3] H4].
      rewrite !canon_nan by assumption. unfold has in *.
      destruct z, m, (cz c), (cm c); try congruence; cbn [option_map]; rewrite ?canon_nan by assumption;
        reflexivity.
    - rewrite !sapp_assoc. unfold p_coord.
      destruct (F (cx c) Bx) as (H1 & H2 & H3).
      rewrite (lit_word "EMPTY" (fmt (cx c))); [|exact H2|reflexivity|exact H1|reflexivity].
      rewrite (parses_num (cx c) Bx); [|reflexivity]. rewrite lit_app.
      rewrite (parses_num (cy c) By); [|apply stops_ordinate, stops_ordinate; exact Hs].
      rewrite (parses_opt z (cz c) Hz Bz); [|apply stops_ordinate; exact Hs].
      rewrite (parses_opt m (cm c) Hm Bm); [|exact Hs]. reflexivity.
  Qed.

  (** lists *)
  Lemma slength_app : forall x y, String.length (x ++ y) = (String.length x + String.length y)%nat.
  Proof. induction x as [|ch x IHx]; intros y; cbn; [reflexivity|now rewrite IHx]. Qed.
  Lemma concat_length : forall l, (length l <= S (String.length (String.concat "," l)))%nat.
  Proof.
    induction l as [|a l IH]; [cbn; lia|]. destruct l as [|b l]; [cbn; lia|].
    change (String.concat "," (a :: b :: l)) with (a ++ "," ++ String.concat "," (b :: l)).
    rewrite !slength_app. cbn [String.length]. cbn [length] in *. lia.
  Qed.

  Lemma parses_items : forall A B (p : parser B) (tx : A -> string) (f : A -> B) l fuel s,
    l <> [] -> (length l <= fuel)%nat -> (forall a, In a l -> parses p (tx a) (f a)) ->
    p_items p fuel (String.concat "," (map tx l) ++ ")" ++ s) = Some (map f l, s).
  Proof.
    induction l as [|a l IH]; intros fuel s Hn Hf H; [congruence|].
    destruct fuel as [|fuel]; [cbn in Hf; lia|]. cbn [p_items].
    destruct l as [|b l].
    - cbn [map String.concat]. rewrite (H a (or_introl eq_refl)); [|reflexivity].
      now rewrite lit_app.
    - change (String.concat "," (map tx (a :: b :: l)))
        with (tx a ++ "," ++ String.concat "," (map tx (b :: l))).
      rewrite !sapp_assoc. rewrite (H a (or_introl eq_refl)); [|reflexivity].
      change (lit ")" ("," ++ ?t)) with (@None string). cbv iota. rewrite lit_app.
      rewrite IH; [reflexivity|discriminate|cbn in *; lia|intros; apply H; now right].
  Qed.

  Lemma parses_paren : forall A B (p : parser B) (tx : A -> string) (f : A -> B) l s,
    l <> [] -> (forall a, In a l -> parses p (tx a) (f a)) ->
    p_paren p ("(" ++ String.concat "," (map tx l) ++ ")" ++ s) = Some (map f l, s).
  Proof.
    intros A B p tx f l s Hn H. unfold p_paren. rewrite lit_app. apply parses_items; auto.
    rewrite !slength_app. pose proof (concat_length (map tx l)). rewrite map_length in H0. cbn [String.length]. lia.
  Qed.

  Lemma parses_group : forall A B (p : parser B) (tx : A -> string) (f : A -> B) l,
    (forall a, In a l -> parses p (tx a) (f a)) ->
    parses (p_group p) (group (map tx l)) (map f l).
  Proof.
    intros A B p tx f [|a l] H s Hs; unfold p_group.
    - cbn [map group]. now rewrite lit_app.
    - change (group (map tx (a :: l))) with ("(" ++ String.concat "," (map tx (a :: l)) ++ ")").
      rewrite !sapp_assoc. change (lit "EMPTY" ("(" ++ ?t)) with (@None string). cbv iota.
      apply parses_paren; [discriminate|exact H].
  Qed.

  Lemma parses_tagged : forall A B (p : parser B) (tx : A -> string) (f : A -> B) tag l s,
    (forall a, In a l -> parses p (tx a) (f a)) -> no_delim tag = true ->
    exists t, tagged_group tag (map tx l) ++ s = tag ++ t /\ stops t /\ p_tagged p t = Some (map f l, s).
  Proof.
    intros A B p tx f tag [|a l] s H Ht; unfold p_tagged.
    - exists (" EMPTY" ++ s). cbn [map tagged_group]. rewrite sapp_assoc, lit_app. repeat split.
    - exists ("(" ++ String.concat "," (map tx (a :: l)) ++ ")" ++ s).
      change (tagged_group tag (map tx (a :: l)))
        with (tag ++ "(" ++ String.concat "," (map tx (a :: l)) ++ ")").
      split; [rewrite !sapp_assoc; reflexivity|]. split; [reflexivity|].
      change (lit " EMPTY" ("(" ++ ?t)) with (@None string). cbv iota.
      apply parses_paren; [discriminate|exact H].
  Qed.

  Lemma parses_map : forall A B (f : A -> B) p t a, parses p t a -> parses (p_map f p) t (f a).
  Proof. intros A B f p t a H s Hs. unfold p_map. now rewrite (H s Hs). Qed.

  Lemma parses_or_kw : forall A B C (g : list B -> C) (p : parser B) (q : parser C) (tx : A -> string)
      (f : A -> B) tag l,
    (forall a, In a l -> parses p (tx a) (f a)) -> no_delim tag = true ->
    parses (p_or tag (p_map g (p_tagged p)) q) (tagged_group tag (map tx l)) (g (map f l)).
  Proof.
    intros A B C g p q tx f tag l H Ht s Hs.
    destruct (parses_tagged A B p tx f tag l s H Ht) as (t & E & _ & P).
    unfold p_or. rewrite E, lit_app. unfold p_map. now rewrite P.
  Qed.

  (** a text that starts with an opening parenthesis or the word EMPTY is no keyword *)
  Lemma group_no_kw : forall kw l s, no_delim kw = true -> lit kw "EMPTY" = None ->
    lit "EMPTY" kw = None -> kw <> "" ->
    stops s -> lit kw (group l ++ s) = None.
  Proof.
    intros kw [|a l] s H1 H2 H3 H4 Hs.
    - apply lit_word; auto.
    - change (group (a :: l)) with ("(" ++ String.concat "," (a :: l) ++ ")").
      destruct kw as [|ch kw]; [congruence|]. cbn [lit append].
      cbn [no_delim] in H1. apply andb_true_iff in H1. destruct H1 as [H1 _].
      destruct (Ascii.eqb_spec ch "("%char) as [->|]; [discriminate H1|reflexivity].
  Qed.
  Lemma tagged_no_kw : forall kw tag l s, no_delim kw = true -> lit kw tag = None -> no_delim tag = true ->
    stops s -> lit kw (tagged_group tag l ++ s) = None.
  Proof.
    intros kw tag [|a l] s H1 H2 H3 Hs.
    - cbn [tagged_group]. rewrite sapp_assoc. apply lit_word; auto. reflexivity.
    - change (tagged_group tag (a :: l)) with (tag ++ "(" ++ String.concat "," (a :: l) ++ ")").
      rewrite sapp_assoc. apply lit_word; auto. reflexivity.
  Qed.

  Notation P := (fun c => coord64 c /\ (if z then cz c <> None else cz c = None) /\
                          (if m then cm c <> None else cm c = None)).
  Notation Q := (fun _ : nat => True).

  Lemma P_coord : forall c, P c -> parses (p_coord num z m) (ct c) (st c).
  Proof. intros c (H & H1 & H2). apply parses_coord; assumption. Qed.
  Lemma line_coords : forall l, on_line P Q l -> forall a, In a l -> parses (p_coord num z m) (ct a) (st a).
  Proof. intros l [_ H] a Ha. rewrite Forall_forall in H. apply P_coord, H, Ha. Qed.

  Lemma parses_line : forall l, on_line P Q l ->
    parses (p_line num z m) (line_text fmt z m l) (map st l).
  Proof. intros l H. apply parses_group. apply line_coords. exact H. Qed.

  Lemma parses_rings : forall r, on_rings P Q r ->
    parses (p_rings num z m) (rings_text fmt z m r) (map (map st) r).
  Proof.
    intros r [_ H]. apply parses_group. intros a Ha. rewrite Forall_forall in H.
    apply parses_line, H, Ha.
  Qed.

  Lemma parses_segment : forall s, on_segment P Q s ->
    parses (p_segment num z m) (segment_text fmt z m s) (map_segment st s).
  Proof.
    intros [l|l] H; cbn [segment_text map_segment].
    - intros s Hs. unfold p_segment, p_or, line_text.
      rewrite group_no_kw; try reflexivity; try exact Hs; [|discriminate].
      pose proof (parses_line l H s Hs) as E. unfold line_text in E. unfold p_map. now rewrite E.
    - unfold p_segment, arc_text. apply parses_or_kw; [apply line_coords; exact H|reflexivity].
  Qed.

  Lemma parses_curve : forall s, on_curve P Q s ->
    parses (p_curve num z m) (curve_text fmt z m s) (map_curve st s).
  Proof.
    intros [l|l|l] H; cbn [curve_text map_curve].
    - intros s Hs. unfold p_curve, p_or, line_text.
      rewrite !group_no_kw; try reflexivity; try exact Hs; try discriminate.
      pose proof (parses_line l H s Hs) as E. unfold line_text in E. unfold p_map. now rewrite E.
    - unfold p_curve, arc_text. apply parses_or_kw; [apply line_coords; exact H|reflexivity].
    - intros s Hs. unfold p_curve. unfold p_or at 1. unfold compound_text.
      rewrite tagged_no_kw; try reflexivity; try exact Hs.
      apply parses_or_kw; [|reflexivity|exact Hs]. destruct H as [_ H]. intros a Ha.
      rewrite Forall_forall in H. apply parses_segment, H, Ha.
  Qed.

  Lemma parses_surface : forall s, on_surface P Q s ->
    parses (p_surface num z m) (surface_text fmt z m s) (map_surface st s).
  Proof.
    intros [r|l] H; cbn [surface_text map_surface].
    - intros s Hs. unfold p_surface, p_or, rings_text.
      rewrite group_no_kw; try reflexivity; try exact Hs; [|discriminate].
      pose proof (parses_rings r H s Hs) as E. unfold rings_text in E. unfold p_map. now rewrite E.
    - unfold p_surface, curvepolygon_text. apply parses_or_kw; [|reflexivity].
      destruct H as [_ H]. intros a Ha. rewrite Forall_forall in H. apply parses_curve, H, Ha.
  Qed.

  Lemma parses_kw : forall A B (g : list B -> geom) (p : parser B) (tx : A -> string) (f : A -> B) tag l n,
    (forall a, In a l -> parses p (tx a) (f a)) -> no_delim tag = true ->
    (forall s t, word s = (tag, t) -> p_geom num z m (S n) s = p_map g (p_tagged p) t) ->
    parses (p_geom num z m (S n)) (tagged_group tag (map tx l)) (g (map f l)).
  Proof.
    intros A B g p tx f tag l n H Ht Hp s Hs.
    destruct (parses_tagged A B p tx f tag l s H Ht) as (t & E & St & Pt).
    rewrite (Hp _ t); [unfold p_map; now rewrite Pt|]. rewrite E. apply word_app; assumption.
  Qed.

  Lemma all_on : forall A (X : A -> Prop) (R : A -> Prop) l, Q (length l) /\ Forall X l ->
    (forall a, X a -> R a) -> forall a, In a l -> R a.
  Proof. intros A X R l [_ H] HR a Ha. rewrite Forall_forall in H. auto. Qed.

  Lemma parses_geom : forall g n, exactly z m g -> (coll_depth g < n)%nat ->
    parses (p_geom num z m n) (wkt_text fmt z m g) (canon_geom g).
  Proof.
    induction g using geom_ind'; intros n Hg Hn; (destruct n as [|n]; [lia|]).
    - (* point *)
      destruct Hg as [Hc _]. intros s Hs.
      change (wkt_text fmt z m (GPoint c)) with ("POINT" ++ "(" ++ ct c ++ ")").
      rewrite !sapp_assoc. cbn [p_geom].
      rewrite (word_app "POINT" ("(" ++ ct c ++ ")" ++ s)); [|reflexivity|reflexivity].
      cbn [String.eqb Ascii.eqb Bool.eqb]. unfold p_point.
      change (lit " EMPTY" ("(" ++ ?t)) with (@None string). cbv iota.
      rewrite lit_app, (P_coord c Hc (")" ++ s)), lit_app; reflexivity.
    - (* empty *)
      intros s Hs. change (wkt_text fmt z m GEmptyPoint) with ("POINT" ++ " EMPTY").
      rewrite sapp_assoc. cbn [p_geom].
      rewrite (word_app "POINT" (" EMPTY" ++ s)); [|reflexivity|reflexivity].
      cbn [String.eqb Ascii.eqb Bool.eqb]. unfold p_point. now rewrite lit_app.
    - apply parses_kw with (g := GMultiPoint) (p := p_coord num z m);
        [apply line_coords; exact Hg|reflexivity|]. intros s t E. cbn [p_geom]. now rewrite E.
    - apply parses_kw with (g := GLineString) (p := p_coord num z m);
        [apply line_coords; exact Hg|reflexivity|]. intros s t E. cbn [p_geom]. now rewrite E.
    - apply parses_kw with (g := GMultiLineString) (p := p_line num z m);
        [eapply all_on; [exact Hg|apply parses_line]|reflexivity|].
      intros s t E. cbn [p_geom]. now rewrite E.
    - apply parses_kw with (g := GPolygon) (p := p_line num z m);
        [eapply all_on; [exact Hg|apply parses_line]|reflexivity|].
      intros s t E. cbn [p_geom]. now rewrite E.
    - apply parses_kw with (g := GMultiPolygon) (p := p_rings num z m);
        [eapply all_on; [exact Hg|apply parses_rings]|reflexivity|].
      intros s t E. cbn [p_geom]. now rewrite E.
    - (* collection *)
      change (wkt_text fmt z m (GCollection l))
        with (tagged_group "GEOMETRYCOLLECTION" (map (wkt_text fmt z m) l)).
      change (canon_geom (GCollection l)) with (GCollection (map canon_geom l)).
      apply parses_kw with (g := GCollection) (p := p_geom num z m n); [|reflexivity|].
      + intros a Ha. rewrite Forall_forall in H. apply H; [exact Ha| |].
        * destruct Hg as [_ Hg]. clear -Hg Ha.
          induction l as [|b l IH]; [contradiction|]. destruct Hg as [H1 H2], Ha as [<-|Ha]; auto.
        * clear -Hn Ha. cbn [coll_depth] in Hn.
          assert (coll_depth a <= (fix go (l : list geom) : nat :=
            match l with [] => 0 | a :: r => Nat.max (coll_depth a) (go r) end) l)%nat; [|lia].
          clear Hn. induction l as [|b l IH]; [contradiction|]. destruct Ha as [<-|Ha]; [lia|].
          specialize (IH Ha). lia.
      + intros s t E. cbn [p_geom]. now rewrite E.
    - apply parses_kw with (g := GCircularString) (p := p_coord num z m);
        [apply line_coords; exact Hg|reflexivity|]. intros s t E. cbn [p_geom]. now rewrite E.
    - apply parses_kw with (g := GCompoundCurve) (p := p_segment num z m);
        [eapply all_on; [exact Hg|apply parses_segment]|reflexivity|].
      intros s t E. cbn [p_geom]. now rewrite E.
    - apply parses_kw with (g := GCurvePolygon) (p := p_curve num z m);
        [eapply all_on; [exact Hg|apply parses_curve]|reflexivity|].
      intros s t E. cbn [p_geom]. now rewrite E.
    - apply parses_kw with (g := GMultiCurve) (p := p_curve num z m);
        [eapply all_on; [exact Hg|apply parses_curve]|reflexivity|].
      intros s t E. cbn [p_geom]. now rewrite E.
    - apply parses_kw with (g := GMultiSurface) (p := p_surface num z m);
        [eapply all_on; [exact Hg|apply parses_surface]|reflexivity|].
      intros s t E. cbn [p_geom]. now rewrite E.
    - apply parses_kw with (g := GTriangle) (p := p_line num z m);
        [eapply all_on; [exact Hg|apply parses_line]|reflexivity|].
      intros s t E. cbn [p_geom]. now rewrite E.
    - apply parses_kw with (g := GPolyhedralSurface) (p := p_rings num z m);
        [eapply all_on; [exact Hg|apply parses_rings]|reflexivity|].
      intros s t E. cbn [p_geom]. now rewrite E.
    - apply parses_kw with (g := GTin) (p := p_rings num z m);
        [eapply all_on; [exact Hg|apply parses_rings]|reflexivity|].
      intros s t E. cbn [p_geom]. now rewrite E.
  Qed.

  Lemma concat_bound : forall (f : geom -> string) l a, In a l ->
    (String.length (f a) <= String.length (String.concat "," (map f l)))%nat.
  Proof.
    induction l as [|b l IH]; intros a Ha; [contradiction|]. cbn [map String.concat].
    destruct l as [|b' l]; [destruct Ha as [<-|[]]; cbn; lia|].
    change (map f (b' :: l)) with (f b' :: map f l) at 1. cbv iota. rewrite !slength_app.
    destruct Ha as [<-|Ha]; [lia|]. specialize (IH a Ha). lia.
  Qed.

  Lemma depth_bound : forall g, (coll_depth g < String.length (wkt_text fmt z m g))%nat.
  Proof.
    assert (K : forall tag l, (String.length tag <= String.length (tagged_group tag l))%nat).
    { intros tag [|a l]; cbn [tagged_group]; rewrite slength_app; lia. }
    induction g using geom_ind'; try (cbn [coll_depth wkt_text]; unfold arc_text, compound_text, curvepolygon_text;
      match goal with |- context [tagged_group ?t ?l] => pose proof (K t l) as K1; cbn [String.length] in K1 end; lia).
    - cbn. lia.
    - change (wkt_text fmt z m (GCollection l))
        with (tagged_group "GEOMETRYCOLLECTION" (map (wkt_text fmt z m) l)).
      destruct l as [|a0 l0] eqn:El; [cbn; lia|]. rewrite <- El in *.
      assert (B : (coll_depth (GCollection l) <= S (String.length (String.concat "," (map (wkt_text fmt z m) l))))%nat).
      { cbn [coll_depth]. apply le_n_S. clear El a0 l0.
        assert (G : forall k, (forall a, In a l -> coll_depth a <= k)%nat ->
          ((fix go (l : list geom) : nat :=
            match l with [] => 0 | a :: r => Nat.max (coll_depth a) (go r) end) l <= k)%nat).
        { clear. induction l as [|a l IH]; intros k Hk; [lia|].
          pose proof (Hk a (or_introl eq_refl)). specialize (IH k (fun b Hb => Hk b (or_intror Hb))). lia. }
        apply G. intros a Ha. rewrite Forall_forall in H. specialize (H a Ha).
        pose proof (concat_bound (wkt_text fmt z m) l a Ha). lia. }
      assert (E : tagged_group "GEOMETRYCOLLECTION" (map (wkt_text fmt z m) l) =
        "GEOMETRYCOLLECTION" ++ "(" ++ String.concat "," (map (wkt_text fmt z m) l) ++ ")").
      { rewrite El. reflexivity. }
      rewrite E, !slength_app. cbn [String.length]. lia.
  Qed.

  Lemma parse_text : forall g, exactly z m g ->
    parse_wkt num z m (wkt_text fmt z m g) = Some (canon_geom g).
  Proof.
    intros g H. unfold parse_wkt.
    pose proof (parses_geom g (String.length (wkt_text fmt z m g)) H (depth_bound g) "" I) as E.
    rewrite sapp_nil in E. now rewrite E.
  Qed.
End Parse.
