(** The GeoJSON readers (helper lemmas for C23, C24, C26). *)
From Coq Require Import String Ascii.
From Coq Require Import List NArith ZArith Lia Bool.
From Coq Require Import Numbers.DecimalString.
From Verif Require Import Base BaseLemmas Event EventLemmas Claims Geom WkbSpec ProcModel ProcSpec ProcTop
  JsonSpec JsonLemmas FeatureSpec GeoJsonModel GeoJsonSpec GeoJsonWrite GeoJsonTop GeoJsonLines.
Import ListNotations.
Local Open Scope string_scope.
Local Open Scope list_scope.

(** ** A number format with which all hypotheses are met *)
Definition show_num (x : N) : string := show_z (Z.of_N x).
Definition read_num (t : string) : option N :=
  option_map (fun i => Z.to_N (Z.of_int i)) (NilZero.int_of_string t).
Lemma show_num_ok : forall fin, json_format fin show_num read_num.
Proof.
  intros fin x _. split; [apply int_number|]. unfold read_num, show_num.
  destruct (decimal_show (Z.of_N x)) as [D _].
  destruct (NilZero.int_of_string (show_z (Z.of_N x))) as [i|]; [|discriminate D].
  cbn [option_map] in *. injection D as D. rewrite D. f_equal. apply N2Z.id.
Qed.
Lemma show_num_line : forall x, has_newline (show_num x) = false.
Proof. intros. apply newline_int. Qed.

(** ** Programs that make given callbacks, properties included *)
Definition plays (g : prog unit) (l : list obs) : Prop :=
  forall S (p : proc S) s, exec p g s = feed p l s.
Lemma plays_calls : forall l, plays (ok_calls l) (map OEv l).
Proof.
  intros l S p s. unfold ok_calls. rewrite exec_calls, feed_run.
  destruct (run p l s) as [s' [[]|x]]; reflexivity.
Qed.
Lemma plays_call : forall e, plays (pcall e) [OEv e].
Proof. intros e. exact (plays_calls [e]). Qed.
Lemma plays_ret : plays (pret tt) [].
Proof. intros S p s. reflexivity. Qed.
Lemma plays_then : forall g1 g2 l1 l2, plays g1 l1 -> plays g2 l2 -> plays (pthen g1 g2) (l1 ++ l2).
Proof.
  intros g1 g2 l1 l2 H1 H2 S p s. unfold pthen. rewrite exec_pbind, H1, feed_app.
  destruct (feed p l1 s) as [s' [u|x]]; [apply H2|reflexivity].
Qed.
Lemma plays_for : forall A (f : nat -> A -> prog unit) (ev : nat -> A -> list obs) l i,
  (forall k a, In a l -> plays (f k a) (ev k a)) -> plays (pfor f i l) (flat_mapi ev i l).
Proof.
  induction l as [|a l IH]; intros i H; cbn [pfor flat_mapi]; [apply plays_ret|].
  apply plays_then; [apply H; now left|apply IH; intros; apply H; now right].
Qed.
Lemma plays_for2 : forall A B (R : A -> B -> Prop) (f : nat -> A -> prog unit) (ev : nat -> B -> list obs) l l' i,
  Forall2 R l l' -> (forall k a b, R a b -> plays (f k a) (ev k b)) -> plays (pfor f i l) (flat_mapi ev i l').
Proof.
  intros A B R f ev l l' i H HR. revert i.
  induction H as [|a b l l' Hab H IH]; intros i; cbn [pfor flat_mapi]; [apply plays_ret|].
  apply plays_then; auto.
Qed.
Lemma plays_delivers : forall (src : dims -> prog unit) stream,
  (forall d, plays (src d) (stream (multi_dim d))) -> delivers_obs src stream (Ok tt).
Proof.
  intros src stream H S p s. rewrite (H (p_dims p)).
  destruct (feed p _ s) as [s' [[]|x]]; reflexivity.
Qed.

Section Reader.
  Variable ser : jvalue -> string.
  Variable multi : bool.

  Lemma coord_calls : forall p c idx, coord_of p = Some c -> gj_coord multi idx p = ok_calls [ev_coord multi idx c].
  Proof.
    intros [|x [|y r]] c idx E; try discriminate E. injection E as <-. unfold gj_coord, ev_coord.
    destruct multi; reflexivity.
  Qed.
  Lemma for_calls : forall A B (h : A -> option B) (f : nat -> A -> prog unit) (ev : nat -> B -> list event),
    forall l l' i, all h l = Some l' ->
    (forall k a b, In a l -> h a = Some b -> f k a = ok_calls (ev k b)) ->
    pfor f i l = ok_calls (flat_mapi ev i l') /\ length l' = length l.
  Proof.
    induction l as [|a l IH]; intros l' i E H; cbn [all] in E.
    - injection E as <-. split; reflexivity.
    - destruct (h a) as [b|] eqn:Ea; [|discriminate]. destruct (all h l) as [r|] eqn:El; [|discriminate].
      injection E as <-. cbn [pfor flat_mapi length].
      destruct (IH r (S i) eq_refl) as [E1 E2]; [intros; apply H; [now right|assumption]|].
      rewrite E1, E2, (H i a b (or_introl eq_refl) Ea), pthen_calls. split; reflexivity.
  Qed.
  Lemma wrap_calls : forall b e g l, g = ok_calls l ->
    pthen (pcall b) (pthen g (pcall e)) = ok_calls (b :: l ++ [e]).
  Proof. intros b e g l ->. rewrite !pcall_calls, pthen_calls, pthen_calls. reflexivity. Qed.
  Lemma line_calls : forall t l l' idx, all coord_of l = Some l' ->
    gj_line multi t idx l = ok_calls (ev_line multi t idx l').
  Proof.
    intros t l l' idx E.
    destruct (for_calls _ _ coord_of (gj_coord multi) (fun k c => [ev_coord multi k c]) l l' 0 E
                (fun k a b _ H => coord_calls a b k H)) as [H1 H2].
    unfold gj_line, ev_line. rewrite <- H2, coords_events. now apply wrap_calls.
  Qed.
  Lemma polygon_calls : forall t l l' idx, all (all coord_of) l = Some l' ->
    gj_polygon multi t idx l = ok_calls (ev_polygon multi t idx l').
  Proof.
    intros t l l' idx E.
    destruct (for_calls _ _ (all coord_of) (gj_line multi false) (ev_line multi false) l l' 0 E
                (fun k a b _ H => line_calls false a b k H)) as [H1 H2].
    unfold gj_polygon, ev_polygon. rewrite <- H2. now apply wrap_calls.
  Qed.

  Section GjInd.
    Variable P : gjgeom -> Prop.
    Hypothesis H1 : forall p, P (GjPoint p).
    Hypothesis H2 : forall l, P (GjMultiPoint l).
    Hypothesis H3 : forall l, P (GjLineString l).
    Hypothesis H4 : forall l, P (GjMultiLineString l).
    Hypothesis H5 : forall l, P (GjPolygon l).
    Hypothesis H6 : forall l, P (GjMultiPolygon l).
    Hypothesis H7 : forall l, Forall P l -> P (GjCollection l).
    Fixpoint gjgeom_ind' (g : gjgeom) : P g :=
      match g with
      | GjPoint p => H1 p
      | GjMultiPoint l => H2 l
      | GjLineString l => H3 l
      | GjMultiLineString l => H4 l
      | GjPolygon l => H5 l
      | GjMultiPolygon l => H6 l
      | GjCollection l =>
          H7 l ((fix go (l : list gjgeom) : Forall P l :=
                   match l with [] => Forall_nil P | a :: r => Forall_cons a (gjgeom_ind' a) (go r) end) l)
      end.
  End GjInd.

  Lemma tree_collection : forall l, tree_of (GjCollection l) = option_map GCollection (all tree_of l).
  Proof.
    intros l. cbn [tree_of]. f_equal. induction l as [|a l IH]; [reflexivity|]. cbn [all]. now rewrite IH.
  Qed.
  Lemma geom_collection : forall idx l, gj_geom_n multi idx (GjCollection l) =
    pthen (pcall (CollectionBegin (length l) idx))
      (pthen (pfor (gj_geom_n multi) 0 l) (pcall (CollectionEnd idx))).
  Proof.
    intros idx l. cbn [gj_geom_n]. f_equal. f_equal. generalize 0.
    induction l as [|a l IH]; intros i; [reflexivity|]. cbn [pfor]. now rewrite IH.
  Qed.
  Lemma geom_calls : forall g t idx, tree_of g = Some t ->
    gj_geom_n multi idx g = ok_calls (gevents multi idx t).
  Proof.
    induction g using gjgeom_ind'; intros t idx E.
    7: { rewrite tree_collection in E. destruct (all tree_of l) as [l'|] eqn:El; [|discriminate].
         injection E as <-. rewrite geom_collection, collection_events.
         destruct (for_calls _ _ tree_of (gj_geom_n multi) (gevents multi) l l' 0 El) as [X1 X2].
         { intros k a b Ha. rewrite Forall_forall in H. now apply H. }
         rewrite <- X2. now apply wrap_calls. }
    all: cbn [tree_of] in E;
      match type of E with option_map _ ?x = _ => destruct x as [r|] eqn:Er; [|discriminate] end;
      injection E as <-; cbn [gj_geom_n gevents].
    - rewrite (coord_calls _ _ 0 Er). now rewrite (wrap_calls _ _ _ [ev_coord multi 0 r]).
    - destruct (for_calls _ _ coord_of (gj_coord multi) (fun k c => [ev_coord multi k c]) l r 0 Er
                  (fun k a b _ H => coord_calls a b k H)) as [X1 X2].
      rewrite <- X2, coords_events. now apply wrap_calls.
    - now apply line_calls.
    - destruct (for_calls _ _ (all coord_of) (gj_line multi false) (ev_line multi false) l r 0 Er
                  (fun k a b _ H => line_calls false a b k H)) as [X1 X2].
      rewrite <- X2. now apply wrap_calls.
    - now apply polygon_calls.
    - destruct (for_calls _ _ (all (all coord_of)) (gj_polygon multi false) (ev_polygon multi false) l r 0 Er
                  (fun k a b _ H => polygon_calls false a b k H)) as [X1 X2].
      rewrite <- X2. now apply wrap_calls.
  Qed.

  (** ** Properties and features *)
  Lemma props_play : forall m i qs, delivered ser i m qs -> plays (pfor (gj_property ser) i m) (map prop_obs qs).
  Proof.
    intros m i qs H. induction H as [i|i k r qs H IH|i k v c r qs V H IH]; cbn [pfor map].
    - apply plays_ret.
    - intros S p s. cbn. apply IH.
    - change (prop_obs (i, k, c) :: map prop_obs qs) with ([prop_obs (i, k, c)] ++ map prop_obs qs).
      apply plays_then; [|exact IH]. intros S p s.
      destruct V; cbn [gj_property]; try (cbn; destruct (p_prop p s _ _ _) as [s' [b'|x']]; reflexivity).
      + replace (n <=? 2 ^ 63 - 1)%N with true by (symmetry; apply N.leb_le; lia).
        cbn; destruct (p_prop p s _ _ _) as [s' [b'|x']]; reflexivity.
      + replace (n <=? 2 ^ 63 - 1)%N with false by (symmetry; apply N.leb_gt; lia).
        cbn; destruct (p_prop p s _ _ _) as [s' [b'|x']]; reflexivity.
  Qed.
  Lemma delivered_some : forall m i, exists qs, delivered ser i m qs.
  Proof.
    induction m as [|[k v] m IH]; intros i; [exists []; constructor|].
    destruct (IH (S i)) as [qs H]. destruct v; try solve [eexists; eapply delivered_value; [constructor|exact H]].
    - exists qs. now constructor.
    - destruct n as [x|n|z]; try solve [eexists; eapply delivered_value; [constructor|exact H]].
      destruct (Z.ltb (Z.of_N n) (2 ^ 63)) eqn:E.
      + eexists; eapply delivered_value; [apply of_small; now apply Z.ltb_lt|exact H].
      + eexists; eapply delivered_value; [apply of_big; now apply Z.ltb_ge|exact H].
  Qed.
  Lemma feature_play : forall idx gi pf f, is_feature_of ser pf f ->
    plays (gj_feature ser multi idx gi pf) (feature_obs multi idx gi f).
  Proof.
    intros idx gi pf f [P G]. unfold gj_feature, feature_obs.
    match goal with |- plays _ (?a :: ?l) => change (a :: l) with ([a] ++ l) end.
    apply plays_then; [apply plays_call|]. apply plays_then; [|apply plays_then; [|apply plays_call]].
    - destruct (gf_properties pf) as [m|], (f_props f) as [qs|]; try contradiction; cbn [when_some]; [|apply plays_ret].
      match goal with |- plays _ (?a :: ?l) => change (a :: l) with ([a] ++ l) end.
      apply plays_then; [apply plays_call|]. apply plays_then; [|apply plays_call]. now apply props_play.
    - destruct (gf_geometry pf) as [g|], (f_geom f) as [t|]; try contradiction; cbn [when_some]; [|apply plays_ret].
      match goal with |- plays _ (?a :: ?l) => change (a :: l) with ([a] ++ l) end.
      apply plays_then; [apply plays_call|]. apply plays_then; [|apply plays_call].
      cbn in G. rewrite (geom_calls g t gi G). apply plays_calls.
  Qed.
  Lemma feature_exists : forall pf,
    (forall g, gf_geometry pf = Some g -> tree_of g <> None) -> exists f, is_feature_of ser pf f.
  Proof.
    intros pf H. unfold is_feature_of.
    assert (P : exists ps, same_option (delivered ser 0) (gf_properties pf) ps).
    { destruct (gf_properties pf) as [m|]; [|exists None; exact I].
      destruct (delivered_some m 0) as [qs Q]. exists (Some qs). exact Q. }
    assert (G : exists g', same_option (fun g t => tree_of g = Some t) (gf_geometry pf) g').
    { destruct (gf_geometry pf) as [g|]; [|exists None; exact I].
      destruct (tree_of g) as [t|] eqn:E; [exists (Some t); exact E|]. exfalso. now apply (H g). }
    destruct P as [ps P], G as [g' G]. exists (mkFeature ps g'). split; assumption.
  Qed.

  (** [gi]: geometry index of feature number i *)
  Definition dataset_stream (gi : nat -> nat) (fs : list feature) : list obs :=
    OEv (DatasetBegin None) :: flat_mapi (fun i f => feature_obs multi i (gi i) f) 0 fs ++ [OEv DatasetEnd].

  Lemma collection_play : forall l fs, Forall2 (is_feature_of ser) l fs ->
    plays (process_geojson ser multi (GjFeatures l)) (dataset_stream (fun i => i) fs).
  Proof.
    intros l fs H. cbn [process_geojson]. unfold dataset_stream.
    match goal with |- plays _ (?a :: ?l) => change (a :: l) with ([a] ++ l) end.
    apply plays_then; [apply plays_call|]. apply plays_then; [|apply plays_call].
    apply (plays_for2 _ _ (is_feature_of ser)); [exact H|]. intros. now apply feature_play.
  Qed.
  Lemma single_play : forall idx pf f, is_feature_of ser pf f ->
    (gf_geometry pf <> None \/ gf_properties pf <> None) ->
    plays (process_geojson_feature ser multi idx pf)
      (OEv (DatasetBegin None) :: feature_obs multi idx idx f ++ [OEv DatasetEnd]).
  Proof.
    intros idx pf f H N. unfold process_geojson_feature.
    match goal with |- plays _ (?a :: ?l) => change (a :: l) with ([a] ++ l) end.
    apply plays_then; [apply plays_call|]. apply plays_then; [|apply plays_call].
    destruct (gf_geometry pf) eqn:E1, (gf_properties pf) eqn:E2; try (now apply feature_play).
    destruct N; congruence.
  Qed.
  Lemma empty_play : forall idx, plays (process_geojson_feature ser multi idx (mkGjFeature None None))
    [OEv (DatasetBegin None); OEv DatasetEnd].
  Proof.
    intros idx. unfold process_geojson_feature. cbn [gf_geometry gf_properties].
    change [OEv (DatasetBegin None); OEv DatasetEnd] with ([OEv (DatasetBegin None)] ++ [] ++ [OEv DatasetEnd]).
    apply plays_then; [apply plays_call|]. apply plays_then; [apply plays_ret|apply plays_call].
  Qed.
  Lemma lines_play : forall l fs, Forall2 (is_feature_of ser) l fs ->
    plays (read_geojson_lines ser multi (map (fun f => Ok (GjFeature f)) l)) (dataset_stream (fun _ => 0) fs).
  Proof.
    intros l fs H. unfold read_geojson_lines, dataset_stream.
    match goal with |- plays _ (?a :: ?l) => change (a :: l) with ([a] ++ l) end.
    apply plays_then; [apply plays_call|]. apply plays_then; [|apply plays_call].
    apply (plays_for2 _ _ (fun r f => exists pf, r = Ok (GjFeature pf) /\ is_feature_of ser pf f)).
    - clear -H. induction H; cbn; constructor; [eexists; split; [reflexivity|assumption]|assumption].
    - intros k r f (pf & -> & F). now apply feature_play.
  Qed.
  Lemma fc_play : forall l fs i, Forall2 (is_feature_of ser) l fs ->
    Forall (fun pf => gf_geometry pf <> None \/ gf_properties pf <> None) l ->
    plays (pfor (fun idx f => match f with Ok f => process_geojson_feature ser multi idx f | Err e => pfail e end) i
             (map Ok l))
      (flat_mapi (fun i f => OEv (DatasetBegin None) :: feature_obs multi i i f ++ [OEv DatasetEnd]) i fs).
  Proof.
    intros l fs i H. revert i. induction H as [|pf f l fs F H IH]; intros i N; cbn [map pfor flat_mapi]; [apply plays_ret|].
    inversion N as [|? ? N1 N2]; subst. apply plays_then; [now apply single_play|now apply IH].
  Qed.

  (** ** Lines as one geometry *)
  Definition members_events (ts : list (nat * geom)) : list event :=
    flat_map (fun t => gevents multi (fst t) (snd t)) ts.
  Lemma lines_geom_calls : forall l started idx ts, Forall no_collection l ->
    Forall2 member_of (line_members idx l) ts ->
    gj_lines_geom multi started idx (map Ok l) =
    calls ((if started then [] else match ts with [] => [] | _ => [CollectionBegin 1 0] end) ++ members_events ts)
      (Done (Ok (started || match ts with [] => false | _ => true end))).
  Proof.
    induction l as [|x l IH]; intros started idx ts N H.
    - cbn [line_members] in H. inversion H; subst. cbn. destruct started; reflexivity.
    - inversion N as [|? ? N1 N2]; subst.
      assert (A : forall (b : bool) g t, tree_of g = Some t ->
        pthen (if b then pret tt else pcall (CollectionBegin 1 0)) (gj_geom_n multi idx g) =
        ok_calls ((if b then [] else [CollectionBegin 1 0]) ++ gevents multi idx t)).
      { intros b g t E. rewrite (geom_calls g t idx E).
        destruct b; [change (pret tt) with (ok_calls []) | rewrite pcall_calls]; now rewrite pthen_calls. }
      assert (B : forall (b : bool) g ts, Forall2 member_of ((idx, g) :: line_members (S idx) l) ts ->
        pthen (pthen (if b then pret tt else pcall (CollectionBegin 1 0)) (gj_geom_n multi idx g))
          (gj_lines_geom multi true (S idx) (map Ok l)) =
        calls ((if b then [] else match ts with [] => [] | _ => [CollectionBegin 1 0] end) ++ members_events ts)
          (Done (Ok (b || match ts with [] => false | _ => true end)))).
      { intros b g ts' HM. inversion HM as [|m t ms ts2 [M1 M2] HM2]; subst. cbn [fst snd] in *.
        rewrite (A b g (snd t) M2). rewrite (IH true (S idx) ts2 N2 HM2). unfold ok_calls, pthen.
        rewrite pbind_calls. cbn [pbind]. rewrite <- calls_app. cbn [members_events flat_map].
        rewrite M1, <- app_assoc. rewrite orb_true_r. destruct b; reflexivity. }
      destruct x as [fs|f|g]; [contradiction| |]; cbn [map gj_lines_geom line_members] in *.
      + destruct (gf_geometry f) as [g|]; [now apply B|]. cbn [app] in H. now apply IH.
      + now apply B.
  Qed.
  Lemma lines_geometry : forall l ts, Forall no_collection l -> Forall2 member_of (line_members 0 l) ts ->
    read_geojson_line_geometries multi (map Ok l) =
    ok_calls (CollectionBegin (match ts with [] => 0 | _ => 1 end) 0 :: members_events ts ++ [CollectionEnd 0]).
  Proof.
    intros l ts N H. unfold read_geojson_line_geometries. rewrite (lines_geom_calls l false 0 ts N H).
    rewrite pbind_calls. cbn [pbind orb]. destruct ts as [|t ts].
    - reflexivity.
    - cbn [app members_events flat_map]. unfold ok_calls. cbn [calls]. f_equal.
      rewrite !calls_app. reflexivity.
  Qed.
End Reader.

Lemma delivers_calls : forall (src : dims -> prog unit) stream,
  (forall d, src d = ok_calls (stream (multi_dim d))) -> delivers src stream (Ok tt).
Proof.
  intros src stream H S p s. rewrite H. unfold ok_calls. rewrite exec_calls.
  destruct (run p _ s) as [s' [[]|x]]; reflexivity.
Qed.
Lemma delivers_events : forall src (l l' : bool -> list event) (r r' : res unit),
  delivers src l r -> delivers src l' r' -> l false = l' false.
Proof.
  intros src l l' r r' H H'.
  specialize (H _ (recorder xy_dims false) []). specialize (H' _ (recorder xy_dims false) []).
  rewrite H in H'. rewrite !recorder_run in H'. cbn [p_dims recorder app] in H'.
  change (multi_dim xy_dims) with false in H'. injection H' as E _.
  revert E. generalize (l false), (l' false).
  induction l0 as [|e a IH]; intros [|e' a'] E; try discriminate E; [reflexivity|].
  injection E as <- E. f_equal. auto.
Qed.
