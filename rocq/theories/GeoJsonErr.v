(** Proofs: GeoJSON that cannot be read. *)
From Coq Require Import String Ascii.
From Coq Require Import List NArith ZArith Lia Bool.
From Verif Require Import Base Event EventLemmas Claims Geom WkbSpec ProcSpec JsonSpec FeatureSpec GeoJsonModel GeoJsonSpec GeoJsonRead CsvTop.
Import ListNotations.
Local Open Scope list_scope.

Lemma fails_delivers : forall (src : dims -> prog unit) stream e,
  (forall d, fails (src d) (stream (multi_dim d)) e) -> delivers_obs src stream (Err e).
Proof. intros src stream e H S p s. apply H. Qed.

Lemma no_document : forall ser e,
  delivers_obs (fun d => read_geojson ser (multi_dim d) (Err e)) (fun _ => []) (Err e) /\
  delivers_obs (fun d => read_geojson_geom (multi_dim d) (Err e)) (fun _ => []) (Err e).
Proof. intros ser e. split; apply fails_delivers; intros d; apply fails_now. Qed.

Lemma line_plays : forall ser multi k l x, is_line ser l x ->
  plays (match l with GjFeature f => gj_feature ser multi k 0 f | GjGeometry g => gj_geom_n multi k g | GjFeatures _ => pfail EDataset end)
    (line_obs multi k x).
Proof.
  intros ser multi k [c|f|g] [f'|t] H; cbn [is_line] in H; try contradiction.
  - now apply GeoJsonRead.feature_play.
  - cbn [line_obs]. rewrite (geom_calls multi g t k H). apply plays_calls.
Qed.
Lemma mixed_lines : forall ser l xs, Forall2 (is_line ser) l xs ->
  delivers_obs (fun d => read_geojson_lines ser (multi_dim d) (map Ok l))
    (fun multi => OEv (DatasetBegin None) :: flat_mapi (line_obs multi) 0 xs ++ [OEv DatasetEnd]) (Ok tt).
Proof.
  intros ser l xs H. apply plays_delivers. intros d. unfold read_geojson_lines.
  apply (plays_then _ _ [_] _); [apply plays_call|]. apply plays_then; [|apply plays_call].
  apply (plays_for2 _ _ (fun r x => exists g, r = Ok g /\ is_line ser g x)).
  - clear -H. induction H; cbn; constructor; [eexists; split; [reflexivity|assumption]|assumption].
  - intros k r x (g & -> & L). exact (line_plays ser (multi_dim d) k g x L).
Qed.
Lemma bad_line : forall ser l xs bad e rest, Forall2 (is_line ser) l xs -> unusable bad e ->
  delivers_obs (fun d => read_geojson_lines ser (multi_dim d) (map Ok l ++ bad :: rest))
    (fun multi => OEv (DatasetBegin None) :: flat_mapi (line_obs multi) 0 xs) (Err e).
Proof.
  intros ser l xs bad e rest H B. apply fails_delivers. intros d. unfold read_geojson_lines.
  apply (plays_fails _ _ [_] _); [apply plays_call|]. apply fails_then. rewrite <- (app_nil_r (flat_mapi _ 0 xs)).
  apply (pfor_app_plays _ _ (fun r x => exists g, r = Ok g /\ is_line ser g x)).
  - clear -H. induction H; cbn; constructor; [eexists; split; [reflexivity|assumption]|assumption].
  - intros k r x (g & -> & L). exact (line_plays ser (multi_dim d) k g x L).
  - destruct B as [->|[[c ->] ->]]; apply fails_now.
Qed.
Lemma bad_feature : forall ser l fs e rest, Forall2 (is_feature_of ser) l fs ->
  Forall (fun pf => gf_geometry pf <> None \/ gf_properties pf <> None) l ->
  delivers_obs (fun d => read_geojson_fc ser (multi_dim d) (map Ok l ++ Err e :: rest))
    (fun multi => flat_mapi (fun i f => OEv (DatasetBegin None) :: feature_obs multi i i f ++ [OEv DatasetEnd]) 0 fs) (Err e).
Proof.
  intros ser l fs e rest H N. apply fails_delivers. intros d. unfold read_geojson_fc.
  rewrite <- (app_nil_r (flat_mapi _ 0 fs)).
  apply (pfor_app_plays _ _ (fun r f => exists pf, r = Ok pf /\ is_feature_of ser pf f /\ (gf_geometry pf <> None \/ gf_properties pf <> None))).
  - induction H; cbn; inversion_clear N; constructor; [eexists; split; [reflexivity|split; assumption]|auto].
  - intros k r f (pf & -> & F & M). now apply single_play.
  - apply fails_now.
Qed.

(** lines as one geometry *)
Lemma lines_geom_before : forall multi l tail started idx ts, Forall no_collection l ->
  Forall2 member_of (line_members idx l) ts ->
  gj_lines_geom multi started idx (map Ok l ++ tail) =
  calls ((if started then [] else match ts with [] => [] | _ => [CollectionBegin 1 0] end) ++ members_events multi ts)
    (gj_lines_geom multi (started || match ts with [] => false | _ => true end) (idx + length l) tail).
Proof.
  intros multi l tail. induction l as [|x l IH]; intros started idx ts N H.
  - cbn [line_members] in H. inversion H; subst. cbn [map app length members_events flat_map].
    rewrite Nat.add_0_r. destruct started; reflexivity.
  - inversion N as [|? ? N1 N2]; subst.
    assert (B : forall (b : bool) g ts, Forall2 member_of ((idx, g) :: line_members (S idx) l) ts ->
      pthen (pthen (if b then pret tt else pcall (CollectionBegin 1 0)) (gj_geom_n multi idx g))
        (gj_lines_geom multi true (S idx) (map Ok l ++ tail)) =
      calls ((if b then [] else match ts with [] => [] | _ => [CollectionBegin 1 0] end) ++ members_events multi ts)
        (gj_lines_geom multi (b || match ts with [] => false | _ => true end) (idx + length (x :: l)) tail)).
    { intros b g ts' HM. inversion HM as [|m t ms ts2 [M1 M2] HM2]; subst. cbn [fst snd] in *.
      rewrite (geom_calls multi g (snd t) idx M2).
      replace (pthen (if b then pret tt else pcall (CollectionBegin 1 0)) (ok_calls (gevents multi idx (snd t))))
        with (ok_calls ((if b then [] else [CollectionBegin 1 0]) ++ gevents multi idx (snd t))) by (destruct b; reflexivity).
      rewrite (IH true (S idx) ts2 N2 HM2). unfold ok_calls, pthen.
      rewrite pbind_calls. cbn [pbind]. rewrite <- calls_app. cbn [members_events flat_map].
      rewrite M1, <- app_assoc. rewrite orb_true_r. cbn [length]. rewrite Nat.add_succ_r. destruct b; reflexivity. }
    destruct x as [fs|f|g]; [contradiction| |]; cbn [map app gj_lines_geom line_members] in *.
    + destruct (gf_geometry f) as [g|]; [now apply B|]. cbn [app] in H. rewrite (IH started (S idx) ts N2 H).
      cbn [length]. now rewrite Nat.add_succ_r.
    + now apply B.
Qed.
Lemma bad_geometry_line : forall l ts bad e rest, Forall no_collection l ->
  Forall2 member_of (line_members 0 l) ts -> unusable bad e ->
  delivers (fun d => read_geojson_line_geometries (multi_dim d) (map Ok l ++ bad :: rest))
    (fun multi => match ts with [] => [] | _ => [CollectionBegin 1 0] end ++
                  flat_map (fun t => gevents multi (fst t) (snd t)) ts) (Err e).
Proof.
  intros l ts bad e rest N H B S p s. unfold read_geojson_line_geometries.
  rewrite (lines_geom_before _ l (bad :: rest) false 0 ts N H).
  assert (X : forall started i, gj_lines_geom (multi_dim (p_dims p)) started i (bad :: rest) = pfail e).
  { intros started i. destruct B as [->|[[c ->] ->]]; reflexivity. }
  rewrite X, pbind_calls, exec_calls. unfold members_events. destruct (run p _ s) as [s' [u|x]]; reflexivity.
Qed.
