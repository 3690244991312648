(** Proofs of C60 and C61. *)
From Coq Require Import String Ascii.
From Coq Require Import List NArith ZArith Lia Bool.
From Verif Require Import Base BaseLemmas Event Claims Geom FeatureSpec ShpModel ShpSpec ShpTop ShpFeatures StopSpec.
Import ListNotations.
Local Open Scope list_scope.

(** ** The processor that asks *)
Lemma run_asker : forall d stop l s, run (asker d stop) l s = (s ++ map OEv l, Ok tt).
Proof.
  induction l as [|e l IH]; intros s; cbn [run map asker p_step]; [now rewrite app_nil_r|].
  fold (asker d stop). rewrite IH, <- app_assoc. reflexivity.
Qed.
Lemma feed_asker : forall d stop l s, feed (asker d stop) l s = (s ++ l, Ok tt).
Proof.
  induction l as [|[e|i n v] l IH]; intros s; cbn [feed asker p_step p_prop]; [now rewrite app_nil_r| |];
    fold (asker d stop); rewrite IH, <- app_assoc; reflexivity.
Qed.
Lemma offer_asker : forall d stop l i s,
  offer (asker d stop) i l s =
  (s ++ map prop_obs (until (fun q => stop (fst (fst q)) (snd (fst q)) (snd q))
                        (mapi (fun i q => (i, fst q, snd q)) i l)), Ok tt).
Proof.
  induction l as [|[n v] l IH]; intros i s; cbn [offer mapi until map fst snd]; [now rewrite app_nil_r|].
  cbn [asker p_prop]. fold (asker d stop). destruct (stop i n v); [reflexivity|].
  rewrite IH, <- app_assoc. reflexivity.
Qed.
Lemma feature_asker : forall d stop i f s,
  perform (asker d stop) (feature_acts i f) s = (s ++ heard_feature stop i f, Ok tt).
Proof.
  intros d stop i f s. unfold feature_acts, heard_feature. rewrite perform_app. cbn [perform asker p_step].
  fold (asker d stop). rewrite offer_asker. cbn [perform asker p_step]. fold (asker d stop).
  rewrite perform_app, perform_do, run_asker. cbn [perform asker p_step]. fold (numbered (en_record (fst f))).
  f_equal. rewrite <- !app_assoc. reflexivity.
Qed.
Lemma features_asker : forall d stop l i s,
  perform (asker d stop) (flat_mapi feature_acts i l) s = (s ++ flat_mapi (heard_feature stop) i l, Ok tt).
Proof.
  induction l as [|f l IH]; intros i s; cbn [flat_mapi]; [cbn; now rewrite app_nil_r|].
  rewrite perform_app, feature_asker, IH, <- app_assoc. reflexivity.
Qed.
Lemma file_asker : forall d stop l s, perform (asker d stop) (file_acts l) s = (s ++ heard stop l, Ok tt).
Proof.
  intros d stop l s. unfold file_acts, heard. cbn [perform asker p_step]. fold (asker d stop).
  rewrite perform_app, features_asker. cbn [perform asker p_step]. rewrite <- !app_assoc. reflexivity.
Qed.
Lemma shp_stops : forall ck leftover d stop h l rest more after,
  Forall entry_ok l -> announces h l ->
  exists it evs, iter_features ck h (shp_body l ++ rest)
                   (Some (map (fun f => Ok (en_record f)) l ++ more, after)) = Ok it /\
    events_of d l evs /\
    consume ck leftover (asker d stop) (S (length l)) it [] = (heard stop (combine l evs), Some (Ok tt)).
Proof.
  intros ck leftover d stop h l rest more after Hl Hh.
  destruct (consume_file ck leftover _ (asker d stop) h l rest more after [] Hl Hh) as (it & evs & H1 & H2 & H3).
  exists it, evs. split; [exact H1|]. split; [exact H2|]. rewrite H3, file_asker. reflexivity.
Qed.

Lemma never_asked : forall A (src : dims -> prog A) stream r d stop, delivers_obs src stream (Ok r) ->
  exec (asker d stop) (src d) [] = (stream (multi_dim d), Ok r).
Proof. intros A src stream r d stop H. specialize (H _ (asker d stop) []). cbn [asker p_dims] in H. fold (asker d stop) in H. rewrite H, feed_asker. reflexivity. Qed.

(** ** Processors that take everything *)
Section Taking.
  Context {S : Type} (p : proc S) (Hp : takes_all p).

  Lemma offer_feed : forall l i s s', feed p (mapi (fun k q => OProp k (fst q) (snd q)) i l) s = (s', Ok tt) ->
    offer p i l s = (s', Ok tt).
  Proof.
    induction l as [|[n v] l IH]; intros i s s' H; cbn [offer mapi feed fst snd] in *; [exact H|].
    pose proof (Hp s i n v) as N. destruct (p_prop p s i n v) as [s1 [[]|x]]; cbn [snd] in N.
    - congruence.
    - now apply IH.
    - discriminate.
  Qed.
  Lemma perform_feed : forall l s s', feed p (flat_map seen_act l) s = (s', Ok tt) -> perform p l s = (s', Ok tt).
  Proof.
    induction l as [|[e|e|q] l IH]; intros s s' H; cbn [perform flat_map seen_act feed app] in *.
    - exact H.
    - destruct (p_step p s e) as [s1 [[]|x]]; [now apply IH|discriminate].
    - destruct (p_step p s e) as [s1 [[]|x]]; [now apply IH|discriminate].
    - rewrite feed_app2 in H. destruct (feed p (mapi _ 0 q) s) as [s1 [[]|x]] eqn:E; [|discriminate].
      rewrite (offer_feed _ _ _ _ E). now apply IH.
  Qed.
End Taking.

(** ** Files as datasets *)
Lemma seen_numbered : forall r, mapi (fun k q => OProp k (fst q) (snd q)) 0 (offered r) = map prop_obs (numbered r).
Proof.
  intros r. unfold numbered. generalize (offered r) as l. generalize 0.
  intros n l. revert n. induction l as [|q l IH]; intros n; cbn; [reflexivity|]. now rewrite IH.
Qed.
Lemma shape_geometry : forall d f ev, plain_dims d -> has_geometry f -> shape_events d (en_shape f) ev ->
  exists g, represents d (en_shape f) g /\ ev = gevents (multi_dim d) 0 g.
Proof.
  intros d f ev Hd Hf H. unfold has_geometry in Hf. unfold shape_events in H. unfold plain_dims in Hd.
  destruct (en_shape f); try contradiction; destruct H as (g & Hr & ->); exists g; (split; [exact Hr|]);
    cbn [uses_coordinate]; try reflexivity; now rewrite Hd.
Qed.
Lemma file_features : forall d l evs, plain_dims d -> Forall has_geometry l -> events_of d l evs ->
  exists xs, Forall2 (entry_feature d) l xs /\
    forall i, flat_mapi feature_seen i (combine l evs) = flat_mapi (fun i f => feature_obs (multi_dim d) i 0 f) i xs.
Proof.
  intros d l evs Hd Hl H. induction H as [|f ev l evs Hf H IH].
  - exists []. split; [constructor|reflexivity].
  - inversion Hl as [|? ? Hg Hl']; subst. destruct (IH Hl') as (xs & Hx & E).
    destruct (shape_geometry d f ev Hd Hg Hf) as (g & Hr & ->).
    exists (mkFeature (Some (numbered (en_record f))) (Some g) :: xs). split.
    + constructor; [|exact Hx]. split; [reflexivity|]. exists g. split; [exact Hr|reflexivity].
    + intros i. cbn [combine flat_mapi]. rewrite E. f_equal. unfold feature_seen, feature_obs.
      cbn [fst snd f_props f_geom]. rewrite seen_numbered. cbn [app]. now rewrite <- !app_assoc.
Qed.
Lemma file_dataset : forall d l evs, plain_dims d -> Forall has_geometry l -> events_of d l evs ->
  exists xs, Forall2 (entry_feature d) l xs /\ file_seen (combine l evs) = dataset_obs (multi_dim d) None xs.
Proof.
  intros d l evs Hd Hl H. destruct (file_features d l evs Hd Hl H) as (xs & Hx & E).
  exists xs. split; [exact Hx|]. unfold file_seen, dataset_obs. now rewrite E.
Qed.

(** a writer that takes all properties, and a file of geometries *)
Lemma shp_dataset : forall ck leftover S (p : proc S) h l rest more after,
  Forall entry_ok l -> announces h l -> Forall has_geometry l -> plain_dims (p_dims p) -> takes_all p ->
  exists it xs, iter_features ck h (shp_body l ++ rest)
                  (Some (map (fun f => Ok (en_record f)) l ++ more, after)) = Ok it /\
    Forall2 (entry_feature (p_dims p)) l xs /\
    forall s s', feed p (dataset_obs (multi_dim (p_dims p)) None xs) s = (s', Ok tt) ->
      consume ck leftover p (Datatypes.S (length l)) it s = (s', Some (Ok tt)).
Proof.
  intros ck leftover S p h l rest more after Hl Hh Hg Hd Hp. unfold announces in Hh. destruct Hh as [Hh1 Hh2].
  destruct (consume_from ck leftover S p rest more after (Z.to_N (h_length h * 2)) l 100 0 Hl) as (evs & He & Hc); [lia|lia|].
  destruct (file_dataset (p_dims p) l evs Hd Hg He) as (xs & Hx & E).
  eexists. exists xs. split; [apply iter_features_ok; lia|]. split; [exact Hx|].
  intros s s' H. specialize (Hc s). unfold in_front in Hc. etransitivity; [exact Hc|].
  rewrite <- E in H. rewrite <- seen_file in H. apply (perform_feed p Hp) in H.
  unfold file_acts in H. cbn [Nat.eqb app]. rewrite H. reflexivity.
Qed.
