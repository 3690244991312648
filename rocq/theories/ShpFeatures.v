(** Proofs about the shapefile iterators (C41). *)
From Coq Require Import String Ascii.
From Coq Require Import List NArith ZArith Lia Bool ZifyBool ZifyNat ZifyN.
From Coq Require Import Init.Byte.
From Verif Require Import Base BaseLemmas Float Event EventLemmas Claims Geom FeatureSpec GeoJsonLines WkbModel WkbRead ShpModel ShpSpec ShpTop.
Import ListNotations.
Local Open Scope nat_scope.
Local Open Scope list_scope.

Lemma perform_app : forall S (p : proc S) l1 l2 s,
  perform p (l1 ++ l2) s =
  match perform p l1 s with (s', Ok _) => perform p l2 s' | (s', Err e) => (s', Err e) end.
Proof.
  induction l1 as [|[e|e|props] l1 IH]; intros l2 s; cbn [app perform].
  - reflexivity.
  - destruct (p_step p s e) as [s' [[]|[]]]; solve [apply IH|reflexivity].
  - destruct (p_step p s e) as [s' [[]|x]]; [apply IH|reflexivity].
  - destruct (offer p 0 props s) as [s' [[]|x]]; [apply IH|reflexivity].
Qed.

Lemma perform_tell : forall S (p : proc S) l r s,
  perform p (map Tell l ++ r) s =
  match tell p l s with (s', Ok _) => perform p r s' | (s', Err e) => (s', Err e) end.
Proof.
  intros S p. induction l as [|e l IH]; intros r s; [reflexivity|].
  cbn [map app perform]. unfold tell. cbn [run p_step]. unfold told at 1.
  destruct (p_step p s e) as [s' [[]|[]]]; solve [apply IH|reflexivity].
Qed.

Lemma perform_do : forall S (p : proc S) l s, perform p (map Do l) s = run p l s.
Proof.
  induction l as [|e l IH]; intros s; cbn [map perform run]; [reflexivity|].
  destruct (p_step p s e) as [s' [[]|x]]; [apply IH|reflexivity].
Qed.

Lemma shown_column : forall v, column_value v = shown v.
Proof. intros [[]|[]|[]|[]|[]| | | | | ]; reflexivity. Qed.

Lemma properties_offer : forall S (p : proc S) r i s,
  match exec p (process_properties i r) s with (s', Ok _) => (s', Ok tt) | (s', Err e) => (s', Err e) end
  = offer p i (offered r) s.
Proof.
  induction r as [|[n v] r IH]; intros i s; cbn [process_properties offered].
  - reflexivity.
  - rewrite shown_column. destruct (shown v) as [c|]; [|apply IH].
    cbn [exec offer]. destruct (p_prop p s i n c) as [s' [[]|x]]; [reflexivity|apply IH|reflexivity].
Qed.

(** state of the iterator in front of the entries [l] *)
Definition in_front (l : list entry) (rest : list byte) (more : list (res dbf_record)) after
    (pos len : N) (i : nat) : feature_iter :=
  mkFIter (mkIter (shp_body l ++ rest) pos len) (map (fun f => Ok (en_record f)) l ++ more) after i.

Lemma consume_from : forall ck leftover S (p : proc S) rest more after len l pos i,
  Forall entry_ok l -> (len < 2 ^ 32)%N ->
  (pos + N.of_nat (length (shp_body l)) = len)%N ->
  exists evs, events_of (p_dims p) l evs /\ forall s,
    consume ck leftover p (Datatypes.S (length l)) (in_front l rest more after pos len i) s =
    let (s', r) := perform p ((if Nat.eqb i 0 then [Tell (DatasetBegin None)] else []) ++
                              flat_mapi feature_acts i (combine l evs) ++ [Tell DatasetEnd]) s in
    (s', Some r).
Proof.
  intros ck leftover S p rest more after len. induction l as [|f l IH]; intros pos i Hl Hlen Hpos.
  - exists []. split; [constructor|]. intros s. cbn [length consume].
    unfold feature_next, in_front. cbn [fi_no fi_shapes it_length it_pos].
    cbn [shp_body flat_map length] in Hpos.
    destruct (N.leb_spec len pos); [|lia].
    cbn [combine flat_mapi].
    replace (if Nat.eqb i 0 then [Tell (DatasetBegin None)] else [])
      with (map Tell (if Nat.eqb i 0 then [DatasetBegin None] else [])) by (destruct (Nat.eqb i 0); reflexivity).
    rewrite perform_tell. destruct (tell p _ s) as [s1 [[]|x]]; [|reflexivity].
    rewrite (perform_tell _ p [DatasetEnd] [] s1 : perform p ([] ++ [Tell DatasetEnd]) s1 = _).
    now destruct (tell p [DatasetEnd] s1) as [s2 [[]|x]].
  - inversion Hl as [|? ? [Hn Hwf] Hl']; subst.
    set (rec := record_bytes (en_number f) (en_shape f)) in *.
    assert (Hb : length (shp_body (f :: l)) = length rec + length (shp_body l))
      by (cbn [shp_body flat_map]; now rewrite app_length).
    set (len := (pos + N.of_nat (length (shp_body (f :: l))))%N) in *.
    destruct (record_reads ck (p_dims p) (en_number f) (en_shape f) (shp_body l ++ rest) Hn Hwf) as [ev [Hev Hr]].
    assert (Hsn : forall s, shape_next ck leftover p (mkIter (rec ++ (shp_body l ++ rest)) pos len) s =
      match run p ev s with
      | (s', Ok _) => (mkIter (shp_body l ++ rest) (pos + N.of_nat (length rec)) len, s', Some (Ok tt))
      | (s', Err e) => (mkIter (leftover (rec ++ (shp_body l ++ rest))) pos len, s', Some (Err e))
      end).
    { intros s1. pose proof (content_even _ Hwf) as Hw. destruct Hwf as [Hbnd Hwf2].
      assert (Hrl : length rec = 8 + length (content (en_shape f)))
        by (unfold rec, record_bytes, be32; rewrite !app_length, !bytes_of_length; lia).
      unfold shape_next. cbn [it_length it_pos it_source].
      destruct (N.leb_spec len pos); [lia|].
      unfold reads in Hr. fold rec in Hr. rewrite Hr, exec_calls. destruct (run p ev s1) as [s' [[]|x]]; [|reflexivity].
      cbn [exec snd]. unfold advance. rewrite uadd_ok by lia. cbn [res_bind].
      assert (Ha : as_usize (words (en_shape f)) = Z.to_N (words (en_shape f))).
      { unfold as_usize. rewrite Z.mod_small; [reflexivity|]. lia. }
      rewrite Ha. rewrite umul_ok by lia. cbn [res_bind].
      rewrite uadd_ok by lia.
      replace (pos + 8 + Z.to_N (words (en_shape f)) * 2)%N with (pos + N.of_nat (length rec))%N by lia.
      reflexivity. }
    destruct (IH (pos + N.of_nat (length rec))%N (Datatypes.S i) Hl' Hlen) as [evs [Hevs Hc]]; [lia|].
    exists (ev :: evs). split; [constructor; assumption|]. intros s.
    assert (Hrecl : 0 < length rec)
      by (unfold rec, record_bytes, be32; rewrite !app_length, !bytes_of_length; lia).
    cbn [combine flat_mapi].
    set (n := length l) in *. change (length (f :: l)) with (Datatypes.S n).
    remember (Datatypes.S n) as n1 eqn:En1. cbn [consume]. subst n1.
    unfold feature_next, in_front. cbn [fi_no fi_shapes it_length it_pos].
    replace (if Nat.eqb i 0 then [Tell (DatasetBegin None)] else [])
      with (map Tell (if Nat.eqb i 0 then [DatasetBegin None] else [])) by (destruct (Nat.eqb i 0); reflexivity).
    rewrite perform_tell. destruct (tell p (if Nat.eqb i 0 then _ else _) s) as [s0 [[]|x]]; [|reflexivity].
    destruct (N.leb_spec len pos); [lia|].
    unfold dbf_next. cbn [fi_records fi_after fi_no fi_shapes map app tl].
    rewrite <- app_assoc. unfold feature_acts at 1. cbn [fst snd].
    change ([Tell (FeatureBegin i); Tell PropertiesBegin; Offer (offered (en_record f)); Tell PropertiesEnd; Tell GeometryBegin])
      with (map Tell [FeatureBegin i; PropertiesBegin] ++ Offer (offered (en_record f)) :: map Tell [PropertiesEnd; GeometryBegin]).
    change ([Tell GeometryEnd; Tell (FeatureEnd i)]) with (map Tell [GeometryEnd; FeatureEnd i]).
    rewrite <- ?app_assoc, perform_tell. destruct (tell p [FeatureBegin i; PropertiesBegin] s0) as [s1 [[]|x]]; [|reflexivity].
    cbn [app perform].
    rewrite <- (properties_offer _ p (en_record f) 0).
    destruct (exec p (process_properties 0 (en_record f)) _) as [s2 [b|x]]; [|reflexivity].
    rewrite <- ?app_assoc, perform_tell. destruct (tell p [PropertiesEnd; GeometryBegin] s2) as [s3 [[]|x]]; [|reflexivity].
    cbn [shp_body flat_map]. fold rec. rewrite <- app_assoc. fold (shp_body l). rewrite Hsn.
    rewrite <- ?app_assoc, perform_app, perform_do.
    destruct (run p ev _) as [s4 [[]|x]]; [|reflexivity].
    rewrite perform_tell. destruct (tell p [GeometryEnd; FeatureEnd i] s4) as [s5 [[]|x]]; [|reflexivity].
    specialize (Hc s5). cbn [Nat.eqb app] in Hc. exact Hc.
Qed.

Lemma iter_features_ok : forall ck h source records after,
  (100 <= h_length h * 2)%Z -> (h_length h < 2 ^ 30)%Z ->
  iter_features ck h source (Some (records, after)) =
  Ok (mkFIter (mkIter source 100 (Z.to_N (h_length h * 2))) records after 0).
Proof.
  intros. unfold iter_features, iter_geometries. rewrite i32_op_ok by (unfold is_i32; lia).
  cbn [res_map]. change (as_usize HEADER_SIZE) with 100%N.
  unfold as_usize. rewrite Z.mod_small by lia. reflexivity.
Qed.

Lemma consume_file : forall ck leftover S (p : proc S) h l rest more after s,
  Forall entry_ok l -> announces h l ->
  exists it evs, iter_features ck h (shp_body l ++ rest)
                   (Some (map (fun f => Ok (en_record f)) l ++ more, after)) = Ok it /\
    events_of (p_dims p) l evs /\
    consume ck leftover p (Datatypes.S (length l)) it s =
    let (s', r) := perform p (file_acts (combine l evs)) s in (s', Some r).
Proof.
  intros ck leftover S p h l rest more after s Hl [Hh1 Hh2].
  destruct (consume_from ck leftover S p rest more after (Z.to_N (h_length h * 2)) l 100 0 Hl) as [evs [He Hc]]; [lia|lia|].
  eexists. exists evs. split; [apply iter_features_ok; lia|]. split; [exact He|].
  unfold file_acts. specialize (Hc s). cbn [Nat.eqb app] in Hc. unfold in_front in Hc. exact Hc.
Qed.

(** ** Processors that accept everything *)
Section Accepting.
  Context {S : Type} (p : proc S) (Hp : accepts p).

  Lemma accept_run : forall l s, exists s', run p l s = (s', Ok tt) /\ feed p (map OEv l) s = (s', Ok tt).
  Proof.
    induction l as [|e l IH]; intros s; cbn [run map feed]; [eauto|].
    pose proof (proj1 Hp s e) as H. destruct (p_step p s e) as [s1 r]. cbn [snd] in H. subst r. apply IH.
  Qed.

  Lemma accept_offer : forall l i s, exists s', offer p i l s = (s', Ok tt) /\
    feed p (mapi (fun k q => OProp k (fst q) (snd q)) i l) s = (s', Ok tt).
  Proof.
    induction l as [|[n v] l IH]; intros i s; cbn [offer mapi feed fst snd]; [eauto|].
    pose proof (proj2 Hp s i n v) as H. destruct (p_prop p s i n v) as [s1 r]. cbn [snd] in H. subst r. apply IH.
  Qed.

  Definition seen_act (a : act) : list obs :=
    match a with
    | Tell e | Do e => [OEv e]
    | Offer l => mapi (fun k q => OProp k (fst q) (snd q)) 0 l
    end.

  Lemma feed_app2 : forall l1 l2 s, feed p (l1 ++ l2) s =
    match feed p l1 s with (s', Ok _) => feed p l2 s' | (s', Err e) => (s', Err e) end.
  Proof.
    induction l1 as [|[e|i n v] l1 IH]; intros l2 s; cbn [app feed]; [reflexivity| |].
    - destruct (p_step p s e) as [s1 [|]]; [apply IH|reflexivity].
    - destruct (p_prop p s i n v) as [s1 [|]]; [apply IH|reflexivity].
  Qed.

  Lemma accept_perform : forall l s, exists s', perform p l s = (s', Ok tt) /\
    feed p (flat_map seen_act l) s = (s', Ok tt).
  Proof.
    induction l as [|[e|e|q] l IH]; intros s; cbn [perform flat_map seen_act feed app].
    - eauto.
    - pose proof (proj1 Hp s e) as H. destruct (p_step p s e) as [s1 r]. cbn [snd fst] in *. subst r. apply IH.
    - pose proof (proj1 Hp s e) as H. destruct (p_step p s e) as [s1 r]. cbn [snd fst] in *. subst r. apply IH.
    - destruct (accept_offer q 0 s) as [s1 [H1 H2]]. rewrite H1, feed_app2, H2. apply IH.
  Qed.
End Accepting.

Lemma seen_do : forall l, flat_map seen_act (map Do l) = map OEv l.
Proof. induction l as [|e l IH]; cbn; [reflexivity|now rewrite IH]. Qed.
Lemma seen_feature : forall i f, flat_map seen_act (feature_acts i f) = feature_seen i f.
Proof.
  intros. unfold feature_acts, feature_seen. rewrite !flat_map_app, seen_do.
  cbn [flat_map seen_act app]. now rewrite <- app_assoc.
Qed.
Lemma seen_file : forall l, flat_map seen_act (file_acts l) = file_seen l.
Proof.
  intros. unfold file_acts, file_seen. cbn [flat_map seen_act app]. rewrite flat_map_app. f_equal. f_equal.
  generalize 0. induction l as [|f l IH]; intros i; cbn [flat_mapi]; [reflexivity|].
  now rewrite flat_map_app, seen_feature, IH.
Qed.

Lemma shape_events_inner : forall d sh ev, shape_events d sh ev ->
  Forall (fun e => is_feature_event e = false) ev.
Proof.
  intros d sh ev H.
  assert (Hg : forall multi g, Forall (fun e => is_feature_event e = false) (gevents multi 0 g)).
  { intros. apply gevents_drawing. intros []; cbn; intros; try reflexivity; discriminate. }
  destruct sh; cbn in H; [subst; constructor| | | | |subst; constructor]; destruct H as [g [_ ->]]; apply Hg.
Qed.

Lemma contract_offered : forall l n g i,
  contract_run (CProps n g) (mapi (fun k q => OProp k (fst q) (snd q)) i l) = Some (CProps n g).
Proof. induction l as [|q l IH]; intros n g i; cbn; auto. Qed.

Lemma contract_seen : forall l i,
  Forall (fun f => Forall (fun e => is_feature_event e = false) (snd f)) l ->
  contract_run (CDataset i) (flat_mapi feature_seen i l) = Some (CDataset (i + length l)).
Proof.
  induction l as [|f l IH]; intros i H; cbn [flat_mapi].
  - cbn. now rewrite Nat.add_0_r.
  - inversion H as [|? ? H1 H2]; subst. rewrite contract_app.
    assert (E : contract_run (CDataset i) (feature_seen i f) = Some (CDataset (S i))).
    { unfold feature_seen. rewrite contract_app. cbn [contract_run contract_step]. rewrite Nat.eqb_refl.
      cbn [contract_run contract_step]. rewrite contract_app, contract_offered. rewrite contract_app. cbn [contract_run contract_step].
      rewrite contract_app, contract_geom by assumption.
      cbn [contract_run contract_step]. rewrite Nat.eqb_refl. reflexivity. }
    rewrite E, IH by assumption. cbn [length]. f_equal. f_equal. lia.
Qed.

Lemma contract_file : forall d l evs, events_of d l evs -> contract (file_seen (combine l evs)).
Proof.
  intros d l evs H. unfold contract, file_seen. cbn [contract_run contract_step].
  rewrite contract_app, contract_seen; [reflexivity|].
  induction H as [|f ev l evs Hf H IH]; cbn [combine]; constructor; [|exact IH].
  cbn [snd]. eapply shape_events_inner. exact Hf.
Qed.

Lemma framed_file : forall ck leftover S (p : proc S) h l rest more after s,
  Forall entry_ok l -> announces h l -> accepts p ->
  exists it evs s', iter_features ck h (shp_body l ++ rest)
                      (Some (map (fun f => Ok (en_record f)) l ++ more, after)) = Ok it /\
    events_of (p_dims p) l evs /\
    consume ck leftover p (Datatypes.S (length l)) it s = (s', Some (Ok tt)) /\
    feed p (file_seen (combine l evs)) s = (s', Ok tt) /\
    contract (file_seen (combine l evs)).
Proof.
  intros ck leftover S p h l rest more after s Hl Hh Hp.
  destruct (consume_file ck leftover S p h l rest more after s Hl Hh) as [it [evs [H1 [H2 H3]]]].
  destruct (accept_perform p Hp (file_acts (combine l evs)) s) as [s' [H4 H5]].
  exists it, evs, s'. rewrite H4 in H3. rewrite seen_file in H5.
  repeat split; try assumption. eapply contract_file. exact H2.
Qed.

(** ** What the iterator gets wrong *)

(** at the end of the file every further call announces the end again *)
Lemma features_app : forall ck leftover S (p : proc S) n m it s,
  features ck leftover p (n + m) it s =
  let '(it1, s1, l1) := features ck leftover p n it s in
  let '(it2, s2, l2) := features ck leftover p m it1 s1 in
  (it2, s2, l1 ++ l2).
Proof.
  induction n as [|n IH]; intros m it s; cbn [Nat.add features].
  - now destruct (features ck leftover p m it s) as [[? ?] ?].
  - destruct (feature_next ck leftover p it s) as [[it1 s1] x]. rewrite IH.
    destruct (features ck leftover p n it1 s1) as [[it2 s2] l1].
    destruct (features ck leftover p m it2 s2) as [[it3 s3] l2]. reflexivity.
Qed.

Lemma tell_recorder : forall d b l s, tell (recorder d b) l s = (s ++ map OEv l, Ok tt).
Proof.
  intros d b. induction l as [|e l IH]; intros s; [cbn; now rewrite app_nil_r|].
  unfold tell in *. cbn [run p_step map]. unfold told at 1. cbn [recorder p_step]. rewrite IH, <- app_assoc. reflexivity.
Qed.

Lemma again : forall ck leftover d it s k,
  (it_length (fi_shapes it) <= it_pos (fi_shapes it))%N -> 0 < fi_no it ->
  features ck leftover (recorder d false) k it s = (it, s ++ repeat (OEv DatasetEnd) k, repeat None k).
Proof.
  intros ck leftover d it s k H H0. revert s. induction k as [|k IH]; intros s; cbn [features repeat].
  - now rewrite app_nil_r.
  - unfold feature_next at 1. destruct (Nat.eqb_spec (fi_no it) 0); [lia|].
    destruct (N.leb_spec (it_length (fi_shapes it)) (it_pos (fi_shapes it))); [|lia].
    unfold tell, told. cbn [recorder p_step run]. rewrite IH, <- app_assoc. reflexivity.
Qed.

(** a source that ends before the announced length, with a dbf reader that always has an answer:
    every call fails, forever, and the end is never announced *)
Lemma endless : forall ck leftover d records after len pos no s k,
  leftover [] = [] -> (pos < len)%N ->
  Forall (fun r => exists x, r = Ok x) records -> (exists x, after = Some (Ok x)) ->
  let '(_, s', items) := features ck leftover (recorder d false) k (mkFIter (mkIter [] pos len) records after no) s in
  items = repeat (Some (Err EIo)) k /\
  (~ In (OEv DatasetEnd) s -> ~ In (OEv DatasetEnd) s').
Proof.
  intros ck leftover d records after len pos no s k Hlo Hpos Hr Ha.
  revert records s Hr. induction k as [|k IH]; intros records s Hr; [cbn; auto|].
  cbn [features].
  assert (Hstep : exists s1, feature_next ck leftover (recorder d false) (mkFIter (mkIter [] pos len) records after no) s
    = (mkFIter (mkIter [] pos len) (tl records) after no, s1, Some (Err EIo)) /\
    (~ In (OEv DatasetEnd) s -> ~ In (OEv DatasetEnd) s1)).
  { assert (Hprops : forall r i s, exists s2 b, exec (recorder d false) (process_properties i r) s = (s2, Ok b) /\
      (~ In (OEv DatasetEnd) s -> ~ In (OEv DatasetEnd) s2)).
    { induction r as [|[n v] r IHr]; intros i s0; cbn [process_properties].
      - exists s0, false. split; [reflexivity|auto].
      - destruct (column_value v) as [c|]; [|apply IHr].
        cbn [exec recorder p_prop]. destruct (IHr (S i) (s0 ++ [OProp i n c])) as [s2 [b [E1 E2]]].
        exists s2, b. split; [exact E1|]. intros H. apply E2. rewrite in_app_iff. cbn. intuition discriminate. }
    assert (Hx : exists x, dbf_next (mkFIter (mkIter [] pos len) records after no) = Some (Ok x)).
    { unfold dbf_next. cbn [fi_records fi_after]. destruct records as [|r rs]; [exact Ha|].
      inversion Hr as [|? ? [x ->]]; subst. eauto. }
    destruct Hx as [x Hx]. unfold feature_next. rewrite Hx. cbn [fi_shapes fi_no fi_after fi_records it_length it_pos it_source].
    destruct (N.leb_spec len pos); [lia|]. rewrite ?tell_recorder. cbv iota beta.
    set (s0 := s ++ map OEv (if Nat.eqb no 0 then _ else _)). rewrite ?tell_recorder. cbv iota beta.
    destruct (Hprops x 0 (s0 ++ map OEv [FeatureBegin no; PropertiesBegin])) as [s2 [b [E1 E2]]].
    rewrite E1. rewrite ?tell_recorder. cbv iota beta.
    unfold shape_next. cbn [it_length it_pos it_source]. destruct (N.leb_spec len pos); [lia|].
    assert (Hrs : read_shape ck (p_dims (recorder d false)) [] = Done (Err EIo)) by reflexivity.
    rewrite Hrs. cbn [exec]. rewrite Hlo. eexists. split; [reflexivity|].
    intros Hs. rewrite !in_app_iff. cbn [In map]. intros [H1|[H1|[H1|[]]]]; try discriminate.
    apply E2; [|exact H1]. rewrite in_app_iff. unfold s0.
    destruct (Nat.eqb no 0); rewrite ?in_app_iff; cbn [In map]; intuition discriminate. }
  destruct Hstep as [s1 [-> Hs1]].
  specialize (IH (tl records) s1).
  assert (Hr2 : Forall (fun r => exists x, r = Ok x) (tl records)) by (destruct Hr; cbn; auto; constructor).
  specialize (IH Hr2).
  destruct (features ck leftover (recorder d false) k _ s1) as [[it2 s2] l2]. destruct IH as [-> IH].
  split; [reflexivity|]. auto.
Qed.
