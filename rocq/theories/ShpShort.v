(** Iterating a shapefile whose dbf has fewer records (C41). *)
From Coq Require Import String Ascii.
From Coq Require Import List NArith ZArith Lia Bool ZifyBool ZifyNat ZifyN.
From Coq Require Import Init.Byte.
From Verif Require Import Base BaseLemmas Float Event EventLemmas Claims Geom FeatureSpec GeoJsonLines WkbModel WkbRead ShpModel ShpSpec ShpTop ShpFeatures.
Import ListNotations.
Local Open Scope nat_scope.
Local Open Scope list_scope.

Lemma consume_through : forall ck leftover S (p : proc S) rest more after len n l pos i,
  Forall entry_ok l -> (len < 2 ^ 32)%N ->
  (pos + N.of_nat (length (shp_body l)) <= len)%N ->
  exists evs, events_of (p_dims p) l evs /\ forall s,
    consume ck leftover p (length l + n) (in_front l rest more after pos len i) s =
    match perform p ((match l with [] => [] | _ => if Nat.eqb i 0 then [Tell (DatasetBegin None)] else [] end) ++
                     flat_mapi feature_acts i (combine l evs)) s with
    | (s', Ok _) => consume ck leftover p n (in_front [] rest more after (pos + N.of_nat (length (shp_body l))) len (i + length l)) s'
    | (s', Err e) => (s', Some (Err e))
    end.
Proof.
  intros ck leftover S p rest more after len n. induction l as [|f l IH]; intros pos i Hl Hlen Hpos.
  - exists []. split; [constructor|]. intros s. cbn [length shp_body flat_map Nat.add app combine flat_mapi perform].
    rewrite N.add_0_r, Nat.add_0_r. reflexivity.
  - inversion Hl as [|? ? [Hn Hwf] Hl']; subst.
    set (rec := record_bytes (en_number f) (en_shape f)) in *.
    assert (Hb : length (shp_body (f :: l)) = length rec + length (shp_body l))
      by (cbn [shp_body flat_map]; now rewrite app_length).
    destruct (record_reads ck (p_dims p) (en_number f) (en_shape f) (shp_body l ++ rest) Hn Hwf) as [ev [Hev Hr]].
    assert (Hsn : forall s, shape_next ck leftover p (mkIter (rec ++ (shp_body l ++ rest)) pos len) s =
      match run p ev s with
      | (s', Ok _) => (mkIter (shp_body l ++ rest) (pos + N.of_nat (length rec)) len, s', Some (Ok tt))
      | (s', Err e) => (mkIter (leftover (rec ++ (shp_body l ++ rest))) pos len, s', Some (Err e))
      end).
    { intros s1. pose proof (content_even _ Hwf) as Hw. destruct Hwf as [Hbnd Hwf2].
      assert (Hrl : length rec = 8 + length (content (en_shape f)))
        by (unfold rec, record_bytes, be32; rewrite !app_length, !bytes_of_length; lia).
      unfold shape_next. cbn [it_length it_pos it_source].
      destruct (N.leb_spec len pos); [lia|].
      unfold reads in Hr. fold rec in Hr. rewrite Hr, exec_calls. destruct (run p ev s1) as [s' [[]|x]]; [|reflexivity].
      cbn [exec snd]. unfold advance. rewrite uadd_ok by lia. cbn [res_bind].
      assert (Ha : as_usize (words (en_shape f)) = Z.to_N (words (en_shape f))).
      { unfold as_usize. rewrite Z.mod_small; [reflexivity|]. lia. }
      rewrite Ha. rewrite umul_ok by lia. cbn [res_bind].
      rewrite uadd_ok by lia.
      replace (pos + 8 + Z.to_N (words (en_shape f)) * 2)%N with (pos + N.of_nat (length rec))%N by lia.
      reflexivity. }
    destruct (IH (pos + N.of_nat (length rec))%N (Datatypes.S i) Hl' Hlen) as [evs [Hevs Hc]]; [lia|].
    exists (ev :: evs). split; [constructor; assumption|]. intros s.
    assert (Hrecl : 0 < length rec)
      by (unfold rec, record_bytes, be32; rewrite !app_length, !bytes_of_length; lia).
    cbn [combine flat_mapi].
    cbn [length Nat.add consume].
    unfold feature_next, in_front. cbn [fi_no fi_shapes it_length it_pos].
    replace (if Nat.eqb i 0 then [Tell (DatasetBegin None)] else [])
      with (map Tell (if Nat.eqb i 0 then [DatasetBegin None] else [])) by (destruct (Nat.eqb i 0); reflexivity).
    rewrite perform_tell. destruct (tell p (if Nat.eqb i 0 then _ else _) s) as [s0 [[]|x]]; [|reflexivity].
    destruct (N.leb_spec len pos); [lia|].
    unfold dbf_next. cbn [fi_records fi_after fi_no fi_shapes map app tl].
    unfold feature_acts at 1. cbn [fst snd].
    change ([Tell (FeatureBegin i); Tell PropertiesBegin; Offer (offered (en_record f)); Tell PropertiesEnd; Tell GeometryBegin])
      with (map Tell [FeatureBegin i; PropertiesBegin] ++ Offer (offered (en_record f)) :: map Tell [PropertiesEnd; GeometryBegin]).
    change ([Tell GeometryEnd; Tell (FeatureEnd i)]) with (map Tell [GeometryEnd; FeatureEnd i]).
    rewrite <- ?app_assoc, perform_tell. destruct (tell p [FeatureBegin i; PropertiesBegin] s0) as [s1 [[]|x]]; [|reflexivity].
    cbn [app perform].
    rewrite <- (properties_offer _ p (en_record f) 0).
    destruct (exec p (process_properties 0 (en_record f)) _) as [s2 [b|x]]; [|reflexivity].
    rewrite <- ?app_assoc, perform_tell. destruct (tell p [PropertiesEnd; GeometryBegin] s2) as [s3 [[]|x]]; [|reflexivity].
    cbn [shp_body flat_map]. fold rec. rewrite <- app_assoc. fold (shp_body l). rewrite Hsn.
    rewrite <- ?app_assoc, perform_app, perform_do.
    destruct (run p ev _) as [s4 [[]|x]]; [|reflexivity].
    rewrite perform_tell. destruct (tell p [GeometryEnd; FeatureEnd i] s4) as [s5 [[]|x]]; [|reflexivity].
    specialize (Hc s5).
    cbn [Nat.eqb app] in Hc.
    replace (match l with [] => [] | _ :: _ => [] end) with (@nil act) in Hc by (destruct l; reflexivity).
    cbn [app] in Hc. unfold in_front in Hc. etransitivity; [exact Hc|].
    replace (pos + N.of_nat (length rec) + N.of_nat (length (shp_body l)))%N
      with (pos + N.of_nat (length (rec ++ shp_body l)))%N by (rewrite app_length; lia).
    replace (Datatypes.S i + length l) with (i + Datatypes.S (length l)) by lia. reflexivity.
Qed.

Lemma short_from : forall ck leftover S (p : proc S) h l1 f l2 rest after s,
  Forall entry_ok l1 -> announces h (l1 ++ f :: l2) ->
  match after with Some (Ok _) => False | _ => True end ->
  exists it evs, iter_features ck h (shp_body (l1 ++ f :: l2) ++ rest)
                   (Some (map (fun f => Ok (en_record f)) l1, after)) = Ok it /\
    events_of (p_dims p) l1 evs /\
    consume ck leftover p (Datatypes.S (length l1)) it s =
    match perform p (Tell (DatasetBegin None) :: flat_mapi feature_acts 0 (combine l1 evs)) s with
    | (s', Ok _) => match after with
                    | None => let (s1, r) := tell p [DatasetEnd] s' in (s1, Some r)
                    | Some _ => (s', Some (Err DbaseError))
                    end
    | (s', Err e) => (s', Some (Err e))
    end.
Proof.
  intros ck leftover S p h l1 f l2 rest after s Hl [Hh1 Hh2] Ha.
  assert (Hb : length (shp_body (l1 ++ f :: l2)) = length (shp_body l1) + (8 + length (content (en_shape f)) + length (shp_body l2))).
  { unfold shp_body. rewrite flat_map_app, app_length. f_equal. cbn [flat_map]. rewrite app_length.
    unfold record_bytes, be32. rewrite !app_length, !bytes_of_length. lia. }
  destruct (consume_through ck leftover S p (shp_body (f :: l2) ++ rest) [] after (Z.to_N (h_length h * 2)) 1 l1 100 0 Hl)
    as [evs [He Hc]]; [lia|lia|].
  eexists. exists evs. split; [apply iter_features_ok; lia|]. split; [exact He|].
  specialize (Hc s). unfold in_front in Hc. rewrite app_nil_r, Nat.add_1_r in Hc.
  assert (E : shp_body (l1 ++ f :: l2) ++ rest = shp_body l1 ++ shp_body (f :: l2) ++ rest).
  { unfold shp_body. rewrite flat_map_app, <- app_assoc. reflexivity. }
  rewrite E. etransitivity; [exact Hc|]. clear Hc E. cbn [Nat.add map app shp_body flat_map].
  assert (Hpos : (Z.to_N (h_length h * 2) <=? 100 + N.of_nat (length (shp_body l1)))%N = false) by (apply N.leb_gt; lia).
  assert (Fin : forall s', consume ck leftover p 1 (mkFIter (mkIter ((record_bytes (en_number f) (en_shape f) ++ shp_body l2) ++ rest)
       (100 + N.of_nat (length (shp_body l1))) (Z.to_N (h_length h * 2))) [] after (length l1)) s' =
     match tell p (match l1 with [] => [DatasetBegin None] | _ => [] end) s' with
     | (s1, Ok _) => match after with
                     | None => let (s2, r) := tell p [DatasetEnd] s1 in (s2, Some r)
                     | Some _ => (s1, Some (Err DbaseError))
                     end
     | (s1, Err e) => (s1, Some (Err e))
     end).
  { intros s'. cbn [consume]. unfold feature_next. cbn [fi_no fi_shapes it_length it_pos]. rewrite Hpos.
    unfold dbf_next. cbn [fi_records fi_after].
    replace (match l1 with [] => [DatasetBegin None] | _ => [] end)
      with (if Nat.eqb (length l1) 0 then [DatasetBegin None] else []) by (destruct l1; reflexivity).
    destruct (tell p _ s') as [s1 [[]|x]]; [|reflexivity].
    destruct after as [[r|x]|]; [destruct Ha|reflexivity|]. now destruct (tell p [DatasetEnd] s1) as [s2 [[]|x]]. }
  destruct l1 as [|a l1].
  - inversion He; subst. cbn [app flat_mapi combine perform]. etransitivity; [exact (Fin s)|].
    change (match p_step p s (DatasetBegin None) with (s0, Err EPanic) => (s0, Err EPanic) | (s1, _) => (s1, Ok tt) end)
      with (perform p (map Tell [DatasetBegin None] ++ []) s).
    rewrite perform_tell. now destruct (tell p [DatasetBegin None] s) as [s1 [[]|x]].
  - cbn [Nat.eqb app]. destruct (perform p _ s) as [s' [[]|x]]; [|reflexivity]. etransitivity; [exact (Fin s')|reflexivity].
Qed.

Lemma short_silent : forall ck leftover S (p : proc S) h l1 f l2 rest s,
  Forall entry_ok l1 -> announces h (l1 ++ f :: l2) ->
  exists it evs, iter_features ck h (shp_body (l1 ++ f :: l2) ++ rest)
                   (Some (map (fun f => Ok (en_record f)) l1, None)) = Ok it /\
    events_of (p_dims p) l1 evs /\
    consume ck leftover p (Datatypes.S (length l1)) it s =
    let (s', r) := perform p (file_acts (combine l1 evs)) s in (s', Some r).
Proof.
  intros ck leftover S p h l1 f l2 rest s Hl Hh.
  destruct (short_from ck leftover S p h l1 f l2 rest None s Hl Hh I) as [it [evs [H1 [H2 H3]]]].
  exists it, evs. split; [exact H1|]. split; [exact H2|]. rewrite H3. unfold file_acts.
  change (Tell (DatasetBegin None) :: flat_mapi feature_acts 0 (combine l1 evs) ++ [Tell DatasetEnd])
    with ((Tell (DatasetBegin None) :: flat_mapi feature_acts 0 (combine l1 evs)) ++ [Tell DatasetEnd]).
  rewrite perform_app. destruct (perform p (Tell _ :: _) s) as [s' [[]|x]]; [|reflexivity].
  rewrite (perform_tell _ p [DatasetEnd] [] s' : perform p [Tell DatasetEnd] s' = _).
  now destruct (tell p [DatasetEnd] s') as [s1 [[]|x]].
Qed.

Lemma short_reported : forall ck leftover S (p : proc S) h l1 f l2 rest e s,
  Forall entry_ok l1 -> announces h (l1 ++ f :: l2) ->
  exists it evs, iter_features ck h (shp_body (l1 ++ f :: l2) ++ rest)
                   (Some (map (fun f => Ok (en_record f)) l1, Some (Err e))) = Ok it /\
    events_of (p_dims p) l1 evs /\
    consume ck leftover p (Datatypes.S (length l1)) it s =
    match perform p (Tell (DatasetBegin None) :: flat_mapi feature_acts 0 (combine l1 evs)) s with
    | (s', Ok _) => (s', Some (Err DbaseError))
    | (s', Err x) => (s', Some (Err x))
    end.
Proof.
  intros ck leftover S p h l1 f l2 rest e s Hl Hh.
  exact (short_from ck leftover S p h l1 f l2 rest (Some (Err e)) s Hl Hh I).
Qed.
