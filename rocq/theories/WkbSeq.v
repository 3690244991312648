(** Several geometries through one WkbWriter (helper lemmas for C63). *)
From Coq Require Import String Ascii.
From Coq Require Import List NArith ZArith Lia Bool ZifyBool ZifyNat ZifyN.
From Coq Require Import Init.Byte.
From Verif Require Import Base BaseLemmas Float Event EventLemmas Geom WkbModel WkbSpec WkbClaims
  WkbRead WkbReadTop WkbWrite WkbWriteTop WkbInv WkbDepth WkbShape WkbTop WkbMore.
Import ListNotations.
Local Open Scope N_scope.
Local Open Scope list_scope.

Section Seq.
  Variables (dl : dialect) (d rd : dims) (srid : option Z) (env : list f64) (ed : dims) (ext emp : bool).
  Notation c := (with_extended_opts dl d rd srid env ed ext emp).
  Hypothesis Hs : srid_ok dl srid.
  Hypothesis Hr : asks_for_all d rd.

  Lemma seq_writable : srid_writable c.
  Proof. unfold srid_writable, srid_ok in *. cbn. destruct dl, srid; exact I || exact Hs. Qed.
  Lemma run_srids : forall l r s, run (wkb_writer c) (map Srid l ++ r) s = run (wkb_writer c) r s.
  Proof. induction l as [|x l IH]; intros r s; [reflexivity|]. cbn [map app]. rewrite writer_run_srid. apply IH. Qed.

  Definition ready (g : geom) : Prop := no_empty g /\ (dl = SpatiaLite -> spatialite_safe g).
  Lemma piece_run : forall q f out, ready (snd q) ->
    run (wkb_writer c) (piece_events (multi_dim rd) q) (mkWst f Normal 0 out) =
    (mkWst (first_after c f) Normal 0
       (out ++ if f then std dl d srid env ed ext emp little (snd q) else later dl d (snd q)), Ok tt).
  Proof.
    intros [[l k] g] f out [E F]. unfold piece_events. cbn [fst snd] in *. rewrite run_srids.
    rewrite (run_geom c eq_refl (multi_dim rd) seq_writable g f 0%nat k []); [|exact E|].
    2:{ unfold nofoot, foot. cbn [w_dialect with_extended_opts]. destruct dl; try (left; reflexivity); right; now apply F. }
    rewrite (body_ext _ _ (coord_bytes (dz d) (dm d)) _ _ _ (fun e p => wcb_eq c e p Hr) E).
    f_equal. f_equal. f_equal. destruct f.
    - rewrite (writer_bytes_std dl d rd). reflexivity.
    - unfold hd, later, sub_hdr, foot, enc_wkb, enc_ewkb. cbn [w_dialect with_extended_opts w_dims].
      destruct dl; rewrite ?app_nil_r; try reflexivity.
  Qed.
  Lemma first_false : first_after c false = false.
  Proof. unfold first_after. destruct (w_dialect c); reflexivity. Qed.
  Lemma std_wkb_later : forall g, dl = Wkb -> std dl d srid env ed ext emp little g = later dl d g.
  Proof. intros g ->. reflexivity. Qed.
  Lemma pieces_run : forall qs f out, (f = true -> dl = Wkb) -> Forall (fun q => ready (snd q)) qs ->
    exists f', run (wkb_writer c) (flat_map (piece_events (multi_dim rd)) qs) (mkWst f Normal 0 out) =
    (mkWst f' Normal 0 (out ++ flat_map (later dl d) (map snd qs)), Ok tt).
  Proof.
    induction qs as [|q qs IH]; intros f out F H.
    - exists f. cbn. now rewrite app_nil_r.
    - inversion_clear H as [|? ? H1 H2]. cbn [flat_map map]. rewrite run_app, piece_run by exact H1.
      assert (F' : first_after c f = true -> dl = Wkb).
      { destruct f; [intros _; now apply F|]. rewrite first_false. discriminate. }
      destruct (IH (first_after c f) (out ++ (if f then std dl d srid env ed ext emp little (snd q) else later dl d (snd q))) F' H2)
        as (f' & E).
      exists f'. rewrite E. f_equal. f_equal. rewrite <- app_assoc. f_equal. f_equal.
      destruct f; [|reflexivity]. apply std_wkb_later. now apply F.
  Qed.
  Lemma seq_bytes : forall q qs, Forall (fun q => ready (snd q)) (q :: qs) ->
    write_all c (flat_map (piece_events (multi_dim rd)) (q :: qs)) =
    Ok (std dl d srid env ed ext emp little (snd q) ++ flat_map (later dl d) (map snd qs)).
  Proof.
    intros q qs H. inversion_clear H as [|? ? H1 H2]. unfold write_all. cbn [flat_map]. unfold wst_init.
    rewrite run_app, piece_run by exact H1.
    destruct (pieces_run qs (first_after c true) ([] ++ std dl d srid env ed ext emp little (snd q))) as (f' & E); [|exact H2|].
    { unfold first_after. cbn. destruct dl; intros X; try discriminate X; reflexivity. }
    rewrite E. reflexivity.
  Qed.
End Seq.

Definition fine (d : dims) (g : geom) : Prop :=
  encodable g /\ conforming (dz d) (dm d) g /\ (levels g <= 128)%nat.
Lemma fine_ready : forall dl d g, dl <> SpatiaLite -> fine d g -> ready dl g.
Proof. intros dl d g D (_ & C & _). split; [eapply conforming_no_empty; exact C|]. intros E. congruence. Qed.

(** plain WKB and EWKB read the rest *)
Lemma later_std : forall dl d g, dl = Wkb \/ dl = Ewkb ->
  later dl d g = std dl d None [] xy_dims false false little g.
Proof. intros dl d g [-> | ->]; reflexivity. Qed.
Lemma tail_reads : forall dl d gs, dl = Wkb \/ dl = Ewkb -> Forall (fine d) gs ->
  forall dr, read_many dl dr (length gs) (flat_map (later dl d) gs) =
    calls (flat_map (fun g => Srid None :: gevents (multi_dim dr) 0 g) gs) (Done (Ok (tt, []))).
Proof.
  intros dl d gs D H dr. induction H as [|g gs (G & C & L) _ IH]; [reflexivity|].
  cbn [length flat_map read_many]. rewrite (later_std dl d g D).
  pose proof (reads_std dl dr d None [] xy_dims false false little g (flat_map (later dl d) gs) G L I) as R.
  assert (V : env_ok dl xy_dims []) by (destruct dl; cbn; auto).
  assert (O : order_ok dl little) by (destruct dl; exact I || reflexivity).
  specialize (R V O). rewrite (retained_conforming _ _ _ C) in R.
  replace (trailer dl) with (@nil byte) in R by (destruct D as [-> | ->]; reflexivity).
  replace (reported_srid dl None) with (@None Z) in R by (destruct D as [-> | ->]; reflexivity).
  cbn [app] in R. unfold reads in R. rewrite R. cbn [calls pbind app]. rewrite pbind_calls. cbn [pbind snd].
  rewrite IH, calls_app. reflexivity.
Qed.
Lemma first_reads : forall dl d srid env ed ext emp g tail, fine d g -> srid_ok dl srid -> env_ok dl ed env -> dl <> SpatiaLite ->
  forall dr, process_wkb_type_geom dl dr (std dl d srid env ed ext emp little g ++ tail) =
    calls (Srid (reported_srid dl srid) :: gevents (multi_dim dr) 0 g) (Done (Ok (tt, tail))).
Proof.
  intros dl d srid env ed ext emp g tail (G & C & L) Hs He D dr.
  assert (O : order_ok dl little) by (destruct dl; exact I || reflexivity).
  pose proof (reads_std dl dr d srid env ed ext emp little g tail G L Hs He O) as R.
  rewrite (retained_conforming _ _ _ C) in R.
  replace (trailer dl) with (@nil byte) in R by (destruct dl; reflexivity || congruence). exact R.
Qed.

Lemma flat_map_map : forall A B C (f : A -> B) (h : B -> list C) l, flat_map h (map f l) = flat_map (fun a => h (f a)) l.
Proof. induction l as [|a l IH]; [reflexivity|]. cbn [map flat_map]. now rewrite IH. Qed.
Lemma seq_read_back : forall dl d rd srid env ed ext emp q qs, dl = Wkb \/ dl = Ewkb ->
  Forall (fun q => fine d (snd q)) (q :: qs) -> srid_ok dl srid -> asks_for_all d rd ->
  exists bytes,
    write_all (with_extended_opts dl d rd srid env ed ext emp) (flat_map (piece_events (multi_dim rd)) (q :: qs)) = Ok bytes /\
    delivers (fun dr => read_many dl dr (length (q :: qs)) bytes)
      (fun multi => (Srid (reported_srid dl srid) :: gevents multi 0 (snd q)) ++
         flat_map (fun q => Srid None :: gevents multi 0 (snd q)) qs) (Ok (tt, [])).
Proof.
  intros dl d rd srid env ed ext emp q qs D H Hs Hr.
  assert (D' : dl <> SpatiaLite) by (destruct D as [-> | ->]; discriminate).
  eexists. split.
  - apply seq_bytes; try assumption. eapply Forall_impl; [|exact H]. intros a A. exact (fine_ready dl d (snd a) D' A).
  - inversion_clear H as [|? ? H1 H2]. apply WkbTop.delivers_calls. intros dr. cbn [length read_many].
    assert (V : env_ok dl ed env) by (destruct D as [-> | ->]; exact I).
    rewrite first_reads by assumption. cbn [calls pbind app]. rewrite pbind_calls. cbn [pbind snd].
    rewrite <- (map_length snd qs). rewrite tail_reads; [|exact D|].
    + rewrite flat_map_map, calls_app. reflexivity.
    + clear -H2. induction H2; constructor; assumption.
Qed.
(** GeoPackage and MySQL: the rest is plain WKB *)
Lemma seq_rest : forall dl d rd srid env ed ext emp q qs, dl = Geopackage \/ dl = MySQL ->
  Forall (fun q => fine d (snd q)) (q :: qs) -> srid_ok dl srid -> env_ok dl ed env -> asks_for_all d rd ->
  exists bytes rest,
    write_all (with_extended_opts dl d rd srid env ed ext emp) (flat_map (piece_events (multi_dim rd)) (q :: qs)) = Ok bytes /\
    delivers (fun dr => process_wkb_type_geom dl dr bytes)
      (fun multi => Srid (reported_srid dl srid) :: gevents multi 0 (snd q)) (Ok (tt, rest)) /\
    delivers (fun dr => read_many Wkb dr (length qs) rest)
      (fun multi => flat_map (fun q => Srid None :: gevents multi 0 (snd q)) qs) (Ok (tt, [])) /\
    (qs <> [] -> forall dr, exists e, (e = EGeometryFormat \/ e = EIo) /\ makes (process_wkb_type_geom dl dr rest) [] (Err e)).
Proof.
  intros dl d rd srid env ed ext emp q qs D H Hs He Hr.
  assert (D' : dl <> SpatiaLite) by (destruct D as [-> | ->]; discriminate).
  assert (W : forall g, later dl d g = later Wkb d g) by (destruct D as [-> | ->]; reflexivity).
  exists (std dl d srid env ed ext emp little (snd q) ++ flat_map (later Wkb d) (map snd qs)), (flat_map (later Wkb d) (map snd qs)). split; [|split; [|split]].
  - rewrite <- (flat_map_ext (later dl d) (later Wkb d) W). apply seq_bytes; try assumption.
    eapply Forall_impl; [|exact H]. intros a A. exact (fine_ready dl d (snd a) D' A).
  - inversion_clear H as [|? ? H1 H2]. apply WkbTop.delivers_calls. intros dr.
    now apply first_reads.
  - inversion_clear H as [|? ? H1 H2]. apply WkbTop.delivers_calls. intros dr.
    rewrite <- (map_length snd qs). rewrite tail_reads; [|now left|].
    + rewrite flat_map_map. reflexivity.
    + clear -H2. induction H2; constructor; assumption.
  - intros N dr. apply bad_marks_rejected. destruct qs as [|a qs]; [now elim N|]. cbn [map flat_map].
    unfold later, enc_wkb. rewrite <- !app_assoc. unfold iso_header, little. cbn [order_byte app].
    destruct D as [-> | ->]; cbn [marks_ok].
    + intros (v & fl & rest & E & _). discriminate E.
    + intros (s & o & rest & E & _ & O). apply O.
      assert (K : iso_code (dz d) (dm d) (kind_code (snd a)) < 2 ^ 24).
      { unfold iso_code. destruct (dz d), (dm d), (snd a); cbn; lia. }
      revert K E. generalize (iso_code (dz d) (dm d) (kind_code (snd a))). intros n K E.
      assert (Z4 : nth_error (bytes_of LE 4 n) 3 = Some x00).
      { unfold bytes_of. cbn [le_bytes nth_error]. unfold byte_of.
        replace ((n / 256 / 256 / 256) mod 256) with 0; [reflexivity|].
        rewrite !N.div_div by lia. rewrite N.div_small by lia. reflexivity. }
      assert (L4 : length (bytes_of LE 4 n) = 4%nat) by reflexivity.
      assert (Q : forall t, nth_error (x01 :: bytes_of LE 4 n ++ t) 4 = Some x00).
      { intros u. change (nth_error (bytes_of LE 4 n ++ u) 3 = Some x00). rewrite nth_error_app1 by (rewrite L4; lia). exact Z4. }
      assert (Q' : nth_error (bytes_of LE 4 s ++ o :: rest) 4 = Some o).
      { rewrite nth_error_app2; [reflexivity|]. change (4 <= 4)%nat. lia. }
      assert (X := f_equal (fun b => nth_error b 4) E). cbv beta in X. rewrite Q, Q' in X. now injection X.
Qed.
(** SpatiaLite: the end mark of the first blob stops the reader *)
Lemma seq_spatialite : forall d rd srid env ed ext emp q qs,
  Forall (fun q => fine d (snd q) /\ spatialite_safe (snd q)) (q :: qs) ->
  srid_ok SpatiaLite srid -> env_ok SpatiaLite ed env -> asks_for_all d rd ->
  exists bytes rest,
    write_all (with_extended_opts SpatiaLite d rd srid env ed ext emp) (flat_map (piece_events (multi_dim rd)) (q :: qs)) = Ok bytes /\
    delivers (fun dr => process_wkb_type_geom SpatiaLite dr bytes)
      (fun multi => Srid (reported_srid SpatiaLite srid) :: gevents multi 0 (snd q)) (Ok (tt, rest)) /\
    (forall dr, exists e, (e = EGeometryFormat \/ e = EIo) /\ makes (process_wkb_type_geom SpatiaLite dr rest) [] (Err e)).
Proof.
  intros d rd srid env ed ext emp q qs H Hs He Hr.
  exists (std SpatiaLite d srid env ed ext emp little (snd q) ++ flat_map (later SpatiaLite d) (map snd qs)),
    ([xfe] ++ flat_map (later SpatiaLite d) (map snd qs)). split; [|split].
  - apply seq_bytes; try assumption. eapply Forall_impl; [|exact H]. intros a [(_ & C & _) F].
    split; [eapply conforming_no_empty; exact C|auto].
  - inversion_clear H as [|? ? [(G & C & L) _] _]. apply WkbTop.delivers_calls. intros dr.
    pose proof (reads_std SpatiaLite dr d srid env ed ext emp little (snd q) (flat_map (later SpatiaLite d) (map snd qs)) G L Hs He I) as R.
    rewrite (retained_conforming _ _ _ C) in R. exact R.
  - intros dr. apply bad_marks_rejected. intros (fl & rest & E & _). discriminate E.
Qed.
