(** Several geometries gathered in one SpatiaLite blob (helper lemmas for C79). *)
From Coq Require Import String Ascii.
From Coq Require Import List NArith ZArith Lia Bool.
From Coq Require Import Init.Byte.
From Verif Require Import Base BaseLemmas Event EventLemmas Claims Geom SeveralSpec.
From Verif Require Import WkbModel WkbSpec WkbClaims WkbRead WkbReadTop WkbWrite WkbWriteTop WkbTop WkbSeq WkbMarks WkbSizeSpec.
Import ListNotations.
Local Open Scope list_scope.

Section Blob.
  Variables (d rd : dims) (srid : option Z) (env : list f64) (ed : dims) (ext emp : bool).
  Notation c := (with_extended_opts SpatiaLite d rd srid env ed ext emp).
  Notation W := (wkb_writer c).
  Hypothesis Hr : asks_for_all d rd.
  Notation multi := (multi_dim rd).
  Notation hdr := (spatialite_sub_header (dz d) (dm d)).
  Notation mem := (blob_member (dz d) (dm d)).

  Lemma blob_member_run : forall g k n out, no_empty g ->
    run W (gevents multi k g) (mkWst false Normal (S n) out) = (mkWst false Normal (S n) (out ++ mem g), Ok tt).
  Proof.
    intros g k n out E.
    rewrite (run_geom c eq_refl multi I g false (S n) k []); [|exact E|left; reflexivity].
    rewrite (body_ext _ _ (coord_bytes (dz d) (dm d)) _ _ _ (fun e p => wcb_eq c e p Hr) E).
    change (foot c (S n)) with (@nil byte). rewrite app_nil_r. reflexivity.
  Qed.
  Lemma blob_members_run : forall ps n out, Forall (fun p => no_empty (snd p)) ps ->
    run W (parts multi ps) (mkWst false Normal (S n) out) =
    (mkWst false Normal (S n) (out ++ flat_map mem (map snd ps)), Ok tt).
  Proof.
    induction ps as [|p ps IH]; intros n out H; [cbn; now rewrite app_nil_r|].
    inversion_clear H as [|? ? H1 H2]. unfold parts. cbn [flat_map map]. rewrite run_app, blob_member_run by assumption.
    fold (parts multi ps). rewrite IH by exact H2. now rewrite <- app_assoc.
  Qed.
  Lemma gathered_blob_bytes : forall p ps, Forall (fun p => no_empty (snd p)) (p :: ps) ->
    write_all c (gathered multi (p :: ps)) = Ok (gathered_blob d srid env (map snd (p :: ps))).
  Proof.
    intros p ps H. unfold write_all, gathered. cbn [run]. unfold wst_init.
    change (p_step W (mkWst true Normal 0 []) (CollectionBegin 1 0))
      with (header_size c (nest_incr (mkWst true Normal 0 [])) TGeometryCollection 1).
    rewrite (nest_begin c eq_refl I). rewrite run_app.
    change (first_after c true) with false. rewrite blob_members_run by exact H. cbn [run].
    change (p_step W (mkWst ?a Normal 1 ?b) (CollectionEnd 0)) with (nest_decr (mkWst a Normal 1 b) (write_footer c)).
    rewrite nest_end. cbn [w_out app]. change (foot c 0) with [xfe]. unfold gathered_blob. rewrite <- !app_assoc. reflexivity.
  Qed.
End Blob.

(** the path does not matter where all byte orders are the same *)
Lemma blob_path : forall d g p, no_empty g ->
  body (spatialite_sub_header (dz d) (dm d)) (coord_bytes (dz d) (dm d)) little p g =
  body (spatialite_sub_header (dz d) (dm d)) (coord_bytes (dz d) (dm d)) little [] g.
Proof.
  intros d g p E.
  assert (R : asks_for_all d d).
  { unfold asks_for_all, multi_dim. destruct (dz d), (dm d); cbn; intros Q; try discriminate Q; split; reflexivity. }
  pose (c := with_extended_opts SpatiaLite d d None [] xy_dims false false).
  pose proof (run_geom c eq_refl (multi_dim d) I g false 1 0 p [] E (or_introl eq_refl)) as X.
  rewrite (run_geom c eq_refl (multi_dim d) I g false 1 0 [] [] E (or_introl eq_refl)) in X.
  rewrite !(body_ext _ _ (coord_bytes (dz d) (dm d)) _ _ _ (fun e p => wcb_eq c e p R) E) in X.
  apply (f_equal (fun q => w_out (fst q))) in X. cbn [fst w_out app] in X. change (foot c 1) with (@nil byte) in X.
  rewrite !app_nil_r in X. apply app_inv_head in X. symmetry. exact X.
Qed.
(** the blob is that of the first geometry, with the others before the end mark *)
Lemma first_blob : forall d srid env g gs, no_empty g ->
  exists u, u ++ [xfe] = std SpatiaLite d srid env xy_dims false false little (GCollection [g]) /\
    gathered_blob d srid env (g :: gs) = u ++ flat_map (blob_member (dz d) (dm d)) gs ++ [xfe].
Proof.
  intros d srid env g gs E.
  exists (spatialite_header (dz d) (dm d) (opt_default 0%Z srid) env LE 7 ++ bytes_of LE 4 1 ++ blob_member (dz d) (dm d) g).
  split.
  - cbn [std]. unfold enc_spatialite. rewrite <- !app_assoc. f_equal. cbn [body length]. rewrite app_nil_r, <- !app_assoc.
    unfold blob_member. rewrite <- (blob_path d g [0%nat] E), <- !app_assoc. reflexivity.
  - unfold gathered_blob. cbn [flat_map]. rewrite <- !app_assoc. reflexivity.
Qed.
Lemma reads_blob : forall d z m (o : list nat -> endian) srid env g tail,
  encodable g -> (levels g <= 128)%nat -> env4 env -> is_i32 srid ->
  reads (process_wkb_type_geom SpatiaLite d)
    ((spatialite_header z m srid env (o []) (kind_code g) ++
      body (spatialite_sub_header z m) (coord_bytes z m) (fun _ => o []) [] g) ++ tail)
        (Srid (srid_or_none srid) :: gevents (multi_dim d) 0 (retained z m g)) tt tail.
Proof.
  intros d z m o srid env g tail Hg Hl He Hs.
  destruct (gtype_code g) as [Hc Hu]. rewrite <- Hc.
  eapply (reads_process SpatiaLite d _
            (mkInfo (o []) (gtype g) z m (srid_or_none srid) _ false));
    [apply reads_spatialite_header; assumption|reflexivity|].
  apply (reads_geom (multi_dim d) read_spatialite_nested_header (spatialite_sub_header z m) z m
           (fun _ => o []) eq (nested_spatialite z m) (fun _ _ => eq_refl));
    try assumption; try (unfold geom_fuel; lia).
  repeat split.
Qed.
Lemma to_blob_gathered : forall src d srid env p ps u,
  Forall (fun p => no_empty (snd p)) (p :: ps) -> delivers src (fun multi => gathered multi (p :: ps)) (Ok u) ->
  to_wkb_dialect src SpatiaLite d srid env = Ok (gathered_blob d srid env (map snd (p :: ps))).
Proof.
  intros src d srid env p ps u H X. unfold to_wkb_dialect. cbv zeta.
  specialize (X _ (wkb_writer (with_opts SpatiaLite d srid env)) wst_init). cbn [p_dims wkb_writer] in X. rewrite X. clear X.
  assert (R : asks_for_all d d).
  { unfold asks_for_all, multi_dim. destruct (dz d), (dm d); cbn; intros Q; try discriminate Q; split; reflexivity. }
  pose proof (gathered_blob_bytes d d srid env xy_dims false false R p ps H) as G. unfold write_all in G.
  change (with_extended_opts SpatiaLite d d srid env xy_dims false false) with (with_opts SpatiaLite d srid env) in G.
  cbn [w_read_dims with_opts with_extended_opts]. destruct (run _ _ _) as [s [v|e]]; [exact G|discriminate G].
Qed.
Lemma blob_lost : forall src d srid env p ps u, srid_ok SpatiaLite srid -> env_ok SpatiaLite xy_dims env ->
  Forall (fun p => conforming (dz d) (dm d) (snd p)) (p :: ps) -> encodable (snd p) -> (levels (snd p) <= 127)%nat ->
  delivers src (fun multi => gathered multi (p :: ps)) (Ok u) ->
  exists b, to_wkb_dialect src SpatiaLite d srid env = Ok b /\
    delivers (fun dr => process_wkb_type_geom SpatiaLite dr b)
      (fun multi => Srid (reported_srid SpatiaLite srid) :: gevents multi 0 (GCollection [snd p]))
      (Ok (tt, flat_map (blob_member (dz d) (dm d)) (map snd ps) ++ [xfe])).
Proof.
  intros src d srid env p ps u S V H E L X. eexists. split.
  - apply (to_blob_gathered src d srid env p ps u); [|exact X].
    eapply Forall_impl; [|exact H]. intros a A. eapply conforming_no_empty. exact A.
  - inversion_clear H as [|? ? H1 H2]. cbn [map].
    assert (NE : no_empty (snd p)) by (eapply conforming_no_empty; exact H1).
    destruct (first_blob d srid env (snd p) (map snd ps) NE) as (w & W1 & W2). rewrite W2.
    set (rest := flat_map _ _ ++ [xfe]) in *.
    assert (GE : encodable (GCollection [snd p])).
    { apply on_geom_collection. split; [reflexivity|]. constructor; [exact E|constructor]. }
    assert (GC : conforming (dz d) (dm d) (GCollection [snd p])).
    { apply on_geom_collection. split; [exact I|]. constructor; [exact H1|constructor]. }
    assert (GL : (levels (GCollection [snd p]) <= 128)%nat) by (cbn; lia).
    assert (WE : w = spatialite_header (dz d) (dm d) (opt_default 0%Z srid) env LE (kind_code (GCollection [snd p])) ++
      body (spatialite_sub_header (dz d) (dm d)) (coord_bytes (dz d) (dm d)) little [] (GCollection [snd p])).
    { cbn [std] in W1. unfold enc_spatialite in W1. rewrite app_assoc in W1. apply app_inj_tail in W1. exact (proj1 W1). }
    apply delivers_calls. intros dr. rewrite WE.
    replace (reported_srid SpatiaLite srid) with (srid_or_none (opt_default 0%Z srid)) by (destruct srid as [[]|]; reflexivity).
    assert (SI : is_i32 (opt_default 0%Z srid)) by (destruct srid as [x|]; [exact S|]; cbn; unfold is_i32; lia).
    pose proof (reads_blob dr (dz d) (dm d) little (opt_default 0%Z srid) env (GCollection [snd p]) rest GE GL V SI) as Q.
    rewrite (retained_conforming _ _ _ GC) in Q. exact Q.
Qed.
