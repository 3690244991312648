(** C39, C40, C41, C50, C64: shapefiles.  Read with: ShpSpec.v (record, header and index layouts, the
    geometry a record [represents], the callbacks of a file), Claims.v ([makes]), FeatureSpec.v
    ([contract]).  [ck]: overflow checks on or off; every theorem holds for both unless it says so. *)
From Coq Require Import String Ascii.
From Coq Require Import List NArith ZArith Lia Bool.
From Coq Require Import Init.Byte.
From Verif Require Import Base Float Event Claims Geom FeatureSpec WkbModel.
From Verif Require Import ShpModel ShpSpec ShpTop ShpFeatures ShpSafe ShpShort ShpMore ShpBound.
Import ListNotations.
Local Open Scope list_scope.

(** C39.  Against every processor a well-formed record is delivered as the geometry it represents
    (rings grouped as [grouped] says), in its documented form; exactly the record is consumed. *)
Theorem C39_decode : forall ck n sh rest S (p : proc S) s, is_i32 n -> well_formed sh ->
  exists l, shape_events (p_dims p) sh l /\
    exec p (read_shape ck (p_dims p) (record_bytes n sh ++ rest)) s =
    match run p l s with
    | (s', Ok _) => (s', Ok ((n, words sh), rest))
    | (s', Err e) => (s', Err e)
    end.
Proof. exact record_exec. Qed.
Print Assumptions C39_decode.
Example C39_met : is_i32 7 /\ well_formed island.
Proof. split; [split; discriminate + reflexivity|exact island_ok]. Qed.
Example C39_island : forall ck,
  makes (read_shape ck xy_dims (record_bytes 7 island))
    (gevents false 0 (GMultiPolygon
        [[map (visible xy_dims) (square f0); rev (map (visible xy_dims) (square f1))];
         [map (visible xy_dims) (square f1)]]))
    (Ok ((7, words island)%Z, [])).
Proof. exact island_groups. Qed.

(** A multipatch is skipped: no callback and no error. *)
Theorem C39_multipatch_refuted : forall ck n b rest S (p : proc S) s, is_i32 n -> well_formed (Patches b) ->
  exec p (read_shape ck (p_dims p) (record_bytes n (Patches b) ++ rest)) s = (s, Ok ((n, words (Patches b)), rest)).
Proof. exact patches_silent. Qed.
Print Assumptions C39_multipatch_refuted.
Example C39_multipatch_met : well_formed (Patches (repeat x00 40)).
Proof. exact patch_ok. Qed.

(** C40.  Records whose sizes and counts are not negative and do not overflow and whose part tables
    ascend ([sane]: about the fields that are present) never make the reader panic, whatever else
    they hold and wherever they end. *)
Theorem C40_sane_partial : forall ck b S (p : proc S) s, sane b ->
  (forall s e, snd (p_step p s e) <> Err EPanic) ->
  snd (exec p (read_shape ck (p_dims p) b) s) <> Err EPanic.
Proof. exact record_calm. Qed.
Print Assumptions C40_sane_partial.
Example C40_sane_met : sane (firstn 77 (record_bytes 7 island)).
Proof. apply sane_prefix. rewrite <- (app_nil_r (record_bytes 7 island)). apply record_sane; [split; discriminate + reflexivity|exact island_ok]. Qed.
(** A well-formed record cut short anywhere: an I/O error after some of the callbacks. *)
Theorem C40_truncated : forall ck n sh k S (p : proc S) s,
  is_i32 n -> well_formed sh -> k < length (record_bytes n sh) ->
  exists l l', shape_events (p_dims p) sh (l ++ l') /\
    exec p (read_shape ck (p_dims p) (firstn k (record_bytes n sh))) s =
    match run p l s with (s', Ok _) => (s', Err EIo) | (s', Err e) => (s', Err e) end.
Proof. exact truncated_exec. Qed.
Print Assumptions C40_truncated.
Example C40_truncated_met : well_formed island /\ 77 < length (record_bytes 7 island).
Proof. split; [exact island_ok|vm_compute; repeat constructor]. Qed.
(** Panics: a multipatch record of no words; a negative number of points; a polygon whose parts are
    not in order (each with and without overflow checks); a null record of one word (with overflow
    checks only). *)
Theorem C40_size_refuted : forall ck d, read_shape ck d small_patch = Done (Err EPanic).
Proof. exact panic_small. Qed.
Print Assumptions C40_size_refuted.
Theorem C40_count_refuted : forall ck d, read_shape ck d minus_one = Done (Err EPanic).
Proof. exact panic_minus. Qed.
Print Assumptions C40_count_refuted.
Theorem C40_parts_refuted : forall ck d, read_shape ck d zigzag = Done (Err EPanic).
Proof. exact panic_zigzag. Qed.
Print Assumptions C40_parts_refuted.
Theorem C40_debug_refuted : forall d, read_shape true d debug_small = Done (Err EPanic).
Proof. exact panic_debug_small. Qed.
Print Assumptions C40_debug_refuted.

(** C41.  A loop over the features of a file, against every processor: the callbacks of the file in
    order; failures of coordinate and property callbacks end the loop with that error, failures of
    the framing callbacks are dropped; the dbf may hold more records than the file. *)
Theorem C41_stream : forall ck leftover S (p : proc S) h l rest more after s,
  Forall entry_ok l -> announces h l ->
  exists it evs, iter_features ck h (shp_body l ++ rest)
                   (Some (map (fun f => Ok (en_record f)) l ++ more, after)) = Ok it /\
    events_of (p_dims p) l evs /\
    consume ck leftover p (Datatypes.S (length l)) it s =
    let (s', r) := perform p (file_acts (combine l evs)) s in (s', Some r).
Proof. exact consume_file. Qed.
Print Assumptions C41_stream.
(** If nothing fails: one dataset, features numbered from 0, everything framed. *)
Theorem C41_framing_partial : forall ck leftover S (p : proc S) h l rest more after s,
  Forall entry_ok l -> announces h l -> accepts p ->
  exists it evs s', iter_features ck h (shp_body l ++ rest)
                      (Some (map (fun f => Ok (en_record f)) l ++ more, after)) = Ok it /\
    events_of (p_dims p) l evs /\
    consume ck leftover p (Datatypes.S (length l)) it s = (s', Some (Ok tt)) /\
    feed p (file_seen (combine l evs)) s = (s', Ok tt) /\
    contract (file_seen (combine l evs)).
Proof. exact framed_file. Qed.
Print Assumptions C41_framing_partial.
Example C41_met : Forall entry_ok places /\ announces places_header places.
Proof. split; [exact places_ok|exact places_announced]. Qed.
Example C41_accepts_met : accepts (recorder xy_dims false).
Proof. split; reflexivity. Qed.
(** Geometries alone. *)
Theorem C41_geometries : forall ck leftover S (p : proc S) h l rest s,
  Forall entry_ok l -> announces h l ->
  exists it evs, iter_geometries ck h (shp_body l ++ rest) = Ok it /\
    events_of (p_dims p) l evs /\
    consume_shapes ck leftover p (Datatypes.S (length l)) it s =
    let (s', r) := run p (concat evs) s in (s', Some r).
Proof. exact shapes_file. Qed.
Print Assumptions C41_geometries.
Theorem C41_geometries_fused : forall ck leftover S (p : proc S) it s it' s' k,
  shape_next ck leftover p it s = (it', s', None) ->
  shapes ck leftover p k it' s' = (it', s', repeat None k) /\ it' = it /\ s' = s.
Proof. exact shapes_over. Qed.
Print Assumptions C41_geometries_fused.
Example C41_geometries_fused_met : forall ck leftover,
  shape_next ck leftover (recorder xy_dims false) (mkIter [] 100 100) [] = (mkIter [] 100 100, [], None).
Proof. reflexivity. Qed.
(** Without a dbf there is an error; if the dbf ends early the loop ends there: silently if the dbf
    reader says so, with an error and without dataset_end if it fails. *)
Theorem C41_missing_dbf : forall ck h source, iter_features ck h source None = Err MissingDbf.
Proof. exact no_dbf. Qed.
Print Assumptions C41_missing_dbf.
Theorem C41_short_dbf_refuted : forall ck leftover S (p : proc S) h l1 f l2 rest s,
  Forall entry_ok l1 -> announces h (l1 ++ f :: l2) ->
  exists it evs, iter_features ck h (shp_body (l1 ++ f :: l2) ++ rest)
                   (Some (map (fun f => Ok (en_record f)) l1, None)) = Ok it /\
    events_of (p_dims p) l1 evs /\
    consume ck leftover p (Datatypes.S (length l1)) it s =
    let (s', r) := perform p (file_acts (combine l1 evs)) s in (s', Some r).
Proof. exact short_silent. Qed.
Print Assumptions C41_short_dbf_refuted.
Theorem C41_broken_dbf : forall ck leftover S (p : proc S) h l1 f l2 rest e s,
  Forall entry_ok l1 -> announces h (l1 ++ f :: l2) ->
  exists it evs, iter_features ck h (shp_body (l1 ++ f :: l2) ++ rest)
                   (Some (map (fun f => Ok (en_record f)) l1, Some (Err e))) = Ok it /\
    events_of (p_dims p) l1 evs /\
    consume ck leftover p (Datatypes.S (length l1)) it s =
    match perform p (Tell (DatasetBegin None) :: flat_mapi feature_acts 0 (combine l1 evs)) s with
    | (s', Ok _) => (s', Some (Err DbaseError))
    | (s', Err x) => (s', Some (Err x))
    end.
Proof. exact short_reported. Qed.
Print Assumptions C41_broken_dbf.
Example C41_short_met : Forall entry_ok (firstn 1 places) /\
  exists f l2, announces places_header (firstn 1 places ++ f :: l2).
Proof. exact places_split. Qed.
(** A processor that refuses every framing callback is not heard. *)
Theorem C41_errors_refuted : forall ck leftover h l rest more after,
  Forall entry_ok l -> announces h l ->
  exists it, iter_features ck h (shp_body l ++ rest)
               (Some (map (fun f => Ok (en_record f)) l ++ more, after)) = Ok it /\
    consume ck leftover grumpy (S (length l)) it tt = (tt, Some (Ok tt)).
Proof. exact grumpy_ignored. Qed.
Print Assumptions C41_errors_refuted.
(** Asked again after its end the iterator announces the end again. *)
Theorem C41_end_again_refuted : forall ck leftover d it s k,
  (it_length (fi_shapes it) <= it_pos (fi_shapes it))%N -> 0 < fi_no it ->
  features ck leftover (recorder d false) k it s = (it, s ++ repeat (OEv DatasetEnd) k, repeat None k).
Proof. exact again. Qed.
Print Assumptions C41_end_again_refuted.
Example C41_end_again_met : forall records after,
  let it := mkFIter (mkIter [] 716 716) records after 3 in
  (it_length (fi_shapes it) <= it_pos (fi_shapes it))%N /\ 0 < fi_no it.
Proof. intros. split; [vm_compute; discriminate|repeat constructor]. Qed.
Theorem C41_begin_again_refuted : forall ck leftover after, exists it it',
  iter_features ck (mkHeader 50 (repeat f0 8) Point 1000) [] (Some ([], after)) = Ok it /\
  features ck leftover (recorder xy_dims false) 2 it [] =
    (it', [OEv (DatasetBegin None); OEv DatasetEnd; OEv (DatasetBegin None); OEv DatasetEnd], [None; None]).
Proof. exact twice_empty. Qed.
Print Assumptions C41_begin_again_refuted.
(** A caller that goes on after an unreadable attribute record gets the attributes of the second
    record with the geometry of the first, as feature 0, in a second dataset. *)
Theorem C41_misaligned_refuted : forall ck leftover after, exists it it' trace,
  iter_features ck two_dots_header (shp_body two_dots)
    (Some ([Err DbaseError; Ok (en_record (place "b" Null))], after)) = Ok it /\
  features ck leftover (recorder xy_dims false) 2 it [] =
    (it', trace, [Some (Err DbaseError); Some (Ok (en_record (place "b" Null)))]) /\
  trace = [OEv (DatasetBegin None); OEv (DatasetBegin None); OEv (FeatureBegin 0);
           OEv PropertiesBegin; OProp 0 "name" (CString "b"); OProp 1 "note" (CString "x"); OEv PropertiesEnd;
           OEv GeometryBegin; OEv (PointBegin 0); OEv (Xy f1 f1 0); OEv (PointEnd 0); OEv GeometryEnd;
           OEv (FeatureEnd 0)]%string.
Proof. exact off_by_one. Qed.
Print Assumptions C41_misaligned_refuted.
Example C41_misaligned_file : Forall entry_ok two_dots /\ announces two_dots_header two_dots.
Proof. exact two_dots_ok. Qed.
(** A source that is shorter than announced and a dbf reader that always answers (as dbase 0.8):
    the iterator never ends. *)
Theorem C41_endless_refuted : forall ck leftover d records after len pos no k,
  leftover [] = [] -> (pos < len)%N ->
  Forall (fun r => exists x, r = Ok x) records -> (exists x, after = Some (Ok x)) ->
  exists it s', features ck leftover (recorder d false) k (mkFIter (mkIter [] pos len) records after no) [] =
    (it, s', repeat (Some (Err EIo)) k) /\ ~ In (OEv DatasetEnd) s'.
Proof. exact endless_calls. Qed.
Print Assumptions C41_endless_refuted.
Example C41_endless_met : (100 < 200)%N /\ Forall (fun r : res dbf_record => exists x, r = Ok x) [] /\
  (exists x : dbf_record, Some (Ok x) = Some (Ok x)).
Proof. split; [reflexivity|]. split; [constructor|exists []; reflexivity]. Qed.

(** C50.  Headers and index files. *)
Theorem C50_header : forall unused h rest, length unused = 20 -> header_ok h ->
  makes (read_header (header_bytes unused h ++ rest)) [] (Ok (h, rest)).
Proof. exact header_makes. Qed.
Print Assumptions C50_header.
Example C50_header_met : header_ok places_header.
Proof. exact places_header_ok. Qed.
Theorem C50_file_code : forall z rest, is_i32 z -> z <> 9994%Z ->
  makes (read_header (be32 z ++ rest)) [] (Err InvalidFileCode).
Proof. exact wrong_code_makes. Qed.
Print Assumptions C50_file_code.
Theorem C50_header_never_panics : forall b, snd (observe (read_header b)) <> Err EPanic.
Proof. exact header_calm. Qed.
Print Assumptions C50_header_never_panics.
Theorem C50_index : forall ck unused h l rest, length unused = 20 -> header_ok h ->
  Forall (fun r => is_i32 (fst r) /\ is_i32 (snd r)) l ->
  (h_length h * 2 = 100 + 8 * Z.of_nat (length l))%Z -> (h_length h < 2 ^ 30)%Z ->
  makes (read_index_file ck (header_bytes unused h ++ index_bytes l ++ rest)) [] (Ok (l, rest)).
Proof. exact index_makes. Qed.
Print Assumptions C50_index.
Example C50_index_met :
  let h := mkHeader 58 (repeat 0%N 8) Polygon 1000 in let l := [(50, 20); (74, 10)]%Z in
  header_ok h /\ Forall (fun r => is_i32 (fst r) /\ is_i32 (snd r)) l /\
  (h_length h * 2 = 100 + 8 * Z.of_nat (length l))%Z /\ (h_length h < 2 ^ 30)%Z.
Proof.
  cbv zeta. assert (f64_ok 0%N) by reflexivity.
  repeat split; try reflexivity; try discriminate; repeat constructor; try assumption; try discriminate.
Qed.
Theorem C50_index_never_panics_partial : forall ck b,
  (forall len, int_at BE b 24 = Some len -> (50 <= len < 2 ^ 30)%Z) ->
  snd (observe (read_index_file ck b)) <> Err EPanic.
Proof. exact index_calm. Qed.
Print Assumptions C50_index_never_panics_partial.
Example C50_index_never_panics_met : int_at BE (header_bytes (repeat x00 20) places_header) 24 = Some 358%Z.
Proof. reflexivity. Qed.
(** An index whose header announces no length. *)
Theorem C50_index_refuted : forall ck, read_index_file ck short_index = Done (Err EPanic).
Proof. exact panic_index. Qed.
Print Assumptions C50_index_refuted.

(** C64.  Whatever the bytes, a record causes at most one callback per byte (build with overflow
    checks). *)
Theorem C64_checked : forall d b, exists l r,
  makes (read_shape true d b) l r /\ length l <= length b.
Proof. exact checked_count. Qed.
Print Assumptions C64_checked.
(** In either build if sizes and counts are sane and the part table ascends. *)
Theorem C64_sane_partial : forall ck d b, sane b -> exists l r,
  makes (read_shape ck d b) l r /\ length l <= length b.
Proof. exact sane_count. Qed.
Print Assumptions C64_sane_partial.
(** Without overflow checks the square of the length is a bound. *)
Theorem C64_unchecked_partial : forall d b, exists l r,
  makes (read_shape false d b) l r /\ length l <= length b + length b * length b / 256.
Proof. exact unchecked_count. Qed.
Print Assumptions C64_unchecked_partial.
(** And so many there are: records of 52 + 24 k bytes, read with success, that cause k * k
    callbacks. *)
Theorem C64_unchecked_refuted : forall d k, (N.of_nat k < 2 ^ 26)%N -> exists b l h,
  length b = 52 + 24 * k /\ makes (read_shape false d b) l (Ok (h, [])) /\ k * k <= length l.
Proof. exact many_callbacks. Qed.
Print Assumptions C64_unchecked_refuted.
(** The two builds make the same callbacks with the same result, unless the build with overflow
    checks panics; up to the panic they make the same callbacks. *)
Theorem C64_builds : forall d b l r, makes (read_shape true d b) l r ->
  r <> Err EPanic /\ makes (read_shape false d b) l r \/
  r = Err EPanic /\ exists l2 r2, makes (read_shape false d b) (l ++ l2) r2.
Proof. exact builds_agree. Qed.
Print Assumptions C64_builds.
(** The loops over a file end, whatever the file and the processor: every twelve bytes allow one
    more round. *)
Theorem C64_shapes_end : forall ck leftover S (p : proc S) n it s,
  length (it_source it) < 12 * n -> snd (consume_shapes ck leftover p n it s) <> None.
Proof. exact shapes_end. Qed.
Print Assumptions C64_shapes_end.
Theorem C64_features_end : forall ck leftover S (p : proc S) n it s,
  length (it_source (fi_shapes it)) < 12 * n -> snd (consume ck leftover p n it s) <> None.
Proof. exact features_end. Qed.
Print Assumptions C64_features_end.
(** The whole loop over the shapes makes at most one callback per byte of the file (overflow
    checks); [recorder] notes every callback. *)
Theorem C64_shapes_count : forall leftover d n it,
  length (fst (consume_shapes true leftover (recorder d false) n it [])) <= length (it_source it).
Proof. exact shapes_count. Qed.
Print Assumptions C64_shapes_count.
Example C64_met : sane (record_bytes 7 island) /\
  length (it_source (mkIter (shp_body places) 100 716)) < 12 * 60.
Proof.
  split; [|vm_compute; repeat constructor]. rewrite <- (app_nil_r (record_bytes 7 island)).
  apply record_sane; [split; discriminate + reflexivity|exact island_ok].
Qed.
