(** C91 (see /verif/properties.jsonl): writers that count, in builds with and without overflow checks. *)
From Coq Require Import String Ascii.
From Coq Require Import List NArith ZArith Bool.
From Coq Require Import Init.Byte.
From Verif Require Import Base Float Event Claims WkbModel GeoJsonModel CountModel DrivenSpec CountSpec CountTop.
Import ListNotations.
Local Open Scope N_scope.

(** With fewer than 2^32 multi geometries and collections begun, u32 counts like a number without bound: a
    build with overflow checks always, one without them whenever the other does not panic. *)
Theorem C91_wkb : forall c ck l, tally begins_multi l < 2 ^ 32 ->
  (ck = true \/ snd (feed (wkb_writer c) l wst_init) <> Err EPanic) ->
  w_out (snd (fst (feed (wkb_writer_m ck c) l (0, wst_init)))) = w_out (fst (feed (wkb_writer c) l wst_init)) /\
  snd (feed (wkb_writer_m ck c) l (0, wst_init)) = snd (feed (wkb_writer c) l wst_init).
Proof. exact wkb_same. Qed.
Print Assumptions C91_wkb.
Example C91_wkb_met :
  let c := with_opts SpatiaLite xy_dims None [] in
  let l := [OEv (CollectionBegin 1 0); OEv (PointBegin 0); OEv (Xy 1 2 0); OEv (PointEnd 0); OEv (CollectionEnd 0)] in
  tally begins_multi l < 2 ^ 32 /\ snd (feed (wkb_writer c) l wst_init) = Ok tt /\
  length (w_out (snd (fst (feed (wkb_writer_m false c) l (0, wst_init))))) = 69%nat.
Proof. vm_compute. repeat split. Qed.
(** Without checks nothing panics, and the counter is what is open, modulo 2^32. *)
Theorem C91_wkb_unchecked : forall c l,
  snd (feed (wkb_writer_m false c) l (0, wst_init)) <> Err EPanic /\
  forall q, feed (wkb_writer_m false c) l (0, wst_init) = (q, Ok tt) ->
    Z.of_N (fst q) = (balance begins_multi ends_multi l mod 2 ^ 32)%Z.
Proof. exact (fun c l => conj (wkb_unchecked c l 0 wst_init) (fun q => wkb_level c l 0 wst_init q eq_refl)). Qed.
Print Assumptions C91_wkb_unchecked.
(** An end too many: a panic with checks; without, the end mark of later SpatiaLite geometries is lost. *)
Theorem C91_wkb_refuted : exists c stray l q,
  snd (feed (wkb_writer_m true c) stray (0, wst_init)) = Err EPanic /\
  feed (wkb_writer_m false c) stray (0, wst_init) = ((q, wst_init), Ok tt) /\
  snd (feed (wkb_writer_m false c) (stray ++ l) (0, wst_init)) = Ok tt /\
  w_out (fst (feed (wkb_writer c) l wst_init)) =
    w_out (snd (fst (feed (wkb_writer_m false c) (stray ++ l) (0, wst_init)))) ++ [xfe].
Proof.
  exists (with_opts SpatiaLite xy_dims None []), [OEv (CollectionEnd 0)], [OEv (PointBegin 0); OEv (Xy 1 2 0); OEv (PointEnd 0)], (2 ^ 32 - 1).
  vm_compute. repeat split.
Qed.
Print Assumptions C91_wkb_refuted.

(** The same for GeoJSON lines and usize. *)
Theorem C91_lines : forall fmt32 fmt ck l out, tally begins_json l + 1 < 2 ^ 64 ->
  (ck = true \/ snd (feed (geojson_line_writer fmt32 fmt) l (0%nat, out)) <> Err EPanic) ->
  snd (fst (feed (geojson_line_writer_m ck fmt32 fmt) l (0, out))) = snd (fst (feed (geojson_line_writer fmt32 fmt) l (0%nat, out))) /\
  snd (feed (geojson_line_writer_m ck fmt32 fmt) l (0, out)) = snd (feed (geojson_line_writer fmt32 fmt) l (0%nat, out)).
Proof. exact gjl_same. Qed.
Print Assumptions C91_lines.
Example C91_lines_met : forall fmt32 fmt,
  let l := [OEv (FeatureBegin 3); OEv PropertiesBegin; OProp 0 "a"%string (CInt 1); OEv PropertiesEnd; OEv GeometryBegin;
            OEv (PointBegin 0); OEv (Xy 1 2 0); OEv (PointEnd 0); OEv GeometryEnd; OEv (FeatureEnd 3)] in
  tally begins_json l + 1 < 2 ^ 64 /\ snd (feed (geojson_line_writer fmt32 fmt) l (0%nat, ""%string)) = Ok tt.
Proof. intros. split; reflexivity. Qed.
(** Without checks every stream is accepted. *)
Theorem C91_lines_unchecked : forall fmt32 fmt l out,
  exists q, feed (geojson_line_writer_m false fmt32 fmt) l (0, out) = (q, Ok tt) /\
    Z.of_N (fst q) = (balance begins_json ends_json l mod 2 ^ 64)%Z.
Proof. exact (fun fmt32 fmt l out => gjl_unchecked fmt32 fmt l 0 out eq_refl). Qed.
Print Assumptions C91_lines_unchecked.
(** An end too many: a panic with checks; without, later features are broken into pieces: the line ends
    after the geometry and not after the feature. *)
Theorem C91_lines_refuted : forall fmt32 fmt, exists stray l,
  snd (feed (geojson_line_writer_m true fmt32 fmt) stray (0, ""%string)) = Err EPanic /\
  snd (fst (feed (geojson_line_writer_m false fmt32 fmt) (stray ++ l) (0, ""%string))) =
    ("}" ++ "{""type"": ""Feature"", ""geometry"": {""type"": ""Point"", ""coordinates"": }" ++ nl ++ "}")%string /\
  snd (fst (feed (geojson_line_writer fmt32 fmt) l (0%nat, ""%string))) =
    ("{""type"": ""Feature"", ""geometry"": {""type"": ""Point"", ""coordinates"": }}" ++ nl)%string.
Proof.
  exact (fun fmt32 fmt => ex_intro _ [OEv (PointEnd 0)] (ex_intro _
    [OEv (FeatureBegin 0); OEv GeometryBegin; OEv (PointBegin 0); OEv (PointEnd 0); OEv GeometryEnd; OEv (FeatureEnd 0)]
    (conj eq_refl (conj eq_refl eq_refl)))).
Qed.
Print Assumptions C91_lines_refuted.
