(** Closing lemmas and witnesses for C59. *)
From Coq Require Import String Ascii.
From Coq Require Import List NArith ZArith Lia Bool.
From Verif Require Import Base Event ProcModel WkbModel WktModel GeoJsonModel SvgModel CsvModel GeoModel
  ShpModel ShpSpec ShpFeatures ShpMore SinkModel SinkSpec SinkTop SinkRead SinkShp.
Import ListNotations.
Local Open Scope list_scope.

Lemma writers_append : forall fmt32 fmt,
  (forall c, appends w_out (wkb_writer c)) /\
  (forall c, appends (fun s => list_ascii_of_string (k_out s)) (wkt_writer fmt c)) /\
  (forall d, appends list_ascii_of_string (geojson_writer fmt32 fmt d)) /\
  appends (fun s => list_ascii_of_string (snd s)) (geojson_line_writer fmt32 fmt) /\
  (forall c, appends list_ascii_of_string (svg_writer fmt c)) /\
  (forall encode debug d, appends (csv_bytes encode) (csv_writer fmt32 fmt debug d)).
Proof.
  intros fmt32 fmt. split; [exact wkb_appends|]. split; [exact (wkt_appends fmt)|].
  split; [exact (geojson_appends fmt32 fmt)|]. split; [exact (geojson_line_appends fmt32 fmt)|].
  split; [exact (svg_appends fmt)|]. intros. apply csv_appends.
Qed.
Lemma buffers_pass : passes_on unbuffered /\ forall buf, passes_on (buffered buf).
Proof.
  split; [split; unfold unbuffered; auto|]. intros buf. split; [apply buffered_le|apply buffered_mono].
Qed.
Lemma buffer_holds : forall buf n, 0 < buf ->
  n - buffered buf n <= buf /\ (0 < n -> buffered buf n < n) /\ exists k, buffered buf n = k * buf.
Proof.
  intros buf n B. unfold buffered. pose proof (Nat.div_mod (n - 1) buf ltac:(lia)) as D.
  pose proof (Nat.mod_upper_bound (n - 1) buf ltac:(lia)) as M. rewrite (Nat.mul_comm _ buf).
  split; [lia|]. split; [lia|]. exists (Nat.div (n - 1) buf). apply Nat.mul_comm.
Qed.

Lemma geojson_cut : forall ck leftover fmt32 fmt d n it s t,
  consume ck leftover (geojson_writer fmt32 fmt d) n it s = (t, Some (Ok tt)) ->
  forall cap, length (list_ascii_of_string t) = cap + 2 ->
  exists s2, consume ck leftover (limited list_ascii_of_string unbuffered cap (geojson_writer fmt32 fmt d)) n it s
             = (s2, Some (Ok tt)) /\
    length (stored list_ascii_of_string cap s2) = cap.
Proof.
  intros ck leftover fmt32 fmt d n it s t H cap Hc. exists t.
  split; [apply geojson_end_lost; [exact H|unfold chars; lia]|].
  unfold stored. rewrite firstn_length. lia.
Qed.
Lemma svg_cut : forall ck leftover fmt c n it s t,
  consume ck leftover (svg_writer fmt c) n it s = (t, Some (Ok tt)) ->
  forall cap, length (list_ascii_of_string t) = cap + 12 ->
  exists s2, consume ck leftover (limited list_ascii_of_string unbuffered cap (svg_writer fmt c)) n it s
             = (s2, Some (Ok tt)) /\
    length (stored list_ascii_of_string cap s2) = cap.
Proof.
  intros ck leftover fmt c n it s t H cap Hc. exists t.
  split; [apply svg_end_lost; [exact H|unfold chars; lia]|].
  unfold stored. rewrite firstn_length. lia.
Qed.

Lemma csv_reports : forall A (src : dims -> prog A), source_reports src ->
  forall buf encode fmt32 fmt debug d,
  reports (csv_bytes encode) (buffered buf) (csv_writer fmt32 fmt debug d)
    (fun q s => exec q (src (p_dims q)) s) (Err EIo).
Proof. intros A src H buf encode fmt32 fmt debug d. apply H; [apply csv_appends|apply buffers_pass]. Qed.
Lemma csv_lost : forall A (src : dims -> prog A), source_reports src ->
  forall buf encode fmt32 fmt debug d s1 a,
  exec (csv_writer fmt32 fmt debug d) (src d) csv_init = (s1, Ok a) ->
  length (csv_bytes encode s1) <= buf ->
  exec (limited (csv_bytes encode) (buffered buf) 0 (csv_writer fmt32 fmt debug d)) (src d) csv_init = (s1, Ok a) /\
  stored (csv_bytes encode) 0 s1 = [].
Proof.
  intros A src H buf encode fmt32 fmt debug d s1 a E Hl. split; [|reflexivity].
  pose proof (csv_reports A src H buf encode fmt32 fmt debug d csv_init 0 (le_n 0)) as Hr.
  cbn [p_dims csv_writer limited] in Hr. change (mkProc d (csv_step fmt debug d) (csv_prop fmt32 fmt)) with (csv_writer fmt32 fmt debug d) in Hr.
  rewrite E in Hr. now rewrite (buffered_fits buf _ Hl) in Hr.
Qed.

(** ** Witnesses *)
Definition no_rect (a b : pos) : poly := ([], []).
Definition no_tri (a b c : pos) : poly := ([], []).
Definition dot : string := "{""type"": ""Point"", ""coordinates"": [7,7]}".
Lemma dot_cut : forall fmt32,
  exec (geojson_writer fmt32 (fun _ => "7"%string) xy_dims) (geo_process no_rect no_tri (TPoint (1, 2)%N) xy_dims) ""%string
  = (dot, Ok tt) /\ length (list_ascii_of_string dot) = 39 /\
  exists s2, exec (limited list_ascii_of_string unbuffered 38 (geojson_writer fmt32 (fun _ => "7"%string) xy_dims))
               (geo_process no_rect no_tri (TPoint (1, 2)%N) xy_dims) ""%string = (s2, Err EIo).
Proof. intros. split; [reflexivity|]. split; [reflexivity|]. eexists. vm_compute. reflexivity. Qed.

Lemma geojson_accepts : forall fmt32 fmt d, accepts (geojson_writer fmt32 fmt d).
Proof. intros. split; [intros s e; now destruct e|intros s i n v; cbn; unfold gj_prop; now destruct v]. Qed.
(** a file of a polygon with a hole, a point and a null shape *)
Lemma places_file : forall ck leftover fmt32 fmt, exists it t cap,
  iter_features ck places_header (shp_body places) (Some (map (fun f => Ok (en_record f)) places, None)) = Ok it /\
  consume ck leftover (geojson_writer fmt32 fmt xy_dims) 4 it ""%string = (t, Some (Ok tt)) /\
  length (list_ascii_of_string t) = cap + 2.
Proof.
  intros ck leftover fmt32 fmt.
  destruct (framed_file ck leftover _ (geojson_writer fmt32 fmt xy_dims) places_header places [] [] None ""%string
              places_ok places_announced (geojson_accepts _ _ _)) as (it & evs & t & Hi & _ & Hc & _).
  rewrite !app_nil_r in Hi. exists it, t.
  destruct (consume_end ck leftover chars 0 _ (geojson_appends fmt32 fmt xy_dims) (geojson_calm _ _ _) _ _ _ _ Hc) as (s0 & -> & _).
  exists (length (chars s0)). split; [exact Hi|]. split; [exact Hc|].
  unfold said. cbn [geojson_writer p_step gj_step fst]. fold (chars (s0 ++ "]}")%string). now rewrite chars_app, app_length.
Qed.

(** a source given by its callbacks *)
Definition fun_source (l : list event) (d : dims) : prog unit := calls l (pret tt).
Lemma fun_source_heeds : forall l d, heeds (fun_source l d).
Proof. intros l d. unfold fun_source. induction l as [|e l IH]; cbn [calls heeds]; [exact I|exact IH]. Qed.
Definition one_row : list event :=
  [DatasetBegin None; FeatureBegin 0; PropertiesBegin; PropertiesEnd; GeometryBegin; GeometryEnd; FeatureEnd 0; DatasetEnd].
Fixpoint joined (l : list string) : string :=
  match l with [] => "" | [a] => a | a :: r => (a ++ "," ++ joined r)%string end.
Definition comma_separated (l : list string) : list ascii := list_ascii_of_string (joined l) ++ [ascii_of_N 10].
Lemma one_row_csv : forall fmt32 fmt,
  exists s1, exec (csv_writer fmt32 fmt true xy_dims) (fun_source one_row xy_dims) csv_init = (s1, Ok tt) /\
    source_reports (fun_source one_row) /\ length (csv_bytes comma_separated s1) = 10.
Proof.
  intros. eexists. split; [cbv; reflexivity|]. split; [apply heeds_reports, fun_source_heeds|reflexivity].
Qed.
