(** Helper lemmas for C59. *)
From Coq Require Import String Ascii.
From Coq Require Import List NArith ZArith Lia Bool.
From Verif Require Import Base BaseLemmas Event Geom ProcModel WkbModel WktModel GeoJsonModel SvgModel
  CsvModel SinkModel SinkSpec.
Import ListNotations.
Local Open Scope list_scope.

(** ** Sources that drop no error *)
Fixpoint heeds {A} (g : prog A) : Prop :=
  match g with
  | Done _ => True
  | Call _ k => heeds k
  | CallIgn _ _ => False
  | CallProp _ _ _ k => forall b, heeds (k b)
  end.

Section Limit.
  Context {S X : Type}.
  Variable out : S -> list X.
  Variable sent : nat -> nat.
  Hypothesis sent_le : forall n, sent n <= n.
  Hypothesis sent_mono : forall n m, n <= m -> sent n <= sent m.
  Variable cap : nat.
  Variable p : proc S.
  Hypothesis grows : appends out p.

  Lemma exec_grows : forall A (g : prog A) s, exists l, out (fst (exec p g s)) = out s ++ l.
  Proof.
    destruct grows as [Hs Hp].
    induction g as [r|e k IH|e k IH|i n v k IH]; intros s; cbn [exec].
    - exists []. now rewrite app_nil_r.
    - destruct (p_step p s e) as [s' [u|x]] eqn:E.
      + destruct (IH s') as [l Hl]. destruct (Hs s e) as [l' Hl']. rewrite E in Hl'. cbn [fst] in Hl'.
        exists (l' ++ l). now rewrite Hl, Hl', app_assoc.
      + destruct (Hs s e) as [l' Hl']. rewrite E in Hl'. exists l'. exact Hl'.
    - destruct (IH (fst (p_step p s e))) as [l Hl]. destruct (Hs s e) as [l' Hl'].
      exists (l' ++ l). now rewrite Hl, Hl', app_assoc.
    - destruct (p_prop p s i n v) as [s' [b|x]] eqn:E.
      + destruct (IH b s') as [l Hl]. destruct (Hp s i n v) as [l' Hl']. rewrite E in Hl'. cbn [fst] in Hl'.
        exists (l' ++ l). now rewrite Hl, Hl', app_assoc.
      + destruct (Hp s i n v) as [l' Hl']. rewrite E in Hl'. exists l'. exact Hl'.
  Qed.

  (** the outcome with a limit, given the outcome without one *)
  Definition outcome {A} (full lim : S * res A) : Prop :=
    if Nat.leb (sent (length (out (fst full)))) cap then lim = full
    else exists s2, lim = (s2, Err EIo) /\ cap < sent (length (out s2)) /\
                    exists l, out (fst full) = out s2 ++ l.

  Lemma outcome_stored : forall A (full lim : S * res A), outcome full lim ->
    stored out cap (fst lim) = stored out cap (fst full).
  Proof.
    clear sent_mono grows. unfold outcome, stored. intros A full lim H. destruct (Nat.leb _ cap); [now subst|].
    destruct H as (s2 & -> & Hc & l & El). cbn [fst]. rewrite El, firstn_app.
    replace (cap - length (out s2)) with 0 by (specialize (sent_le (length (out s2))); lia).
    now rewrite firstn_O, app_nil_r.
  Qed.

  Lemma over : forall s s', sent (length (out s)) <= cap -> overflows out sent cap s s' = Nat.ltb cap (sent (length (out s'))).
  Proof.
    intros s s' H. unfold overflows. destruct (Nat.ltb_spec cap (sent (length (out s')))); [|reflexivity].
    cbn [andb]. apply Nat.ltb_lt. lia.
  Qed.

  Lemma later : forall s s' l, out s' = out s ++ l -> cap < sent (length (out s)) -> cap < sent (length (out s')).
  Proof.
    intros s s' l E H. eapply Nat.lt_le_trans; [exact H|]. apply sent_mono. rewrite E, app_length. lia.
  Qed.

  Lemma exec_limited : forall A (g : prog A) s, heeds g -> sent (length (out s)) <= cap ->
    outcome (exec p g s) (exec (limited out sent cap p) g s).
  Proof.
    destruct grows as [Hs Hp].
    induction g as [r|e k IH|e k IH|i n v k IH]; intros s Hg Hc; cbn [exec heeds] in *.
    - unfold outcome. cbn [fst]. destruct (Nat.leb_spec (sent (length (out s))) cap); [reflexivity|lia].
    - unfold limited at 1. cbn [p_step]. destruct (p_step p s e) as [s' r] eqn:E. rewrite over by assumption.
      destruct (Nat.ltb_spec cap (sent (length (out s')))) as [Hl|Hl].
      + assert (exists l, out (fst (match r with Ok _ => exec p k s' | Err x => (s', Err x) end)) = out s' ++ l) as [l El].
        { destruct r; [apply exec_grows|exists []; cbn; now rewrite app_nil_r]. }
        unfold outcome. destruct (Nat.leb_spec (sent (length (out (fst match r with Ok _ => exec p k s' | Err x => (s', Err x) end)))) cap) as [H|H].
        * pose proof (later _ _ _ El Hl). lia.
        * exists s'. split; [reflexivity|]. split; [assumption|]. now exists l.
      + destruct r as [u|x].
        * apply IH; assumption.
        * unfold outcome. cbn [fst]. destruct (Nat.leb_spec (sent (length (out s'))) cap); [reflexivity|lia].
    - contradiction.
    - unfold limited at 1. cbn [p_prop]. destruct (p_prop p s i n v) as [s' r] eqn:E. rewrite over by assumption.
      destruct (Nat.ltb_spec cap (sent (length (out s')))) as [Hl|Hl].
      + assert (exists l, out (fst (match r with Ok b => exec p (k b) s' | Err x => (s', Err x) end)) = out s' ++ l) as [l El].
        { destruct r; [apply exec_grows|exists []; cbn; now rewrite app_nil_r]. }
        unfold outcome. destruct (Nat.leb_spec (sent (length (out (fst match r with Ok b => exec p (k b) s' | Err x => (s', Err x) end)))) cap) as [H|H].
        * pose proof (later _ _ _ El Hl). lia.
        * exists s'. split; [reflexivity|]. split; [assumption|]. now exists l.
      + destruct r as [b|x].
        * apply IH; [apply Hg|assumption].
        * unfold outcome. cbn [fst]. destruct (Nat.leb_spec (sent (length (out s'))) cap); [reflexivity|lia].
  Qed.
End Limit.

Lemma heeds_reports : forall A (src : dims -> prog A), (forall d, heeds (src d)) -> source_reports src.
Proof.
  intros A src Hg S X out sent p Ha [Hle Hmono] s cap Hc.
  change (p_dims (limited out sent cap p)) with (p_dims p).
  assert (outcome out sent cap (exec p (src (p_dims p)) s) (exec (limited out sent cap p) (src (p_dims p)) s)) as H.
  { apply exec_limited; auto. specialize (Hle (length (out s))). lia. }
  pose proof (outcome_stored out sent Hle cap _ _ _ H) as Hst.
  unfold outcome in H. destruct (exec p (src (p_dims p)) s) as [s1 r1]. cbn [fst] in H, Hst.
  destruct (Nat.leb (sent (length (out s1))) cap); [assumption|].
  destruct H as (s2 & E & _). exists s2. split; [assumption|]. now rewrite E in Hst.
Qed.

(** ** Buffered output *)
Lemma buffered_le : forall buf n, buffered buf n <= n.
Proof.
  intros buf n. unfold buffered. destruct buf as [|b]; [rewrite Nat.mul_0_r; lia|].
  pose proof (Nat.mul_div_le (n - 1) (S b) ltac:(discriminate)). lia.
Qed.
Lemma buffered_mono : forall buf n m, n <= m -> buffered buf n <= buffered buf m.
Proof.
  intros buf n m H. unfold buffered. apply Nat.mul_le_mono_r. destruct buf as [|b]; [cbn; lia|].
  apply Nat.div_le_mono; lia.
Qed.
Lemma buffered_fits : forall buf n, n <= buf -> buffered buf n = 0.
Proof.
  intros buf n H. unfold buffered. destruct buf as [|b]; [apply Nat.mul_0_r|].
  now rewrite Nat.div_small by lia.
Qed.
(** ** The writers *)
Definition chars : string -> list ascii := list_ascii_of_string.
Lemma chars_app : forall a b, chars (a ++ b)%string = chars a ++ chars b.
Proof. induction a as [|c a IH]; intros b; cbn; [reflexivity|]. now rewrite IH. Qed.

Lemma grow_id : forall X (l : list X), exists k, l = l ++ k.
Proof. intros. exists []. now rewrite app_nil_r. Qed.
Lemma grow_str : forall (a b : string), exists k, chars (a ++ b)%string = chars a ++ k.
Proof. intros. exists (chars b). apply chars_app. Qed.

Lemma svg_appends : forall fmt c, appends chars (svg_writer fmt c).
Proof.
  intros fmt c. split; [intros s e|intros s i n v; apply grow_id].
  destruct e; cbn [svg_writer p_step svg_step default_step fst]; try apply grow_id; apply grow_str.
Qed.

Lemma gj_comma_grow : forall s idx t, exists k, chars (gj_comma s idx ++ t)%string = chars s ++ k.
Proof.
  intros s idx t. unfold gj_comma. destruct (Nat.ltb 0 idx); [|apply grow_str].
  rewrite !chars_app, <- app_assoc. eexists. reflexivity.
Qed.
Lemma gj_step_grow : forall fmt s e, exists k, chars (fst (gj_step fmt s e)) = chars s ++ k.
Proof.
  intros fmt s e.
  destruct e; cbn [gj_step default_step fst]; try apply grow_id; try apply grow_str; apply gj_comma_grow.
Qed.
Lemma gj_prop_grow : forall fmt32 fmt s i n v, exists k, chars (fst (gj_prop fmt32 fmt s i n v)) = chars s ++ k.
Proof.
  intros fmt32 fmt s i n v. unfold gj_prop.
  destruct (Nat.ltb 0 i); destruct v; cbn [fst]; try apply grow_id; try apply grow_str;
    rewrite !chars_app, <- !app_assoc; eexists; reflexivity.
Qed.
Lemma geojson_appends : forall fmt32 fmt d, appends chars (geojson_writer fmt32 fmt d).
Proof. intros. split; [apply gj_step_grow|apply gj_prop_grow]. Qed.

Definition line_chars (s : lwstate) : list ascii := chars (snd s).
Lemma lw_inner_grow : forall fmt s e, exists k, line_chars (fst (lw_inner fmt s e)) = line_chars s ++ k.
Proof.
  intros fmt s e. unfold lw_inner, line_chars. destruct (gj_step_grow fmt (snd s) e) as [k Hk].
  destruct (gj_step fmt (snd s) e). exists k. exact Hk.
Qed.
Lemma end_context_grow : forall s, exists k, line_chars (fst (end_context s)) = line_chars s ++ k.
Proof.
  intros [[|n] t]; unfold end_context, line_chars; cbn [fst snd]; [apply grow_id|].
  destruct (Nat.eqb n 0); [apply grow_str|apply grow_id].
Qed.
Lemma grow_trans : forall X (a b c : list X), (exists k, b = a ++ k) -> (exists k, c = b ++ k) -> exists k, c = a ++ k.
Proof. intros X a b c [k ->] [k' ->]. exists (k ++ k'). now rewrite app_assoc. Qed.
Lemma line_end_grow : forall fmt s e, exists k, line_chars (fst (line_end fmt s e)) = line_chars s ++ k.
Proof.
  intros fmt s e. unfold line_end. pose proof (lw_inner_grow fmt s e) as H. destruct (lw_inner fmt s e) as [s' [u|x]].
  - eapply grow_trans; [exact H|apply end_context_grow].
  - exact H.
Qed.
Lemma line_begin_grow : forall fmt s i e, exists k, line_chars (fst (line_begin fmt s i e)) = line_chars s ++ k.
Proof.
  intros fmt [n t] i e. unfold line_begin. eapply grow_trans; [|apply lw_inner_grow].
  unfold line_chars. cbn [fst snd]. destruct (Nat.ltb 0 n && Nat.ltb 0 i); [apply grow_str|apply grow_id].
Qed.
Lemma geojson_line_appends : forall fmt32 fmt, appends line_chars (geojson_line_writer fmt32 fmt).
Proof.
  intros fmt32 fmt. split; [intros s e|intros s i n v].
  - destruct e; cbn [geojson_line_writer p_step gjl_step default_step fst];
      try apply grow_id; try apply line_end_grow; try apply line_begin_grow; try apply lw_inner_grow.
    + pose proof (line_begin_grow fmt s idx (EmptyPoint 0)) as H.
      destruct (line_begin fmt s idx (EmptyPoint 0)) as [s' [u|x]]; [|exact H].
      eapply grow_trans; [exact H|apply end_context_grow].
    + eapply grow_trans; [|apply lw_inner_grow]. apply grow_id.
  - cbn [geojson_line_writer p_prop]. unfold gjl_prop, line_chars.
    destruct (gj_prop_grow fmt32 fmt (snd s) i n v) as [k Hk]. destruct (gj_prop fmt32 fmt (snd s) i n v). exists k. exact Hk.
Qed.

Definition wkt_chars (s : wktst) : list ascii := chars (k_out s).
Lemma wkt_header_grow : forall c s, exists k, wkt_chars (wkt_header c s) = wkt_chars s ++ k.
Proof.
  intros c s. unfold wkt_header, wkt_chars. destruct (k_first s), (k_dialect c); try apply grow_id.
  cbn [k_srid]. destruct (k_srid s) as [[| |]|]; try apply grow_id; cbn [put k_out]; apply grow_str.
Qed.
Lemma put_grow : forall s t, exists k, wkt_chars (put s t) = wkt_chars s ++ k.
Proof. intros. apply grow_str. Qed.
Lemma wkt_comma_grow : forall s i, exists k, wkt_chars (wkt_comma s i) = wkt_chars s ++ k.
Proof. intros. unfold wkt_comma. destruct (Nat.ltb 0 i); [apply put_grow|apply grow_id]. Qed.
Lemma geom_begin_grow : forall c s tag t n i, exists k, wkt_chars (geom_begin c s tag t n i) = wkt_chars s ++ k.
Proof.
  intros c s tag t n i. unfold geom_begin.
  eapply grow_trans; [eapply grow_trans; [apply (wkt_header_grow c)|apply (wkt_comma_grow _ i)]|].
  generalize (wkt_comma (wkt_header c s) i). intros s'.
  destruct t, (Nat.eqb n 0); unfold wkt_chars; cbn [put k_out];
    rewrite ?chars_app, <- ?app_assoc; eexists; reflexivity.
Qed.
Lemma geom_end_grow : forall s, exists k, wkt_chars (fst (geom_end s)) = wkt_chars s ++ k.
Proof.
  intros s. unfold geom_end. destruct (k_sizes s) as [|n r]; [apply grow_id|].
  destruct (Nat.ltb 0 n); cbn [fst]; [apply grow_str|apply grow_id].
Qed.
Lemma wkt_appends : forall fmt c, appends wkt_chars (wkt_writer fmt c).
Proof.
  intros fmt c. split; [intros s e|intros s i n v; apply grow_id].
  destruct e; cbn [wkt_writer p_step wkt_step default_step fst];
    try apply grow_id; try apply geom_begin_grow; try apply geom_end_grow.
  - eapply grow_trans; [apply (wkt_comma_grow s idx)|].
    destruct (f64_is_nan x && f64_is_nan y); apply put_grow.
  - eapply grow_trans; [apply (wkt_comma_grow s idx)|].
    destruct (_ && _); [apply put_grow|].
    eapply grow_trans; [apply (put_grow _ (fmt x ++ " " ++ fmt y)%string)|].
    destruct z, m; first [apply put_grow|apply grow_id|eapply grow_trans; apply put_grow].
Qed.

(** WKB *)
Lemma out_grow : forall s b, exists k, w_out (out_app s b) = w_out s ++ k.
Proof. intros. eexists. reflexivity. Qed.
Ltac outs := cbn [out_app set_first set_state nest_incr w_out]; rewrite <- ?app_assoc; eexists; reflexivity.
Lemma wkb_header_grow : forall c s t, exists k, w_out (write_wkb_header c s t) = w_out s ++ k.
Proof. intros. unfold write_wkb_header. outs. Qed.
Lemma ewkb_header_grow : forall c s t, exists k, w_out (write_ewkb_header c s t) = w_out s ++ k.
Proof. intros. unfold write_ewkb_header. cbn [w_first out_app]. destruct (w_first s), (w_srid c); outs. Qed.
Lemma gpkg_header_grow : forall c s, exists k, w_out (write_gpkg_header c s) = w_out s ++ k.
Proof. intros. unfold write_gpkg_header. outs. Qed.
Lemma spatialite_header_grow : forall c s t, exists k, w_out (write_spatialite_header c s t) = w_out s ++ k.
Proof. intros. unfold write_spatialite_header. destruct (w_first s); outs. Qed.
Lemma write_header_grow : forall c s t, exists k, w_out (fst (write_header c s t)) = w_out s ++ k.
Proof.
  intros c s t. unfold write_header. destruct (w_dialect c); cbn [fst].
  - apply wkb_header_grow.
  - apply ewkb_header_grow.
  - eapply grow_trans; [|apply wkb_header_grow].
    destruct (w_first s); [apply gpkg_header_grow|apply grow_id].
  - destruct (w_first s); cbn [fst]; [|apply wkb_header_grow]. unfold write_mysql_header.
    destruct (w_srid c) as [v|].
    + destruct (v <? 0)%Z; cbn [fst]; [apply grow_id|].
      eapply grow_trans; [|apply wkb_header_grow]. outs.
    + eapply grow_trans; [|apply wkb_header_grow]. outs.
  - apply spatialite_header_grow.
Qed.
Lemma header_size_grow : forall c s t n, exists k, w_out (fst (header_size c s t n)) = w_out s ++ k.
Proof.
  intros c s t n. unfold header_size. pose proof (write_header_grow c s t) as H.
  destruct (write_header c s t) as [s' [u|x]]; [|exact H]. eapply grow_trans; [exact H|apply out_grow].
Qed.
Lemma footer_grow : forall c s, exists k, w_out (fst (write_footer c s)) = w_out s ++ k.
Proof.
  intros c s. unfold write_footer. destruct (w_dialect c); try apply grow_id.
  destruct (Nat.eqb (w_nest s) 0); [apply out_grow|apply grow_id].
Qed.
Lemma nest_decr_grow : forall s f, (forall s, exists k, w_out (fst (f s)) = w_out s ++ k) ->
  exists k, w_out (fst (nest_decr s f)) = w_out s ++ k.
Proof. intros s f H. unfold nest_decr. destruct (w_nest s); [apply grow_id|exact (H (mkWst (w_first s) (w_state s) n (w_out s)))]. Qed.
Lemma then_state_grow : forall g r s, (exists k, w_out (fst r) = w_out s ++ k) ->
  exists k, w_out (fst (then_state g r)) = w_out s ++ k.
Proof. intros g [s' [u|x]] s H; exact H. Qed.
Lemma coordinate_grow : forall c s x y z m, exists k, w_out (fst (write_coordinate c s x y z m)) = w_out s ++ k.
Proof.
  intros c s x y z m. unfold write_coordinate.
  assert (forall s', (exists k, w_out s' = w_out s ++ k) ->
    exists k, w_out (let s := out_app s' (w_f64 (w_endian c) x) in
    let s := out_app s (w_f64 (w_endian c) y) in
    let s := if dz (w_dims c) then out_app s (w_f64 (w_endian c) (opt_default f64_zero z)) else s in
    if dm (w_dims c) then out_app s (w_f64 (w_endian c) (opt_default f64_zero m)) else s) = w_out s ++ k) as H.
  { intros s' H. eapply grow_trans; [exact H|]. destruct (dz (w_dims c)), (dm (w_dims c)); outs. }
  destruct (w_state s); try (apply H, grow_id).
  pose proof (write_header_grow c s TPoint) as Hh. destruct (write_header c s TPoint) as [s' [u|e]]; [|exact Hh].
  apply H. exact Hh.
Qed.
Lemma wkb_appends : forall c, appends w_out (wkb_writer c).
Proof.
  intros c. split; [intros s e|intros s i n v; apply grow_id].
  destruct e; cbn [wkb_writer p_step wkb_step];
    try apply grow_id; try apply coordinate_grow;
    try (apply then_state_grow); try apply header_size_grow;
    try (apply nest_decr_grow; intros; apply footer_grow); try apply footer_grow.
  all: try (eapply grow_trans; [|apply header_size_grow]; apply grow_id).
  all: try (eapply grow_trans; [|apply footer_grow]; apply grow_id).
  all: try (apply nest_decr_grow; intros; eapply grow_trans; [|apply footer_grow]; apply grow_id).
  all: try (destruct (w_state s); try apply header_size_grow; apply out_grow).
  apply write_header_grow.
Qed.

(** CSV *)
Lemma csv_field_records : forall l o, o_records (fold_left csv_write_field l o) = o_records o.
Proof. induction l as [|f l IH]; intros o; cbn [fold_left]; [reflexivity|]. now rewrite IH. Qed.
Lemma csv_record_grow : forall o l, exists k, o_records (fst (csv_write_record o l)) = o_records o ++ k.
Proof.
  intros o l. unfold csv_write_record.
  destruct (o_count _) as [n|]; [destruct (Nat.eqb n _)|]; cbn [fst o_records]; rewrite ?csv_field_records;
    [eexists; reflexivity|apply grow_id|eexists; reflexivity].
Qed.
Lemma csv_bytes_grow : forall enc s s', (exists k, o_records (cs_csv s') = o_records (cs_csv s) ++ k) ->
  exists k, csv_bytes enc s' = csv_bytes enc s ++ k.
Proof. intros enc s s' [k Hk]. unfold csv_bytes. rewrite Hk, flat_map_app. now eexists. Qed.
Lemma csv_wkt_same : forall fmt d s e, cs_csv (fst (csv_wkt fmt d s e)) = cs_csv s.
Proof. intros. unfold csv_wkt. now destruct (wkt_step _ _ _ _). Qed.
Lemma csv_feature_end_grow : forall s, exists k, o_records (cs_csv (fst (csv_feature_end s))) = o_records (cs_csv s) ++ k.
Proof.
  intros s. unfold csv_feature_end.
  assert (exists k, o_records (fst (if cs_written s then (cs_csv s, Ok tt) else csv_write_record (cs_csv s) (cs_headers s)))
                    = o_records (cs_csv s) ++ k) as H.
  { destruct (cs_written s); [apply grow_id|apply csv_record_grow]. }
  destruct (if cs_written s then _ else _) as [o [u|x]]; [|exact H]. cbn [fst] in H.
  set (o' := fold_left csv_write_field (cs_row s) _).
  pose proof (csv_record_grow o' []) as H'. unfold o' in H' at 2. rewrite csv_field_records in H'.
  destruct (csv_write_record o' []) as [o2 [u2|x2]]; (eapply grow_trans; [exact H|exact H']).
Qed.
Lemma csv_appends : forall enc fmt32 fmt debug d, appends (csv_bytes enc) (csv_writer fmt32 fmt debug d).
Proof.
  intros enc fmt32 fmt debug d. split; [intros s e|intros s i n v]; apply csv_bytes_grow.
  - destruct e; cbn [csv_writer p_step csv_step]; try apply csv_feature_end_grow;
      try (rewrite csv_wkt_same; apply grow_id); try apply grow_id;
      unfold csv_assert; destruct (debug && _); apply grow_id.
  - cbn [csv_writer p_prop]. unfold csv_prop.
    repeat match goal with |- context [match ?x with _ => _ end] => destruct x end; apply grow_id.
Qed.
