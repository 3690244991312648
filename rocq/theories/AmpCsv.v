(** Lemmas for C89: CSV tables. *)
From Coq Require Import String Ascii.
From Coq Require Import List NArith ZArith Lia Bool.
From Verif Require Import Base Float Event EventLemmas Claims ProcModel WktModel CsvModel AmpSpec AmpTop.
Import ListNotations.
Local Open Scope nat_scope.

(** as [feed_grows], but a refused callback may spoil what is pending *)
Lemma feed_grows2 : forall S (p : proc S) (size seen : S -> nat) share, (forall s, seen s <= size s) ->
  (forall s e, let (s', r) := p_step p s e in
     match r with Ok _ => size s' | Err _ => seen s' end <= size s + share (OEv e)) ->
  (forall s i n v, let (s', r) := p_prop p s i n v in
     match r with Ok _ => size s' | Err _ => seen s' end <= size s + share (OProp i n v)) ->
  forall l s, seen (fst (feed p l s)) <= size s + total share l.
Proof.
  intros S p size seen share Hs He Hp. unfold total. induction l as [|[e|i n v] l IH]; intros s; cbn [feed map list_sum fold_right].
  - cbn [fst]. specialize (Hs s). lia.
  - specialize (He s e). destruct (p_step p s e) as [s' [u|x]]; cbn [fst] in *; [|lia].
    specialize (IH s'). unfold list_sum in IH. lia.
  - specialize (Hp s i n v). destruct (p_prop p s i n v) as [s' [u|x]]; cbn [fst] in *; [|lia].
    specialize (IH s'). unfold list_sum in IH. lia.
Qed.

Lemma fields_app : forall a b, fields_chars (a ++ b) = fields_chars a + fields_chars b.
Proof. intros a b. unfold fields_chars. now rewrite map_app, list_sum_app. Qed.
Lemma table_app : forall a b, table_chars (a ++ b) = table_chars a + table_chars b.
Proof. intros a b. unfold table_chars. now rewrite map_app, list_sum_app. Qed.
Lemma fields_one : forall a, fields_chars [a] = field_chars a.
Proof. intros a. unfold fields_chars. cbn [map list_sum fold_right]. lia. Qed.
Lemma table_one : forall a, table_chars [a] = fields_chars a.
Proof. intros a. unfold table_chars. cbn [map list_sum fold_right]. lia. Qed.

(** the table and the record being written *)
Definition osize (o : csvout) : nat := table_chars (o_records o) + fields_chars (o_fields o).
Lemma osize_field : forall o f, osize (csv_write_field o f) = osize o + field_chars f.
Proof. intros o f. unfold osize, csv_write_field. cbn [o_fields o_records]. rewrite fields_app, fields_one. lia. Qed.
Lemma osize_fields : forall l o, osize (fold_left csv_write_field l o) = osize o + fields_chars l.
Proof.
  induction l as [|f l IH]; intros o; cbn [fold_left]; [cbn; lia|].
  rewrite IH, osize_field. change (f :: l) with ([f] ++ l). rewrite fields_app, fields_one. lia.
Qed.
Lemma osize_record : forall o l, osize (fst (csv_write_record o l)) = osize o + fields_chars l.
Proof.
  intros o l. unfold csv_write_record. cbv zeta. rewrite <- osize_fields. set (q := fold_left csv_write_field l o).
  assert (E : forall k, osize (mkCsvOut [] (o_records q ++ [o_fields q]) k) = osize q).
  { intros k. unfold osize. cbn [o_records o_fields]. rewrite table_app, table_one. cbn. lia. }
  destruct (o_count q) as [k|]; [destruct (Nat.eqb k _)|]; cbn [fst]; try apply E; reflexivity.
Qed.

Section Csv.
  Variable fmt32 : N -> string.
  Variable fmt : f64 -> string.
  Variable debug : bool.
  Variable d : dims.
  Let share := csv_share (show_colval fmt32 fmt) fmt.
  Let W := mkWktCfg d PlainWkt.

  Definition cseen (s : csvst) : nat := osize (cs_csv s).
  Definition csize (s : csvst) : nat :=
    osize (cs_csv s) + (if cs_written s then 0 else fields_chars (cs_headers s)) + fields_chars (cs_row s) +
    String.length (k_out (cs_wkt s)).

  Lemma wkt_out : forall w, wsize (mkWktCfg d PlainWkt) w = String.length (k_out w).
  Proof. intros w. unfold wsize, pre, prefix_of. cbn [k_dialect]. destruct (k_first w); lia. Qed.
  Lemma csv_wkt_grows : forall s e, let (s', r) := csv_wkt fmt d s e in
    match r with Ok _ => csize s' | Err _ => cseen s' end <= csize s + wkt_share (fun _ => 0) fmt (OEv e).
  Proof.
    intros s e. unfold csv_wkt. pose proof (wkt_step_grows (mkWktCfg d PlainWkt) fmt (cs_wkt s) e) as G.
    rewrite wkt_out in G. destruct (wkt_step fmt (mkWktCfg d PlainWkt) (cs_wkt s) e) as [w r]. cbn [fst] in G.
    rewrite wkt_out in G. unfold csize, cseen. cbn [cs_csv cs_headers cs_written cs_row cs_wkt].
    change (pre (mkWktCfg d PlainWkt)) with (fun _ : option Z => 0) in G. destruct r; lia.
  Qed.
  Lemma csv_assert_grows : forall b s k, let (s', r) := csv_assert debug b s in
    match r with Ok _ => csize s' | Err _ => cseen s' end <= csize s + k.
  Proof.
    intros b s k. unfold csv_assert. destruct (debug && negb b); unfold csize, cseen; lia.
  Qed.
  Lemma feature_end_grows : forall s, let (s', r) := csv_feature_end s in
    match r with Ok _ => csize s' | Err _ => cseen s' end <= csize s + 1.
  Proof.
    intros s. unfold csv_feature_end, csize, cseen.
    set (h := if cs_written s then 0 else fields_chars (cs_headers s)).
    set (first := if cs_written s then (cs_csv s, Ok tt) else csv_write_record (cs_csv s) (cs_headers s)).
    assert (F : osize (fst first) = osize (cs_csv s) + h).
    { unfold first, h. destruct (cs_written s); [cbn [fst]; lia|apply osize_record]. }
    destruct first as [o [u|x]]; cbn [fst] in F; cbn [cs_csv]; [|lia].
    cbv zeta. set (q := fold_left csv_write_field (cs_row s) (csv_write_field o (k_out (cs_wkt s)))).
    assert (Q : osize q = osize o + field_chars (k_out (cs_wkt s)) + fields_chars (cs_row s)).
    { unfold q. now rewrite osize_fields, osize_field. }
    pose proof (osize_record q []) as R. change (fields_chars []) with 0 in R. rewrite Nat.add_0_r in R.
    destruct (csv_write_record q []) as [o2 [u2|x2]]; cbn [fst] in R; cbn [cs_csv cs_written cs_row cs_wkt k_out String.length];
      change (fields_chars []) with 0; unfold field_chars in Q; lia.
  Qed.
  Lemma csv_step_grows : forall s e, let (s', r) := csv_step fmt debug d s e in
    match r with Ok _ => csize s' | Err _ => cseen s' end <= csize s + share (OEv e).
  Proof.
    intros s e. unfold share. destruct e; cbn [csv_step csv_share];
      try match goal with |- context[csv_wkt fmt d s ?e'] => exact (csv_wkt_grows s e') end;
      try apply csv_assert_grows; try apply feature_end_grows; cbn [default_step];
      try (unfold csize, cseen; cbn [cs_csv cs_headers cs_written cs_row cs_wkt]; lia).
    unfold csize. cbn [cs_csv cs_headers cs_written cs_row cs_wkt]. rewrite fields_one.
    destruct (cs_written s); lia.
  Qed.
  Lemma csv_prop_grows : forall s i n v, let (s', r) := csv_prop fmt32 fmt s i n v in
    match r with Ok _ => csize s' | Err _ => cseen s' end <= csize s + share (OProp i n v).
  Proof.
    intros s i n v. unfold csv_prop, share. cbv zeta. cbn [csv_share].
    destruct (cs_written s) eqn:E.
    - destruct (nth_error _ _) as [h|]; [destruct (String.eqb n h)|]; unfold csize, cseen; cbn [cs_csv cs_headers cs_written cs_row cs_wkt];
        rewrite ?E, ?fields_app, ?fields_one; lia.
    - unfold csize. cbn [cs_csv cs_headers cs_written cs_row cs_wkt]. rewrite E, !fields_app, !fields_one. lia.
  Qed.
  Lemma csv_grows : forall l s r, feed (csv_writer fmt32 fmt debug d) l csv_init = (s, r) ->
    table_chars (o_records (cs_csv s)) <= field_chars "geometry" + total share l.
  Proof.
    intros l s r F.
    pose proof (feed_grows2 _ (csv_writer fmt32 fmt debug d) csize cseen share
      ltac:(intros; unfold csize, cseen; lia) csv_step_grows csv_prop_grows l csv_init) as G.
    rewrite F in G. cbn [fst] in G. unfold cseen, osize in G.
    change (csize csv_init) with (field_chars "geometry") in G. lia.
  Qed.
End Csv.
