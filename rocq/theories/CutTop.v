(** Input that breaks off: lemmas. *)
From Coq Require Import String Ascii.
From Coq Require Import List NArith ZArith Lia Bool.
From Coq Require Import Init.Byte.
From Verif Require Import Base Event EventLemmas Claims CutSpec SinkSpec SinkTop WkbModel WkbInv ShpModel ShpMore
  GeoJsonModel CsvModel WktModel SvgModel.
Import ListNotations.
Local Open Scope list_scope.

Lemma goes_exec : forall S (q : proc S) A (g : prog A) s, goes_on q s (fst (exec q g s)).
Proof.
  intros S q A g. induction g as [r|e k IH|e k IH|i n v k IH]; intros s; cbn [exec].
  - constructor.
  - apply (on_call q s e). destruct (p_step q s e) as [s' [u|x]]; cbn [fst]; [apply IH|constructor].
  - apply (on_call q s e), IH.
  - apply (on_prop q s i n v). destruct (p_prop q s i n v) as [s' [u|x]]; cbn [fst]; [apply IH|constructor].
Qed.
Lemma goes_trans : forall S (q : proc S) s1 s2, goes_on q s1 s2 -> forall s3, goes_on q s2 s3 -> goes_on q s1 s3.
Proof. induction 1; intros s3 G; [exact G| |]; econstructor; eauto; fail. Qed.

(** ** bytes *)
Lemma ext_reads : forall A (read : dims -> rd A), (forall d, ext (read d)) -> reads_ahead read.
Proof.
  intros A read E p t S q s. cbn zeta. destruct (E (p_dims q) p t)
    as [(l & a & rest & H1 & H2)|[(l & e & H1 & H2)|(l & l' & r & H1 & H2)]]; rewrite H1, H2.
  - rewrite !exec_calls. destruct (run q l s) as [s' [u|x]]; cbn; [reflexivity|].
    split; [eexists; reflexivity|]. now left.
  - rewrite !exec_calls. destruct (run q l s) as [s' [u|x]]; cbn; (split; [eexists; reflexivity|now left]).
  - rewrite calls_app, !(exec_calls _ _ _ l). destruct (run q l s) as [s' [u|x]]; cbn [fst snd exec]; (split; [eexists; reflexivity|]).
    + right. split; [reflexivity|]. apply goes_exec.
    + now left.
Qed.

(** ** pieces *)
Inductive before {A} (e : error) : prog A -> prog A -> Prop :=
| b_end g : before e (Done (Err e)) g
| b_err x : before e (Done (Err x)) (Done (Err x))
| b_call a c w : before e c w -> before e (Call a c) (Call a w)
| b_ign a c w : before e c w -> before e (CallIgn a c) (CallIgn a w)
| b_prop i n v c w : (forall b, before e (c b) (w b)) -> before e (CallProp i n v c) (CallProp i n v w).

Lemma exec_before : forall A e (c w : prog A), before e c w -> forall S (q : proc S) s,
  stops_at q e (exec q c s) (exec q w s).
Proof.
  induction 1 as [g|x|a c w _ IH|a c w _ IH|i n v c w _ IH]; intros S q s; cbn [exec].
  - split; [eexists; reflexivity|]. right. split; [reflexivity|]. apply goes_exec.
  - split; [eexists; reflexivity|]. now left.
  - destruct (p_step q s a) as [s' [u|x]]; [apply IH|]. split; [eexists; reflexivity|now left].
  - apply IH.
  - destruct (p_prop q s i n v) as [s' [u|x]]; [apply IH|]. split; [eexists; reflexivity|now left].
Qed.
Lemma before_bind : forall A B e (p : prog A) (f g : A -> prog B), (forall a, before e (f a) (g a)) ->
  before e (pbind p f) (pbind p g).
Proof.
  intros A B e p f g H. induction p as [[a|x]|a k IH|a k IH|i n v k IH]; cbn [pbind]; try (constructor; auto; fail).
  apply H.
Qed.
Lemma before_first : forall A B e (c w : prog A) (f : A -> prog B), before e c w -> before e (pbind c f) (pbind w f).
Proof. induction 1; cbn [pbind]; constructor; auto. Qed.
Lemma before_for : forall X e (f : nat -> res X -> prog unit), (forall i, f i (Err e) = pfail e) ->
  forall l1 l2 i, before e (pfor f i (l1 ++ [Err e])) (pfor f i (l1 ++ l2)).
Proof.
  intros X e f F l1 l2. induction l1 as [|a l1 IH]; intros i; cbn [app pfor].
  - rewrite F. constructor.
  - apply before_bind. intros []. apply IH.
Qed.
Lemma before_turn : forall X A (read : dims -> list (res X) -> prog A),
  (forall d l1 l2 e, before e (read d (l1 ++ [Err e])) (read d (l1 ++ l2))) -> reads_in_turn read.
Proof. intros X A read H l1 l2 e S q s. apply exec_before, H. Qed.

Lemma lines_turn : forall ser, reads_in_turn (fun d => read_geojson_lines ser (multi_dim d)).
Proof.
  intros ser. apply before_turn. intros d l1 l2 e. unfold read_geojson_lines.
  apply before_bind. intros []. apply before_first, before_for. reflexivity.
Qed.
Lemma fc_turn : forall ser, reads_in_turn (fun d => read_geojson_fc ser (multi_dim d)).
Proof. intros ser. apply before_turn. intros d l1 l2 e. apply before_for. reflexivity. Qed.
Lemma lines_geom_turn : reads_in_turn (fun d => read_geojson_line_geometries (multi_dim d)).
Proof.
  apply before_turn. intros d l1 l2 e. apply before_first.
  generalize false, 0%nat. induction l1 as [|[g|x] l1 IH]; intros b i; cbn [app gj_lines_geom].
  - constructor.
  - destruct g as [fs|f|g].
    + constructor.
    + destruct (gf_geometry f); [|apply IH]. apply before_bind. intros []. apply IH.
    + apply before_bind. intros []. apply IH.
  - constructor.
Qed.
Lemma csv_turn : forall parse column headers,
  reads_in_turn (fun d => process_csv_features parse (multi_dim d) column headers).
Proof.
  intros parse column headers. apply before_turn. intros d l1 l2 e. unfold process_csv_features.
  destruct headers as [h|x]; [|constructor]. apply before_bind. intros [].
  destruct (position_of 0 column h); [|constructor]. apply before_first, before_for. reflexivity.
Qed.
Lemma csv_geom_turn : forall parse column headers,
  reads_in_turn (fun d => process_csv_geom parse (multi_dim d) column headers).
Proof.
  intros parse column headers. apply before_turn. intros d l1 l2 e. unfold process_csv_geom.
  destruct headers as [h|x]; [|constructor].
  destruct (position_of 0 column h) as [gi|]; [|constructor]. apply before_first.
  generalize false, 0%nat. induction l1 as [|[g|x] l1 IH]; intros b i; cbn [app csv_geoms].
  - constructor.
  - destruct (nth_error g gi) as [f|]; [|constructor]. destruct (parse f); [|constructor].
    apply before_bind. intros []. apply before_bind. intros []. apply IH.
  - constructor.
Qed.

(** ** loops over shapefiles *)
Section Loops.
  Variables (ck : bool) (leftover : list byte -> list byte).
  Context {S : Type}.
  Variable q : proc S.

  Lemma next_ahead : forall p t pos len s,
    match shape_next ck leftover q (mkIter p pos len) s with
    | (it, s', None) => shape_next ck leftover q (mkIter (p ++ t) pos len) s = (mkIter (it_source it ++ t) (it_pos it) (it_length it), s', None)
    | (it, s', Some (Ok u)) => shape_next ck leftover q (mkIter (p ++ t) pos len) s = (mkIter (it_source it ++ t) (it_pos it) (it_length it), s', Some (Ok u))
    | (_, s', Some (Err e)) =>
        (exists it2, shape_next ck leftover q (mkIter (p ++ t) pos len) s = (it2, s', Some (Err e))) \/
        (e = EIo /\ goes_on q s' (snd (fst (shape_next ck leftover q (mkIter (p ++ t) pos len) s))))
    end.
  Proof.
    intros p t pos len s. unfold shape_next. cbn [it_source it_pos it_length].
    destruct (len <=? pos)%N; [reflexivity|].
    pose proof (ext_reads _ (read_shape ck) (ext_shape ck) p t S q s) as E. cbn zeta in E.
    destruct (exec q (read_shape ck (p_dims q) p) s) as [s' [[h rest]|e]]; cbn [fst snd] in E.
    - rewrite E. destruct (advance ck pos (snd h)) as [n|e]; [reflexivity|]. left. eexists. reflexivity.
    - destruct E as [_ [->|[F G]]].
      + left. eexists. reflexivity.
      + right. injection F as ->. split; [reflexivity|].
        destruct (exec q (read_shape ck (p_dims q) (p ++ t)) s) as [s2 [[h rest]|e]]; cbn [fst] in G.
        * destruct (advance ck pos (snd h)); exact G.
        * exact G.
  Qed.
  Lemma next_goes : forall it s, goes_on q s (snd (fst (shape_next ck leftover q it s))).
  Proof.
    intros it s. unfold shape_next. destruct (it_length it <=? it_pos it)%N; [constructor|].
    pose proof (goes_exec S q _ (read_shape ck (p_dims q) (it_source it)) s) as G.
    destruct (exec q (read_shape ck (p_dims q) (it_source it)) s) as [s' [[h rest]|e]]; cbn [fst] in G.
    - destruct (advance ck (it_pos it) (snd h)); exact G.
    - exact G.
  Qed.
  Lemma shapes_go : forall n it s, goes_on q s (fst (consume_shapes ck leftover q n it s)).
  Proof.
    induction n as [|n IH]; intros it s; cbn [consume_shapes]; [constructor|].
    pose proof (next_goes it s) as G. destruct (shape_next ck leftover q it s) as [[it2 s2] [[u|e]|]]; cbn [fst snd] in G.
    - exact (goes_trans _ _ _ _ G _ (IH it2 s2)).
    - exact G.
    - exact G.
  Qed.
  Lemma shapes_ahead : forall n p t pos len s,
    loops_ahead q (consume_shapes ck leftover q n (mkIter p pos len) s)
                  (consume_shapes ck leftover q n (mkIter (p ++ t) pos len) s).
  Proof.
    induction n as [|n IH]; intros p t pos len s; cbn [consume_shapes]; [now left|].
    pose proof (next_ahead p t pos len s) as E.
    destruct (shape_next ck leftover q (mkIter p pos len) s) as [[[p2 pos2 len2] s2] [[u|e]|]]; cbn [it_source it_pos it_length] in E.
    - rewrite E. apply IH.
    - destruct E as [[it2 ->]|[-> G]]; [now left|]. right. split; [reflexivity|]. cbn [fst].
      pose proof (shapes_go n) as H.
      destruct (shape_next ck leftover q (mkIter (p ++ t) pos len) s) as [[it3 s3] [[u|e]|]]; cbn [fst snd] in G |- *.
      + exact (goes_trans _ _ _ _ G _ (H it3 s3)).
      + exact G.
      + exact G.
    - rewrite E. now left.
  Qed.

  Lemma told_fst : forall s e, fst (told q s e) = fst (p_step q s e).
  Proof. intros s e. unfold told. destruct (p_step q s e) as [s' [u|[]]]; reflexivity. Qed.
  Lemma tell_goes : forall l s, goes_on q s (fst (tell q l s)).
  Proof.
    unfold tell. induction l as [|e l IH]; intros s; cbn [run p_step]; [constructor|].
    apply (on_call q s e). rewrite <- told_fst.
    destruct (told q s e) as [s' [u|x]]; cbn [fst]; [apply IH|constructor].
  Qed.
  Lemma tell_trans : forall s1 l s2 r, tell q l s1 = (s2, r) -> goes_on q s1 s2.
  Proof. intros s1 l s2 r E. pose proof (tell_goes l s1) as G. now rewrite E in G. Qed.

  Definition more_bytes (t : list byte) (it : feature_iter) : feature_iter :=
    mkFIter (mkIter (it_source (fi_shapes it) ++ t) (it_pos (fi_shapes it)) (it_length (fi_shapes it)))
            (fi_records it) (fi_after it) (fi_no it).
  Lemma feature_ahead : forall it t s,
    match feature_next ck leftover q it s with
    | (it2, s', None) => feature_next ck leftover q (more_bytes t it) s = (more_bytes t it2, s', None)
    | (it2, s', Some (Ok r)) => feature_next ck leftover q (more_bytes t it) s = (more_bytes t it2, s', Some (Ok r))
    | (_, s', Some (Err e)) =>
        (exists it3, feature_next ck leftover q (more_bytes t it) s = (it3, s', Some (Err e))) \/
        (e = EIo /\ goes_on q s' (snd (fst (feature_next ck leftover q (more_bytes t it) s))))
    end.
  Proof.
    intros [[p pos len] records after no] t s. unfold feature_next, more_bytes, dbf_next.
    cbn [fi_shapes fi_records fi_after fi_no it_source it_pos it_length].
    destruct (tell q (if Nat.eqb no 0 then [DatasetBegin None] else []) s) as [s1 [u|e]]; [|left; eexists; reflexivity].
    destruct (len <=? pos)%N.
    { destruct (tell q [DatasetEnd] s1) as [s2 [v|e]]; [reflexivity|left; eexists; reflexivity]. }
    destruct (match records with [] => after | r :: _ => Some r end) as [[record|e]|].
    2: { left. eexists. reflexivity. }
    2: { destruct (tell q [DatasetEnd] s1) as [s2 [v|e]]; [reflexivity|left; eexists; reflexivity]. }
    destruct (tell q [FeatureBegin no; PropertiesBegin] s1) as [s2 [v|e]]; [|left; eexists; reflexivity].
    destruct (exec q (process_properties 0 record) s2) as [s3 [w|e]]; [|left; eexists; reflexivity].
    destruct (tell q [PropertiesEnd; GeometryBegin] s3) as [s4 [x|e]]; [|left; eexists; reflexivity].
    pose proof (next_ahead p t pos len s4) as E.
    destruct (shape_next ck leftover q (mkIter p pos len) s4) as [[[p2 pos2 len2] s5] [[y|e]|]];
      cbn [it_source it_pos it_length] in E.
    - rewrite E. destruct (tell q [GeometryEnd; FeatureEnd no] s5) as [s6 [z|e]]; [reflexivity|left; eexists; reflexivity].
    - destruct E as [[it2 ->]|[-> G]]; [left; eexists; reflexivity|]. right. split; [reflexivity|].
      destruct (shape_next ck leftover q (mkIter (p ++ t) pos len) s4) as [[it3 s6] [[y|e]|]]; cbn [fst snd] in G |- *.
      + destruct (tell q [GeometryEnd; FeatureEnd no] s6) as [s7 [z|e]] eqn:T; cbn [fst snd];
          exact (goes_trans _ _ _ _ G _ (tell_trans _ _ _ _ T)).
      + exact G.
      + exact G.
    - rewrite E. reflexivity.
  Qed.
  Lemma feature_goes : forall it s, goes_on q s (snd (fst (feature_next ck leftover q it s))).
  Proof.
    intros it s. unfold feature_next.
    destruct (tell q (if Nat.eqb (fi_no it) 0 then [DatasetBegin None] else []) s) as [s1 r1] eqn:T1.
    pose proof (tell_trans _ _ _ _ T1) as G1. clear T1. destruct r1 as [u|e]; [|exact G1].
    assert (F : forall it : feature_iter, goes_on q s (snd (fst (match tell q [DatasetEnd] s1 with
              | (s, Ok _) => (it, s, None) | (s, Err e) => (it, s, Some (@Err dbf_record e)) end)))).
    { intros it'. destruct (tell q [DatasetEnd] s1) as [s2 r2] eqn:T2.
      pose proof (goes_trans _ _ _ _ G1 _ (tell_trans _ _ _ _ T2)) as G2. now destruct r2. }
    destruct (it_length (fi_shapes it) <=? it_pos (fi_shapes it))%N; [apply F|].
    destruct (dbf_next it) as [[record|e]|]; [|exact G1|apply F].
    destruct (tell q [FeatureBegin (fi_no it); PropertiesBegin] s1) as [s2 r2] eqn:T2.
    pose proof (goes_trans _ _ _ _ G1 _ (tell_trans _ _ _ _ T2)) as G2. clear T2 G1 F. destruct r2 as [u2|e]; [|exact G2].
    pose proof (goes_trans _ _ _ _ G2 _ (goes_exec S q _ (process_properties 0 record) s2)) as G3.
    destruct (exec q (process_properties 0 record) s2) as [s3 r3]. cbn [fst] in G3. destruct r3 as [u3|e]; [|exact G3].
    destruct (tell q [PropertiesEnd; GeometryBegin] s3) as [s4 r4] eqn:T4.
    pose proof (goes_trans _ _ _ _ G3 _ (tell_trans _ _ _ _ T4)) as G4. clear T4. destruct r4 as [u4|e]; [|exact G4].
    pose proof (goes_trans _ _ _ _ G4 _ (next_goes (fi_shapes it) s4)) as G5.
    destruct (shape_next ck leftover q (fi_shapes it) s4) as [[sh s5] r5]. cbn [fst snd] in G5.
    destruct r5 as [[u5|e]|]; [|exact G5|exact G5].
    destruct (tell q [GeometryEnd; FeatureEnd (fi_no it)] s5) as [s6 r6] eqn:T6.
    pose proof (goes_trans _ _ _ _ G5 _ (tell_trans _ _ _ _ T6)) as G6. now destruct r6.
  Qed.
  Lemma features_go : forall n it s, goes_on q s (fst (consume ck leftover q n it s)).
  Proof.
    induction n as [|n IH]; intros it s; cbn [consume]; [constructor|].
    pose proof (feature_goes it s) as G. destruct (feature_next ck leftover q it s) as [[it2 s2] [[u|e]|]]; cbn [fst snd] in G.
    - exact (goes_trans _ _ _ _ G _ (IH it2 s2)).
    - exact G.
    - exact G.
  Qed.
  Lemma features_ahead_it : forall n it t s,
    loops_ahead q (consume ck leftover q n it s) (consume ck leftover q n (more_bytes t it) s).
  Proof.
    induction n as [|n IH]; intros it t s; cbn [consume]; [now left|].
    pose proof (feature_ahead it t s) as E.
    destruct (feature_next ck leftover q it s) as [[it2 s2] [[u|e]|]].
    - rewrite E. apply IH.
    - destruct E as [[it3 ->]|[-> G]]; [now left|]. right. split; [reflexivity|]. cbn [fst].
      pose proof (features_go n) as H.
      destruct (feature_next ck leftover q (more_bytes t it) s) as [[it3 s3] [[u|e]|]]; cbn [fst snd] in G |- *.
      + exact (goes_trans _ _ _ _ G _ (H it3 s3)).
      + exact G.
      + exact G.
    - rewrite E. now left.
  Qed.
  Lemma features_ahead : forall n p t pos len records after no s,
    loops_ahead q (consume ck leftover q n (mkFIter (mkIter p pos len) records after no) s)
                  (consume ck leftover q n (mkFIter (mkIter (p ++ t) pos len) records after no) s).
  Proof. intros. apply (features_ahead_it n (mkFIter (mkIter p pos len) records after no) t s). Qed.
End Loops.

(** ** outputs *)
Lemma goes_appends : forall S X (out : S -> list X) (q : proc S), appends out q -> forall s s', goes_on q s s' ->
  exists more, out s' = out s ++ more.
Proof.
  intros S X out q [H1 H2] s s' G. induction G as [s|s e s' _ [m IH]|s i n v s' _ [m IH]].
  - exists []. now rewrite app_nil_r.
  - destruct (H1 s e) as [l E]. exists (l ++ m). now rewrite IH, E, app_assoc.
  - destruct (H2 s i n v) as [l E]. exists (l ++ m). now rewrite IH, E, app_assoc.
Qed.
Lemma ahead_output : forall A (read : dims -> list byte -> prog (A * list byte)), reads_ahead read ->
  forall S X (out : S -> list X) (q : proc S), appends out q -> forall p t s, exists more,
  out (fst (exec q (read (p_dims q) (p ++ t)) s)) = out (fst (exec q (read (p_dims q) p) s)) ++ more.
Proof.
  intros A read R S X out q H p t s. specialize (R p t S q s). cbn zeta in R.
  destruct (exec q (read (p_dims q) p) s) as [s1 [[a rest]|e]]; cbn [fst snd] in R |- *.
  - rewrite R. exists []. now rewrite app_nil_r.
  - destruct R as [_ [->|[_ G]]]; [exists []; now rewrite app_nil_r|]. exact (goes_appends _ _ _ _ H _ _ G).
Qed.

(** ** headers and index files *)
Section Class.
  Context {P : forall A, rd A -> Prop} {HP : rd_class P}.
  Arguments P {A}.
  Ltac go :=
    repeat first
      [ apply rc_ret | apply rc_take | apply rc_fail
      | match goal with
        | |- P (rthen _ _) => apply rc_lift; intros
        | |- P (r_list _ _) => apply rc_list
        | |- P (r_f64s _ _) => apply rc_f64s
        | |- P (r_i32 _) => apply rc_map, rc_map, rc_take
        | |- P (rbind _ _) => apply rc_bind; intros end
      | progress cbv zeta
      | match goal with |- P (if ?x then _ else _) => destruct x end
      | match goal with |- P (match ?x with _ => _ end) => destruct x end ].
  Lemma rc_header : P read_header.
  Proof. unfold read_header, read_shape_type. go. Qed.
  Lemma rc_index : forall ck, P (read_index_file ck).
  Proof. intros ck. unfold read_index_file. apply rc_bind; [apply rc_header|]. intros h. go. Qed.
End Class.
Lemma ext_header : ext read_header.
Proof. apply (rc_header (HP := ext_class)). Qed.
Lemma ext_index : forall ck, ext (read_index_file ck).
Proof. intros ck. apply (rc_index (HP := ext_class) ck). Qed.

Lemma turn_output : forall Y A (read : dims -> list (res Y) -> prog A), reads_in_turn read ->
  forall S X (out : S -> list X) (q : proc S), appends out q -> forall l1 l2 e s, exists more,
  out (fst (exec q (read (p_dims q) (l1 ++ l2)) s)) = out (fst (exec q (read (p_dims q) (l1 ++ [Err e])) s)) ++ more.
Proof.
  intros Y A read R S X out q H l1 l2 e s. destruct (R l1 l2 e S q s) as [_ [->|[_ G]]].
  - exists []. now rewrite app_nil_r.
  - exact (goes_appends _ _ _ _ H _ _ G).
Qed.
Lemma chars_begin : forall a b k, SinkTop.chars b = SinkTop.chars a ++ k -> begins_with a b.
Proof.
  intros a b k H. exists (string_of_list_ascii k). unfold SinkTop.chars in H.
  rewrite <- (string_of_list_ascii_of_string b), H.
  clear H. induction a as [|c a IH]; cbn; [reflexivity|]. now rewrite IH.
Qed.
Lemma cut_texts : forall dl fmt32 fmt p t,
  (forall c s, begins_with (k_out (fst (exec (wkt_writer fmt c) (process_wkb_type_geom dl (k_dims c) p) s)))
                           (k_out (fst (exec (wkt_writer fmt c) (process_wkb_type_geom dl (k_dims c) (p ++ t)) s)))) /\
  (forall d s, begins_with (fst (exec (geojson_writer fmt32 fmt d) (process_wkb_type_geom dl d p) s))
                           (fst (exec (geojson_writer fmt32 fmt d) (process_wkb_type_geom dl d (p ++ t)) s))) /\
  (forall c s, begins_with (fst (exec (svg_writer fmt c) (process_wkb_type_geom dl xy_dims p) s))
                           (fst (exec (svg_writer fmt c) (process_wkb_type_geom dl xy_dims (p ++ t)) s))).
Proof.
  intros dl fmt32 fmt p t. pose proof (ahead_output _ _ (ext_reads _ _ (WkbInv.ext_process dl))) as O.
  split; [|split]; intros c s.
  - destruct (O _ _ _ _ (wkt_appends fmt c) p t s) as [k H]. exact (chars_begin _ _ k H).
  - destruct (O _ _ _ _ (geojson_appends fmt32 fmt c) p t s) as [k H]. exact (chars_begin _ _ k H).
  - destruct (O _ _ _ _ (svg_appends fmt c) p t s) as [k H]. exact (chars_begin _ _ k H).
Qed.
