(** Lemmas for C89. *)
From Coq Require Import String Ascii.
From Coq Require Import List NArith ZArith Lia Bool.
From Coq Require Import Init.Byte.
From Verif Require Import Base BaseLemmas Float Event EventLemmas Claims ProcModel GeoJsonModel SvgModel WktModel WkbModel AmpSpec.
From Verif Require ProcTop WkbTop WkbInv OrdTop.
Import ListNotations.
Local Open Scope nat_scope.

Lemma length_app : forall a b, String.length (a ++ b)%string = String.length a + String.length b.
Proof. induction a as [|c a IH]; intros b; cbn [String.append String.length]; [reflexivity|]. now rewrite IH. Qed.

Ltac lens := repeat rewrite length_app; cbn [String.length].

Lemma feed_grows : forall S (p : proc S) (size : S -> nat) share,
  (forall s e, size (fst (p_step p s e)) <= size s + share (OEv e)) ->
  (forall s i n v, size (fst (p_prop p s i n v)) <= size s + share (OProp i n v)) ->
  forall l s, size (fst (feed p l s)) <= size s + total share l.
Proof.
  intros S p size share He Hp. unfold total. induction l as [|[e|i n v] l IH]; intros s; cbn [feed map list_sum fold_right].
  - cbn. lia.
  - specialize (He s e). destruct (p_step p s e) as [s' [u|x]]; cbn [fst] in *; [|lia].
    specialize (IH s'). unfold list_sum in IH. lia.
  - specialize (Hp s i n v). destruct (p_prop p s i n v) as [s' [u|x]]; cbn [fst] in *; [|lia].
    specialize (IH s'). unfold list_sum in IH. lia.
Qed.

(** ** WKT *)
Definition prefix_of (dl : wkt_dialect) : option Z -> nat :=
  match dl with Ewkt => srid_chars show_int | PlainWkt => fun _ => 0 end.
Section Wkt.
Variable c : wktcfg.
Definition pre := prefix_of (k_dialect c).
Definition wsize (s : wktst) : nat :=
  String.length (k_out s) + (if k_first s then pre (k_srid s) else 0).

Lemma wsize_put : forall s t, wsize (put s t) = wsize s + String.length t.
Proof. intros s t. unfold wsize, put. cbn [k_out k_first k_srid]. rewrite length_app. lia. Qed.
Lemma wsize_header : forall s, wsize (wkt_header c s) <= wsize s.
Proof.
  intros [srid f st out]. unfold wkt_header. cbn [k_first k_srid k_sizes k_out].
  destruct f; [|lia]. destruct (k_dialect c) eqn:Dl; [lia|].
  destruct srid as [[|v|v]|]; try rewrite wsize_put; unfold wsize, pre, prefix_of; rewrite ?Dl; cbn [k_out k_first k_srid srid_chars]; lens; lia.
Qed.
Lemma wsize_comma : forall s i, wsize (wkt_comma s i) <= wsize s + 1.
Proof. intros s i. unfold wkt_comma. destruct (Nat.ltb 0 i); [rewrite wsize_put; cbn [String.length]|]; lia. Qed.
Lemma wsize_push : forall s l, wsize (mkWktSt (k_srid s) (k_first s) l (k_out s)) = wsize s.
Proof. reflexivity. Qed.
Lemma wsize_begin : forall s tag tg n i,
  wsize (geom_begin c s tag tg n i) <= wsize s + 7 + String.length tag.
Proof.
  intros s tag tg n i. unfold geom_begin.
  pose proof (wsize_header s) as H. set (h := wkt_header c s) in *.
  pose proof (wsize_comma h i) as C. set (k := wkt_comma h i) in *. cbv zeta.
  destruct (Nat.eqb n 0); destruct tg; rewrite ?wsize_put, ?wsize_push, ?wsize_put; cbn [String.length]; lia.
Qed.
Lemma wsize_end : forall s, wsize (fst (geom_end s)) <= wsize s + 1.
Proof.
  intros s. unfold geom_end. destruct (k_sizes s) as [|n r]; cbn [fst]; [lia|]. cbv zeta.
  destruct (Nat.ltb 0 n); rewrite ?wsize_put, wsize_push; cbn [String.length]; lia.
Qed.

Lemma wkt_step_grows : forall fmt s e,
  wsize (fst (wkt_step fmt c s e)) <= wsize s + wkt_share pre fmt (OEv e).
Proof.
  intros fmt s e.
  destruct e as [v|x y idx|x y z m t tm idx|idx| | | | | | | | | | | | | | | | | | | | | | | | | | | | | | | | | | | | | | ];
    cbn [wkt_step wkt_share opens closes fst default_step];
    try (lia || exact (wsize_end s) || (eapply Nat.le_trans; [apply wsize_begin|cbn [String.length]; lia])).
  - unfold wsize. cbn [k_out k_first k_srid]. destruct (k_first s); [|lia].
    destruct (k_srid s); lia.
  - pose proof (wsize_comma s idx) as C. set (k := wkt_comma s idx) in *. cbv zeta.
    destruct (f64_is_nan x && f64_is_nan y); rewrite wsize_put; lens; cbn [number_chars]; lia.
  - pose proof (wsize_comma s idx) as C. set (k := wkt_comma s idx) in *. cbv zeta. cbn [number_chars].
    destruct (f64_is_nan x && f64_is_nan y && opt_is_nan z && opt_is_nan m); [rewrite wsize_put; lens; lia|].
    destruct m as [m|]; destruct z as [z|]; rewrite !wsize_put; cbn [number_chars]; lens; lia.
Qed.

Lemma wkt_grows : forall fmt srid l s r, feed (wkt_writer fmt c) l (wkt_init srid) = (s, r) ->
  String.length (k_out s) <= pre srid + total (wkt_share pre fmt) l.
Proof.
  intros fmt srid l s r F.
  pose proof (feed_grows _ (wkt_writer fmt c) wsize (wkt_share pre fmt) (wkt_step_grows fmt)) as G.
  specialize (G ltac:(intros; cbn [wkt_writer p_prop default_prop fst]; lia) l (wkt_init srid)).
  rewrite F in G. unfold wsize in G. cbn [fst wkt_init k_out k_first k_srid String.length] in G. lia.
Qed.

(** Once an SRID is known, the SRIDs that are reported do not matter. *)
Definition no_srid (o : obs) : obs := match o with OEv (Srid _) => OEv (Srid None) | o => o end.
Lemma srid_kept : forall fmt s e v, k_srid s = Some v -> k_srid (fst (wkt_step fmt c s e)) = Some v.
Proof.
  assert (C : forall s i, k_srid (wkt_comma s i) = k_srid s)
    by (intros s i; unfold wkt_comma; destruct (Nat.ltb 0 i); reflexivity).
  assert (H : forall s, k_srid (wkt_header c s) = k_srid s)
    by (intros [[[|p|p]|] [] st o]; unfold wkt_header; cbn [k_first k_srid]; destruct (k_dialect c); reflexivity).
  assert (B : forall s tag tg n i, k_srid (geom_begin c s tag tg n i) = k_srid s)
    by (intros s tag tg n i; unfold geom_begin; cbv zeta; destruct tg, (Nat.eqb n 0); cbn [put k_srid]; now rewrite C, H).
  assert (D : forall s, k_srid (fst (geom_end s)) = k_srid s)
    by (intros s; unfold geom_end; destruct (k_sizes s); [reflexivity|]; cbv zeta; destruct (Nat.ltb 0 n); reflexivity).
  intros fmt s e v E. destruct e; cbn [wkt_step fst default_step]; rewrite ?D, ?B; try exact E.
  - cbn [k_srid]. now rewrite E.
  - cbv zeta. destruct (f64_is_nan x && f64_is_nan y); cbn [put k_srid]; now rewrite C.
  - cbv zeta. destruct (f64_is_nan x && f64_is_nan y && opt_is_nan z && opt_is_nan m); [cbn [put k_srid]; now rewrite C|].
    destruct z, m; cbn [put k_srid]; now rewrite C.
Qed.
Lemma srids_ignored : forall fmt v l s, k_srid s = Some v ->
  feed (wkt_writer fmt c) (map no_srid l) s = feed (wkt_writer fmt c) l s.
Proof.
  intros fmt v. induction l as [|[e|i n x] l IH]; intros s E; [reflexivity| |].
  - replace (map no_srid (OEv e :: l)) with (no_srid (OEv e) :: map no_srid l) by reflexivity.
    assert (X : exists e', no_srid (OEv e) = OEv e' /\ p_step (wkt_writer fmt c) s e' = p_step (wkt_writer fmt c) s e).
    { destruct e; try (eexists; split; reflexivity). exists (Srid None). split; [reflexivity|].
      cbn [wkt_writer p_step wkt_step]. now rewrite E. }
    destruct X as (e' & -> & X). cbn [feed]. rewrite X.
    pose proof (srid_kept fmt s e v E) as K. cbn [wkt_writer p_step].
    destruct (wkt_step fmt c s e) as [s' [u|y]]; [|reflexivity]. apply IH. exact K.
  - cbn [map no_srid feed wkt_writer p_prop default_prop]. apply IH. exact E.
Qed.
Lemma wkt_known_grows : forall fmt v l s r, feed (wkt_writer fmt c) l (wkt_init (Some v)) = (s, r) ->
  String.length (k_out s) <= pre (Some v) + total (wkt_share (fun _ => 0) fmt) l.
Proof.
  intros fmt v l s r F. rewrite <- (srids_ignored fmt v) in F by reflexivity.
  pose proof (wkt_grows _ _ _ _ _ F) as G.
  replace (total (wkt_share (fun _ => 0) fmt) l) with (total (wkt_share pre fmt) (map no_srid l)); [exact G|].
  unfold total. rewrite map_map. f_equal. apply map_ext. intros [[]|]; try reflexivity.
  cbn [no_srid wkt_share]. unfold pre, prefix_of. destruct (k_dialect c); reflexivity.
Qed.
End Wkt.

(** ** GeoJSON *)
Lemma length_comma : forall out i, String.length (gj_comma out i) <= String.length out + 1.
Proof. intros out i. unfold gj_comma. destruct (Nat.ltb 0 i); lens; lia. Qed.
Lemma length_escape : forall s, String.length (escape s) <= 2 * String.length s.
Proof.
  induction s as [|c s IH]; cbn [escape String.length]; [lia|].
  destruct (Ascii.eqb c """"); cbn [String.append String.length]; lia.
Qed.

Section Json.
  Variable fmt32 : N -> string.
  Variable fmt : f64 -> string.
  Let share := json_share (show_colval fmt32 fmt) fmt.

  (** what the writer of documents adds: closings take two characters, ends of features one *)
  Definition inner_share (e : event) : nat :=
    if closes e then 2 else if opens e then 47 else
    match e with FeatureEnd _ => 1 | EmptyPoint _ => 37 | _ => share (OEv e) end.
  Lemma gj_step_grows : forall out e,
    String.length (fst (gj_step fmt out e)) <= String.length out + inner_share e.
  Proof.
    intros out e.
    destruct e as [v|x y idx|x y z m t tm idx|idx|idx| |n idx| |tg n idx|tg idx|n idx| |tg n idx|tg idx|n idx| |n idx| | | | | | | | | | | | | | | | | |[n|]| |idx| | | | | ];
      unfold inner_share, share; cbn [gj_step json_share opens closes fst default_step number_chars];
      try pose proof (length_comma out idx) as C; unfold kind_open, nl, dq in *; lens;
      try lia; try (destruct tg; lens; lia).
    - destruct z as [z|]; cbn [number_chars]; lens; lia.
    - destruct (Nat.ltb 0 idx); lens; lia.
  Qed.
  Lemma inner_le : forall e, inner_share e <= share (OEv e).
  Proof. intros []; unfold inner_share, share; cbn [json_share opens closes]; try lia. Qed.

  Lemma gj_prop_grows : forall out i n v,
    String.length (fst (gj_prop fmt32 fmt out i n v)) <= String.length out + share (OProp i n v).
  Proof.
    intros out i n v. unfold share, gj_prop. cbn [json_share].
    assert (C : String.length (if Nat.ltb 0 i then out ++ ", " else out)%string <= String.length out + 2)
      by (destruct (Nat.ltb 0 i); lens; lia).
    set (o := (if Nat.ltb 0 i then out ++ ", " else out)%string) in *. pose proof (length_escape n) as N.
    cbv zeta. unfold name_text, dq.
    destruct v as [v|v|v|v|v|v|v|v|v|v|v|t|t|t|b]; cbn [fst]; lens;
      try (pose proof (length_escape t) as T); cbn [show_colval] in *; try lia.
  Qed.

  Lemma json_grows : forall d l out r, feed (geojson_writer fmt32 fmt d) l ""%string = (out, r) ->
    String.length out <= total share l.
  Proof.
    intros d l out r F.
    pose proof (feed_grows _ (geojson_writer fmt32 fmt d) String.length share
      (fun s e => Nat.le_trans _ _ _ (gj_step_grows s e) (proj1 (Nat.add_le_mono_l _ _ _) (inner_le e)))
      gj_prop_grows l ""%string) as G.
    rewrite F in G. cbn [fst String.length] in G. lia.
  Qed.

  Definition lsize (s : lwstate) : nat := String.length (snd s).
  Lemma lw_inner_grows : forall s e, lsize (fst (lw_inner fmt s e)) <= lsize s + inner_share e.
  Proof.
    intros [n out] e. unfold lw_inner, lsize. cbn [fst snd]. pose proof (gj_step_grows out e) as G.
    destruct (gj_step fmt out e) as [o r]. exact G.
  Qed.
  Lemma end_context_grows : forall s, lsize (fst (end_context s)) <= lsize s + 1.
  Proof.
    intros [[|n] out]; unfold end_context, lsize; cbn [fst snd]; [lia|].
    destruct (Nat.eqb n 0); cbn [snd]; unfold nl; lens; lia.
  Qed.
  Lemma line_end_grows : forall s e, lsize (fst (line_end fmt s e)) <= lsize s + inner_share e + 1.
  Proof.
    intros s e. unfold line_end. pose proof (lw_inner_grows s e) as G.
    destruct (lw_inner fmt s e) as [s' [u|x]]; cbn [fst] in *; [|lia].
    pose proof (end_context_grows s'). lia.
  Qed.
  Lemma line_begin_grows : forall s i e,
    lsize (fst (line_begin fmt s i e)) <= lsize s + 1 + inner_share e.
  Proof.
    intros s i e. unfold line_begin. cbv zeta. eapply Nat.le_trans; [apply lw_inner_grows|].
    unfold lsize. cbn [snd]. destruct (Nat.ltb 0 (fst s) && Nat.ltb 0 i); lens; lia.
  Qed.
  Lemma gjl_step_grows : forall s e, lsize (fst (gjl_step fmt s e)) <= lsize s + share (OEv e).
  Proof.
    intros s e. destruct e; cbn [gjl_step default_step fst];
      try (apply Nat.le_add_r);
      try (eapply Nat.le_trans; [apply line_begin_grows|]; unfold inner_share, share; cbn [json_share opens closes]; lia);
      try (eapply Nat.le_trans; [apply line_end_grows|]; unfold inner_share, share; cbn [json_share opens closes]; lia);
      try (eapply Nat.le_trans; [apply lw_inner_grows|]; unfold inner_share, share; cbn [json_share opens closes]; unfold lsize; cbn [snd]; lia).
    pose proof (line_begin_grows s idx (EmptyPoint 0)) as B.
    destruct (line_begin fmt s idx (EmptyPoint 0)) as [s' [u|x]]; unfold inner_share, share in *; cbn [fst json_share opens closes] in *; [|lia].
    pose proof (end_context_grows s'). lia.
  Qed.
  Lemma gjl_prop_grows : forall s i n v,
    lsize (fst (gjl_prop fmt32 fmt s i n v)) <= lsize s + share (OProp i n v).
  Proof.
    intros [k out] i n v. unfold gjl_prop, lsize. cbn [snd fst]. pose proof (gj_prop_grows out i n v) as G.
    destruct (gj_prop fmt32 fmt out i n v) as [o r]. exact G.
  Qed.
  Lemma lines_grow : forall l s r, feed (geojson_line_writer fmt32 fmt) l (0, ""%string) = (s, r) ->
    String.length (snd s) <= total share l.
  Proof.
    intros l s r F.
    pose proof (feed_grows _ (geojson_line_writer fmt32 fmt) lsize share gjl_step_grows gjl_prop_grows l (0, ""%string)) as G.
    rewrite F in G. unfold lsize in G. cbn [fst snd String.length] in G. lia.
  Qed.
End Json.

(** ** SVG *)
Lemma svg_step_grows : forall fmt c out e,
  String.length (fst (svg_step fmt c out e)) <=
  String.length out + svg_share (String.length (svg_header fmt c None)) (if sv_invert c then f64_neg else fun y => y) fmt (OEv e).
Proof.
  intros fmt c out e.
  destruct e as [v|x y idx|x y z m t tm idx|idx|idx| |n idx| |tg n idx|tg idx|n idx| |tg n idx|tg idx|n idx| |n idx| | | | | | | | | | | | | | | | | |[n|]| |idx| | | | | ];
    cbn [svg_step svg_share opens closes fst default_step number_chars]; unfold svg_nl; lens; try lia;
    try (destruct tg; lens; lia).
  - destruct (sv_invert c); lia.
  - unfold svg_header. lens. lia.
Qed.
Lemma svg_grows : forall fmt c l out r, feed (svg_writer fmt c) l ""%string = (out, r) ->
  String.length out <=
  total (svg_share (String.length (svg_header fmt c None)) (if sv_invert c then f64_neg else fun y => y) fmt) l.
Proof.
  intros fmt c l out r F.
  pose proof (feed_grows _ (svg_writer fmt c) String.length _ (svg_step_grows fmt c)) as G.
  specialize (G ltac:(intros; cbn [svg_writer p_prop default_prop fst]; lia) l ""%string).
  rewrite F in G. cbn [fst String.length] in G. lia.
Qed.

Lemma reached : forall fmt fmt32,
  (forall d i, String.length (k_out (fst (feed (wkt_writer fmt (mkWktCfg d PlainWkt)) [OEv (CollectionBegin 0 (Datatypes.S i))] (wkt_init None)))) =
     total (wkt_share (fun _ => 0) fmt) [OEv (CollectionBegin 0 (Datatypes.S i))]) /\
  (forall d i, String.length (fst (feed (geojson_writer fmt32 fmt d) [OEv (FeatureBegin (Datatypes.S i)); OEv PropertiesBegin] ""%string)) =
     total (json_share (show_colval fmt32 fmt) fmt) [OEv (FeatureBegin (Datatypes.S i)); OEv PropertiesBegin]) /\
  (forall d x y i, String.length (fst (feed (geojson_writer fmt32 fmt d) [OEv (Xy x y (Datatypes.S i))] ""%string)) =
     total (json_share (show_colval fmt32 fmt) fmt) [OEv (Xy x y (Datatypes.S i))]) /\
  (forall c x y i, String.length (fst (feed (svg_writer fmt c) [OEv (DatasetBegin None); OEv (PointBegin i); OEv (Xy x y i); OEv (PointEnd i); OEv DatasetEnd] ""%string)) =
     total (svg_share (String.length (svg_header fmt c None)) (if sv_invert c then f64_neg else fun y => y) fmt)
       [OEv (DatasetBegin None); OEv (PointBegin i); OEv (Xy x y i); OEv (PointEnd i); OEv DatasetEnd]).
Proof.
  intros fmt fmt32. split; [|split; [|split]].
  - reflexivity.
  - reflexivity.
  - intros d x y i. unfold total. cbn [feed p_step geojson_writer gj_step fst map list_sum fold_right json_share number_chars gj_comma Nat.ltb Nat.leb].
    lens. lia.
  - intros c x y i. unfold total. cbn [feed p_step svg_writer svg_step fst map list_sum fold_right svg_share number_chars opens closes].
    unfold svg_nl. lens. destruct (sv_invert c); lia.
Qed.

(** ** WKB *)
Section WkbWriter.
  Variable c : wcfg.
  Definition bsize (s : wst) : nat :=
    length (w_out s) + (if w_first s then wkb_prefix (w_dialect c) (w_envelope c) else 0).

  Lemma bsize_out : forall s b, bsize (out_app s b) = bsize s + length b.
  Proof. intros s b. unfold bsize, out_app. cbn [w_out w_first]. rewrite app_length. lia. Qed.
  Lemma bsize_state : forall s g, bsize (set_state s g) = bsize s.
  Proof. reflexivity. Qed.
  Lemma bsize_nest : forall s, bsize (nest_incr s) = bsize s.
  Proof. reflexivity. Qed.
  Lemma len_u8 : forall n, length (w_u8 n) = 1.
  Proof. reflexivity. Qed.
  Lemma len_u32 : forall e n, length (w_u32 e n) = 4.
  Proof. intros. apply bytes_of_length. Qed.
  Lemma len_i32 : forall e n, length (w_i32 e n) = 4.
  Proof. intros. apply bytes_of_length. Qed.
  Lemma len_f64 : forall e n, length (w_f64 e n) = 8.
  Proof. intros. apply bytes_of_length. Qed.
  Lemma len_env : forall e l, length (flat_map (w_f64 e) l) = 8 * length l.
  Proof. intros e. induction l as [|x l IH]; [reflexivity|]. cbn [flat_map]. rewrite app_length, len_f64, IH. cbn [length]. lia. Qed.
  Lemma bsize_wkb_header : forall s t, bsize (write_wkb_header c s t) = bsize s + 5.
  Proof. intros. unfold write_wkb_header. cbv zeta. rewrite !bsize_out, len_u8, len_u32. lia. Qed.
  Lemma bsize_header : forall s t, bsize (fst (write_header c s t)) <= bsize s + 5.
  Proof.
    intros s t. unfold write_header. destruct (w_dialect c) eqn:D; cbn [fst].
    - rewrite bsize_wkb_header. lia.
    - unfold write_ewkb_header. cbv zeta.
      set (a := out_app _ (w_u32 _ _)).
      assert (A : bsize a = bsize s + 5) by (unfold a; rewrite !bsize_out, len_u8, len_u32; lia).
      assert (F : w_first a = w_first s) by reflexivity. clearbody a.
      destruct (w_first a) eqn:E; [|lia].
      revert A. unfold bsize. rewrite D, <- F, E. destruct (w_srid c); cbn [set_first out_app w_out w_first];
        rewrite ?app_length, ?len_i32; cbn [wkb_prefix]; lia.
    - rewrite bsize_wkb_header. destruct (w_first s) eqn:E; [|lia].
      unfold write_gpkg_header. cbv zeta. unfold bsize. rewrite E, D. cbn [set_first out_app w_out w_first].
      rewrite !app_length, len_env, len_i32, !len_u8. cbn [length wkb_prefix]. lia.
    - destruct (w_first s) eqn:E; cbn [fst]; [|rewrite bsize_wkb_header; lia].
      unfold write_mysql_header. destruct (w_srid c) as [v|]; [destruct (v <? 0)%Z; cbn [fst]; [lia|]|]; cbn [fst];
        rewrite bsize_wkb_header; unfold bsize; rewrite E, D; cbn [set_first out_app w_out w_first];
        rewrite app_length, len_u32; cbn [wkb_prefix]; lia.
    - unfold write_spatialite_header. cbv zeta. rewrite bsize_out, len_u32.
      destruct (w_first s) eqn:E; [|rewrite bsize_out, len_u8; lia].
      unfold bsize. rewrite E, D. cbn [set_first out_app w_out w_first].
      rewrite !app_length, len_env, len_i32, !len_u8. destruct (w_envelope c); cbn [length wkb_prefix]; lia.
  Qed.
  Lemma bsize_footer : forall s, bsize (fst (write_footer c s)) <= bsize s + 1.
  Proof.
    intros s. unfold write_footer. destruct (w_dialect c); cbn [fst]; try lia.
    destruct (Nat.eqb (w_nest s) 0); cbn [fst]; [rewrite bsize_out, len_u8|]; lia.
  Qed.
  Lemma bsize_header_size : forall s t n, bsize (fst (header_size c s t n)) <= bsize s + 9.
  Proof.
    intros s t n. unfold header_size. pose proof (bsize_header s t) as H.
    destruct (write_header c s t) as [s' [u|x]]; cbn [fst] in *; [rewrite bsize_out, len_u32|]; lia.
  Qed.
  Lemma bsize_then : forall g r, bsize (fst (then_state g r)) = bsize (fst r).
  Proof. intros g [s [u|x]]; reflexivity. Qed.
  Lemma bsize_decr : forall s k n, (forall s', bsize s' = bsize s -> bsize (fst (k s')) <= bsize s + n) ->
    bsize (fst (nest_decr s k)) <= bsize s + n.
  Proof. intros s k n H. unfold nest_decr. destruct (w_nest s); cbn [fst]; [lia|]. apply H. reflexivity. Qed.
  Lemma bsize_coordinate : forall s x y z m, bsize (fst (write_coordinate c s x y z m)) <=
    bsize s + (5 + 16 + (if dz (w_dims c) then 8 else 0) + (if dm (w_dims c) then 8 else 0)).
  Proof.
    intros s x y z m. unfold write_coordinate. cbv zeta. pose proof (bsize_header s TPoint) as H.
    destruct (w_state s); try (destruct (write_header c s TPoint) as [s' [u|e]]; cbn [fst] in *; [|destruct (dz (w_dims c)), (dm (w_dims c)); lia]);
      cbn [fst]; destruct (dz (w_dims c)), (dm (w_dims c)); rewrite !bsize_out, !len_f64; lia.
  Qed.
  Lemma wkb_step_grows : forall s e, bsize (fst (wkb_step c s e)) <= bsize s + wkb_share (w_dims c) (OEv e).
  Proof.
    intros s e. destruct e; cbn [wkb_step wkb_share opens closes default_step fst]; rewrite ?bsize_then;
      try lia; try apply bsize_coordinate; try apply bsize_header; try apply bsize_footer; try apply bsize_header_size;
      try exact (bsize_header_size (nest_incr s) _ _); try exact (bsize_footer (set_state s Normal));
      try (apply bsize_decr; intros s' <-; (apply bsize_footer || exact (bsize_footer (set_state s' Normal)))).
    destruct (w_state s); try apply bsize_header_size. cbn [fst]. rewrite bsize_out, len_u32. lia.
  Qed.
  Lemma wkb_grows : forall l s r, feed (wkb_writer c) l wst_init = (s, r) ->
    length (w_out s) <= wkb_prefix (w_dialect c) (w_envelope c) + total (wkb_share (w_dims c)) l.
  Proof.
    intros l s r F.
    pose proof (feed_grows _ (wkb_writer c) bsize (wkb_share (w_dims c)) wkb_step_grows) as G.
    specialize (G ltac:(intros; cbn [wkb_writer p_prop default_prop fst]; lia) l wst_init).
    rewrite F in G. unfold bsize in G. cbn [fst wst_init w_out w_first length] in G. lia.
  Qed.
End WkbWriter.

(** ** From the bytes *)
Lemma total_le : forall share k l, (forall o, In o l -> share o <= k) -> total share l <= k * length l.
Proof.
  intros share k l. unfold total. induction l as [|o l IH]; intros H; [cbn; lia|].
  cbn [map list_sum fold_right length]. pose proof (H o (or_introl eq_refl)).
  specialize (IH (fun o' Ho => H o' (or_intror Ho))). unfold list_sum in IH. lia.
Qed.
Lemma exec_fed : forall A (f : WkbModel.rd A) S (p : proc S) b l r s, WkbInv.lin f -> makes (f b) l r ->
  exists r', feed p (map OEv l) s = (fst (exec p (f b) s), r').
Proof.
  intros A f S p b l r s L M. rewrite (WkbTop.calls_of_makes _ _ _ _ _ L M). rewrite exec_calls.
  clear. revert s. induction l as [|e l IH]; intros s; cbn [map feed run]; [exists (Ok tt); reflexivity|].
  destruct (p_step p s e) as [s' [u|x]]; [apply IH|exists (Err x); reflexivity].
Qed.

Definition framing (e : event) : bool :=
  match e with
  | DatasetBegin _ | DatasetEnd | FeatureBegin _ | FeatureEnd _ | PropertiesBegin | PropertiesEnd
  | GeometryBegin | GeometryEnd => true
  | _ => false
  end.
(** a reader of bytes makes no callback about datasets and features *)
Definition bare (e : event) : Prop := framing e = false.
Ltac bared := OrdTop.ronl; try (unfold bare; repeat match goal with |- framing (if ?x then _ else _) = _ => destruct x end; reflexivity).
Lemma bare_wkb_header : OrdTop.ronly bare read_wkb_header.
Proof. unfold read_wkb_header. bared. Qed.
Lemma bare_header : forall dl, OrdTop.ronly bare (read_header dl).
Proof.
  intros dl. destruct dl; cbn [read_header]; try apply bare_wkb_header;
    unfold read_ewkb_header, read_gpkg_header, read_mysql_header, read_spatialite_header; bared; apply bare_wkb_header.
Qed.
Lemma bare_nested : forall dl i, OrdTop.ronly bare (nested_header dl i).
Proof.
  intros dl i. destruct dl; cbn [nested_header]; unfold read_wkb_nested_header; try apply bare_wkb_header;
    unfold read_ewkb_nested_header, read_ewkb_header, read_spatialite_nested_header; bared.
Qed.
Lemma bare_coord_as : forall b i, OrdTop.ronly bare (read_coord_as b i).
Proof. intros. unfold read_coord_as. bared. Qed.
Lemma bare_emit : forall full k c, OrdTop.ronly bare (emit_coord full k c).
Proof. intros full k c. unfold emit_coord. bared. Qed.
Lemma bare_coord : forall full i k, OrdTop.ronly bare (process_coord full i k).
Proof. intros. unfold process_coord. bared; [apply bare_coord_as|apply bare_emit]. Qed.
Lemma bare_compressed : forall full i n k c, OrdTop.ronly bare (compressed_loop full i n k c).
Proof.
  induction n as [|n IH]; intros k c; cbn [compressed_loop]; bared; [|apply IH].
  unfold process_compressed_coord. bared. apply bare_coord_as.
Qed.
Lemma bare_coords : forall full i n, OrdTop.ronly bare (process_coords full i n).
Proof. intros. unfold process_coords. bared. apply bare_coord. Qed.
Lemma bare_line : forall full i t k, OrdTop.ronly bare (process_linestring full i t k).
Proof. intros. unfold process_linestring. bared; auto using bare_coord, bare_compressed, bare_coords. Qed.
Lemma bare_arc : forall full i k, OrdTop.ronly bare (process_circularstring full i k).
Proof. intros. unfold process_circularstring. bared. apply bare_coords. Qed.
Lemma bare_polygon : forall full i t k, OrdTop.ronly bare (process_polygon full i t k).
Proof. intros. unfold process_polygon. bared. apply bare_line. Qed.
Lemma bare_triangle : forall full i t k, OrdTop.ronly bare (process_triangle full i t k).
Proof. intros. unfold process_triangle. bared. apply bare_line. Qed.
Section Nested.
  Variable full : bool.
  Variable rh : info -> rd info.
  Hypothesis Hrh : forall i, OrdTop.ronly bare (rh i).
  Lemma bare_compound : forall i k n, OrdTop.ronly bare (process_compoundcurve full rh i k n).
  Proof. intros. unfold process_compoundcurve. bared; auto using bare_arc, bare_line. Qed.
  Lemma bare_curve : forall i k n, OrdTop.ronly bare (process_curve full rh i k n).
  Proof. intros. unfold process_curve. bared; auto using bare_arc, bare_line, bare_compound. Qed.
  Lemma bare_curvepolygon : forall i k n, OrdTop.ronly bare (process_curvepolygon full rh i k n).
  Proof. intros. unfold process_curvepolygon. bared; auto using bare_curve. Qed.
  Lemma bare_geom : forall fuel i k n, OrdTop.ronly bare (process_geom_n fuel full rh i k n).
  Proof.
    induction fuel as [|fuel IH]; intros i k n; cbn [process_geom_n]; bared;
      auto using bare_coord_as, bare_emit, bare_coord, bare_line, bare_arc, bare_polygon, bare_triangle,
        bare_compound, bare_curve, bare_curvepolygon.
  Qed.
End Nested.
Lemma wkb_bare : forall dl d b, OrdTop.only bare (process_wkb_type_geom dl d b).
Proof.
  intros dl d b. revert b. change (OrdTop.ronly bare (process_wkb_type_geom dl d)). unfold process_wkb_type_geom. bared.
  - apply bare_header.
  - apply bare_geom, bare_nested.
Qed.
Lemma only_makes : forall A (P : event -> Prop) l (r : res A), OrdTop.only P (calls l (Done r)) -> Forall P l.
Proof. induction l as [|e l IH]; intros r H; [constructor|]. destruct H as [H1 H2]. constructor; [exact H1|exact (IH r H2)]. Qed.

(** a writer whose share of every such callback is at most [k] adds at most [k] times the bytes *)
Lemma bytes_grow : forall A (f : WkbModel.rd A) St (p : proc St) (size : St -> nat) share k b l r s s' r' start,
  WkbInv.lin f -> OrdTop.only bare (f b) -> makes (f b) l r -> length l <= length b ->
  (forall r' s', feed p (map OEv l) s = (s', r') -> size s' <= start + total share (map OEv l)) ->
  (forall e, bare e -> share (OEv e) <= k) ->
  exec p (f b) s = (s', r') -> size s' <= start + k * length b.
Proof.
  intros A f St p size share k b l r s s' r' start L O M Lb G K X. destruct (exec_fed _ _ _ p _ _ _ s L M) as [r2 F].
  rewrite X in F. cbn [fst] in F.
  specialize (G _ _ F). pose proof (total_le share k (map OEv l)) as T. rewrite map_length in T.
  rewrite (WkbTop.calls_of_makes _ _ _ _ _ L M) in O. apply only_makes in O. rewrite Forall_forall in O.
  specialize (T ltac:(intros o Ho; apply in_map_iff in Ho; destruct Ho as (e & <- & He); apply K, O, He)).
  nia.
Qed.

Lemma number_le : forall fmt B o, (forall x, String.length (fmt x) <= B) -> number_chars fmt o <= B.
Proof. intros fmt B [x|] H; cbn [number_chars]; [apply H|lia]. Qed.
Lemma wkt_share_le : forall fmt B e, (forall x, String.length (fmt x) <= B) -> bare e ->
  wkt_share (fun _ => 0) fmt (OEv e) <= 25 + 4 * B.
Proof.
  intros fmt B e H Be. destruct e; cbn [wkt_share opens closes number_chars]; try lia.
  - pose proof (H x); pose proof (H y); lia.
  - pose proof (H x); pose proof (H y); pose proof (number_le fmt B z H); pose proof (number_le fmt B m H). lia.
Qed.
Lemma json_share_le : forall text fmt B e, (forall x, String.length (fmt x) <= B) -> bare e ->
  json_share text fmt (OEv e) <= 48 + 3 * B.
Proof.
  intros text fmt B e H Be. destruct e; try discriminate Be; cbn [json_share opens closes number_chars]; try lia.
  - pose proof (H x); pose proof (H y); lia.
  - pose proof (H x); pose proof (H y); pose proof (number_le fmt B z H). lia.
Qed.
Lemma svg_share_le : forall h flip fmt B e, (forall x, String.length (fmt x) <= B) -> bare e ->
  svg_share h flip fmt (OEv e) <= 11 + 2 * B.
Proof.
  intros h flip fmt B e H Be. destruct e; try discriminate Be; cbn [svg_share opens closes number_chars]; try lia.
  pose proof (H x); pose proof (H (flip y)); lia.
Qed.

Lemma wkb_share_le : forall d e, wkb_share d (OEv e) <= 37.
Proof. intros d e. destruct e; cbn [wkb_share opens closes]; try lia; destruct (dz d), (dm d); lia. Qed.
Lemma wkb_bytes : forall dl dl' b d srid env o,
  to_wkb_dialect (fun d => pbind (process_wkb_type_geom dl d b) (fun _ => pret tt)) dl' d srid env = Ok o ->
  length o <= wkb_prefix dl' env + 37 * length b.
Proof.
  intros dl dl' b d srid env o T. unfold to_wkb_dialect in T. cbv zeta in T. rewrite ProcTop.exec_pbind in T.
  destruct (exec _ _ _) as [s [u|x]] eqn:X; [|discriminate]. injection T as <-.
  destruct (WkbTop.bounded dl d b) as (l & r & M & Lb & _).
  refine (bytes_grow _ _ _ _ (fun s => length (w_out s)) _ _ b l r _ s _ _ (WkbInv.lin_process dl d) (wkb_bare dl d b) M Lb
      _ (fun e _ => wkb_share_le d e) X).
  intros r' s' F. exact (wkb_grows (with_opts dl' d srid env) _ s' r' F).
Qed.

(** WKB to text *)
Section Wkb.
  Variable fmt : f64 -> string.
  Variable B : nat.
  Hypothesis HB : forall x, String.length (fmt x) <= B.

  Lemma wkb_plain_text : forall dl b d srid t,
    to_wkt_with_opts fmt (fun d => process_wkb_type_geom dl d b) PlainWkt d srid = Ok t ->
    String.length t <= (25 + 4 * B) * length b.
  Proof.
    intros dl b d srid t T. unfold to_wkt_with_opts in T.
    destruct (exec _ _ _) as [s [u|x]] eqn:X; [|discriminate]. injection T as <-.
    destruct (WkbTop.bounded dl d b) as (l & r & M & Lb & _).
    change (String.length (k_out s) <= 0 + (25 + 4 * B) * length b).
    refine (bytes_grow _ _ _ _ (fun s => String.length (k_out s)) _ _ b l r _ s _ 0 (WkbInv.lin_process dl d) (wkb_bare dl d b) M Lb
      _ (fun e => wkt_share_le fmt B e HB) X).
    intros r' s' F. exact (wkt_grows (mkWktCfg d PlainWkt) fmt srid _ s' r' F).
  Qed.
  Lemma wkb_ewkt_text : forall dl b d v t,
    to_wkt_with_opts fmt (fun d => process_wkb_type_geom dl d b) Ewkt d (Some v) = Ok t ->
    String.length t <= srid_chars show_int (Some v) + (25 + 4 * B) * length b.
  Proof.
    intros dl b d v t T. unfold to_wkt_with_opts in T.
    destruct (exec _ _ _) as [s [u|x]] eqn:X; [|discriminate]. injection T as <-.
    destruct (WkbTop.bounded dl d b) as (l & r & M & Lb & _).
    refine (bytes_grow _ _ _ _ (fun s => String.length (k_out s)) _ _ b l r _ s _ _ (WkbInv.lin_process dl d) (wkb_bare dl d b) M Lb
      _ (fun e => wkt_share_le fmt B e HB) X).
    intros r' s' F. exact (wkt_known_grows (mkWktCfg d Ewkt) fmt v _ s' r' F).
  Qed.
  Lemma wkb_json_text : forall fmt32 dl b t, to_json fmt32 fmt (fun d => process_wkb_type_geom dl d b) = Ok t ->
    String.length t <= (48 + 3 * B) * length b.
  Proof.
    intros fmt32 dl b t T. unfold to_json in T.
    destruct (exec _ _ _) as [s [u|x]] eqn:X; [|discriminate]. injection T as <-.
    destruct (WkbTop.bounded dl xy_dims b) as (l & r & M & Lb & _).
    change (String.length s <= 0 + (48 + 3 * B) * length b).
    refine (bytes_grow _ _ _ _ String.length _ _ b l r _ s _ 0 (WkbInv.lin_process dl xy_dims) (wkb_bare dl xy_dims b) M Lb
      _ (fun e => json_share_le (show_colval fmt32 fmt) fmt B e HB) X).
    intros r' s' F. exact (json_grows fmt32 fmt _ _ s' r' F).
  Qed.
  Lemma wkb_svg_text : forall dl b t, to_svg fmt (fun d => process_wkb_type_geom dl d b) = Ok t ->
    String.length t <= (11 + 2 * B) * length b.
  Proof.
    intros dl b t T. unfold to_svg in T.
    destruct (exec _ _ _) as [s [u|x]] eqn:X; [|discriminate]. injection T as <-.
    destruct (WkbTop.bounded dl xy_dims b) as (l & r & M & Lb & _).
    change (String.length s <= 0 + (11 + 2 * B) * length b).
    refine (bytes_grow _ _ _ _ String.length _ _ b l r _ s _ 0 (WkbInv.lin_process dl xy_dims) (wkb_bare dl xy_dims b) M Lb
      _ (fun e => svg_share_le _ _ fmt B e HB) X).
    intros r' s' F. exact (svg_grows fmt (svg_new false) _ s' r' F).
  Qed.
End Wkb.
