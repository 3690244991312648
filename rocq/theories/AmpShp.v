(** Lemmas for C89: the shapes of a shapefile. *)
From Coq Require Import String Ascii.
From Coq Require Import List NArith ZArith Lia Bool.
From Coq Require Import Init.Byte.
From Verif Require Import Base Float Event EventLemmas Claims ProcModel GeoJsonModel SvgModel WktModel WkbModel ShpModel
  AmpSpec OrdTop AmpTop.
From Verif Require ShpBound.
Import ListNotations.
Local Open Scope nat_scope.

(** the callbacks of a record: neither features nor SRIDs *)
Definition drawn (e : event) : Prop := framing e = false /\ match e with Srid _ => False | _ => True end.
Lemma emit_points_drawn : forall multi z m cs zs ms o n i, only drawn (emit_points multi z m cs zs ms o n i).
Proof.
  intros multi z m cs zs ms o n. induction n as [|n IH]; intros i; cbn [emit_points]; [exact I|].
  apply only_pthen; [|apply IH]. unfold emit_point, plift. onl; try (split; reflexivity || exact I).
  all: repeat match goal with |- drawn (if ?x then _ else _) => destruct x end; split; reflexivity || exact I.
Qed.
Lemma multipart_drawn : forall ck d b mp, only drawn (process_multipart ck d b mp).
Proof.
  intros. unfold process_multipart, process_geom_part, process_part.
  onl; try (split; reflexivity || exact I); apply emit_points_drawn.
Qed.
Lemma shape_drawn : forall ck d b, only drawn (read_shape ck d b).
Proof.
  intros ck d b. revert b. change (ronly drawn (read_shape ck d)).
  unfold read_shape, read_shape_rec, read_shape_type, read_multipoint, read_parts, read_multipart, read_multipatch, read_bbox, read_point.
  ronl; auto using ronly_dim_values, ronly_xy, multipart_drawn; try (onl; try (split; reflexivity || exact I); apply emit_points_drawn).
  all: try (split; reflexivity || exact I).
Qed.

Section Loop.
  Context {St : Type} (p : proc St) (size : St -> nat) (k : nat).
  Hypothesis Hp : forall s e, drawn e -> size (fst (p_step p s e)) <= size s + k.

  Lemma run_grows : forall l s, Forall drawn l -> size (fst (run p l s)) <= size s + k * length l.
  Proof.
    induction l as [|e l IH]; intros s F; cbn [run]; [cbn [fst]; lia|]. inversion F as [|? ? H1 H2]; subst.
    specialize (Hp s e H1). destruct (p_step p s e) as [s' [u|x]]; cbn [fst length] in *; [|lia].
    specialize (IH s' H2). lia.
  Qed.
  Lemma shapes_grow : forall leftover n it s,
    size (fst (consume_shapes true leftover p n it s)) <= size s + k * length (it_source it).
  Proof.
    intros leftover n. induction n as [|n IH]; intros it s; cbn [consume_shapes fst]; [lia|].
    unfold shape_next. destruct (_ <=? _)%N; [cbn [fst]; lia|].
    destruct (ShpBound.shape_cost true (p_dims p) (it_source it)) as [l [r [E H]]]. unfold ShpBound.record_cost in H.
    pose proof (shape_drawn true (p_dims p) (it_source it)) as O. rewrite E in O. apply only_makes in O.
    rewrite E, exec_calls. pose proof (run_grows l s O) as G. destruct (run p l s) as [s' [u|x]]; cbn [fst] in *.
    - cbn [exec]. destruct r as [[hdr rest]|e].
      + destruct (advance true (it_pos it) (snd hdr)) as [a|e].
        * specialize (IH (mkIter rest a (it_length it)) s'). cbn [it_source] in IH. nia.
        * cbn [fst]. nia.
      + cbn [fst]. nia.
    - cbn [fst]. destruct r as [[hdr rest]|e]; nia.
  Qed.
End Loop.

Section Text.
  Variable fmt : f64 -> string.
  Variable B : nat.
  Hypothesis HB : forall x, String.length (fmt x) <= B.

  Lemma shp_wkt_text : forall c srid leftover n it,
    String.length (k_out (fst (consume_shapes true leftover (wkt_writer fmt c) n it (wkt_init srid)))) <=
    pre c srid + (25 + 4 * B) * length (it_source it).
  Proof.
    intros c srid leftover n it.
    pose proof (shapes_grow (wkt_writer fmt c) (wsize c) (25 + 4 * B)) as G.
    specialize (G ltac:(intros s e [H1 H2]; eapply Nat.le_trans; [apply wkt_step_grows|];
      pose proof (wkt_share_le fmt B e HB H1) as W; destruct e; try destruct H2; cbn [wkt_share] in *; lia)).
    specialize (G leftover n it (wkt_init srid)). unfold wsize in G.
    cbn [wkt_init k_out k_first k_srid String.length] in G. change (mkWktSt srid true [] "") with (wkt_init srid) in G. lia.
  Qed.
  Lemma shp_json_text : forall fmt32 d leftover n it,
    String.length (fst (consume_shapes true leftover (geojson_writer fmt32 fmt d) n it ""%string)) <=
    (48 + 3 * B) * length (it_source it).
  Proof.
    intros fmt32 d leftover n it.
    pose proof (shapes_grow (geojson_writer fmt32 fmt d) String.length (48 + 3 * B)) as G.
    specialize (G ltac:(intros s e [H1 H2]; eapply Nat.le_trans; [apply (gj_step_grows fmt32 fmt)|];
      pose proof (json_share_le (show_colval fmt32 fmt) fmt B e HB H1); pose proof (inner_le fmt32 fmt e); lia)).
    exact (G leftover n it ""%string).
  Qed.
  Lemma shp_svg_text : forall c leftover n it,
    String.length (fst (consume_shapes true leftover (svg_writer fmt c) n it ""%string)) <=
    (11 + 2 * B) * length (it_source it).
  Proof.
    intros c leftover n it.
    pose proof (shapes_grow (svg_writer fmt c) String.length (11 + 2 * B)) as G.
    specialize (G ltac:(intros s e [H1 H2]; eapply Nat.le_trans; [apply svg_step_grows|];
      apply Nat.add_le_mono_l; exact (svg_share_le _ _ fmt B e HB H1))).
    exact (G leftover n it ""%string).
  Qed.
End Text.
Lemma shp_wkb_bytes : forall c leftover n it,
  length (w_out (fst (consume_shapes true leftover (wkb_writer c) n it wst_init))) <=
  wkb_prefix (w_dialect c) (w_envelope c) + 37 * length (it_source it).
Proof.
  intros c leftover n it.
  pose proof (shapes_grow (wkb_writer c) (bsize c) 37) as G.
  specialize (G ltac:(intros s e [H1 H2]; eapply Nat.le_trans; [apply wkb_step_grows|];
    apply Nat.add_le_mono_l, wkb_share_le)).
  specialize (G leftover n it wst_init). unfold bsize in G.
  cbn [wst_init w_out w_first length] in G. change (mkWst true Normal 0 []) with wst_init in G. lia.
Qed.

(** Without overflow checks a record can make the text as long as the square of its length: in
    GeoJSON every callback of a record is heard. *)
Definition loud (fmt : f64 -> string) (e : event) : Prop :=
  forall out, snd (gj_step fmt out e) = Ok tt /\ String.length out < String.length (fst (gj_step fmt out e)).
Section Loud.
  Variable fmt : f64 -> string.
  Lemma comma_le : forall out i, String.length out <= String.length (gj_comma out i).
  Proof. intros out i. unfold gj_comma. destruct (Nat.ltb 0 i); lens; lia. Qed.
  Ltac heard :=
    repeat match goal with |- loud _ (if ?x then _ else _) => destruct x end;
    intros ?out; cbn [gj_step fst snd]; split; [reflexivity|];
    unfold kind_open; repeat match goal with |- context[if ?x then _ else _] => destruct x end; lens;
    try match goal with |- context[gj_comma ?o ?i] => pose proof (comma_le o i) end; lia.
  Lemma emit_points_loud : forall multi z m cs zs ms o n i, only (loud fmt) (emit_points multi z m cs zs ms o n i).
  Proof.
    intros multi z m cs zs ms o n. induction n as [|n IH]; intros i; cbn [emit_points]; [exact I|].
    apply only_pthen; [|apply IH]. unfold emit_point, plift. onl; heard.
  Qed.
  Lemma multipart_loud : forall ck d b mp, only (loud fmt) (process_multipart ck d b mp).
  Proof.
    intros. unfold process_multipart, process_geom_part, process_part.
    onl; try apply emit_points_loud; heard.
  Qed.
  Lemma shape_loud : forall ck d b, only (loud fmt) (read_shape ck d b).
  Proof.
    intros ck d b. revert b. change (ronly (loud fmt) (read_shape ck d)).
    unfold read_shape, read_shape_rec, read_shape_type, read_multipoint, read_parts, read_multipart, read_multipatch, read_bbox, read_point.
    ronl; auto using ronly_dim_values, ronly_xy, multipart_loud; try heard; try (onl; try apply emit_points_loud; heard).
  Qed.
  Lemma run_loud : forall fmt32 d l out, Forall (loud fmt) l -> exists out',
    run (geojson_writer fmt32 fmt d) l out = (out', Ok tt) /\ String.length out + length l <= String.length out'.
  Proof.
    intros fmt32 d. induction l as [|e l IH]; intros out F; cbn [run]; [exists out; split; [reflexivity|cbn; lia]|].
    inversion F as [|? ? H1 H2]; subst. destruct (H1 out) as [A C]. cbn [p_step geojson_writer].
    destruct (gj_step fmt out e) as [o r]. cbn [fst snd] in *. subst r. destruct (IH o H2) as (o' & E & L).
    exists o'. split; [exact E|]. cbn [length]. lia.
  Qed.
  Lemma shp_quadratic : forall fmt32 k, (N.of_nat k < 2 ^ 26)%N -> exists b t h,
    length b = 52 + 24 * k /\ exec (geojson_writer fmt32 fmt xy_dims) (read_shape false xy_dims b) ""%string = (t, Ok (h, [])) /\
    k * k <= String.length t.
  Proof.
    intros fmt32 k Hk. destruct (ShpBound.many_callbacks xy_dims k Hk) as (b & l & h & Lb & M & Hl).
    destruct (ShpBound.shape_cost false xy_dims b) as [l2 [r [E _]]].
    pose proof (shape_loud false xy_dims b) as O. unfold makes in M. rewrite E in M, O. apply only_makes in O.
    pose proof (WkbTop.makes_of_calls _ l2 r) as M2. unfold makes in M2. rewrite M2 in M. injection M as M ->.
    apply WkbTop.map_OEv_inj in M. subst l2.
    destruct (run_loud fmt32 xy_dims l ""%string O) as (t & R & T).
    exists b, t, h. split; [exact Lb|]. split; [|cbn [String.length] in T; lia].
    now rewrite E, exec_calls, R.
  Qed.
End Loud.
