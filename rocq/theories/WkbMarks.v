(** SpatiaLite output of every geometry and what the reader makes of it (helper lemmas for C02). *)
From Coq Require Import String Ascii.
From Coq Require Import List NArith ZArith Lia Bool ZifyBool ZifyNat ZifyN.
From Coq Require Import Init.Byte.
From Verif Require Import Base BaseLemmas Float Event EventLemmas Claims Geom WkbModel WkbSpec WkbClaims
  WkbRead WkbReadTop WkbWrite WkbWriteTop WkbInv WkbDepth WkbShape WkbTop.
Import ListNotations.
Local Open Scope N_scope.
Local Open Scope list_scope.

(** ** Writer *)
Section Writer.
  Variable c : wcfg.
  Hypothesis Hle : w_endian c = LE.
  Hypothesis Hd : w_dialect c = SpatiaLite.
  Variable multi : bool.
  Notation W := (wkb_writer c).
  Notation cb := (wcb c multi).
  Notation hdr := (sub_hdr c).

  Lemma writable : srid_writable c.
  Proof. unfold srid_writable. rewrite Hd. exact I. Qed.
  Lemma foot0 : foot c 0 = [xfe].
  Proof. unfold foot. rewrite Hd. reflexivity. Qed.
  Lemma after : forall f, first_after c f = false.
  Proof. intros f. unfold first_after. rewrite Hd. reflexivity. Qed.

  Lemma marks_ring : forall f k l out,
    run W (ev_line multi false k l) (mkWst f RingGeom 0 out) =
    (mkWst f RingGeom 0 (out ++ line_bytes cb LE l ++ [xfe]), Ok tt).
  Proof.
    intros f k l out. unfold ev_line, line_bytes, count_bytes.
    erewrite run_cons by (cbn [wkb_step w_state]; unfold out_app, w_u32; rewrite Hle;
      cbn [w_first w_state w_nest w_out]; reflexivity).
    rewrite run_app, (run_coords c Hle) by discriminate.
    cbn [run wkb_writer p_step wkb_step]. rewrite footer_eq, foot0, <- !app_assoc. reflexivity.
  Qed.
  Lemma marks_rings : forall f r i out,
    run W (flat_mapi (ev_line multi false) i r) (mkWst f RingGeom 0 out) =
    (mkWst f RingGeom 0 (out ++ flat_map (fun l => line_bytes cb LE l ++ [xfe]) r), Ok tt).
  Proof. intros. apply run_list_const. intros. apply marks_ring. Qed.
  Lemma marks_polygon : forall f tagged k r out,
    run W (ev_polygon multi tagged k r) (mkWst f Normal 0 out) =
    (mkWst false Normal 0 (out ++ (hd c f 3 ++ marked_rings cb r) ++ [xfe]), Ok tt).
  Proof.
    intros f tagged k r out. unfold ev_polygon, marked_rings.
    erewrite run_cons by (cbn [wkb_step]; rewrite (header_size_eq c Hle writable f Normal 0 out TPolygon);
      cbn [then_state]; unfold set_state; cbn [w_first w_nest w_out]; reflexivity).
    rewrite run_app, marks_rings.
    cbn [run wkb_writer p_step wkb_step]. unfold set_state. cbn [w_first w_nest w_out].
    rewrite footer_eq, foot0, after, <- !app_assoc. reflexivity.
  Qed.
  Lemma marks_triangle : forall f tagged k r out,
    run W (ev_triangle multi tagged k r) (mkWst f Normal 0 out) =
    (mkWst false Normal 0 (out ++ (hd c f 17 ++ marked_rings cb r) ++ [xfe]), Ok tt).
  Proof.
    intros f tagged k r out. unfold ev_triangle, marked_rings.
    erewrite run_cons by (cbn [wkb_step]; rewrite (header_size_eq c Hle writable f Normal 0 out TTriangle);
      cbn [then_state]; unfold set_state; cbn [w_first w_nest w_out]; reflexivity).
    rewrite run_app, marks_rings.
    cbn [run wkb_writer p_step wkb_step]. unfold set_state. cbn [w_first w_nest w_out].
    rewrite footer_eq, foot0, after, <- !app_assoc. reflexivity.
  Qed.
  Lemma marks_container : forall A (ev : nat -> A -> list event) (bs : list nat -> A -> list byte) b en t f l out p,
    (forall f out, wkb_step c (mkWst f Normal 0 out) (b (length l)) =
       header_size c (mkWst f Normal 0 out) t (length l)) ->
    (forall s, wkb_step c s en = write_footer c s) ->
    (forall k a out, In a l -> run W (ev k a) (mkWst false Normal 0 out) =
       (mkWst false Normal 0 (out ++ bs (k :: p) a), Ok tt)) ->
    run W (b (length l) :: flat_mapi ev 0 l ++ [en]) (mkWst f Normal 0 out) =
    (mkWst false Normal 0 (out ++ (hd c f (type_code t) ++ members little p bs l) ++ [xfe]), Ok tt).
  Proof.
    intros * Hb He Hl. rewrite (run_container c A ev bs b en t f 0 0 l out p).
    - rewrite foot0, after. reflexivity.
    - intros f' g out' ->. rewrite Hb. apply header_size_eq; [exact Hle|exact writable].
    - intros. rewrite He. apply footer_eq.
    - rewrite after. exact Hl.
  Qed.
  Lemma marks_segment : forall k p s out,
    run W (ev_segment multi k s) (mkWst false Normal 0 out) =
    (mkWst false Normal 0 (out ++ segment_bytes hdr cb little p s ++ [xfe]), Ok tt).
  Proof.
    intros k p [l|l] out; cbn [ev_segment segment_bytes].
    - rewrite (run_line c Hle multi writable), after, foot0. reflexivity.
    - rewrite (run_arc c Hle multi writable), after, foot0. reflexivity.
  Qed.
  Lemma marks_compound : forall f k p l out,
    run W (ev_compound multi k l) (mkWst f Normal 0 out) =
    (mkWst false Normal 0 (out ++ (hd c f 9 ++ marked_segments hdr cb p l) ++ [xfe]), Ok tt).
  Proof.
    intros f k p l out. unfold ev_compound, marked_segments.
    apply (marks_container _ (ev_segment multi) (fun q s => segment_bytes hdr cb little q s ++ [xfe])
             (fun s => CompoundCurveBegin s k) (CompoundCurveEnd k) TCompoundCurve); try reflexivity.
    intros. apply marks_segment.
  Qed.
  Lemma marks_curve : forall k p s out,
    run W (ev_curve multi k s) (mkWst false Normal 0 out) =
    (mkWst false Normal 0 (out ++ marked_curve hdr cb p s), Ok tt).
  Proof.
    intros k p [l|l|l] out; cbn [ev_curve marked_curve curve_bytes].
    - rewrite (run_line c Hle multi writable), after, foot0. reflexivity.
    - rewrite (run_arc c Hle multi writable), after, foot0. reflexivity.
    - rewrite (marks_compound false k p). reflexivity.
  Qed.

  Lemma marks_geom : forall g k p out, no_empty g ->
    run W (gevents multi k g) (mkWst true Normal 0 out) =
    (mkWst false Normal 0 (out ++ (hd c true (kind_code g) ++ marked hdr cb p g) ++ [xfe]), Ok tt).
  Proof.
    intros g k p out He.
    assert (Std : spatialite_safe g -> marked hdr cb p g = body hdr cb little p g ->
      run W (gevents multi k g) (mkWst true Normal 0 out) =
      (mkWst false Normal 0 (out ++ (hd c true (kind_code g) ++ marked hdr cb p g) ++ [xfe]), Ok tt)).
    { intros Hs E. rewrite (run_geom c Hle multi writable g true 0 k p out) by auto.
      rewrite after, foot0, E. reflexivity. }
    destruct g; try (apply Std; [exact I|reflexivity]); clear Std; cbn [gevents marked kind_code].
    - apply marks_polygon.
    - apply marks_compound.
    - apply (marks_container _ (ev_curve multi) (marked_curve hdr cb)
             (fun s => CurvePolygonBegin s k) (CurvePolygonEnd k) TCurvePolygon); try reflexivity.
      intros. apply marks_curve.
    - apply marks_triangle.
    - apply (marks_container _ (ev_polygon multi false) (fun _ r => (hdr LE 3 ++ marked_rings cb r) ++ [xfe])
             (fun s => PolyhedralSurfaceBegin s k) (PolyhedralSurfaceEnd k) TPolyhedralSurface); try reflexivity.
      intros. apply marks_polygon.
    - apply (marks_container _ (ev_triangle multi false) (fun _ r => (hdr LE 17 ++ marked_rings cb r) ++ [xfe])
             (fun s => TinBegin s k) (TinEnd k) TTin); try reflexivity.
      intros. apply marks_triangle.
  Qed.
End Writer.

Lemma wcb_fun : forall c, asks_for_all (w_dims c) (w_read_dims c) ->
  wcb c (multi_dim (w_read_dims c)) = coord_bytes (dz (w_dims c)) (dm (w_dims c)).
Proof.
  intros c H. unfold wcb, seen. destruct (multi_dim (w_read_dims c)) eqn:E; [reflexivity|].
  destruct (H E) as [A B]. rewrite A, B. reflexivity.
Qed.

Lemma blob_written : forall d rd srid env ed ext emp g,
  asks_for_all d rd -> no_empty g ->
  write_all (with_extended_opts SpatiaLite d rd srid env ed ext emp) (gevents (multi_dim rd) 0 g) =
  Ok (spatialite_blob (dz d) (dm d) (opt_default 0%Z srid) env g).
Proof.
  intros d rd srid env ed ext emp g Hr He. unfold write_all.
  set (c := with_extended_opts SpatiaLite d rd srid env ed ext emp).
  change (multi_dim rd) with (multi_dim (w_read_dims c)). unfold wst_init.
  rewrite (marks_geom c eq_refl eq_refl _ g 0%nat [] []) by exact He.
  rewrite (wcb_fun c) by exact Hr. unfold spatialite_blob. cbn [w_out app].
  rewrite <- app_assoc. reflexivity.
Qed.

(** ** Reader *)
(** [P] makes some callbacks of [l] and then fails or makes another callback than the next one *)
Definition derails {A} (P : prog A) (l : list event) : Prop :=
  exists pre e suf, l = pre ++ e :: suf /\
    ((exists x, P = calls pre (Done (Err x))) \/ (exists e' k, P = calls pre (Call e' k) /\ e' <> e)).

Lemma recorder_extends : forall A (P : prog A) d s, exists ext, fst (exec (recorder d false) P s) = s ++ ext.
Proof.
  induction P as [r|e k IH|e k IH|i n v k IH]; intros d s; cbn [exec recorder p_step p_prop].
  - exists []. rewrite app_nil_r. reflexivity.
  - destruct (IH d (s ++ [OEv e])) as [x E]. exists (OEv e :: x). cbn in E |- *. rewrite E, <- app_assoc. reflexivity.
  - destruct (IH d (s ++ [OEv e])) as [x E]. exists (OEv e :: x). cbn in E |- *. rewrite E, <- app_assoc. reflexivity.
  - destruct (IH false d (s ++ [OProp i n v])) as [x E]. exists (OProp i n v :: x). cbn in E |- *. rewrite E, <- app_assoc. reflexivity.
Qed.
Lemma derails_not : forall A (P : prog A) l d r, derails P l -> exec (recorder d false) P [] <> (map OEv l, Ok r).
Proof.
  intros A P l d r (pre & e & suf & -> & [[x ->]|(e' & k & -> & N)]) E; rewrite exec_calls, recorder_run in E.
  - discriminate.
  - cbn [app exec recorder p_step] in E.
    destruct (recorder_extends _ k d (map OEv pre ++ [OEv e'])) as [ext X]. cbn in X. rewrite E in X. cbn [fst] in X.
    rewrite map_app, <- app_assoc in X. apply app_inv_head in X. cbn in X. injection X as X _. congruence.
Qed.

Lemma derails_l : forall A B (f : rd A) (g : A -> rd B) b l l2, derails (f b) l -> derails (rbind f g b) (l ++ l2).
Proof.
  intros * (pre & e & suf & -> & H). exists pre, e, (suf ++ l2). split; [rewrite <- app_assoc; reflexivity|].
  unfold rbind. destruct H as [[x ->]|(e' & k & -> & N)]; rewrite pbind_calls; cbn [pbind].
  - left. eexists. reflexivity.
  - right. eexists. eexists. split; [reflexivity|exact N].
Qed.
Lemma derails_r : forall A B (f : rd A) (g : A -> rd B) b l1 a b1 l2,
  reads f b l1 a b1 -> derails (g a b1) l2 -> derails (rbind f g b) (l1 ++ l2).
Proof.
  intros * R (pre & e & suf & -> & H). exists (l1 ++ pre), e, suf. split; [rewrite <- app_assoc; reflexivity|].
  unfold rbind. unfold reads in R. rewrite R, pbind_calls. cbn [pbind fst snd].
  destruct H as [[x ->]|(e' & k & -> & N)]; rewrite <- calls_app.
  - left. eexists. reflexivity.
  - right. eexists. eexists. split; [reflexivity|exact N].
Qed.
Lemma derails_r0 : forall A B (f : rd A) (g : A -> rd B) b a b1 l2,
  reads f b [] a b1 -> derails (g a b1) l2 -> derails (rbind f g b) l2.
Proof. intros * R H. exact (derails_r _ _ _ _ _ [] _ _ _ R H). Qed.
Lemma derails_call : forall B e (g : unit -> rd B) b l2,
  derails (g tt b) l2 -> derails (rbind (rcall e) g b) (e :: l2).
Proof. intros * H. exact (derails_r _ _ _ _ _ [e] _ _ _ (reads_call e b) H). Qed.

(** the second of several elements goes wrong *)
Lemma derails_second : forall A (f : nat -> rd unit) (ev : nat -> A -> list event) a a' l n b b1,
  reads (f 0%nat) b (ev 0%nat a) tt b1 -> derails (f 1%nat b1) (ev 1%nat a') ->
  derails (rfor f (S (S n)) 0 b) (flat_mapi ev 0 (a :: a' :: l)).
Proof.
  intros * R H. cbn [rfor flat_mapi]. eapply derails_r; [exact R|]. apply derails_l. exact H.
Qed.
Lemma derails_first : forall A (f : nat -> rd unit) (ev : nat -> A -> list event) a l n b,
  derails (f 0%nat b) (ev 0%nat a) -> derails (rfor f (S n) 0 b) (flat_mapi ev 0 (a :: l)).
Proof. intros * H. cbn [rfor flat_mapi]. apply derails_l. exact H. Qed.

(** four bytes that begin with an end mark and a count shifted by one *)
Lemma shifted : forall n b, n < 2 ^ 32 -> n <> 0xFEFEFEFE ->
  exists v b1, reads (r_u32 LE) (xfe :: bytes_of LE 4 n ++ b) [] v b1 /\ v <> n.
Proof.
  intros n b Hn Hne.
  destruct (bytes_of LE 4 n) as [|c0 [|c1 [|c2 [|c3 [|]]]]] eqn:E;
    try (apply (f_equal (@length _)) in E; rewrite bytes_of_length in E; discriminate).
  assert (V : val_of LE [c0; c1; c2; c3] = n) by (rewrite <- E; apply val_of_bytes_of; exact Hn).
  exists (val_of LE [xfe; c0; c1; c2]), (c3 :: b). split; [reflexivity|].
  cbn [val_of le_val] in *. change (val xfe) with 254.
  pose proof (val_lt c0). pose proof (val_lt c1). pose proof (val_lt c2). pose proof (val_lt c3). lia.
Qed.

Section Reader.
  Variable multi : bool.
  Variables z m : bool.
  Notation rh := read_spatialite_nested_header.
  Notation hdr := (spatialite_sub_header z m).
  Notation cb := (coord_bytes z m).
  Notation st := (stored z m).
  Notation cnt := (fun n : nat => N.of_nat n < 2 ^ 32).
  Notation ok_line := (on_line coord64 cnt).
  Notation ok_rings := (on_rings coord64 cnt).
  Notation ok_segment := (on_segment coord64 cnt).
  Notation ok_curve := (on_curve coord64 cnt).
  Notation ord := (fun l : line => N.of_nat (length l) <> 0xFEFEFEFE).
  Notation info_ok := (is_info z m).

  Lemma derails_line : forall i t k l b, info_ok i LE t -> ok_line l -> ord l ->
    derails (process_linestring multi i false k (xfe :: line_bytes cb LE l ++ b)) (ev_line multi false k (map st l)).
  Proof.
    intros i t k l b Hi [Hn _] Ho. unfold process_linestring, line_bytes, count_bytes.
    replace (i_endian i) with LE by (symmetry; apply Hi). rewrite <- app_assoc.
    destruct (shifted (N.of_nat (length l)) (flat_map (cb LE) l ++ b) Hn Ho) as (v & b1 & R & N).
    eapply derails_r0; [exact R|]. unfold ev_line. exists [], (LineStringBegin false (length (map st l)) k). eexists.
    split; [reflexivity|]. right. eexists. eexists. split; [reflexivity|]. intros X. injection X as X.
    rewrite map_length in X. apply N. lia.
  Qed.
  Lemma derails_header : forall i (g : info -> rd unit) e l b, derails (rbind (rh i) g (xfe :: b)) (e :: l).
  Proof. intros. exists [], e, l. split; [reflexivity|]. left. exists EGeometryFormat. reflexivity. Qed.

  Lemma reads_line_le : forall i t tagged k l b, info_ok i LE t -> ok_line l ->
    reads (process_linestring multi i tagged k) (line_bytes cb LE l ++ b) (ev_line multi tagged k (map st l)) tt b.
  Proof. intros. eapply (reads_line multi rh hdr z m eq (nested_spatialite z m)); eassumption. Qed.

  Lemma derails_rings : forall i t r b, info_ok i LE t -> Forall ok_line r -> Forall ord r -> (2 <= length r)%nat ->
    derails (rfor (fun k => process_linestring multi i false k) (length r) 0
               (flat_map (fun l => line_bytes cb LE l ++ [xfe]) r ++ b))
            (flat_mapi (ev_line multi false) 0 (map (map st) r)).
  Proof.
    intros i t [|l0 [|l1 r]] b Hi Hr Ho Hl; try (cbn in Hl; lia). cbn [length map flat_map].
    inversion Hr as [|? ? H0 Hr']; subst. inversion Hr' as [|? ? H1 _]; subst.
    inversion Ho as [|? ? _ Ho']; subst. inversion Ho' as [|? ? O1 _]; subst. rewrite <- !app_assoc.
    eapply derails_second; [eapply reads_line_le; eassumption|]. cbn [app]. eapply derails_line; eassumption.
  Qed.
  Lemma derails_polygon : forall i t tagged idx r b, info_ok i LE t -> ok_rings r -> Forall ord r -> (2 <= length r)%nat ->
    derails (process_polygon multi i tagged idx (marked_rings cb r ++ b)) (ev_polygon multi tagged idx (map (map st) r)).
  Proof.
    intros i t tagged idx r b Hi [Hn Hr] Ho Hl. unfold process_polygon, marked_rings, ev_polygon.
    replace (i_endian i) with LE by (symmetry; apply Hi). rewrite <- app_assoc.
    eapply derails_r0; [apply reads_count; exact Hn|]. rewrite Nnat.Nat2N.id, map_length.
    apply derails_call. apply derails_l. eapply derails_rings; eassumption.
  Qed.
  Lemma derails_triangle : forall i t tagged idx r b, info_ok i LE t -> ok_rings r -> Forall ord r -> (2 <= length r)%nat ->
    derails (process_triangle multi i tagged idx (marked_rings cb r ++ b)) (ev_triangle multi tagged idx (map (map st) r)).
  Proof.
    intros i t tagged idx r b Hi [Hn Hr] Ho Hl. unfold process_triangle, marked_rings, ev_triangle.
    replace (i_endian i) with LE by (symmetry; apply Hi). rewrite <- app_assoc.
    eapply derails_r0; [apply reads_count; exact Hn|]. rewrite Nnat.Nat2N.id, map_length.
    apply derails_call. apply derails_l. eapply derails_rings; eassumption.
  Qed.

  (** one ring: the marks come after everything the reader looks at *)
  Lemma one_ring : forall r, at_most_one r -> exists n, marked_rings cb r = rings_bytes cb LE r ++ repeat xfe n.
  Proof.
    intros [|l [|l' r]] H; unfold marked_rings, rings_bytes; cbn [flat_map].
    - exists 0%nat. cbn [repeat]. rewrite !app_nil_r. reflexivity.
    - exists 1%nat. rewrite !app_nil_r, <- app_assoc. reflexivity.
    - unfold at_most_one in H. cbn in H. lia.
  Qed.
  Lemma one_segment : forall p l, at_most_one l ->
    exists n, marked_segments hdr cb p l = members little p (segment_bytes hdr cb little) l ++ repeat xfe n.
  Proof.
    intros p [|s [|s' l]] H; unfold marked_segments, members; cbn [flat_mapi].
    - exists 0%nat. cbn [repeat]. rewrite !app_nil_r. reflexivity.
    - exists 1%nat. rewrite !app_nil_r, <- app_assoc. reflexivity.
    - unfold at_most_one in H. cbn in H. lia.
  Qed.
  Lemma repeat_snoc : forall A (x : A) n, repeat x n ++ [x] = repeat x (S n).
  Proof. induction n; cbn; [reflexivity|]. rewrite IHn. reflexivity. Qed.
  Lemma one_curve : forall p c, single_curve c ->
    exists n, marked_curve hdr cb p c = curve_bytes hdr cb little p c ++ repeat xfe n.
  Proof.
    intros p [l|l|l] H; cbn [marked_curve curve_bytes].
    - exists 1%nat. reflexivity.
    - exists 1%nat. reflexivity.
    - destruct (one_segment p l H) as [n E]. exists (S n). rewrite E, <- repeat_snoc, <- !app_assoc. reflexivity.
  Qed.
  Lemma one_member : forall A (f f' : list nat -> A -> list byte) p l, at_most_one l ->
    (forall q a, In a l -> exists n, f q a = f' q a ++ repeat xfe n) ->
    exists n, members little p f l = members little p f' l ++ repeat xfe n.
  Proof.
    intros A f f' p [|s [|s' l]] H E; unfold members; cbn [flat_mapi].
    - exists 0%nat. cbn [repeat]. rewrite !app_nil_r. reflexivity.
    - destruct (E (0%nat :: p) s (or_introl eq_refl)) as [n X]. exists n. rewrite !app_nil_r, X, <- app_assoc. reflexivity.
    - unfold at_most_one in H. cbn in H. lia.
  Qed.
  Lemma one_part : forall g p, single_part g ->
    exists n, marked hdr cb p g = body hdr cb little p g ++ repeat xfe n.
  Proof.
    assert (Same : forall g p, marked hdr cb p g = body hdr cb little p g ->
      exists n, marked hdr cb p g = body hdr cb little p g ++ repeat xfe n).
    { intros g p ->. exists 0%nat. cbn [repeat]. rewrite app_nil_r. reflexivity. }
    intros g p H. destruct g; try (apply Same; reflexivity); clear Same; cbn [marked body single_part] in *.
    - exact (one_ring r H).
    - exact (one_segment p l H).
    - destruct H as [H1 H2]. rewrite Forall_forall in H2. apply one_member; [exact H1|].
      intros q a Ha. apply one_curve. auto.
    - exact (one_ring r H).
    - destruct H as [H1 H2]. rewrite Forall_forall in H2. apply one_member; [exact H1|]. intros q a Ha.
      destruct (one_ring a (H2 a Ha)) as [n E]. exists (S n). unfold polygon_bytes.
      rewrite E, <- repeat_snoc, <- !app_assoc. reflexivity.
    - destruct H as [H1 H2]. rewrite Forall_forall in H2. apply one_member; [exact H1|]. intros q a Ha.
      destruct (one_ring a (H2 a Ha)) as [n E]. exists (S n). unfold triangle_bytes.
      rewrite E, <- repeat_snoc, <- !app_assoc. reflexivity.
  Qed.

  (** several parts: the reader runs into an end mark *)
  Notation Hrh := (nested_spatialite z m).
  Lemma header_of : forall i t0 t b, t <> TUnknown -> info_ok i LE t0 ->
    exists i', reads (rh i) (hdr LE (type_code t) ++ b) [] i' b /\ info_ok i' LE t.
  Proof. intros i t0 t b Ht (He & _ & Hz & Hm & _). exact (Hrh i LE LE t b Ht He Hz Hm eq_refl). Qed.

  Definition segment_reader (i : info) (k : nat) : rd unit :=
    rbind (rh i) (fun ci => match i_type ci with
          | TCircularString => process_circularstring multi ci k
          | TLineString => process_linestring multi ci false k
          | _ => rfail EGeometryFormat
          end).
  Lemma reads_segment : forall i t k p s b, info_ok i LE t -> ok_segment s ->
    reads (segment_reader i k) (segment_bytes hdr cb little p s ++ b) (ev_segment multi k (map_segment st s)) tt b.
  Proof.
    intros i t k p [l|l] b Hi Hs; cbn [segment_bytes ev_segment map_segment on_segment] in *;
      unfold segment_reader, linestring_bytes, arc_bytes; rewrite <- app_assoc.
    - destruct (header_of i t TLineString (line_bytes cb LE l ++ b) ltac:(discriminate) Hi) as (i' & R & Hi').
      eapply reads_bind0; [exact R|]. replace (i_type i') with TLineString by (symmetry; apply Hi').
      eapply reads_line_le; eassumption.
    - destruct (header_of i t TCircularString (line_bytes cb LE l ++ b) ltac:(discriminate) Hi) as (i' & R & Hi').
      eapply reads_bind0; [exact R|]. replace (i_type i') with TCircularString by (symmetry; apply Hi').
      eapply (reads_arc multi rh hdr z m eq Hrh); eassumption.
  Qed.
  Lemma segment_events : forall k s, exists e l, ev_segment multi k s = e :: l.
  Proof. intros k [l|l]; eexists; eexists; reflexivity. Qed.
  Lemma curve_events : forall k s, exists e l, ev_curve multi k s = e :: l.
  Proof. intros k [l|l|l]; eexists; eexists; reflexivity. Qed.

  Lemma derails_compound : forall i t idx d p l b, info_ok i LE t -> cnt (length l) -> Forall ok_segment l ->
    (d <= 128)%nat -> (2 <= length l)%nat ->
    derails (process_compoundcurve multi rh i idx d (marked_segments hdr cb p l ++ b))
            (ev_compound multi idx (map (map_segment st) l)).
  Proof.
    intros i t idx d p l b Hi Hn Hl Hd H2. unfold process_compoundcurve, marked_segments, members, ev_compound.
    replace (Nat.ltb max_nesting_depth d) with false by (symmetry; apply Nat.ltb_ge; unfold max_nesting_depth; lia).
    replace (i_endian i) with LE by (symmetry; apply Hi). rewrite <- app_assoc.
    eapply derails_r0; [apply reads_count; exact Hn|]. rewrite Nnat.Nat2N.id, map_length.
    apply derails_call, derails_l. destruct l as [|s0 [|s1 l]]; try (cbn in H2; lia).
    inversion Hl as [|? ? H0 Hl']; subst. cbn [length map flat_mapi]. rewrite <- !app_assoc.
    apply (derails_second _ (segment_reader i) (ev_segment multi) _ _ _ _ _ _ (reads_segment i t 0%nat (0%nat :: p) s0 _ Hi H0)).
    destruct (segment_events 1 (map_segment st s1)) as (e & r & ->). apply derails_header.
  Qed.

  Lemma derails_compound_curve : forall i t k d p s b, info_ok i LE t -> ok_curve (CvCompound s) ->
    (d <= 127)%nat -> (2 <= length s)%nat ->
    derails (process_curve multi rh i k d (marked_curve hdr cb p (CvCompound s) ++ b)) (ev_curve multi k (map_curve st (CvCompound s))).
  Proof.
    intros i t k d p s b Hi [Hn Hs] Hd H2. unfold process_curve. cbn [marked_curve ev_curve map_curve]. rewrite <- !app_assoc.
    destruct (header_of i t TCompoundCurve (marked_segments hdr cb p s ++ [xfe] ++ b) ltac:(discriminate) Hi) as (i' & R & Hi').
    eapply derails_r0; [exact R|]. replace (i_type i') with TCompoundCurve by (symmetry; apply Hi').
    eapply derails_compound; try eassumption. lia.
  Qed.
  Lemma curve_cases : forall c, single_curve c \/ exists s, c = CvCompound s /\ (2 <= length s)%nat.
  Proof.
    intros [l|l|l]; try (left; exact I). cbn. unfold at_most_one. destruct (le_lt_dec (length l) 1); [left; assumption|].
    right. exists l. split; [reflexivity|lia].
  Qed.
  Lemma derails_curvepolygon : forall i t idx d p l b, info_ok i LE t -> cnt (length l) -> Forall ok_curve l ->
    (d + max_of curve_levels l <= 128)%nat -> (d <= 126)%nat -> ~ (at_most_one l /\ Forall single_curve l) ->
    derails (process_curvepolygon multi rh i idx d (members little p (marked_curve hdr cb) l ++ b))
            (ev_curvepolygon multi idx (map (map_curve st) l)).
  Proof.
    intros i t idx d p l b Hi Hn Hl Hd Hd' NS. unfold process_curvepolygon, members, ev_curvepolygon.
    replace (Nat.ltb max_nesting_depth d) with false by (symmetry; apply Nat.ltb_ge; unfold max_nesting_depth; lia).
    replace (i_endian i) with LE by (symmetry; apply Hi). rewrite <- app_assoc.
    eapply derails_r0; [apply reads_count; exact Hn|]. rewrite Nnat.Nat2N.id, map_length.
    apply derails_call, derails_l. destruct l as [|c0 l].
    { exfalso. apply NS. split; [unfold at_most_one; cbn; lia|constructor]. }
    inversion Hl as [|? ? H0 Hl']; subst. cbn [length map flat_mapi]. rewrite <- !app_assoc.
    destruct (curve_cases c0) as [S0|(s & -> & S2)].
    - destruct l as [|c1 l].
      { exfalso. apply NS. split; [unfold at_most_one; cbn; lia|constructor; [exact S0|constructor]]. }
      cbn [length map flat_mapi]. destruct (one_curve (0%nat :: p) c0 S0) as [n E]. rewrite E. rewrite <- !app_assoc.
      assert (L0 : (d + 1 + curve_levels c0 <= 129)%nat) by (cbn [max_of fold_right] in Hd; lia).
      eapply derails_second.
      + exact (reads_curve multi rh hdr z m little eq Hrh (fun _ _ => eq_refl) i p 0 t (d + 1)%nat c0 _ Hi H0 L0).
      + assert (X : exists q, repeat xfe n ++ marked_curve hdr cb (1%nat :: p) c1 ++
            flat_mapi (fun (k : nat) (a : curve) => marked_curve hdr cb (k :: p) a) 2 l ++ b = xfe :: q).
        { destruct n as [|n]; [|eexists; reflexivity]. exfalso. cbn [repeat] in E. rewrite app_nil_r in E.
          apply (f_equal (@length _)) in E. destruct c0 as [y|y|y]; cbn [marked_curve curve_bytes] in E.
          - rewrite app_length in E. cbn [length] in E. lia.
          - rewrite app_length in E. cbn [length] in E. lia.
          - destruct (one_segment (0%nat :: p) y S0) as [n' E']. change (little (0%nat :: p)) with LE in E; rewrite E', !app_length in E. cbn [length] in E. lia. }
        destruct X as [q ->]. destruct (curve_events 1 (map_curve st c1)) as (e & r & ->). apply derails_header.
    - eapply derails_first. eapply derails_compound_curve; try eassumption. lia.
  Qed.

  Lemma rings_cases : forall r : rings, at_most_one r \/ (2 <= length r)%nat.
  Proof. intros r. unfold at_most_one. lia. Qed.
  (** polyhedral surfaces and TINs *)
  Lemma derails_faces : forall (code : N) (ty : wtype) (proc : info -> nat -> rd unit) (ev : nat -> rings -> list event) i t l b p,
    code = type_code ty -> ty <> TUnknown ->
    (forall i' k r b, info_ok i' LE ty -> ok_rings r -> reads (proc i' k) (rings_bytes cb LE r ++ b) (ev k r) tt b) ->
    (forall i' k r b, info_ok i' LE ty -> ok_rings r -> Forall ord r -> (2 <= length r)%nat ->
       derails (proc i' k (marked_rings cb r ++ b)) (ev k r)) ->
    (forall k r, exists e q, ev k r = e :: q) ->
    info_ok i LE t -> Forall ok_rings l -> Forall (Forall ord) l -> ~ (at_most_one l /\ Forall at_most_one l) ->
    derails (rfor (fun k => rbind (rh i) (fun ci => proc ci k)) (length l) 0
               (flat_mapi (fun k a => (fun (_ : list nat) r => (hdr LE code ++ marked_rings cb r) ++ [xfe]) (k :: p) a) 0 l ++ b))
            (flat_mapi ev 0 l).
  Proof.
    intros code ty proc ev i t l b p -> Hty Hr Hdr Hev Hi Hl Ho NS. destruct l as [|r0 l].
    { exfalso. apply NS. split; [unfold at_most_one; cbn; lia|constructor]. }
    inversion Hl as [|? ? H0 Hl']; subst. inversion Ho as [|? ? O0 Ho']; subst. cbn [length flat_mapi].
    destruct (rings_cases r0) as [S0|S0].
    - destruct l as [|r1 l].
      { exfalso. apply NS. split; [unfold at_most_one; cbn; lia|constructor; [exact S0|constructor]]. }
      cbn [length flat_mapi]. destruct (one_ring r0 S0) as [n E]. rewrite E. rewrite <- !app_assoc.
      match goal with |- context [hdr LE (type_code ty) ++ rings_bytes cb LE r0 ++ ?rest] => set (REST := rest) end.
      destruct (header_of i t ty (rings_bytes cb LE r0 ++ REST) Hty Hi) as (i' & R & Hi').
      eapply derails_second.
      + eapply reads_bind0; [exact R|]. apply Hr; assumption.
      + assert (X : exists q, REST = xfe :: q) by (unfold REST; destruct n; eexists; reflexivity).
        destruct X as [q ->]. destruct (Hev 1%nat r1) as (e & w & ->). apply derails_header.
    - rewrite <- !app_assoc.
      match goal with |- context [hdr LE (type_code ty) ++ marked_rings cb r0 ++ ?rest] => set (REST := rest) end.
      destruct (header_of i t ty (marked_rings cb r0 ++ REST) Hty Hi) as (i' & R & Hi').
      eapply derails_first. eapply derails_r0; [exact R|]. apply Hdr; assumption.
  Qed.
  Lemma derails_geom : forall g i b, info_ok i LE (gtype g) -> encodable g -> (levels g <= 128)%nat -> ordinary g ->
    ~ single_part g ->
    derails (process_geom_n geom_fuel multi rh i 0 0 (marked hdr cb [] g ++ b)) (gevents multi 0 (retained z m g)).
  Proof.
    intros g i b Hi Hg Hl Ho NS. unfold geom_fuel. cbn [process_geom_n].
    change (Nat.ltb max_nesting_depth 0) with false. cbn [negb].
    destruct g; try (exfalso; apply NS; exact I); unfold encodable in Hg; cbn [marked single_part ordinary on_geom] in *;
      pose proof (proj1 (proj2 Hi)) as Ht; cbn [gtype kind_code type_of_code] in Ht; rewrite Ht; unfold retained; cbn [map_geom gevents].
    - eapply derails_polygon; try eassumption. unfold at_most_one in NS. lia.
    - eapply derails_compound; try eassumption; try apply Hg; unfold at_most_one in NS; cbn; lia.
    - cbn [levels] in Hl. eapply derails_curvepolygon; try eassumption; try apply Hg; cbn; lia.
    - eapply derails_triangle; try eassumption. unfold at_most_one in NS. lia.
    - destruct Hg as [Hn Hr]. unfold members. replace (i_endian i) with LE by (symmetry; apply Hi). rewrite <- app_assoc.
      eapply derails_r0; [apply reads_count; exact Hn|]. cbv zeta. rewrite Nnat.Nat2N.id, map_length.
      apply derails_call, derails_l. rewrite flat_mapi_map.
      eapply (derails_faces 3 TPolygon (fun ci k => process_polygon multi ci false k)
                (fun k r => ev_polygon multi false k (map (map st) r)) i _ l _ []); try eassumption; try reflexivity; try discriminate.
      + intros. eapply (reads_polygon multi rh hdr z m eq Hrh); eassumption.
      + intros. eapply derails_polygon; eassumption.
      + intros. eexists. eexists. reflexivity.
    - destruct Hg as [Hn Hr]. unfold members. replace (i_endian i) with LE by (symmetry; apply Hi). rewrite <- app_assoc.
      eapply derails_r0; [apply reads_count; exact Hn|]. cbv zeta. rewrite Nnat.Nat2N.id, map_length.
      apply derails_call, derails_l. rewrite flat_mapi_map.
      eapply (derails_faces 17 TTriangle (fun ci k => process_triangle multi ci false k)
                (fun k r => ev_triangle multi false k (map (map st) r)) i _ l _ []); try eassumption; try reflexivity; try discriminate.
      + intros. eapply (reads_triangle multi rh hdr z m eq Hrh); eassumption.
      + intros. eapply derails_triangle; eassumption.
      + intros. eexists. eexists. reflexivity.
  Qed.
End Reader.

(** ** Both *)
Lemma single_part_dec : forall g, single_part g \/ ~ single_part g.
Proof.
  assert (O : forall A (l : list A), at_most_one l \/ ~ at_most_one l) by (intros; unfold at_most_one; lia).
  assert (F : forall A (P : A -> Prop) l, (forall a, P a \/ ~ P a) -> Forall P l \/ ~ Forall P l).
  { intros A P l D. induction l as [|a l IH]; [left; constructor|]. destruct (D a), IH.
    - left. constructor; assumption.
    - right. intros X. inversion X. contradiction.
    - right. intros X. inversion X. contradiction.
    - right. intros X. inversion X. contradiction. }
  assert (C : forall c, single_curve c \/ ~ single_curve c) by (intros [l|l|l]; cbn; auto).
  intros []; cbn; auto.
  - destruct (O _ l), (F _ single_curve l C); tauto.
  - destruct (O _ l), (F _ at_most_one l (O _)); tauto.
  - destruct (O _ l), (F _ at_most_one l (O _)); tauto.
Qed.

Lemma spatialite_exact : forall d rd srid env ed ext emp g,
  encodable g -> conforming (dz d) (dm d) g -> (levels g <= 128)%nat ->
  srid_ok SpatiaLite srid -> env_ok SpatiaLite ed env -> asks_for_all d rd -> ordinary g ->
  exists bytes,
    write_all (with_extended_opts SpatiaLite d rd srid env ed ext emp) (gevents (multi_dim rd) 0 g) = Ok bytes /\
    bytes = spatialite_blob (dz d) (dm d) (opt_default 0%Z srid) env g /\
    ((exists rest, delivers (fun dr => process_wkb_type_geom SpatiaLite dr bytes)
        (fun multi => Srid (reported_srid SpatiaLite srid) :: gevents multi 0 g) (Ok (tt, rest))) <->
     single_part g).
Proof.
  intros d rd srid env ed ext emp g Hg Hc Hl Hs He Hr Ho. eexists.
  split; [apply blob_written; [exact Hr|eapply conforming_no_empty; exact Hc]|]. split; [reflexivity|]. split.
  - intros [rest D]. destruct (single_part_dec g) as [S|NS]; [exact S|]. exfalso.
    specialize (D _ (recorder xy_dims false) []). cbn [p_dims recorder] in D. rewrite recorder_run in D. cbn [app] in D.
    revert D. apply derails_not. unfold process_wkb_type_geom, spatialite_blob.
    destruct (gtype_code g) as [E Hu]. rewrite <- E.
    assert (I : is_i32 (opt_default 0%Z srid)).
    { destruct srid as [s|]; [exact Hs|]. cbn. unfold is_i32. lia. }
    eapply derails_r0; [apply (reads_spatialite_header (dz d) (dm d) (opt_default 0%Z srid) env LE (gtype g)); assumption|].
    cbn [i_srid]. replace (reported_srid SpatiaLite srid) with (srid_or_none (opt_default 0%Z srid))
      by (destruct srid as [[]|]; reflexivity).
    apply derails_call.
    replace (gevents (multi_dim xy_dims) 0 g) with (gevents (multi_dim xy_dims) 0 (retained (dz d) (dm d) g))
      by (rewrite (retained_conforming _ _ _ Hc); reflexivity).
    apply derails_geom; try assumption. repeat split.
  - intros S. destruct (one_part (dz d) (dm d) g [] S) as [n E]. exists ([xfe] ++ repeat xfe n).
    assert (X : spatialite_blob (dz d) (dm d) (opt_default 0%Z srid) env g =
                std SpatiaLite d srid env ed ext emp little g ++ repeat xfe n).
    { unfold spatialite_blob. cbn [std]. unfold enc_spatialite. rewrite E, <- !app_assoc, repeat_snoc. reflexivity. }
    rewrite X. pose proof (delivers_std SpatiaLite d srid env ed ext emp little g (repeat xfe n) Hg Hl Hs He I) as D.
    rewrite (retained_conforming _ _ _ Hc) in D. exact D.
Qed.
