(** C80: lengths of encodings. *)
From Coq Require Import String Ascii.
From Coq Require Import List NArith ZArith Lia Bool.
From Coq Require Import Init.Byte.
From Verif Require Import Base BaseLemmas Float Event EventLemmas Geom WkbModel WkbSpec WkbClaims WkbWrite WkbWriteTop WkbTop WkbMarks.
From Verif Require Import WkbSeq ChainTop InjExactTop WkbSizeSpec.
Import ListNotations.
Local Open Scope nat_scope.
Local Open Scope list_scope.

Lemma total_cons : forall A (f : A -> nat) a l, total f (a :: l) = f a + total f l.
Proof. reflexivity. Qed.
Lemma total_const : forall A (f : A -> nat) k l, (forall a, f a = k) -> total f l = k * length l.
Proof.
  intros A f k l H. induction l as [|a l IH]; [cbn; lia|]. rewrite total_cons, H, IH. cbn [length]. lia.
Qed.
Lemma flat_map_total : forall A B (f : A -> list B) l, length (flat_map f l) = total (fun a => length (f a)) l.
Proof.
  intros A B f l. induction l as [|a l IH]; [reflexivity|]. cbn [flat_map]. now rewrite app_length, IH.
Qed.
Lemma total_ext : forall A (f g : A -> nat) l, (forall a, f a = g a) -> total f l = total g l.
Proof. intros A f g l H. unfold total. now rewrite (map_ext _ _ H). Qed.
Lemma flat_mapi_total : forall A B (f : nat -> A -> list B) (k : A -> nat) l i,
  (forall j a, length (f j a) = k a) -> length (flat_mapi f i l) = total k l.
Proof.
  intros A B f k l i H. revert i. induction l as [|a l IH]; intros i; [reflexivity|].
  cbn [flat_mapi]. now rewrite app_length, IH, H.
Qed.

Section Sizes.
  Variable hdr : endian -> N -> list byte.
  Variable cb : endian -> coord -> list byte.
  Variable w : nat.
  Hypothesis HH : forall e c, length (hdr e c) = 5.
  Hypothesis HC : forall e c, length (cb e c) = w.

  Definition sz (h c p : nat) : nat := 5 * h + 4 * c + w * p.
  Lemma total_sz : forall A (h c p : A -> nat) l,
    total (fun a => sz (h a) (c a) (p a)) l = sz (total h l) (total c l) (total p l).
  Proof.
    intros A h c p l. unfold sz. induction l as [|a l IH]; [cbn; lia|]. rewrite !total_cons, IH. lia.
  Qed.
  Lemma count_size : forall e n, length (count_bytes e n) = 4.
  Proof. intros e n. apply bytes_of_length. Qed.
  Lemma line_size : forall e l, length (line_bytes cb e l) = sz 0 1 (length l).
  Proof.
    intros e l. unfold line_bytes, sz. rewrite app_length, count_size, flat_map_total.
    rewrite (total_const _ _ w) by (intros; apply HC). lia.
  Qed.
  Lemma rings_size : forall e r, length (rings_bytes cb e r) = sz 0 (rings_counts r) (rings_positions r).
  Proof.
    intros e r. unfold rings_bytes. rewrite app_length, count_size, flat_map_total.
    rewrite (total_ext line _ (fun l => sz 0 1 (length l))) by (intros; apply line_size).
    rewrite (total_sz line (fun _ => 0) (fun _ => 1) (@length coord)).
    rewrite (total_const line (fun _ => 0) 0 r), (total_const line (fun _ => 1) 1 r) by reflexivity.
    unfold sz, rings_counts, rings_positions, rings, line in *. lia.
  Qed.
  Variable o : list nat -> endian.
  Lemma members_size : forall A (f : list nat -> A -> list byte) (h c p : A -> nat) q l,
    (forall q a, length (f q a) = sz (h a) (c a) (p a)) ->
    length (members o q f l) = sz (total h l) (1 + total c l) (total p l).
  Proof.
    intros A f h c p q l H. unfold members. rewrite app_length, count_size.
    rewrite (flat_mapi_total _ _ _ (fun a => sz (h a) (c a) (p a))) by (intros; apply H).
    rewrite total_sz. unfold sz. lia.
  Qed.
  Lemma total_one : forall A (l : list A), total (fun _ => 1) l = length l.
  Proof. intros A l. rewrite (total_const _ _ 1) by reflexivity. lia. Qed.
  Lemma total_zero : forall A (l : list A), total (fun _ => 0) l = 0.
  Proof. intros A l. rewrite (total_const _ _ 0) by reflexivity. lia. Qed.
  Lemma segment_size : forall q s, length (segment_bytes hdr cb o q s) = sz 1 1 (segment_positions s).
  Proof.
    intros q [l|l]; unfold segment_bytes, linestring_bytes, arc_bytes; rewrite app_length, HH, line_size; unfold sz, segment_positions; lia.
  Qed.
  Lemma curve_size : forall q c, length (curve_bytes hdr cb o q c) = sz (curve_headers c) (curve_counts c) (curve_positions c).
  Proof.
    intros q [l|l|s]; unfold curve_bytes, linestring_bytes, arc_bytes; rewrite app_length, HH;
      rewrite ?line_size; unfold sz, curve_headers, curve_counts, curve_positions; try lia.
    rewrite (members_size _ _ (fun _ => 1) (fun _ => 1) segment_positions) by apply segment_size.
    rewrite total_one. unfold sz. lia.
  Qed.
  Lemma surface_size : forall q s,
    length (surface_bytes hdr cb o q s) = sz (surface_headers s) (surface_counts s) (surface_positions s).
  Proof.
    intros q [r|c]; unfold surface_bytes, polygon_bytes; rewrite app_length, HH.
    - rewrite rings_size. unfold sz, surface_headers, surface_counts, surface_positions. lia.
    - rewrite (members_size _ _ curve_headers curve_counts curve_positions) by apply curve_size.
      unfold sz, surface_headers, surface_counts, surface_positions. lia.
  Qed.
  Lemma face_size : forall code q r, length (hdr (o q) code ++ rings_bytes cb (o q) r) = sz 1 (rings_counts r) (rings_positions r).
  Proof. intros code q r. rewrite app_length, HH, rings_size. unfold sz. lia. Qed.
  Ltac slia := unfold rings, line in *; lia.
  Lemma body_size : forall g p, 5 + length (body hdr cb o p g) = sz (headers g) (counts g) (positions g).
  Proof.
    induction g as [c| |l|l|l|r|l|l IH|l|l|l|l|l|r|l|l] using geom_ind'; intros p; cbn [body headers counts positions].
    - rewrite HC. unfold sz. slia.
    - rewrite HC. unfold sz. slia.
    - rewrite (members_size _ _ (fun _ => 1) (fun _ => 0) (fun _ => 1)).
      + rewrite total_one, total_zero. unfold sz. slia.
      + intros q a. unfold point_bytes. rewrite app_length, HH, HC. unfold sz. slia.
    - rewrite line_size. unfold sz. slia.
    - rewrite (members_size _ _ (fun _ => 1) (fun _ => 1) (@length coord)).
      + rewrite total_one. unfold sz, rings_positions. slia.
      + intros q a. unfold linestring_bytes. rewrite app_length, HH, line_size. unfold sz. slia.
    - rewrite rings_size. unfold sz. slia.
    - rewrite (members_size _ _ (fun _ => 1) rings_counts rings_positions) by (intros; apply face_size).
      rewrite total_one. unfold sz. slia.
    - rewrite app_length, count_size.
      match goal with |- context [length (?go 0 l)] =>
        assert (G : forall k, length (go k l) = sz (total headers l) (total counts l) (total positions l)) end.
      { induction IH as [|a l A _ IHl]; intros k; [unfold sz; cbn; lia|].
        rewrite !total_cons. cbv beta iota fix. rewrite !app_length, HH.
        specialize (A (k :: p)). specialize (IHl (S k)). cbv beta in IHl. rewrite IHl. rewrite A. unfold sz. slia. }
      rewrite G. unfold sz. slia.
    - rewrite line_size. unfold sz. slia.
    - rewrite (members_size _ _ (fun _ => 1) (fun _ => 1) segment_positions) by apply segment_size.
      rewrite total_one. unfold sz. slia.
    - rewrite (members_size _ _ curve_headers curve_counts curve_positions) by apply curve_size. unfold sz. slia.
    - rewrite (members_size _ _ curve_headers curve_counts curve_positions) by apply curve_size. unfold sz. slia.
    - rewrite (members_size _ _ surface_headers surface_counts surface_positions) by apply surface_size. unfold sz. slia.
    - rewrite rings_size. unfold sz. slia.
    - rewrite (members_size _ _ (fun _ => 1) rings_counts rings_positions) by (intros; apply face_size).
      rewrite total_one. unfold sz. slia.
    - rewrite (members_size _ _ (fun _ => 1) rings_counts rings_positions) by (intros; apply face_size).
      rewrite total_one. unfold sz. slia.
  Qed.
End Sizes.

(** ** With end marks *)
Section Marks.
  Variable hdr : endian -> N -> list byte.
  Variable cb : endian -> coord -> list byte.

  Lemma marked_rings_size : forall r,
    length (marked_rings cb r) = length (rings_bytes cb LE r) + length r.
  Proof.
    intros r. unfold marked_rings, rings_bytes. rewrite !app_length, !flat_map_total.
    rewrite (total_ext line _ (fun l => length (line_bytes cb LE l) + 1)) by (intros; apply app_length).
    induction r as [|l r IH]; [reflexivity|]. rewrite !total_cons. cbn [length]. rewrite !count_size in *. lia.
  Qed.
  Lemma members_more : forall A (f f' : list nat -> A -> list byte) (k : A -> nat) l q,
    (forall q a, length (f q a) = length (f' q a) + k a) ->
    length (members little q f l) = length (members little q f' l) + total k l.
  Proof.
    intros A f f' k l q H. unfold members. rewrite !app_length.
    enough (E : forall i, length (flat_mapi (fun j a => f (j :: q) a) i l) = length (flat_mapi (fun j a => f' (j :: q) a) i l) + total k l).
    { rewrite E. lia. }
    induction l as [|a l IH]; intros i; [reflexivity|]. cbn [flat_mapi]. rewrite !app_length, total_cons, IH, H. lia.
  Qed.
  Lemma marked_segments_size : forall q l, length (marked_segments hdr cb q l) = length (members little q (segment_bytes hdr cb little) l) + length l.
  Proof.
    intros q l. unfold marked_segments. rewrite (members_more _ _ (segment_bytes hdr cb little) (fun _ => 1)).
    - now rewrite total_one.
    - intros p a. rewrite app_length. reflexivity.
  Qed.
  Lemma marked_curve_size : forall q c, length (marked_curve hdr cb q c) = length (curve_bytes hdr cb little q c) + curve_headers c.
  Proof.
    intros q [l|l|s]; unfold marked_curve, curve_headers; rewrite ?app_length; try reflexivity.
    rewrite marked_segments_size. unfold curve_bytes. rewrite app_length. cbn [length]. change (little q) with LE. lia.
  Qed.
  Lemma marked_face_size : forall code q r, length ((hdr LE code ++ marked_rings cb r) ++ [xfe]) =
    length (hdr (little q) code ++ rings_bytes cb (little q) r) + rings_counts r.
  Proof. intros code q r. rewrite !app_length, marked_rings_size. change (little q) with LE. unfold rings_counts. cbn [length]. lia. Qed.
  Lemma marked_size : forall p g, length (marked hdr cb p g) = length (body hdr cb little p g) + end_marks g.
  Proof.
    intros p g. destruct g; cbn [marked end_marks]; try lia; cbn [body].
    - apply marked_rings_size.
    - apply marked_segments_size.
    - apply members_more. intros; apply marked_curve_size.
    - apply marked_rings_size.
    - apply members_more. intros; apply marked_face_size.
    - apply members_more. intros; apply marked_face_size.
  Qed.
End Marks.

Lemma coord_size : forall d e c, length (coord_bytes (dz d) (dm d) e c) = position_size d.
Proof.
  intros d e c. unfold coord_bytes, position_size. rewrite !app_length, !bytes_of_length.
  destruct (dz d), (dm d); rewrite ?bytes_of_length; reflexivity.
Qed.
Lemma iso_size : forall z m e c, length (iso_header z m e c) = 5.
Proof. intros. unfold iso_header. cbn [length]. now rewrite bytes_of_length. Qed.
Lemma ewkb_size : forall z m e c, length (ewkb_header z m None e c) = 5.
Proof. intros. unfold ewkb_header. cbn [length]. now rewrite app_length, bytes_of_length. Qed.
Lemma sub_size : forall z m e c, length (spatialite_sub_header z m e c) = 5.
Proof. intros. unfold spatialite_sub_header. cbn [length]. now rewrite bytes_of_length. Qed.
Lemma numbers_size : forall e l, length (flat_map (bytes_of e 8) l) = 8 * length l.
Proof. intros e l. rewrite flat_map_total. apply total_const. intros a. apply bytes_of_length. Qed.
Lemma blob_header_size : forall z m s env e c, length (spatialite_header z m s env e c) =
  11 + 8 * (match env with [] => 4 | _ => length env end).
Proof.
  intros. unfold spatialite_header. rewrite !app_length, numbers_size, !bytes_of_length.
  unfold f64 in *. destruct env; cbn [length]; lia.
Qed.

Lemma std_size : forall dl d srid env ed ext emp o g,
  length (std dl d srid env ed ext emp o g) = extra dl srid env + content d g.
Proof.
  intros dl d srid env ed ext emp o g. unfold content.
  destruct dl; unfold std, enc_gpkg, enc_mysql, enc_ewkb, enc_spatialite, extra; unfold enc_wkb; rewrite !app_length.
  - pose proof (body_size _ _ _ (iso_size (dz d) (dm d)) (coord_size d) o g []) as B. unfold sz in B. rewrite iso_size. lia.
  - pose proof (body_size _ _ _ (ewkb_size (dz d) (dm d)) (coord_size d) o g []) as B. unfold sz in B.
    unfold ewkb_header at 1. cbn [length]. rewrite app_length, bytes_of_length.
    destruct srid; rewrite ?bytes_of_length; cbn [length]; lia.
  - pose proof (body_size _ _ _ (iso_size (dz d) (dm d)) (coord_size d) o g []) as B. unfold sz in B.
    unfold gpkg_header. rewrite iso_size, !app_length, bytes_of_length, numbers_size. unfold f64 in *. cbn [length]. lia.
  - pose proof (body_size _ _ _ (iso_size (dz d) (dm d)) (coord_size d) o g []) as B. unfold sz in B.
    rewrite iso_size, bytes_of_length. lia.
  - pose proof (body_size _ _ _ (sub_size (dz d) (dm d)) (coord_size d) (fun _ => o []) g []) as B. unfold sz in B.
    rewrite blob_header_size. unfold f64 in *. cbn [length]. lia.
Qed.
Lemma blob_size : forall d srid env g,
  length (spatialite_blob (dz d) (dm d) (opt_default 0%Z srid) env g) = extra SpatiaLite srid env + content d g + end_marks g.
Proof.
  intros d srid env g. unfold spatialite_blob, extra, content. rewrite !app_length, blob_header_size, marked_size.
  pose proof (body_size _ _ _ (sub_size (dz d) (dm d)) (coord_size d) little g []) as B. unfold sz in B. cbn [length]. lia.
Qed.

Definition closing (dl : dialect) : nat := match dl with SpatiaLite => 1 | _ => 0 end.
Lemma later_size : forall dl d g, length (later dl d g) = content d g + closing dl.
Proof.
  intros dl d g. destruct dl; unfold later, closing; rewrite ?Nat.add_0_r.
  - exact (std_size Wkb d None [] xy_dims false false little g).
  - exact (std_size Ewkb d None [] xy_dims false false little g).
  - exact (std_size Wkb d None [] xy_dims false false little g).
  - exact (std_size Wkb d None [] xy_dims false false little g).
  - rewrite !app_length, sub_size.
    pose proof (body_size _ _ _ (sub_size (dz d) (dm d)) (coord_size d) little g []) as B. unfold sz in B.
    unfold content. cbn [length]. lia.
Qed.

Lemma spatialite_or_not : forall dl, dl = SpatiaLite \/ dl <> SpatiaLite.
Proof. intros []; (left; reflexivity) || (right; discriminate). Qed.
Lemma written_size : forall src l dl d srid env g w, comes src l g -> srid_ok dl srid ->
  to_wkb_dialect src dl d srid env = Ok w -> length w = extra dl srid env + content d g + marks dl g.
Proof.
  intros src l dl d srid env g w C R W. pose proof (written_no_empty _ _ _ _ _ _ _ _ C W) as N.
  destruct (spatialite_or_not dl) as [->|D].
  - rewrite (to_wkb_blob src l d srid env g C N) in W. injection W as <-. apply blob_size.
  - assert (SR : forall m, Forall (fun e => exists x, e = Srid x) (map Srid m)).
    { intros m. apply Forall_forall. intros e I. apply in_map_iff in I. destruct I as (x & <- & _). now exists x. }
    rewrite (to_wkb_std src (map Srid l) dl d srid env g tt C) in W; try assumption; try (now intros); try apply SR.
    injection W as <-. rewrite std_size. unfold marks. destruct dl; try lia. now elim D.
Qed.
Lemma no_empty_written : forall src l dl d srid env g, comes src l g -> srid_ok dl srid -> no_empty g ->
  exists w, to_wkb_dialect src dl d srid env = Ok w /\ length w = extra dl srid env + content d g + marks dl g.
Proof.
  intros src l dl d srid env g C R N.
  assert (E : exists w, to_wkb_dialect src dl d srid env = Ok w).
  { destruct (spatialite_or_not dl) as [->|D]; [eexists; exact (to_wkb_blob src l d srid env g C N)|].
    assert (SR : forall m, Forall (fun e => exists x, e = Srid x) (map Srid m)).
    { intros m. apply Forall_forall. intros e I. apply in_map_iff in I. destruct I as (x & <- & _). now exists x. }
    eexists. apply (to_wkb_std src (map Srid l) dl d srid env g tt C); try assumption; try (now intros); try apply SR. }
  destruct E as [w E]. exists w. split; [exact E|]. eapply written_size; eassumption.
Qed.

(** ** Shapes *)
Lemma total_same : forall A (R : A -> A -> Prop) (f : A -> nat), (forall a a', R a a' -> f a = f a') ->
  forall l l', Forall2 R l l' -> total f l = total f l'.
Proof. intros A R f H l l' F. induction F as [|a a' l l' E _ IH]; [reflexivity|]. rewrite !total_cons. now rewrite (H _ _ E), IH. Qed.
Lemma length_same : forall A (R : A -> A -> Prop) l l', Forall2 R l l' -> length l = length l'.
Proof. intros A R l l' F. now induction F; cbn; f_equal. Qed.
Definition measures (g : geom) : nat * nat * nat * nat := (headers g, counts g, positions g, end_marks g).
Lemma same_rings_counts : forall r r', same_rings r r' -> rings_counts r = rings_counts r'.
Proof. intros r r' F. unfold rings_counts. f_equal. exact (length_same _ _ _ _ F). Qed.
Lemma same_rings_positions : forall r r', same_rings r r' -> rings_positions r = rings_positions r'.
Proof. intros r r' F. unfold rings_positions. refine (total_same _ same_line _ _ r r' F). now intros. Qed.
Lemma same_segment_positions : forall s s', same_segment s s' -> segment_positions s = segment_positions s'.
Proof. intros [] []; cbn; tauto. Qed.
Lemma same_curve_headers : forall c c', same_curve c c' -> curve_headers c = curve_headers c'.
Proof. intros [] []; cbn; try tauto. intros F. f_equal. exact (length_same _ _ _ _ F). Qed.
Lemma same_curve_counts : forall c c', same_curve c c' -> curve_counts c = curve_counts c'.
Proof. intros [] []; cbn; try tauto. intros F. f_equal. exact (length_same _ _ _ _ F). Qed.
Lemma same_curve_positions : forall c c', same_curve c c' -> curve_positions c = curve_positions c'.
Proof. intros [] []; cbn; try tauto. apply total_same. exact same_segment_positions. Qed.
Lemma same_surface_headers : forall c c', same_surface c c' -> surface_headers c = surface_headers c'.
Proof. intros [] []; cbn; try tauto. intros F. f_equal. exact (total_same _ _ _ same_curve_headers _ _ F). Qed.
Lemma same_surface_counts : forall c c', same_surface c c' -> surface_counts c = surface_counts c'.
Proof.
  intros [] []; cbn; try tauto; intros F; f_equal; [exact (length_same _ _ _ _ F)|exact (total_same _ _ _ same_curve_counts _ _ F)].
Qed.
Lemma same_surface_positions : forall c c', same_surface c c' -> surface_positions c = surface_positions c'.
Proof. intros [] []; cbn; try tauto; [apply same_rings_positions|apply total_same; exact same_curve_positions]. Qed.
Lemma same_measures : forall g g', same_shape g g' -> measures g = measures g'.
Proof.
  induction g using geom_ind'; intros g' E; inversion E; subst; clear E; unfold measures; cbn [headers counts positions end_marks];
    repeat match goal with
    | F : Forall2 same_rings ?l ?l' |- _ =>
        rewrite (total_same _ _ _ same_rings_counts _ _ F), (total_same _ _ _ same_rings_positions _ _ F), (length_same _ _ _ _ F); clear F
    | F : Forall2 same_segment ?l ?l' |- _ =>
        rewrite (total_same _ _ _ same_segment_positions _ _ F), (length_same _ _ _ _ F); clear F
    | F : Forall2 same_curve ?l ?l' |- _ =>
        rewrite (total_same _ _ _ same_curve_headers _ _ F), (total_same _ _ _ same_curve_counts _ _ F), (total_same _ _ _ same_curve_positions _ _ F); clear F
    | F : Forall2 same_surface ?l ?l' |- _ =>
        rewrite (total_same _ _ _ same_surface_headers _ _ F), (total_same _ _ _ same_surface_counts _ _ F), (total_same _ _ _ same_surface_positions _ _ F); clear F
    | F : same_rings ?l ?l' |- _ =>
        rewrite (same_rings_positions _ _ F); rewrite ?(same_rings_counts _ _ F); rewrite ?(length_same _ _ _ _ F); clear F
    | F : same_line ?l ?l' |- _ => unfold same_line in F; try rewrite F; clear F
    end; try reflexivity.
  match goal with F : Forall2 same_shape ?l ?l' |- _ =>
    assert (X : total headers l = total headers l' /\ total counts l = total counts l' /\ total positions l = total positions l') end.
  { match goal with F : Forall2 same_shape ?l _, H : Forall _ ?l |- _ => revert H; induction F as [|a a' k k' A F IH]; intros H end;
      [now repeat split|].
    inversion_clear H as [|? ? K1 K2].
    specialize (K1 _ A). unfold measures in K1. injection K1 as E1 E2 E3 _. destruct (IH K2) as (I1 & I2 & I3).
    rewrite !total_cons. repeat split; congruence. }
  destruct X as (-> & -> & ->). reflexivity.
Qed.
Lemma shape_size : forall src src' l l' dl d srid srid' env env' g g' w w',
  comes src l g -> comes src' l' g' -> same_shape g g' -> srid_ok dl srid -> srid_ok dl srid' ->
  (srid = None <-> srid' = None) -> length env = length env' ->
  to_wkb_dialect src dl d srid env = Ok w -> to_wkb_dialect src' dl d srid' env' = Ok w' -> length w = length w'.
Proof.
  intros src src' l l' dl d srid srid' env env' g g' w w' C C' S R R' SS EE W W'.
  rewrite (written_size _ _ _ _ _ _ _ _ C R W), (written_size _ _ _ _ _ _ _ _ C' R' W').
  pose proof (same_measures _ _ S) as M. unfold measures in M. injection M as M1 M2 M3 M4.
  unfold content. rewrite M1, M2, M3. f_equal; [f_equal|unfold marks; now rewrite M4].
  unfold extra. destruct dl; try reflexivity.
  - destruct srid, srid'; try reflexivity; [destruct SS as [_ SS]|destruct SS as [SS _]]; specialize (SS eq_refl); discriminate.
  - now rewrite EE.
  - destruct env, env'; try discriminate EE; [reflexivity|]. now rewrite EE.
Qed.
(** ** Dimensions *)
Lemma dims_size : forall src l dl d d' srid env g w w', comes src l g -> srid_ok dl srid ->
  to_wkb_dialect src dl d srid env = Ok w -> to_wkb_dialect src dl d' srid env = Ok w' ->
  length w + position_size d' * positions g = length w' + position_size d * positions g.
Proof.
  intros src l dl d d' srid env g w w' C R W W'.
  rewrite (written_size _ _ _ _ _ _ _ _ C R W), (written_size _ _ _ _ _ _ _ _ C R W'). unfold content. lia.
Qed.
(** ** Reading *)
Lemma read_size : forall dl d srid env ed ext emp o g tail,
  encodable g -> levels g <= 128 -> srid_ok dl srid -> env_ok dl ed env -> order_ok dl o ->
  exists rest, delivers (fun dr => process_wkb_type_geom dl dr (std dl d srid env ed ext emp o g ++ tail))
    (fun multi => Srid (reported_srid dl srid) :: gevents multi 0 (retained (dz d) (dm d) g)) (Ok (tt, rest)) /\
    length (std dl d srid env ed ext emp o g) = extra dl srid env + content d g /\
    length rest = (match dl with SpatiaLite => 1 | _ => 0 end) + length tail.
Proof.
  intros dl d srid env ed ext emp o g tail E L R V O. exists (trailer dl ++ tail). split; [|split].
  - now apply delivers_std.
  - apply std_size.
  - rewrite app_length. now destruct dl.
Qed.
(** ** Several geometries through one writer *)
Section Blobs.
  Variables (d rd : dims) (srid : option Z) (env : list f64) (ed : dims) (ext emp : bool).
  Notation c := (with_extended_opts SpatiaLite d rd srid env ed ext emp).
  Hypothesis Hr : asks_for_all d rd.
  Notation W := (wkb_writer c).
  Notation cb := (wcb c (multi_dim rd)).
  Notation hdr := (sub_hdr c).
  Lemma marks_next : forall g f k p out, no_empty g ->
    run W (gevents (multi_dim rd) k g) (mkWst f Normal 0 out) =
    (mkWst false Normal 0 (out ++ (hd c f (kind_code g) ++ marked hdr cb p g) ++ [xfe]), Ok tt).
  Proof.
    intros g f k p out He.
    assert (Wr : srid_writable c) by (exact I).
    assert (Std : spatialite_safe g -> marked hdr cb p g = body hdr cb little p g ->
      run W (gevents (multi_dim rd) k g) (mkWst f Normal 0 out) =
      (mkWst false Normal 0 (out ++ (hd c f (kind_code g) ++ marked hdr cb p g) ++ [xfe]), Ok tt)).
    { intros Hs E. rewrite (run_geom c eq_refl (multi_dim rd) Wr g f 0 k p out) by auto.
      rewrite (after c eq_refl), (foot0 c eq_refl), E. reflexivity. }
    destruct g; try (apply Std; [exact I|reflexivity]); clear Std; cbn [gevents marked kind_code].
    - now apply marks_polygon.
    - now apply marks_compound.
    - apply (marks_container c eq_refl eq_refl _ (ev_curve (multi_dim rd)) (marked_curve hdr cb)
             (fun s => CurvePolygonBegin s k) (CurvePolygonEnd k) TCurvePolygon); try reflexivity.
      intros. now apply marks_curve.
    - now apply marks_triangle.
    - apply (marks_container c eq_refl eq_refl _ (ev_polygon (multi_dim rd) false) (fun _ r => (hdr LE 3%N ++ marked_rings cb r) ++ [xfe])
             (fun s => PolyhedralSurfaceBegin s k) (PolyhedralSurfaceEnd k) TPolyhedralSurface); try reflexivity.
      intros. now apply (marks_polygon c eq_refl eq_refl).
    - apply (marks_container c eq_refl eq_refl _ (ev_triangle (multi_dim rd) false) (fun _ r => (hdr LE 17%N ++ marked_rings cb r) ++ [xfe])
             (fun s => TinBegin s k) (TinEnd k) TTin); try reflexivity.
      intros. now apply (marks_triangle c eq_refl eq_refl).
  Qed.
  Lemma blob_piece : forall (q : piece) f out, no_empty (snd q) ->
    run W (piece_events (multi_dim rd) q) (mkWst f Normal 0 out) =
    (mkWst false Normal 0 (out ++ if f then spatialite_blob (dz d) (dm d) (opt_default 0%Z srid) env (snd q)
                                  else later_blob (dz d) (dm d) (snd q)), Ok tt).
  Proof.
    intros [[l k] g] f out E. unfold piece_events. cbn [fst snd] in *. rewrite run_srids.
    rewrite (marks_next g f k [] out E). change (wcb c (multi_dim rd)) with (wcb c (multi_dim (w_read_dims c))).
    rewrite (wcb_fun c) by exact Hr. f_equal. f_equal. f_equal. destruct f; unfold spatialite_blob, later_blob; now rewrite <- app_assoc.
  Qed.
  Lemma blob_pieces : forall qs out, Forall (fun q : piece => no_empty (snd q)) qs -> exists f,
    run W (flat_map (piece_events (multi_dim rd)) qs) (mkWst false Normal 0 out) =
    (mkWst f Normal 0 (out ++ flat_map (later_blob (dz d) (dm d)) (map snd qs)), Ok tt).
  Proof.
    induction qs as [|q qs IH]; intros out H.
    - exists false. cbn. now rewrite app_nil_r.
    - inversion_clear H as [|? ? H1 H2]. cbn [flat_map map]. rewrite run_app, (blob_piece q false) by exact H1.
      destruct (IH (out ++ later_blob (dz d) (dm d) (snd q)) H2) as [f E]. exists f. rewrite E. now rewrite <- app_assoc.
  Qed.
  Lemma blobs_written : forall q qs, Forall (fun q : piece => no_empty (snd q)) (q :: qs) ->
    write_all c (flat_map (piece_events (multi_dim rd)) (q :: qs)) = Ok (blobs d srid env (map snd (q :: qs))).
  Proof.
    intros q qs H. inversion_clear H as [|? ? H1 H2]. unfold write_all. cbn [flat_map map blobs]. unfold wst_init.
    rewrite run_app, (blob_piece q true) by exact H1.
    destruct (blob_pieces qs ([] ++ spatialite_blob (dz d) (dm d) (opt_default 0%Z srid) env (snd q)) H2) as [f E].
    rewrite E. reflexivity.
  Qed.
End Blobs.

Lemma total_plus : forall A (f : A -> nat) k l, total (fun a => f a + k) l = total f l + k * length l.
Proof. intros A f k l. induction l as [|a l IH]; [cbn; lia|]. rewrite !total_cons, IH. cbn [length]. lia. Qed.
Lemma total_add : forall A (f g : A -> nat) l, total (fun a => f a + g a) l = total f l + total g l.
Proof. intros A f g l. induction l as [|a l IH]; [reflexivity|]. rewrite !total_cons, IH. lia. Qed.
Lemma later_blob_size : forall d g, length (later_blob (dz d) (dm d) g) = content d g + end_marks g + 1.
Proof.
  intros d g. unfold later_blob, content. rewrite !app_length, sub_size, marked_size.
  pose proof (body_size _ _ _ (sub_size (dz d) (dm d)) (coord_size d) little g []) as B. unfold sz in B. cbn [length]. lia.
Qed.
Lemma several_size : forall dl d rd srid env ed ext emp q qs,
  srid_ok dl srid -> asks_for_all d rd -> Forall (fun q : piece => no_empty (snd q)) (q :: qs) ->
  exists w,
  write_all (with_extended_opts dl d rd srid env ed ext emp) (flat_map (piece_events (multi_dim rd)) (q :: qs)) = Ok w /\
  length w = extra dl srid env + total (fun g => content d g + marks dl g) (map snd (q :: qs)) + closing dl * length qs.
Proof.
  intros dl d rd srid env ed ext emp q qs R A N.
  destruct (spatialite_or_not dl) as [->|D].
  - eexists. split; [now apply blobs_written|]. cbn [map blobs closing]. rewrite app_length, blob_size, flat_map_total, total_cons.
    rewrite (total_ext _ _ (fun g => (content d g + marks SpatiaLite g) + 1)) by (intros; apply later_blob_size).
    rewrite total_plus, map_length. unfold piece, marks in *. lia.
  - exists (std dl d srid env ed ext emp little (snd q) ++ flat_map (later dl d) (map snd qs)).
    split. { apply WkbSeq.seq_bytes; [exact R|exact A|]. eapply Forall_impl; [|exact N]. intros a X. split; [exact X|]. intros E. now elim D. }
    rewrite app_length, std_size, flat_map_total. cbn [map]. rewrite total_cons.
    rewrite (total_ext _ _ (fun g => (content d g + marks dl g) + closing dl)).
    + rewrite total_plus, map_length. unfold piece, marks in *. destruct dl; try lia. now elim D.
    + intros g. rewrite later_size. unfold marks. destruct dl; try lia. now elim D.
Qed.
