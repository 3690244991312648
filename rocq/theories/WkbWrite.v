(** The writer produces the standard layout (helper lemmas for C01, C02, C03, C05, C12). *)
From Coq Require Import String Ascii.
From Coq Require Import List NArith ZArith Lia Bool ZifyBool ZifyNat ZifyN.
From Coq Require Import Init.Byte.
From Verif Require Import Base BaseLemmas Float Event EventLemmas Geom WkbModel WkbSpec WkbClaims WkbRead.
Import ListNotations.
Local Open Scope N_scope.
Local Open Scope list_scope.

Section Writer.
  Variable c : wcfg.
  Hypothesis Hle : w_endian c = LE.
  Variable multi : bool.

  Notation z := (dz (w_dims c)).
  Notation m := (dm (w_dims c)).
  Notation W := (wkb_writer c).

  (** headers of sub-geometries and of the whole *)
  Definition sub_hdr (e : endian) (code : N) : list byte :=
    match w_dialect c with
    | Wkb | Geopackage | MySQL => iso_header z m e code
    | Ewkb => ewkb_header z m None e code
    | SpatiaLite => spatialite_sub_header z m e code
    end.

  Definition top_hdr (code : N) : list byte :=
    match w_dialect c with
    | Wkb => iso_header z m LE code
    | Ewkb => ewkb_header z m (w_srid c) LE code
    | Geopackage =>
        gpkg_header LE (w_extended c) (w_empty c) (dz (w_env_dims c)) (dm (w_env_dims c))
          (opt_default 0%Z (w_srid c)) (w_envelope c) ++ iso_header z m LE code
    | MySQL => bytes_of LE 4 (i32_to_u32 (opt_default 0%Z (w_srid c))) ++ iso_header z m LE code
    | SpatiaLite => spatialite_header z m (opt_default 0%Z (w_srid c)) (w_envelope c) LE code
    end.

  Definition srid_writable : Prop :=
    match w_dialect c, w_srid c with MySQL, Some s => (0 <= s < 2 ^ 31)%Z | _, _ => True end.

  Definition hd (first : bool) (code : N) : list byte :=
    if first then top_hdr code else sub_hdr LE code.

  Definition foot (n : nat) : list byte :=
    match w_dialect c, n with SpatiaLite, O => [xfe] | _, _ => [] end.

  (** the position as delivered *)
  Definition seen (p : coord) : coord := if multi then p else mkC (cx p) (cy p) None None.
  Definition wcb (e : endian) (p : coord) : list byte := coord_bytes z m e (seen p).

  Lemma wkb_header_eq : forall s t,
    write_wkb_header c s t = out_app s (iso_header z m LE (type_code t)).
  Proof.
    intros [f g n out] t. unfold write_wkb_header, out_app, iso_header, w_u8, w_u32.
    rewrite Hle. cbn [w_first w_state w_nest w_out byte_order_mark].
    f_equal. rewrite <- app_assoc. f_equal. cbn [app order_byte].
    destruct t, (dz (w_dims c)), (dm (w_dims c)); reflexivity.
  Qed.

  Lemma ewkb_header_eq : forall f g n out t,
    write_ewkb_header c (mkWst f g n out) t =
    mkWst false g n (out ++ ewkb_header z m (if f then w_srid c else None) LE (type_code t)).
  Proof.
    intros f g n out t.
    unfold write_ewkb_header, out_app, set_first, ewkb_header, w_u8, w_u32, w_i32.
    rewrite Hle. cbn [w_first w_state w_nest w_out byte_order_mark].
    destruct f, (w_srid c) as [s|]; cbn [w_first w_state w_nest w_out is_some andb];
      rewrite <- ?app_assoc; cbn [app order_byte]; rewrite ?app_nil_r;
      destruct t, (dz (w_dims c)), (dm (w_dims c)); reflexivity.
  Qed.

  Lemma gpkg_header_eq : forall s,
    write_gpkg_header c s = out_app s
      (gpkg_header LE (w_extended c) (w_empty c) (dz (w_env_dims c)) (dm (w_env_dims c))
        (opt_default 0%Z (w_srid c)) (w_envelope c)).
  Proof.
    intros [f g n out]. unfold write_gpkg_header, out_app, gpkg_header, w_u8, w_i32, w_f64.
    rewrite Hle. cbn [w_first w_state w_nest w_out]. f_equal. rewrite <- !app_assoc. f_equal.
    cbn [app]. repeat f_equal.
    unfold env_info, gpkg_env_code.
    destruct (w_envelope c), (w_extended c), (w_empty c), (dz (w_env_dims c)), (dm (w_env_dims c));
      reflexivity.
  Qed.

  Lemma spatialite_first_eq : forall g n out t,
    write_spatialite_header c (mkWst true g n out) t =
    mkWst false g n (out ++ spatialite_header z m (opt_default 0%Z (w_srid c)) (w_envelope c) LE
                              (type_code t)).
  Proof.
    intros g n out t.
    unfold write_spatialite_header, out_app, set_first, spatialite_header, w_u8, w_i32, w_u32, w_f64.
    rewrite Hle. cbn [w_first w_state w_nest w_out byte_order_mark].
    rewrite andb_false_r. f_equal. rewrite <- !app_assoc. f_equal. cbn [app order_byte].
    destruct (w_envelope c), t, (dz (w_dims c)), (dm (w_dims c)); reflexivity.
  Qed.

  Lemma spatialite_sub_eq : forall g n out t,
    write_spatialite_header c (mkWst false g n out) t =
    mkWst false g n (out ++ spatialite_sub_header z m LE (type_code t)).
  Proof.
    intros g n out t.
    unfold write_spatialite_header, out_app, spatialite_sub_header, w_u8, w_u32.
    rewrite Hle. cbn [w_first w_state w_nest w_out].
    rewrite andb_false_r. f_equal. rewrite <- !app_assoc. f_equal. cbn [app].
    destruct t, (dz (w_dims c)), (dm (w_dims c)); reflexivity.
  Qed.

  (** The Wkb dialect never clears first_header (102-104), so the state after a header is: *)
  Definition first_after (f : bool) : bool := match w_dialect c with Wkb => f | _ => false end.

  Lemma header_eq : forall f g n out t,
    srid_writable ->
    write_header c (mkWst f g n out) t =
    (mkWst (first_after f) g n (out ++ hd f (type_code t)), Ok tt).
  Proof.
    intros f g n out t Hs. unfold write_header, hd, top_hdr, sub_hdr, srid_writable, first_after in *.
    destruct (w_dialect c) eqn:Hd; cbn [w_first].
    - rewrite wkb_header_eq. unfold out_app. cbn. destruct f; reflexivity.
    - rewrite ewkb_header_eq. destruct f; reflexivity.
    - destruct f.
      + rewrite gpkg_header_eq, wkb_header_eq. unfold out_app, set_first. cbn.
        rewrite <- app_assoc. reflexivity.
      + rewrite wkb_header_eq. reflexivity.
    - destruct f.
      + unfold write_mysql_header. destruct (w_srid c) as [s|].
        * replace (s <? 0)%Z with false by lia. rewrite wkb_header_eq.
          unfold out_app, set_first, w_u32. rewrite Hle. cbn [w_first w_state w_nest w_out opt_default].
          unfold i32_to_u32. rewrite Z.mod_small by lia. rewrite <- app_assoc. reflexivity.
        * rewrite wkb_header_eq.
          unfold out_app, set_first, w_u32. rewrite Hle. cbn [w_first w_state w_nest w_out opt_default].
          rewrite <- app_assoc. reflexivity.
      + rewrite wkb_header_eq. reflexivity.
    - destruct f; [rewrite spatialite_first_eq|rewrite spatialite_sub_eq]; reflexivity.
  Qed.

  Lemma hd_wkb : forall f code, w_dialect c = Wkb -> hd f code = sub_hdr LE code.
  Proof. intros f code H. unfold hd, top_hdr, sub_hdr. rewrite H. destruct f; reflexivity. Qed.

  Lemma hd_after : forall f code, hd (first_after f) code = sub_hdr LE code.
  Proof.
    intros f code. unfold first_after. destruct (w_dialect c) eqn:H; try reflexivity.
    apply hd_wkb. exact H.
  Qed.

  Lemma first_after_idem : forall f, first_after (first_after f) = first_after f.
  Proof. intros f. unfold first_after. destruct (w_dialect c); reflexivity. Qed.

  (** inside an element: no footers are written *)
  Definition nofoot (n : nat) : Prop := foot n = [].
  Lemma nofoot_S : forall n, nofoot (S n).
  Proof. intros n. unfold nofoot, foot. destruct (w_dialect c); reflexivity. Qed.

  Lemma footer_eq : forall f g n out,
    write_footer c (mkWst f g n out) = (mkWst f g n (out ++ foot n), Ok tt).
  Proof.
    intros f g n out. unfold write_footer, foot. cbn [w_nest].
    destruct (w_dialect c), n; cbn [Nat.eqb]; rewrite ?app_nil_r; reflexivity.
  Qed.

  Hypothesis Hsrid : srid_writable.

  Lemma header_size_eq : forall f g n out t k,
    header_size c (mkWst f g n out) t k =
    (mkWst (first_after f) g n (out ++ hd f (type_code t) ++ count_bytes LE k), Ok tt).
  Proof.
    intros. unfold header_size. rewrite header_eq by exact Hsrid. unfold out_app, w_u32, count_bytes.
    rewrite Hle. cbn. rewrite <- app_assoc. reflexivity.
  Qed.

  Lemma coord_eq : forall f g n out k p,
    g <> MultiPointGeom ->
    run W [ev_coord multi k p] (mkWst f g n out) = (mkWst f g n (out ++ wcb LE p), Ok tt).
  Proof.
    intros f g n out k p Hg. unfold ev_coord, wcb, seen, coord_bytes.
    destruct multi; cbn [run wkb_writer p_step wkb_step]; unfold write_coordinate, out_app, w_f64;
      rewrite Hle; destruct g; try congruence; cbn [w_state w_first w_nest w_out cx cy cz cm];
      destruct (dz (w_dims c)), (dm (w_dims c)); cbn [w_state w_first w_nest w_out];
      rewrite <- ?app_assoc, ?app_nil_r; reflexivity.
  Qed.

  Lemma mp_coord_eq : forall f n out k p,
    run W [ev_coord multi k p] (mkWst (first_after f) MultiPointGeom n out) =
    (mkWst (first_after f) MultiPointGeom n (out ++ sub_hdr LE 1 ++ wcb LE p), Ok tt).
  Proof.
    intros f n out k p. unfold ev_coord, wcb, seen, coord_bytes.
    destruct multi; cbn [run wkb_writer p_step wkb_step]; unfold write_coordinate;
      cbn [w_state]; rewrite header_eq by exact Hsrid; rewrite first_after_idem, hd_after;
      unfold out_app, w_f64;
      rewrite Hle; cbn [w_state w_first w_nest w_out cx cy cz cm];
      destruct (dz (w_dims c)), (dm (w_dims c)); cbn [w_state w_first w_nest w_out];
      rewrite <- ?app_assoc, ?app_nil_r; reflexivity.
  Qed.

  (** a list of elements written one after the other *)
  Lemma run_list : forall A (ev : nat -> A -> list event) (bs : nat -> A -> list byte) f g n l i out,
    (forall k a out, In a l ->
       run W (ev k a) (mkWst f g n out) = (mkWst f g n (out ++ bs k a), Ok tt)) ->
    run W (flat_mapi ev i l) (mkWst f g n out) = (mkWst f g n (out ++ flat_mapi bs i l), Ok tt).
  Proof.
    induction l as [|a l IH]; intros i out H; cbn [flat_mapi].
    - cbn [run]. now rewrite app_nil_r.
    - rewrite run_app, H by (left; reflexivity). rewrite IH, <- app_assoc; [reflexivity|].
      intros k x out' Hx. apply H. right. exact Hx.
  Qed.

  Lemma run_list_const : forall A (ev : nat -> A -> list event) (bs : A -> list byte) f g n l i out,
    (forall k a out, In a l ->
       run W (ev k a) (mkWst f g n out) = (mkWst f g n (out ++ bs a), Ok tt)) ->
    run W (flat_mapi ev i l) (mkWst f g n out) = (mkWst f g n (out ++ flat_map bs l), Ok tt).
  Proof.
    intros * H. rewrite (flat_map_mapi _ _ bs l i). apply run_list. exact H.
  Qed.

  Lemma run_cons : forall e l s s',
    wkb_step c s e = (s', Ok tt) -> run W (e :: l) s = run W l s'.
  Proof. intros * H. cbn [run wkb_writer p_step]. now rewrite H. Qed.

  Lemma run_coords : forall f g n l out, g <> MultiPointGeom ->
    run W (ev_coords multi l) (mkWst f g n out) = (mkWst f g n (out ++ flat_map (wcb LE) l), Ok tt).
  Proof.
    intros f g n l out Hg. unfold ev_coords. rewrite mapi_flat.
    apply run_list_const. intros k a out' _. apply coord_eq. exact Hg.
  Qed.

  (** a ring: no header *)
  Lemma run_ring : forall f n k l out, nofoot n ->
    run W (ev_line multi false k l) (mkWst f RingGeom n out) =
    (mkWst f RingGeom n (out ++ line_bytes wcb LE l), Ok tt).
  Proof.
    intros f n k l out Hn. unfold ev_line, line_bytes, count_bytes.
    erewrite run_cons by (cbn [wkb_step w_state]; unfold out_app, w_u32; rewrite Hle;
      cbn [w_first w_state w_nest w_out]; reflexivity).
    rewrite run_app, run_coords by discriminate.
    cbn [run wkb_writer p_step wkb_step]. rewrite footer_eq, Hn, app_nil_r, <- app_assoc.
    reflexivity.
  Qed.

  Lemma run_rings : forall f n r i out, nofoot n ->
    run W (flat_mapi (ev_line multi false) i r) (mkWst f RingGeom n out) =
    (mkWst f RingGeom n (out ++ flat_map (line_bytes wcb LE) r), Ok tt).
  Proof. intros. apply run_list_const. intros. apply run_ring. assumption. Qed.

  (** linestring / circularstring with header, footer included *)
  Lemma run_line : forall f tagged n k l out,
    run W (ev_line multi tagged k l) (mkWst f Normal n out) =
    (mkWst (first_after f) Normal n (out ++ (hd f 2 ++ line_bytes wcb LE l) ++ foot n), Ok tt).
  Proof.
    intros f tagged n k l out. unfold ev_line, line_bytes.
    erewrite run_cons by (cbn [wkb_step w_state]; apply (header_size_eq f Normal n out TLineString)).
    rewrite run_app, run_coords by discriminate.
    cbn [run wkb_writer p_step wkb_step]. rewrite footer_eq, <- !app_assoc. reflexivity.
  Qed.

  Lemma run_arc : forall f n k l out,
    run W (ev_arc multi k l) (mkWst f Normal n out) =
    (mkWst (first_after f) Normal n (out ++ (hd f 8 ++ line_bytes wcb LE l) ++ foot n), Ok tt).
  Proof.
    intros f n k l out. unfold ev_arc, line_bytes.
    erewrite run_cons by (cbn [wkb_step w_state]; apply (header_size_eq f Normal n out TCircularString)).
    rewrite run_app, run_coords by discriminate.
    cbn [run wkb_writer p_step wkb_step]. rewrite footer_eq, <- !app_assoc. reflexivity.
  Qed.

  Lemma run_polygon : forall f tagged n k r out, nofoot n ->
    run W (ev_polygon multi tagged k r) (mkWst f Normal n out) =
    (mkWst (first_after f) Normal n (out ++ hd f 3 ++ rings_bytes wcb LE r), Ok tt).
  Proof.
    intros f tagged n k r out Hn. unfold ev_polygon, rings_bytes.
    erewrite run_cons by (cbn [wkb_step]; rewrite (header_size_eq f Normal n out TPolygon);
      cbn [then_state]; unfold set_state; cbn [w_first w_nest w_out]; reflexivity).
    rewrite run_app, run_rings by exact Hn.
    cbn [run wkb_writer p_step wkb_step]. unfold set_state. cbn [w_first w_nest w_out].
    rewrite footer_eq, Hn, app_nil_r, <- !app_assoc. reflexivity.
  Qed.

  Lemma run_triangle : forall f tagged n k r out, nofoot n ->
    run W (ev_triangle multi tagged k r) (mkWst f Normal n out) =
    (mkWst (first_after f) Normal n (out ++ hd f 17 ++ rings_bytes wcb LE r), Ok tt).
  Proof.
    intros f tagged n k r out Hn. unfold ev_triangle, rings_bytes.
    erewrite run_cons by (cbn [wkb_step]; rewrite (header_size_eq f Normal n out TTriangle);
      cbn [then_state]; unfold set_state; cbn [w_first w_nest w_out]; reflexivity).
    rewrite run_app, run_rings by exact Hn.
    cbn [run wkb_writer p_step wkb_step]. unfold set_state. cbn [w_first w_nest w_out].
    rewrite footer_eq, Hn, app_nil_r, <- !app_assoc. reflexivity.
  Qed.

  Notation o := (fun _ : list nat => LE).
  Notation mem f l := (members o [] f l).

  (** [members] does not depend on the path when the byte order is constant *)
  Lemma members_path : forall A (f : list nat -> A -> list byte) p l,
    (forall p q a, f p a = f q a) -> members o p f l = mem f l.
  Proof.
    intros A f p l H. unfold members. f_equal. apply flat_mapi_ext. intros j a _. apply H.
  Qed.

  (** containers: header, members with [nofoot] inside, footer *)
  Lemma run_container : forall A (ev : nat -> A -> list event) (bs : list nat -> A -> list byte)
      b en t f n n' l out p,
    (forall f g out, g = Normal -> wkb_step c (mkWst f g n out) (b (length l)) =
       (mkWst (first_after f) Normal n' (out ++ hd f (type_code t) ++ count_bytes LE (length l)), Ok tt)) ->
    (forall f out, wkb_step c (mkWst f Normal n' out) en = (mkWst f Normal n (out ++ foot n), Ok tt)) ->
    (forall k a out, In a l -> run W (ev k a) (mkWst (first_after f) Normal n' out) =
       (mkWst (first_after f) Normal n' (out ++ bs (k :: p) a), Ok tt)) ->
    run W (b (length l) :: flat_mapi ev 0 l ++ [en]) (mkWst f Normal n out) =
    (mkWst (first_after f) Normal n
       (out ++ (hd f (type_code t) ++ members o p bs l) ++ foot n), Ok tt).
  Proof.
    intros * Hb He Hl. erewrite run_cons by (apply Hb; reflexivity).
    rewrite run_app, (run_list _ ev (fun k a => bs (k :: p) a)) by exact Hl.
    cbn [run wkb_writer p_step]. rewrite He. unfold members. rewrite <- !app_assoc. reflexivity.
  Qed.

  (** begin with nesting_level += 1, end with -= 1 *)
  Lemma nest_begin : forall f n out t k,
    header_size c (nest_incr (mkWst f Normal n out)) t k =
    (mkWst (first_after f) Normal (S n) (out ++ hd f (type_code t) ++ count_bytes LE k), Ok tt).
  Proof. intros. unfold nest_incr. cbn [w_first w_state w_nest w_out]. apply header_size_eq. Qed.

  Lemma nest_end : forall f n out,
    nest_decr (mkWst f Normal (S n) out) (write_footer c) = (mkWst f Normal n (out ++ foot n), Ok tt).
  Proof. intros. unfold nest_decr. cbn [w_first w_state w_nest w_out]. apply footer_eq. Qed.

  Notation seg := (segment_bytes sub_hdr wcb o).
  Notation crv := (curve_bytes sub_hdr wcb o).
  Notation srf := (surface_bytes sub_hdr wcb o).

  Lemma run_sub_line : forall f n k p l out, nofoot n ->
    run W (ev_line multi false k l) (mkWst (first_after f) Normal n out) =
    (mkWst (first_after f) Normal n (out ++ linestring_bytes sub_hdr wcb o p l), Ok tt).
  Proof.
    intros f n k p l out Hn. rewrite run_line, first_after_idem, hd_after, Hn, app_nil_r. reflexivity.
  Qed.

  Lemma run_sub_arc : forall f n k p l out, nofoot n ->
    run W (ev_arc multi k l) (mkWst (first_after f) Normal n out) =
    (mkWst (first_after f) Normal n (out ++ arc_bytes sub_hdr wcb o p l), Ok tt).
  Proof.
    intros f n k p l out Hn. rewrite run_arc, first_after_idem, hd_after, Hn, app_nil_r. reflexivity.
  Qed.

  Lemma run_segment : forall f n k p s out, nofoot n ->
    run W (ev_segment multi k s) (mkWst (first_after f) Normal n out) =
    (mkWst (first_after f) Normal n (out ++ seg p s), Ok tt).
  Proof. intros f n k p [l|l] out Hn; [apply run_sub_line|apply run_sub_arc]; exact Hn. Qed.

  Lemma run_compound : forall f n k p l out, nofoot n ->
    run W (ev_compound multi k l) (mkWst f Normal n out) =
    (mkWst (first_after f) Normal n (out ++ hd f 9 ++ members o p seg l), Ok tt).
  Proof.
    intros f n k p l out Hn. unfold ev_compound.
    rewrite (run_container _ (ev_segment multi) seg (fun s => CompoundCurveBegin s k)
               (CompoundCurveEnd k) TCompoundCurve f n n l out p).
    - now rewrite Hn, app_nil_r.
    - intros f' g out' ->. apply header_size_eq.
    - intros. apply footer_eq.
    - intros. apply run_segment. exact Hn.
  Qed.

  Lemma run_curve : forall f n k p s out, nofoot n ->
    run W (ev_curve multi k s) (mkWst (first_after f) Normal n out) =
    (mkWst (first_after f) Normal n (out ++ crv p s), Ok tt).
  Proof.
    intros f n k p [l|l|l] out Hn; [apply run_sub_line|apply run_sub_arc|]; try exact Hn.
    cbn [ev_curve curve_bytes]. rewrite (run_compound _ _ _ p) by exact Hn.
    now rewrite first_after_idem, hd_after.
  Qed.

  Lemma run_curvepolygon : forall f n k p l out, nofoot n ->
    run W (ev_curvepolygon multi k l) (mkWst f Normal n out) =
    (mkWst (first_after f) Normal n (out ++ hd f 10 ++ members o p crv l), Ok tt).
  Proof.
    intros f n k p l out Hn. unfold ev_curvepolygon.
    rewrite (run_container _ (ev_curve multi) crv (fun s => CurvePolygonBegin s k)
               (CurvePolygonEnd k) TCurvePolygon f n n l out p).
    - now rewrite Hn, app_nil_r.
    - intros f' g out' ->. apply header_size_eq.
    - intros. apply footer_eq.
    - intros. apply run_curve. exact Hn.
  Qed.

  Lemma run_surface : forall f n k p s out, nofoot n ->
    run W (ev_surface multi k s) (mkWst (first_after f) Normal n out) =
    (mkWst (first_after f) Normal n (out ++ srf p s), Ok tt).
  Proof.
    intros f n k p [r|l] out Hn; cbn [ev_surface surface_bytes].
    - rewrite run_polygon by exact Hn. now rewrite first_after_idem, hd_after.
    - rewrite (run_curvepolygon _ _ _ p) by exact Hn. now rewrite first_after_idem, hd_after.
  Qed.

  Lemma run_geom : forall g f n k p out,
    no_empty g -> (nofoot n \/ spatialite_safe g) ->
    run W (gevents multi k g) (mkWst f Normal n out) =
    (mkWst (first_after f) Normal n
       (out ++ (hd f (kind_code g) ++ body sub_hdr wcb o p g) ++ foot n), Ok tt).
  Proof.
    induction g as [x| |l|l|l|l|l|l IHg|l|l|l|l|l|l|l|l] using geom_ind';
      intros f n k p out He Hn.
    - (* point *)
      cbn [gevents body].
      change [PointBegin k; ev_coord multi 0 x; PointEnd k]
        with (PointBegin k :: [ev_coord multi 0 x] ++ [PointEnd k]).
      erewrite run_cons by (cbn [wkb_step]; apply (header_eq f Normal n out TPoint); exact Hsrid).
      rewrite run_app, coord_eq by discriminate.
      cbn [run wkb_writer p_step wkb_step]. rewrite footer_eq, <- !app_assoc. reflexivity.
    - destruct He.
    - (* multipoint *)
      cbn [gevents body kind_code]. unfold ev_coords. rewrite mapi_flat.
      erewrite run_cons by (cbn [wkb_step]; rewrite nest_begin; cbn [then_state]; unfold set_state;
        cbn [w_first w_nest w_out]; reflexivity).
      rewrite run_app, (run_list _ _ (fun k c => sub_hdr LE 1 ++ wcb LE c))
        by (intros; apply mp_coord_eq).
      cbn [run wkb_writer p_step wkb_step]. unfold nest_decr, set_state.
      cbn [w_first w_state w_nest w_out]. rewrite footer_eq. unfold members.
      rewrite <- !app_assoc. reflexivity.
    - (* linestring *) apply run_line.
    - (* multilinestring *)
      cbn [gevents body kind_code].
      apply (run_container _ (ev_line multi false) (linestring_bytes sub_hdr wcb o)
               (fun s => MultiLineStringBegin s k) (MultiLineStringEnd k) TMultiLineString f n (S n)).
      + intros f' g out' ->. apply nest_begin.
      + intros. apply nest_end.
      + intros. apply run_sub_line, nofoot_S.
    - (* polygon *)
      cbn [gevents body kind_code]. destruct Hn as [Hn|Hn].
      + rewrite run_polygon, Hn, app_nil_r by exact Hn. reflexivity.
      + destruct l; [|destruct Hn]. unfold ev_polygon, rings_bytes. cbn [flat_mapi flat_map length app].
        erewrite run_cons by (cbn [wkb_step]; rewrite (header_size_eq f Normal n out TPolygon);
          cbn [then_state]; unfold set_state; cbn [w_first w_nest w_out]; reflexivity).
        cbn [run wkb_writer p_step wkb_step]. unfold set_state. cbn [w_first w_nest w_out].
        rewrite footer_eq, app_nil_r, <- !app_assoc. reflexivity.
    - (* multipolygon *)
      cbn [gevents body kind_code].
      apply (run_container _ (ev_polygon multi false) (polygon_bytes sub_hdr wcb o)
               (fun s => MultiPolygonBegin s k) (MultiPolygonEnd k) TMultiPolygon f n (S n)).
      + intros f' g out' ->. apply nest_begin.
      + intros. apply nest_end.
      + intros. rewrite run_polygon by apply nofoot_S. now rewrite first_after_idem, hd_after.
    - (* collection *)
      rewrite gevents_collection, body_collection. cbn [kind_code].
      apply on_geom_collection in He. destruct He as [_ He].
      apply (run_container _ (gevents multi) (geom_bytes sub_hdr wcb o)
               (fun s => CollectionBegin s k) (CollectionEnd k) TGeometryCollection f n (S n)).
      + intros f' g out' ->. apply nest_begin.
      + intros. apply nest_end.
      + intros j a out' Ha. rewrite Forall_forall in IHg, He.
        rewrite (IHg a Ha (first_after f) (S n) j (j :: p)) by (first [apply He; exact Ha | left; apply nofoot_S]).
        rewrite first_after_idem, hd_after, (nofoot_S n), app_nil_r. reflexivity.
    - (* circularstring *) apply run_arc.
    - (* compoundcurve *)
      cbn [gevents body kind_code]. destruct Hn as [Hn|Hn].
      + rewrite (run_compound _ _ _ p), Hn, app_nil_r by exact Hn. reflexivity.
      + destruct l; [|destruct Hn].
        apply (run_container _ (ev_segment multi) seg (fun s => CompoundCurveBegin s k)
               (CompoundCurveEnd k) TCompoundCurve f n n []).
        * intros f' g out' ->. apply header_size_eq.
        * intros. apply footer_eq.
        * intros ? ? ? [].
    - (* curvepolygon *)
      cbn [gevents body kind_code]. destruct Hn as [Hn|Hn].
      + rewrite (run_curvepolygon _ _ _ p), Hn, app_nil_r by exact Hn. reflexivity.
      + destruct l; [|destruct Hn].
        apply (run_container _ (ev_curve multi) crv (fun s => CurvePolygonBegin s k)
               (CurvePolygonEnd k) TCurvePolygon f n n []).
        * intros f' g out' ->. apply header_size_eq.
        * intros. apply footer_eq.
        * intros ? ? ? [].
    - (* multicurve *)
      cbn [gevents body kind_code].
      apply (run_container _ (ev_curve multi) crv
               (fun s => MultiCurveBegin s k) (MultiCurveEnd k) TMultiCurve f n (S n)).
      + intros f' g out' ->. apply nest_begin.
      + intros. apply nest_end.
      + intros. apply run_curve, nofoot_S.
    - (* multisurface *)
      cbn [gevents body kind_code].
      apply (run_container _ (ev_surface multi) srf
               (fun s => MultiSurfaceBegin s k) (MultiSurfaceEnd k) TMultiSurface f n (S n)).
      + intros f' g out' ->. apply nest_begin.
      + intros. apply nest_end.
      + intros. apply run_surface, nofoot_S.
    - (* triangle *)
      cbn [gevents body kind_code]. destruct Hn as [Hn|Hn].
      + rewrite run_triangle, Hn, app_nil_r by exact Hn. reflexivity.
      + destruct l; [|destruct Hn]. unfold ev_triangle, rings_bytes. cbn [flat_mapi flat_map length app].
        erewrite run_cons by (cbn [wkb_step]; rewrite (header_size_eq f Normal n out TTriangle);
          cbn [then_state]; unfold set_state; cbn [w_first w_nest w_out]; reflexivity).
        cbn [run wkb_writer p_step wkb_step]. unfold set_state. cbn [w_first w_nest w_out].
        rewrite footer_eq, app_nil_r, <- !app_assoc. reflexivity.
    - (* polyhedralsurface *)
      cbn [gevents body kind_code].
      apply (run_container _ (ev_polygon multi false) (polygon_bytes sub_hdr wcb o)
               (fun s => PolyhedralSurfaceBegin s k) (PolyhedralSurfaceEnd k) TPolyhedralSurface f n n).
      + intros f' g out' ->. apply header_size_eq.
      + intros. apply footer_eq.
      + intros j a out' Ha. destruct Hn as [Hn|Hn].
        * rewrite run_polygon by exact Hn. now rewrite first_after_idem, hd_after.
        * destruct l; [destruct Ha|destruct Hn].
    - (* tin *)
      cbn [gevents body kind_code].
      apply (run_container _ (ev_triangle multi false) (triangle_bytes sub_hdr wcb o)
               (fun s => TinBegin s k) (TinEnd k) TTin f n n).
      + intros f' g out' ->. apply header_size_eq.
      + intros. apply footer_eq.
      + intros j a out' Ha. destruct Hn as [Hn|Hn].
        * rewrite run_triangle by exact Hn. now rewrite first_after_idem, hd_after.
        * destruct l; [destruct Ha|destruct Hn].
  Qed.
End Writer.
