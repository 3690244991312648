(** The readers decode every standard encoding (helper lemmas for C01, C04, C05, C07, C12). *)
From Coq Require Import String Ascii.
From Coq Require Import List NArith ZArith Lia Bool ZifyBool ZifyNat ZifyN.
From Coq Require Import Init.Byte.
From Verif Require Import Base BaseLemmas Float Event EventLemmas Geom WkbModel WkbSpec.
Import ListNotations.
Local Open Scope N_scope.
Local Open Scope list_scope.

(** [reads f b l a rest]: on input [b], [f] makes the callbacks [l], returns [a] and leaves
    [rest] *)
Definition reads {A} (f : rd A) (b : list byte) (l : list event) (a : A) (rest : list byte) : Prop :=
  f b = calls l (Done (Ok (a, rest))).

Lemma reads_ret : forall A (a : A) b, reads (rret a) b [] a b.
Proof. reflexivity. Qed.

Lemma reads_bind : forall A B (f : rd A) (g : A -> rd B) b l1 a b1 l2 c b2,
  reads f b l1 a b1 -> reads (g a) b1 l2 c b2 -> reads (rbind f g) b (l1 ++ l2) c b2.
Proof.
  unfold reads, rbind. intros * H1 H2. rewrite H1, pbind_calls, calls_app. cbn [pbind fst snd].
  now rewrite H2.
Qed.

(** a step without callbacks *)
Lemma reads_bind0 : forall A B (f : rd A) (g : A -> rd B) b a b1 l2 c b2,
  reads f b [] a b1 -> reads (g a) b1 l2 c b2 -> reads (rbind f g) b l2 c b2.
Proof. intros * H1 H2. exact (reads_bind _ _ _ _ _ _ _ _ _ _ _ H1 H2). Qed.

Lemma reads_call : forall e b, reads (rcall e) b [e] tt b.
Proof. reflexivity. Qed.

Lemma reads_call_bind : forall B e (g : unit -> rd B) b l c b2,
  reads (g tt) b l c b2 -> reads (rbind (rcall e) g) b (e :: l) c b2.
Proof. intros * H. exact (reads_bind _ _ _ _ _ _ _ _ _ _ _ (reads_call e b) H). Qed.

(** then a last callback *)
Lemma reads_then_call : forall (f : rd unit) e b l b1,
  reads f b l tt b1 -> reads (rbind f (fun _ => rcall e)) b (l ++ [e]) tt b1.
Proof. intros * H. eapply reads_bind; [exact H|apply reads_call]. Qed.

Lemma reads_drop : forall A (f : rd A) b l a b1,
  reads f b l a b1 -> reads (rbind f (fun _ => rret tt)) b l tt b1.
Proof.
  intros * H. rewrite <- (app_nil_r l). eapply reads_bind; [exact H|apply reads_ret].
Qed.

Lemma reads_take : forall n x b, length x = n -> reads (rtake n) (x ++ b) [] x b.
Proof.
  intros n x b H. unfold reads, rtake. cbn [calls].
  assert (Hl : Nat.ltb (length (x ++ b)) n = false)
    by (apply Nat.ltb_ge; rewrite app_length; lia).
  rewrite Hl. unfold pret. subst n.
  rewrite firstn_app, firstn_all, Nat.sub_diag, skipn_app, skipn_all, Nat.sub_diag.
  cbn [firstn skipn app]. now rewrite app_nil_r.
Qed.

Lemma reads_map : forall A B (g : A -> B) f b l a b1,
  reads f b l a b1 -> reads (rmap g f) b l (g a) b1.
Proof.
  intros * H. unfold rmap. rewrite <- (app_nil_r l).
  eapply reads_bind; [exact H|apply reads_ret].
Qed.

Lemma reads_val : forall e k n b, n < 256 ^ N.of_nat k ->
  reads (rmap (val_of e) (rtake k)) (bytes_of e k n ++ b) [] n b.
Proof.
  intros e k n b H. rewrite <- (val_of_bytes_of e k n H) at 2.
  apply reads_map, reads_take, bytes_of_length.
Qed.

Lemma reads_u32 : forall e n b, n < 2 ^ 32 -> reads (r_u32 e) (bytes_of e 4 n ++ b) [] n b.
Proof. intros. apply (reads_val e 4). exact H. Qed.

Lemma reads_f64 : forall e x b, f64_ok x -> reads (r_f64 e) (bytes_of e 8 x ++ b) [] x b.
Proof. intros. apply (reads_val e 8). exact H. Qed.

Lemma reads_i32 : forall e z b, is_i32 z ->
  reads (r_i32 e) (bytes_of e 4 (i32_to_u32 z) ++ b) [] z b.
Proof.
  intros e z b H. rewrite <- (u32_to_i32_to_u32 z H) at 2.
  apply reads_map, reads_u32, i32_to_u32_lt.
Qed.

Lemma reads_u8 : forall x b, reads r_u8 (x :: b) [] (val x) b.
Proof.
  intros x b. replace (val x) with (le_val [x]) by (cbn [le_val]; lia).
  apply reads_map. apply (reads_take 1 [x]). reflexivity.
Qed.

Lemma reads_f64s : forall e l b, Forall f64_ok l ->
  reads (r_f64s e (length l)) (flat_map (bytes_of e 8) l ++ b) [] l b.
Proof.
  induction l as [|x l IH]; intros b H; cbn [length r_f64s flat_map].
  - apply reads_ret.
  - inversion H as [|? ? Hx Hl]; subst. rewrite <- app_assoc.
    eapply reads_bind0; [apply reads_f64; assumption|].
    eapply reads_bind0; [apply IH; assumption|]. apply reads_ret.
Qed.

(** ** Loops *)
Lemma reads_for : forall A (f : nat -> rd unit) (bytes : nat -> A -> list byte)
    (ev : nat -> A -> list event) l i b,
  (forall k a rest, In a l -> reads (f k) (bytes k a ++ rest) (ev k a) tt rest) ->
  reads (rfor f (length l) i) (flat_mapi bytes i l ++ b) (flat_mapi ev i l) tt b.
Proof.
  induction l as [|a l IH]; intros i b H; cbn [length rfor flat_mapi].
  - apply reads_ret.
  - rewrite <- app_assoc. eapply reads_bind; [apply H; left; reflexivity|].
    apply IH. intros k x rest Hx. apply H. right. exact Hx.
Qed.

Lemma flat_map_mapi : forall A B (f : A -> list B) l i,
  flat_map f l = flat_mapi (fun _ a => f a) i l.
Proof. induction l as [|a l IH]; intros i; cbn; [reflexivity|now rewrite (IH (S i))]. Qed.

Lemma mapi_flat : forall A B (f : nat -> A -> B) l i,
  mapi f i l = flat_mapi (fun k a => [f k a]) i l.
Proof. induction l as [|a l IH]; intros i; cbn; [reflexivity|now rewrite IH]. Qed.

Lemma flat_mapi_map : forall A B C (f : nat -> B -> list C) (g : A -> B) l i,
  flat_mapi f i (map g l) = flat_mapi (fun k a => f k (g a)) i l.
Proof. induction l as [|a l IH]; intros i; cbn; [reflexivity|now rewrite IH]. Qed.

Lemma reads_for_const : forall A (f : nat -> rd unit) (bytes : A -> list byte)
    (ev : nat -> A -> list event) l i b,
  (forall k a rest, In a l -> reads (f k) (bytes a ++ rest) (ev k a) tt rest) ->
  reads (rfor f (length l) i) (flat_map bytes l ++ b) (flat_mapi ev i l) tt b.
Proof.
  intros * H. rewrite (flat_map_mapi _ _ bytes l i).
  apply (reads_for _ f (fun _ a => bytes a) ev). exact H.
Qed.

(** ** Unfolding the collection cases of the specification *)
Lemma gevents_collection : forall multi idx l,
  gevents multi idx (GCollection l) =
  CollectionBegin (length l) idx :: flat_mapi (gevents multi) 0 l ++ [CollectionEnd idx].
Proof.
  intros multi idx l. cbn [gevents]. f_equal. f_equal.
  generalize 0%nat. induction l as [|a l IH]; intros n; cbn; [reflexivity|now rewrite IH].
Qed.

Definition geom_bytes hdr cb o p g : list byte := hdr (o p) (kind_code g) ++ body hdr cb o p g.

Lemma body_collection : forall hdr cb o p l,
  body hdr cb o p (GCollection l) =
  count_bytes (o p) (length l) ++ flat_mapi (fun k a => geom_bytes hdr cb o (k :: p) a) 0 l.
Proof.
  intros. cbn [body]. f_equal. generalize 0%nat.
  induction l as [|a l IH]; intros n; cbn; [reflexivity|now rewrite IH].
Qed.

Lemma on_geom_collection : forall E PT P Q l,
  on_geom E PT P Q (GCollection l) <-> Q (length l) /\ Forall (on_geom E PT P Q) l.
Proof.
  intros. cbn [on_geom].
  assert (H : forall l, (fix go (l : list geom) : Prop :=
           match l with [] => True | a :: r => on_geom E PT P Q a /\ go r end) l
           <-> Forall (on_geom E PT P Q) l).
  { induction l0 as [|a r IH]; [split; constructor|]. rewrite IH.
    split; [intros [H1 H2]; constructor; assumption|intros H; inversion H; tauto]. }
  rewrite H. tauto.
Qed.

Lemma levels_collection : forall l,
  levels (GCollection l) = max_of (fun a => S (levels a)) l.
Proof. induction l as [|a l IH]; cbn in *; [reflexivity|now rewrite IH]. Qed.

Lemma coll_depth_collection : forall l,
  coll_depth (GCollection l) = S (max_of coll_depth l).
Proof.
  intros l. cbn [coll_depth]. apply f_equal.
  induction l as [|a l IH]; cbn; [reflexivity|]. cbn in IH. now rewrite IH.
Qed.

Lemma max_of_in : forall A (f : A -> nat) l a, In a l -> (f a <= max_of f l)%nat.
Proof.
  induction l as [|b l IH]; intros a H; [contradiction|]. cbn [max_of fold_right].
  destruct H as [->|H]; [lia|]. specialize (IH a H). unfold max_of in IH. lia.
Qed.

Lemma max_of_le : forall A (f : A -> nat) l n,
  (forall a, In a l -> (f a <= n)%nat) -> (max_of f l <= n)%nat.
Proof.
  induction l as [|b l IH]; intros n H; cbn [max_of fold_right]; [lia|].
  specialize (IH n (fun a Ha => H a (or_intror Ha))). specialize (H b (or_introl eq_refl)).
  unfold max_of in IH. lia.
Qed.

(** ** Bodies *)
Section Body.
  Variable multi : bool.
  Variable rh : info -> rd info.
  Variable hdr : endian -> N -> list byte.
  Variables z m : bool.
  Variable o : list nat -> endian.
  Variable rel : endian -> endian -> Prop.

  (** what matters of a header *)
  Definition is_info (i : info) (e : endian) (t : wtype) : Prop :=
    i_endian i = e /\ i_type i = t /\ i_z i = z /\ i_m i = m /\ i_compressed i = false.

  Hypothesis Hrh : forall i e e' t b,
    t <> TUnknown -> i_endian i = e -> i_z i = z -> i_m i = m -> rel e e' ->
    exists i', reads (rh i) (hdr e' (type_code t) ++ b) [] i' b /\ is_info i' e' t.
  Hypothesis Ho : forall p k, rel (o p) (o (k :: p)).

  Notation st := (stored z m).
  Notation cb := (coord_bytes z m).

  Definition raw (c : coord) : rawcoord := (cx c, cy c, cz c, cm c).

  Lemma reads_coord : forall i e t c b,
    is_info i e t -> coord64 c ->
    reads (read_coord_as false i) (cb e c ++ b) [] (raw (st c)) b.
  Proof.
    intros i e t c b (He & _ & Hz & Hm & _) (Hx & Hy & Hcz & Hcm).
    unfold read_coord_as, coord_bytes, raw, stored. rewrite He, Hz, Hm. cbn [cx cy cz cm].
    rewrite <- !app_assoc.
    eapply reads_bind0; [apply reads_f64; assumption|].
    eapply reads_bind0; [apply reads_f64; assumption|].
    assert (Hd : forall x, of64_ok x -> f64_ok (opt_default 0 x)).
    { intros [x|] H; [exact H|]. unfold f64_ok. cbn [opt_default]. lia. }
    apply reads_bind0 with (a := if z then Some (opt_default 0 (cz c)) else None)
      (b1 := (if m then bytes_of e 8 (opt_default 0 (cm c)) else []) ++ b).
    { destruct z; [apply reads_map, reads_f64, Hd; assumption|apply reads_ret]. }
    apply reads_bind0 with (a := if m then Some (opt_default 0 (cm c)) else None) (b1 := b).
    { destruct m; [apply reads_map, reads_f64, Hd; assumption|apply reads_ret]. }
    apply reads_ret.
  Qed.

  Lemma reads_emit : forall c idx b,
    reads (emit_coord multi idx (raw c)) b [ev_coord multi idx c] (raw c) b.
  Proof.
    intros c idx b. unfold emit_coord, raw, ev_coord. apply reads_call_bind, reads_ret.
  Qed.

  Lemma reads_process_coord : forall i e t c idx b,
    is_info i e t -> coord64 c ->
    reads (process_coord multi i idx) (cb e c ++ b) [ev_coord multi idx (st c)] (raw (st c)) b.
  Proof.
    intros. unfold process_coord. eapply reads_bind0; [eapply reads_coord; eassumption|].
    apply reads_emit.
  Qed.

  Lemma ev_coords_map : forall l, ev_coords multi (map st l) =
    flat_mapi (fun k c => [ev_coord multi k (st c)]) 0 l.
  Proof. intros l. unfold ev_coords. now rewrite mapi_flat, flat_mapi_map. Qed.

  Lemma reads_coords : forall i e t l b,
    is_info i e t -> Forall coord64 l ->
    reads (process_coords multi i (length l)) (flat_map (cb e) l ++ b)
          (ev_coords multi (map st l)) tt b.
  Proof.
    intros i e t l b Hi Hl. rewrite ev_coords_map. unfold process_coords.
    apply reads_for_const. intros k c rest Hc. apply reads_drop with (a := raw (st c)).
    rewrite Forall_forall in Hl. eapply reads_process_coord; eauto.
  Qed.

  Notation cnt := (fun n : nat => N.of_nat n < 2 ^ 32).
  Notation ok_line := (on_line coord64 cnt).
  Notation ok_rings := (on_rings coord64 cnt).

  Lemma reads_count : forall e n b, cnt n ->
    reads (r_u32 e) (count_bytes e n ++ b) [] (N.of_nat n) b.
  Proof. intros. apply reads_u32. assumption. Qed.

  Lemma reads_line : forall i e t tagged idx l b,
    is_info i e t -> ok_line l ->
    reads (process_linestring multi i tagged idx) (line_bytes cb e l ++ b)
          (ev_line multi tagged idx (map st l)) tt b.
  Proof.
    intros i e t tagged idx l b Hi [Hn Hl]. unfold process_linestring, line_bytes, ev_line.
    destruct Hi as (He & Ht & Hz & Hm & Hc). rewrite He, Hc, <- app_assoc.
    eapply reads_bind0; [apply reads_count; exact Hn|]. rewrite Nnat.Nat2N.id, map_length.
    apply reads_call_bind. cbn [andb]. apply reads_then_call.
    apply reads_coords with (t := t); [repeat split; assumption|exact Hl].
  Qed.

  Lemma reads_arc : forall i e t idx l b,
    is_info i e t -> ok_line l ->
    reads (process_circularstring multi i idx) (line_bytes cb e l ++ b)
          (ev_arc multi idx (map st l)) tt b.
  Proof.
    intros i e t idx l b Hi [Hn Hl]. unfold process_circularstring, line_bytes, ev_arc.
    destruct Hi as (He & Ht & Hz & Hm & Hc). rewrite He, <- app_assoc.
    eapply reads_bind0; [apply reads_count; exact Hn|]. rewrite Nnat.Nat2N.id, map_length.
    apply reads_call_bind. apply reads_then_call.
    apply reads_coords with (t := t); [repeat split; assumption|exact Hl].
  Qed.

  Lemma reads_rings_loop : forall i e t r b,
    is_info i e t -> Forall ok_line r ->
    reads (rfor (fun k => process_linestring multi i false k) (length r) 0)
          (flat_map (line_bytes cb e) r ++ b)
          (flat_mapi (ev_line multi false) 0 (map (map st) r)) tt b.
  Proof.
    intros i e t r b Hi Hr. rewrite flat_mapi_map. apply reads_for_const.
    intros k l rest Hin. rewrite Forall_forall in Hr. eapply reads_line; eauto.
  Qed.

  Lemma reads_polygon : forall i e t tagged idx r b,
    is_info i e t -> ok_rings r ->
    reads (process_polygon multi i tagged idx) (rings_bytes cb e r ++ b)
          (ev_polygon multi tagged idx (map (map st) r)) tt b.
  Proof.
    intros i e t tagged idx r b Hi [Hn Hr]. unfold process_polygon, rings_bytes, ev_polygon.
    replace (i_endian i) with e by (symmetry; apply Hi). rewrite <- app_assoc.
    eapply reads_bind0; [apply reads_count; exact Hn|]. rewrite Nnat.Nat2N.id, map_length.
    apply reads_call_bind, reads_then_call. eapply reads_rings_loop; eassumption.
  Qed.

  Lemma reads_triangle : forall i e t tagged idx r b,
    is_info i e t -> ok_rings r ->
    reads (process_triangle multi i tagged idx) (rings_bytes cb e r ++ b)
          (ev_triangle multi tagged idx (map (map st) r)) tt b.
  Proof.
    intros i e t tagged idx r b Hi [Hn Hr]. unfold process_triangle, rings_bytes, ev_triangle.
    replace (i_endian i) with e by (symmetry; apply Hi). rewrite <- app_assoc.
    eapply reads_bind0; [apply reads_count; exact Hn|]. rewrite Nnat.Nat2N.id, map_length.
    apply reads_call_bind, reads_then_call. eapply reads_rings_loop; eassumption.
  Qed.

  (** member header followed by something *)
  Lemma reads_hdr : forall i p k t t0 (g : info -> rd unit) bs l b,
    t <> TUnknown -> is_info i (o p) t0 ->
    (forall i', is_info i' (o (k :: p)) t -> reads (g i') (bs ++ b) l tt b) ->
    reads (rbind (rh i) g) ((hdr (o (k :: p)) (type_code t) ++ bs) ++ b) l tt b.
  Proof.
    intros i p k t t0 g bs l b Ht (He & _ & Hz & Hm & _) H. rewrite <- app_assoc.
    destruct (Hrh i (o p) (o (k :: p)) t (bs ++ b) Ht He Hz Hm (Ho p k)) as (i' & H1 & H2).
    eapply reads_bind0; [exact H1|]. apply H. exact H2.
  Qed.

  (** count, then a loop over members *)
  Lemma reads_members : forall A (f : list nat -> A -> list byte) (g : nat -> rd unit)
      (ev : nat -> A -> list event) (mk : nat -> event) (en : event) i p t l b,
    is_info i (o p) t -> cnt (length l) ->
    (forall k a rest, In a l -> reads (g k) (f (k :: p) a ++ rest) (ev k a) tt rest) ->
    reads (rbind (r_u32 (i_endian i)) (fun n =>
             let c := N.to_nat n in
             rbind (rcall (mk c)) (fun _ => rbind (rfor g c 0) (fun _ => rcall en))))
          (members o p f l ++ b) (mk (length l) :: flat_mapi ev 0 l ++ [en]) tt b.
  Proof.
    intros * Hi Hn H. unfold members. replace (i_endian i) with (o p) by (symmetry; apply Hi).
    rewrite <- app_assoc. eapply reads_bind0; [apply reads_count; exact Hn|].
    cbv zeta. rewrite Nnat.Nat2N.id. apply reads_call_bind, reads_then_call.
    apply (reads_for _ g (fun k a => f (k :: p) a)). exact H.
  Qed.

  Notation ok_segment := (on_segment coord64 cnt).
  Notation ok_curve := (on_curve coord64 cnt).
  Notation ok_surface := (on_surface coord64 cnt).

  Ltac depth_ok := match goal with
    | |- context [Nat.ltb max_nesting_depth ?d] =>
        replace (Nat.ltb max_nesting_depth d) with false
          by (symmetry; apply Nat.ltb_ge; unfold max_nesting_depth in *; lia)
    end.

  Lemma reads_compound : forall i p t idx d l b,
    is_info i (o p) t -> cnt (length l) -> Forall ok_segment l -> (d <= 128)%nat ->
    reads (process_compoundcurve multi rh i idx d) (members o p (segment_bytes hdr cb o) l ++ b)
          (ev_compound multi idx (map (map_segment st) l)) tt b.
  Proof.
    intros i p t idx d l b Hi Hn Hl Hd. unfold process_compoundcurve. depth_ok.
    unfold ev_compound. rewrite map_length, flat_mapi_map.
    apply (reads_members _ (segment_bytes hdr cb o) _ (fun k a => ev_segment multi k (map_segment st a))
             (fun n => CompoundCurveBegin n idx) (CompoundCurveEnd idx) i p t l b Hi Hn).
    intros k s rest Hs. rewrite Forall_forall in Hl. specialize (Hl s Hs).
    destruct s as [s|s]; cbn [segment_bytes ev_segment map_segment on_segment] in *.
    - apply (reads_hdr i p k TLineString t); [discriminate|exact Hi|].
      intros i' Hi'. replace (i_type i') with TLineString by (symmetry; apply Hi').
      eapply reads_line; eassumption.
    - apply (reads_hdr i p k TCircularString t); [discriminate|exact Hi|].
      intros i' Hi'. replace (i_type i') with TCircularString by (symmetry; apply Hi').
      eapply reads_arc; eassumption.
  Qed.

  Lemma reads_curve : forall i p k t d c b,
    is_info i (o p) t -> ok_curve c -> (d + curve_levels c <= 129)%nat ->
    reads (process_curve multi rh i k d) (curve_bytes hdr cb o (k :: p) c ++ b)
          (ev_curve multi k (map_curve st c)) tt b.
  Proof.
    intros i p k t d c b Hi Hc Hd. unfold process_curve.
    destruct c as [l|l|l]; cbn [curve_bytes ev_curve map_curve on_curve curve_levels] in *.
    - apply (reads_hdr i p k TLineString t); [discriminate|exact Hi|].
      intros i' Hi'. replace (i_type i') with TLineString by (symmetry; apply Hi').
      eapply reads_line; eassumption.
    - apply (reads_hdr i p k TCircularString t); [discriminate|exact Hi|].
      intros i' Hi'. replace (i_type i') with TCircularString by (symmetry; apply Hi').
      eapply reads_arc; eassumption.
    - apply (reads_hdr i p k TCompoundCurve t); [discriminate|exact Hi|].
      intros i' Hi'. replace (i_type i') with TCompoundCurve by (symmetry; apply Hi').
      destruct Hc as [Hn Hl]. eapply reads_compound; try eassumption. lia.
  Qed.

  Lemma reads_curvepolygon : forall i p t idx d l b,
    is_info i (o p) t -> cnt (length l) -> Forall ok_curve l ->
    (d + max_of curve_levels l <= 128)%nat ->
    reads (process_curvepolygon multi rh i idx d) (members o p (curve_bytes hdr cb o) l ++ b)
          (ev_curvepolygon multi idx (map (map_curve st) l)) tt b.
  Proof.
    intros i p t idx d l b Hi Hn Hl Hd. unfold process_curvepolygon. depth_ok.
    unfold ev_curvepolygon. rewrite map_length, flat_mapi_map.
    apply (reads_members _ (curve_bytes hdr cb o) _ (fun k a => ev_curve multi k (map_curve st a))
             (fun n => CurvePolygonBegin n idx) (CurvePolygonEnd idx) i p t l b Hi Hn).
    intros k c rest Hc. rewrite Forall_forall in Hl. eapply reads_curve; eauto.
    pose proof (max_of_in _ curve_levels l c Hc). lia.
  Qed.

  Lemma all_nanb_raw : forall c,
    (f64_is_nan (cx c) && f64_is_nan (cy c) && opt_nan (cz c) && opt_nan (cm c))%bool = all_nanb c.
  Proof. reflexivity. Qed.

  (** the type tag of a tree *)
  Definition gtype (g : geom) : wtype := type_of_code (kind_code g).

  Lemma gtype_code : forall g, type_code (gtype g) = kind_code g /\ gtype g <> TUnknown.
  Proof. intros []; split; (reflexivity || discriminate). Qed.

  Notation ok_geom := (on_geom True (fun _ => True) coord64 cnt).

  Lemma reads_geom : forall g fuel i p idx d b,
    is_info i (o p) (gtype g) -> ok_geom g ->
    (d + levels g <= 128)%nat -> (129 <= fuel + d)%nat ->
    reads (process_geom_n fuel multi rh i idx d) (body hdr cb o p g ++ b)
          (gevents multi idx (retained z m g)) tt b.
  Proof.
    induction g as [c| |l|l|l|l|l|l IHg|l|l|l|l|l|l|l|l] using geom_ind';
      intros fuel i p idx d b Hi Hok Hd Hf;
      (destruct fuel as [|fuel]; [lia|]); cbn [process_geom_n]; depth_ok;
      (match goal with |- context [match i_type i with _ => _ end] =>
         let H := fresh in pose proof (proj1 (proj2 Hi)) as H; rewrite H; clear H end);
      cbn [gtype type_of_code kind_code].
    - (* point *)
      destruct Hok as [Hc _]. unfold retained. cbn [map_geom]. unfold point_or_empty.
      eapply reads_bind0; [eapply reads_coord; eassumption|].
      unfold raw at 1. rewrite all_nanb_raw.
      destruct (all_nanb (st c)).
      + apply reads_call.
      + cbn [gevents]. apply reads_call_bind. cbn [app].
        change [ev_coord multi 0 (st c); PointEnd idx]
          with ([ev_coord multi 0 (st c)] ++ [PointEnd idx]).
        eapply reads_bind; [apply (reads_emit (st c))|apply reads_call].
    - (* empty point *)
      eapply reads_bind0.
      { eapply reads_coord; [eassumption|]. repeat split; cbn; unfold f64_ok; lia. }
      unfold raw at 1. rewrite all_nanb_raw.
      replace (all_nanb (st nan_coord)) with true
        by (unfold all_nanb, stored, nan_coord; destruct z, m; vm_compute; reflexivity).
      apply reads_call.
    - (* multipoint *)
      destruct Hok as [Hn Hl]. unfold retained. cbn [map_geom gevents body].
      rewrite map_length, ev_coords_map.
      apply (reads_members _ (point_bytes hdr cb o) _
               (fun k c => [ev_coord multi k (st c)])
               (fun n => MultiPointBegin n idx) (MultiPointEnd idx) i p _ l b Hi Hn).
      intros k c rest Hc. rewrite Forall_forall in Hl.
      apply (reads_hdr i p k TPoint (gtype (GMultiPoint l))); [discriminate|exact Hi|].
      intros i' Hi'. apply reads_drop with (a := raw (st c)).
      eapply reads_process_coord; eauto.
    - (* linestring *) eapply reads_line; eassumption.
    - (* multilinestring *)
      destruct Hok as [Hn Hl]. unfold retained. cbn [map_geom gevents body].
      rewrite map_length, flat_mapi_map.
      apply (reads_members _ (linestring_bytes hdr cb o) _
               (fun k a => ev_line multi false k (map st a))
               (fun n => MultiLineStringBegin n idx) (MultiLineStringEnd idx) i p _ l b Hi Hn).
      intros k c rest Hc. rewrite Forall_forall in Hl.
      apply (reads_hdr i p k TLineString (gtype (GMultiLineString l))); [discriminate|exact Hi|].
      intros i' Hi'. eapply reads_line; eauto.
    - (* polygon *) eapply reads_polygon; eassumption.
    - (* multipolygon *)
      destruct Hok as [Hn Hl]. unfold retained. cbn [map_geom gevents body].
      rewrite map_length, flat_mapi_map.
      apply (reads_members _ (polygon_bytes hdr cb o) _
               (fun k a => ev_polygon multi false k (map (map st) a))
               (fun n => MultiPolygonBegin n idx) (MultiPolygonEnd idx) i p _ l b Hi Hn).
      intros k c rest Hc. rewrite Forall_forall in Hl.
      apply (reads_hdr i p k TPolygon (gtype (GMultiPolygon l))); [discriminate|exact Hi|].
      intros i' Hi'. eapply reads_polygon; eauto.
    - (* collection *)
      apply on_geom_collection in Hok. destruct Hok as [Hn Hl]. unfold retained.
      cbn [map_geom]. rewrite gevents_collection, body_collection, map_length, flat_mapi_map.
      apply (reads_members _ (geom_bytes hdr cb o) _
               (fun k a => gevents multi k (retained z m a))
               (fun n => CollectionBegin n idx) (CollectionEnd idx) i p _ l b Hi Hn).
      intros k c rest Hc. rewrite Forall_forall in Hl, IHg. unfold geom_bytes.
      rewrite <- (proj1 (gtype_code c)).
      apply (reads_hdr i p k (gtype c) (gtype (GCollection l)));
        [apply gtype_code|exact Hi|].
      intros i' Hi'. apply IHg; auto; try lia.
      rewrite levels_collection in Hd.
      pose proof (max_of_in _ (fun a => S (levels a)) l c Hc) as Hm. cbn beta in Hm. lia.
    - (* circularstring *) eapply reads_arc; eassumption.
    - (* compoundcurve *)
      destruct Hok as [Hn Hl]. cbn [levels] in Hd. eapply reads_compound; eauto.
    - (* curvepolygon *)
      destruct Hok as [Hn Hl]. cbn [levels] in Hd. eapply reads_curvepolygon; eauto. lia.
    - (* multicurve *)
      destruct Hok as [Hn Hl]. unfold retained. cbn [map_geom gevents body].
      rewrite map_length, flat_mapi_map.
      apply (reads_members _ (curve_bytes hdr cb o) _
               (fun k a => ev_curve multi k (map_curve st a))
               (fun n => MultiCurveBegin n idx) (MultiCurveEnd idx) i p _ l b Hi Hn).
      intros k c rest Hc. rewrite Forall_forall in Hl. cbn [levels] in Hd.
      pose proof (max_of_in _ curve_levels l c Hc). eapply reads_curve; eauto. lia.
    - (* multisurface *)
      destruct Hok as [Hn Hl]. unfold retained. cbn [map_geom gevents body].
      rewrite map_length, flat_mapi_map.
      apply (reads_members _ (surface_bytes hdr cb o) _
               (fun k a => ev_surface multi k (map_surface st a))
               (fun n => MultiSurfaceBegin n idx) (MultiSurfaceEnd idx) i p _ l b Hi Hn).
      intros k c rest Hc. rewrite Forall_forall in Hl. cbn [levels] in Hd.
      pose proof (max_of_in _ surface_levels l c Hc) as Hm. specialize (Hl c Hc).
      destruct c as [r|cs]; cbn [surface_bytes ev_surface map_surface on_surface surface_levels] in *.
      + apply (reads_hdr i p k TPolygon (gtype (GMultiSurface l))); [discriminate|exact Hi|].
        intros i' Hi'. replace (i_type i') with TPolygon by (symmetry; apply Hi').
        eapply reads_polygon; eauto.
      + apply (reads_hdr i p k TCurvePolygon (gtype (GMultiSurface l))); [discriminate|exact Hi|].
        intros i' Hi'. replace (i_type i') with TCurvePolygon by (symmetry; apply Hi').
        destruct Hl as [Hn' Hl']. eapply reads_curvepolygon; eauto. lia.
    - (* triangle *) eapply reads_triangle; eassumption.
    - (* polyhedralsurface *)
      destruct Hok as [Hn Hl]. unfold retained. cbn [map_geom gevents body].
      rewrite map_length, flat_mapi_map.
      apply (reads_members _ (polygon_bytes hdr cb o) _
               (fun k a => ev_polygon multi false k (map (map st) a))
               (fun n => PolyhedralSurfaceBegin n idx) (PolyhedralSurfaceEnd idx) i p _ l b Hi Hn).
      intros k c rest Hc. rewrite Forall_forall in Hl.
      apply (reads_hdr i p k TPolygon (gtype (GPolyhedralSurface l))); [discriminate|exact Hi|].
      intros i' Hi'. eapply reads_polygon; eauto.
    - (* tin *)
      destruct Hok as [Hn Hl]. unfold retained. cbn [map_geom gevents body].
      rewrite map_length, flat_mapi_map.
      apply (reads_members _ (triangle_bytes hdr cb o) _
               (fun k a => ev_triangle multi false k (map (map st) a))
               (fun n => TinBegin n idx) (TinEnd idx) i p _ l b Hi Hn).
      intros k c rest Hc. rewrite Forall_forall in Hl.
      apply (reads_hdr i p k TTriangle (gtype (GTin l))); [discriminate|exact Hi|].
      intros i' Hi'. eapply reads_triangle; eauto.
  Qed.
End Body.
