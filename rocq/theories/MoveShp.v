(** Lemmas behind C88: shapefiles. *)
From Coq Require Import String Ascii.
From Coq Require Import List NArith ZArith Lia Bool.
From Coq Require Import Init.Byte.
From Verif Require Import Base BaseLemmas Float Event Geom ProcModel ProcSpec ProcTop Claims ShpModel ShpSpec ShpTop ShpFeatures ShpMore RingMore MoveSpec MoveShpSpec.
From Verif Require MoveBytes.
Import ListNotations.
Local Open Scope list_scope.

Section F.
Variable f : f64 -> f64 -> f64 * f64.
Notation C := (mv_coord f).
Lemma visible_mv : forall d c, visible d (C c) = C (visible d c).
Proof. reflexivity. Qed.
Lemma visible_line : forall d l, map (visible d) (map C l) = map C (map (visible d) l).
Proof. intros. rewrite !map_map. reflexivity. Qed.
Lemma visible_poly : forall d l, map (map (visible d)) (map (map C) l) = map (map C) (map (map (visible d)) l).
Proof. intros. rewrite !map_map. apply map_ext. intros. apply visible_line. Qed.
Lemma chunks_mv : forall l, Forall (fun r => clockwise (map C r) = clockwise r) l ->
  chunks clockwise (map (map C) l) = (map (map C) (fst (chunks clockwise l)), map (map (map C)) (snd (chunks clockwise l))).
Proof.
  intros l H. induction H as [|r l Hr H IH]; cbn [map chunks]; [reflexivity|]. rewrite IH, Hr.
  destruct (chunks clockwise l) as [pre gs]. cbn [fst snd]. destruct (clockwise r); reflexivity.
Qed.
Lemma groups_mv : forall l, Forall (fun r => clockwise (map C r) = clockwise r) (tl l) ->
  groups clockwise (map (map C) l) = map (map (map C)) (groups clockwise l).
Proof.
  intros [|r l] H; cbn [tl map groups] in *; [reflexivity|]. rewrite chunks_mv by exact H.
  destruct (chunks clockwise l) as [pre gs]. reflexivity.
Qed.

(** the callbacks of a moved shape *)
Lemma events_mv : forall d a b l l', moved_shape f a b -> shape_events d a l -> shape_events d b l' -> l' = map (on_xy f) l.
Proof.
  intros d a b l l' M. destruct M as [|v c|v m e e' q|v m e e' q|v m e e' q O|x y N]; cbn [shape_events].
  - intros -> ->. reflexivity.
  - intros (g & R & ->) (g' & R' & ->). inversion R; subst. inversion R'; subst.
    rewrite visible_mv. cbn [uses_coordinate]. rewrite <- (MoveBytes.gevents_mv f _ (GPoint (visible d c)) 0). reflexivity.
  - intros (g & R & ->) (g' & R' & ->). inversion R; subst. inversion R'; subst.
    rewrite visible_line. cbn [uses_coordinate]. rewrite <- (MoveBytes.gevents_mv f _ (GMultiPoint (map (visible d) q)) 0). reflexivity.
  - intros (g & R & ->) (g' & R' & ->). inversion R; subst. inversion R'; subst.
    rewrite visible_poly. cbn [uses_coordinate]. rewrite <- (MoveBytes.gevents_mv f _ (GMultiLineString (map (map (visible d)) q)) 0). reflexivity.
  - intros (g & R & ->) (g' & R' & ->). inversion R as [| | |? ? ? ? P G]; subst. inversion R' as [| | |? ? ? ? P' G']; subst.
    rewrite (groups_unique _ _ _ _ G') , (groups_unique _ _ _ _ G), groups_mv by exact O. cbn [uses_coordinate].
    rewrite <- (MoveBytes.gevents_mv f _ (GMultiPolygon (map (map (map (visible d))) (groups clockwise q))) 0). cbn [mv_geom].
    replace (map (map (map (visible d))) (map (map (map C)) (groups clockwise q)))
      with (map (map (map C)) (map (map (map (visible d))) (groups clockwise q))); [reflexivity|].
    rewrite !map_map. apply map_ext. intros. symmetry. apply visible_poly.
  - intros -> ->. reflexivity.
Qed.

(** sizes stay *)
Lemma flat_len : forall A (k : A -> list byte) (h : A -> A) l, (forall a, length (k (h a)) = length (k a)) ->
  length (flat_map k (map h l)) = length (flat_map k l).
Proof. intros A k h l H. induction l as [|a l IH]; cbn [map flat_map]; [reflexivity|]. rewrite !app_length, H, IH. reflexivity. Qed.
Lemma le64_len : forall x, length (le64 x) = 8.
Proof. intros. apply bytes_of_length. Qed.
Lemma flat64_len : forall A (k : A -> f64) l, length (flat_map (fun a => le64 (k a)) l) = 8 * length l.
Proof. intros A k l. induction l as [|a l IH]; cbn [flat_map length]; [reflexivity|]. rewrite app_length, le64_len, IH. lia. Qed.
Lemma xy_len : forall l, length (flat_map xy_bytes l) = 16 * length l.
Proof. induction l as [|a l IH]; cbn [flat_map length]; [reflexivity|]. unfold xy_bytes at 1. rewrite !app_length, !le64_len, IH. lia. Qed.
Lemma le64s_len : forall l, length (flat_map le64 l) = 8 * length l.
Proof. intros. apply (flat64_len _ (fun x => x)). Qed.
Lemma points_len : forall v m e l, length (e_z e) = 2 -> length (e_m e) = 2 ->
  length (points_bytes v m e l) = 16 * length l + (if is_tall v then 16 + 8 * length l else 0) + (if m then 16 + 8 * length l else 0).
Proof.
  intros v m e l Z M. unfold points_bytes. rewrite !app_length, xy_len.
  destruct (is_tall v), m; cbn [length]; rewrite ?app_length, ?le64s_len, ?flat64_len, ?Z, ?M; lia.
Qed.
Lemma starts_mv : forall l k, starts k (map (map C) l) = starts k l.
Proof. induction l as [|a l IH]; intros k; cbn [map starts]; [reflexivity|]. rewrite map_length, IH. reflexivity. Qed.
Lemma parts_len : forall v m e e' l, extent_ok e -> extent_ok e' ->
  length (parts_bytes v m e' (map (map C) l)) = length (parts_bytes v m e l).
Proof.
  intros v m e e' l (B & Z & M & _) (B' & Z' & M' & _). unfold parts_bytes.
  rewrite !app_length, !points_len, !le64s_len, B, B', starts_mv by assumption.
  rewrite <- concat_map, !map_length. reflexivity.
Qed.
Lemma content_len : forall a b, moved_shape f a b -> well_formed a -> well_formed b -> length (content b) = length (content a).
Proof.
  intros a b M [_ W] [_ W']. destruct M as [|v c|v m e e' q|v m e e' q|v m e e' q O|x y N]; cbn [content].
  - reflexivity.
  - rewrite !app_length. unfold xy_bytes. rewrite !app_length, !le64_len. reflexivity.
  - destruct W as (_ & (B & Z & X & _) & _), W' as (_ & (B' & Z' & X' & _) & _).
    rewrite !app_length, !points_len, !le64s_len, B, B', !map_length by assumption. reflexivity.
  - rewrite !app_length. f_equal. apply parts_len; [apply W|apply W'].
  - rewrite !app_length. f_equal. apply parts_len; [apply W|apply W'].
  - rewrite !app_length, N. reflexivity.
Qed.
Lemma words_mv : forall a b, moved_shape f a b -> well_formed a -> well_formed b -> words b = words a.
Proof. intros a b M W W'. unfold words. rewrite (content_len a b M W W'). reflexivity. Qed.

Theorem record_moved : forall ck n a b rest, is_i32 n -> well_formed a -> well_formed b -> moved_shape f a b ->
  reads_moved f (fun d => read_shape ck d (record_bytes n a ++ rest)) (fun d => read_shape ck d (record_bytes n b ++ rest)).
Proof.
  intros ck n a b rest Hn A B M S p s.
  destruct (record_exec ck n b rest S p s Hn B) as (l' & E' & X').
  destruct (record_exec ck n a rest S (wrapped_xy f p) s Hn A) as (l & E & X).
  rewrite X'. change (p_dims p) with (p_dims (wrapped_xy f p)). rewrite X, MoveBytes.run_wrap.
  rewrite (events_mv _ _ _ _ _ M E E'), (words_mv _ _ M A B). reflexivity.
Qed.

(** files *)
Lemma body_len : forall l l', Forall2 (moved_entry f) l l' -> Forall entry_ok l -> Forall entry_ok l' ->
  length (shp_body l') = length (shp_body l).
Proof.
  intros l l' H. induction H as [|a b l l' (R & N & M) H IH]; intros K K'; [reflexivity|].
  inversion K as [|? ? [_ A] K1]; subst. inversion K' as [|? ? [_ B] K2]; subst.
  unfold shp_body in *. cbn [flat_map]. rewrite !app_length, (IH K1 K2). unfold record_bytes, be32.
  rewrite !app_length, !bytes_of_length, (content_len _ _ M A B). reflexivity.
Qed.
Lemma announces_mv : forall h l l', Forall2 (moved_entry f) l l' -> Forall entry_ok l -> Forall entry_ok l' -> announces h l -> announces h l'.
Proof. intros h l l' H K K' [A B]. split; [|exact B]. rewrite (body_len _ _ H K K'). exact A. Qed.
Lemma records_mv : forall l l', Forall2 (moved_entry f) l l' ->
  map (fun x => Ok (en_record x)) l' = map (fun x => Ok (en_record x)) l :> list (res dbf_record).
Proof. intros l l' H. induction H as [|a b l l' (R & _) H IH]; cbn [map]; [reflexivity|]. rewrite R, IH. reflexivity. Qed.
Lemma events_of_mv : forall d l l' evs evs', Forall2 (moved_entry f) l l' -> events_of d l evs -> events_of d l' evs' ->
  evs' = map (map (on_xy f)) evs.
Proof.
  intros d l l' evs evs' H. revert evs evs'. induction H as [|a b l l' (R & N & M) H IH]; intros evs evs' E E'.
  - inversion E; inversion E'; reflexivity.
  - inversion E as [|? q ? r Q1 Q2]; subst. inversion E' as [|? q' ? r' Q3 Q4]; subst.
    cbn [map]. rewrite (IH _ _ Q2 Q4), (events_mv _ _ _ _ _ M Q1 Q3). reflexivity.
Qed.
Lemma forall2_len : forall A B (R : A -> B -> Prop) l l', Forall2 R l l' -> length l' = length l.
Proof. intros A B R l l' H. induction H as [|a b l l' r H IH]; cbn [length]; [reflexivity|now rewrite IH]. Qed.

Definition mv_act (a : act) : act :=
  match a with Tell e => Tell (on_xy f e) | Do e => Do (on_xy f e) | Offer l => Offer l end.
Lemma offer_wrap : forall S (p : proc S) l i s, offer (wrapped_xy f p) i l s = offer p i l s.
Proof.
  intros S p. induction l as [|[n v] l IH]; intros i s; cbn [offer]; [reflexivity|].
  change (p_prop (wrapped_xy f p) s i n v) with (p_prop p s i n v). destruct (p_prop p s i n v) as [t [[]|e]]; try reflexivity. apply IH.
Qed.
Lemma perform_wrap : forall S (p : proc S) l s, perform (wrapped_xy f p) l s = perform p (map mv_act l) s.
Proof.
  intros S p. induction l as [|[e|e|q] l IH]; intros s; cbn [perform map mv_act]; [reflexivity| | |].
  - rewrite <- wrap_event. destruct (p_step (wrapped_xy f p) s e) as [t [u|[]]]; try reflexivity; apply IH.
  - rewrite <- wrap_event. destruct (p_step (wrapped_xy f p) s e) as [t [u|x]]; [apply IH|reflexivity].
  - rewrite offer_wrap. destruct (offer p 0 q s) as [t [u|x]]; [apply IH|reflexivity].
Qed.
Lemma acts_mv : forall l l' evs i, Forall2 (moved_entry f) l l' ->
  flat_mapi feature_acts i (combine l' (map (map (on_xy f)) evs)) = map mv_act (flat_mapi feature_acts i (combine l evs)).
Proof.
  intros l l' evs i H. revert evs i. induction H as [|a b l l' (R & N & M) H IH]; intros [|q evs] i; cbn [combine map flat_mapi]; try reflexivity.
  rewrite map_app, IH. f_equal. unfold feature_acts. cbn [fst snd]. rewrite R. rewrite map_app, map_app. cbn [map mv_act on_xy app].
  do 5 f_equal. f_equal. rewrite !map_map. reflexivity.
Qed.
End F.

Theorem file_moved : forall f ck leftover h l l' rest more after,
  Forall entry_ok l -> Forall entry_ok l' -> Forall2 (moved_entry f) l l' -> announces h l ->
  exists it it',
    iter_features ck h (shp_body l ++ rest) (Some (map (fun x => Ok (en_record x)) l ++ more, after)) = Ok it /\
    iter_features ck h (shp_body l' ++ rest) (Some (map (fun x => Ok (en_record x)) l' ++ more, after)) = Ok it' /\
    forall S (p : proc S) s,
      consume ck leftover p (Datatypes.S (length l')) it' s = consume ck leftover (wrapped_xy f p) (Datatypes.S (length l)) it s.
Proof.
  intros f ck leftover h l l' rest more after K K' H A.
  pose proof (announces_mv f h l l' H K K' A) as A'.
  destruct (consume_file ck leftover unit (mkProc xy_dims (fun s _ => (s, Ok tt)) (fun s _ _ _ => (s, Ok false))) h l rest more after tt K A) as (it & _ & I & _).
  destruct (consume_file ck leftover unit (mkProc xy_dims (fun s _ => (s, Ok tt)) (fun s _ _ _ => (s, Ok false))) h l' rest more after tt K' A') as (it' & _ & I' & _).
  exists it, it'. split; [exact I|]. split; [exact I'|]. intros S p s.
  destruct (consume_file ck leftover S (wrapped_xy f p) h l rest more after s K A) as (jt & evs & J & E & X).
  destruct (consume_file ck leftover S p h l' rest more after s K' A') as (jt' & evs' & J' & E' & X').
  rewrite I in J. injection J as <-. rewrite I' in J'. injection J' as <-.
  rewrite X', X. change (p_dims (wrapped_xy f p)) with (p_dims p) in E. rewrite perform_wrap.
  rewrite (events_of_mv f _ _ _ _ _ H E E'). unfold file_acts. cbn [map mv_act on_xy]. rewrite map_app, <- (acts_mv f l l' evs 0 H). reflexivity.
Qed.
Theorem shapes_moved : forall f ck leftover h l l' rest,
  Forall entry_ok l -> Forall entry_ok l' -> Forall2 (moved_entry f) l l' -> announces h l ->
  exists it it', iter_geometries ck h (shp_body l ++ rest) = Ok it /\ iter_geometries ck h (shp_body l' ++ rest) = Ok it' /\
    forall S (p : proc S) s,
      consume_shapes ck leftover p (Datatypes.S (length l')) it' s = consume_shapes ck leftover (wrapped_xy f p) (Datatypes.S (length l)) it s.
Proof.
  intros f ck leftover h l l' rest K K' H A.
  pose proof (announces_mv f h l l' H K K' A) as A'.
  destruct (shapes_file ck leftover unit (mkProc xy_dims (fun s _ => (s, Ok tt)) (fun s _ _ _ => (s, Ok false))) h l rest tt K A) as (it & _ & I & _).
  destruct (shapes_file ck leftover unit (mkProc xy_dims (fun s _ => (s, Ok tt)) (fun s _ _ _ => (s, Ok false))) h l' rest tt K' A') as (it' & _ & I' & _).
  exists it, it'. split; [exact I|]. split; [exact I'|]. intros S p s.
  destruct (shapes_file ck leftover S (wrapped_xy f p) h l rest s K A) as (jt & evs & J & E & X).
  destruct (shapes_file ck leftover S p h l' rest s K' A') as (jt' & evs' & J' & E' & X').
  rewrite I in J. injection J as <-. rewrite I' in J'. injection J' as <-.
  rewrite X', X. change (p_dims (wrapped_xy f p)) with (p_dims p) in E.
  rewrite (events_of_mv f _ _ _ _ _ H E E'), MoveBytes.run_wrap, concat_map. reflexivity.
Qed.

(** an area, a point and a null shape, turned by 90 degrees *)
Definition turn (x y : f64) : f64 * f64 := (f64_neg y, x).
Definition turned_shape (sh : shape) : shape :=
  match sh with
  | OnePoint v c => OnePoint v (mv_coord turn c)
  | Areas v m e l => Areas v m e (map (map (mv_coord turn)) l)
  | s => s
  end.
Definition turned : list entry := map (fun x => mkEntry (en_record x) (en_number x) (turned_shape (en_shape x))) places.
Lemma turned_met : Forall entry_ok places /\ Forall entry_ok turned /\ Forall2 (moved_entry turn) places turned /\
  announces places_header places /\ shp_body turned <> shp_body places.
Proof.
  split; [exact places_ok|]. split.
  - unfold turned, places. cbn [map place en_record en_number en_shape turned_shape island dot].
    repeat constructor; cbn; try lia; try discriminate; try reflexivity.
  - split; [|split; [exact places_announced|vm_compute; discriminate]].
    repeat constructor; vm_compute; reflexivity.
Qed.
