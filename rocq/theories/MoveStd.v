(** Lemmas behind C88: standard encodings in any byte order. *)
From Coq Require Import String Ascii.
From Coq Require Import List NArith ZArith Lia Bool.
From Coq Require Import Init.Byte.
From Verif Require Import Base BaseLemmas Float Event Geom ProcModel ProcSpec ProcTop Claims WkbModel WkbSpec WkbClaims WkbTop MoveSpec MoveBytes.
Import ListNotations.
Local Open Scope list_scope.

Section F.
Variable f : f64 -> f64 -> f64 * f64.
Notation C := (mv_coord f).

Section Enc.
Hypothesis B : keeps_bits f.
Notation Q := (fun n => (N.of_nat n < 2 ^ 32)%N).
Lemma coord64_mv : forall c, coord64 c -> coord64 (C c).
Proof. intros c (X & Y & Z & M). destruct (B _ _ X Y) as [X' Y']. repeat split; assumption. Qed.
Lemma forall_mv : forall A (P : A -> Prop) (k : A -> A) l, (forall a, P a -> P (k a)) -> Forall P l -> Forall P (map k l).
Proof. intros A P k l H F. induction F as [|a l Ha F IH]; cbn [map]; constructor; auto. Qed.
Lemma on_list_mv : forall A (P : A -> Prop) (k : A -> A) l, (forall a, P a -> P (k a)) ->
  (Q (length l) /\ Forall P l) -> Q (length (map k l)) /\ Forall P (map k l).
Proof. intros A P k l H [N F]. rewrite map_length. split; [exact N|]. apply forall_mv; assumption. Qed.
Lemma on_line_mv : forall l, on_line coord64 Q l -> on_line coord64 Q (map C l).
Proof. intros l. apply on_list_mv. exact coord64_mv. Qed.
Lemma on_rings_mv : forall l, on_rings coord64 Q l -> on_rings coord64 Q (map (map C) l).
Proof. intros l. apply on_list_mv. exact on_line_mv. Qed.
Lemma on_segment_mv : forall s, on_segment coord64 Q s -> on_segment coord64 Q (mv_segment f s).
Proof. intros [l|l]; apply on_line_mv. Qed.
Lemma on_curve_mv : forall s, on_curve coord64 Q s -> on_curve coord64 Q (mv_curve f s).
Proof. intros [l|l|l]; [apply on_line_mv|apply on_line_mv|]. apply on_list_mv. exact on_segment_mv. Qed.
Lemma on_surface_mv : forall s, on_surface coord64 Q s -> on_surface coord64 Q (mv_surface f s).
Proof. intros [l|l]; [apply on_rings_mv|]. apply on_list_mv. exact on_curve_mv. Qed.
Lemma encodable_mv : forall g, encodable g -> encodable (mv_geom f g).
Proof.
  unfold encodable. induction g using geom_ind'; cbn [mv_geom on_geom];
    try apply on_line_mv; try apply on_rings_mv;
    try (apply on_list_mv; first [exact on_rings_mv|exact on_segment_mv|exact on_curve_mv|exact on_surface_mv]).
  - intros [H _]. split; [now apply coord64_mv|exact I].
  - auto.
  - rewrite map_length. intros [N K]. split; [exact N|]. revert K.
    induction H as [|a l Ha _ IH]; cbn [map]; [auto|]. intros [K1 K2]. split; [now apply Ha|]. apply IH; [|exact K2].
    cbn [length] in N. lia.
Qed.
End Enc.

Lemma max_of_mv : forall A (k : A -> nat) (h : A -> A) l, (forall a, k (h a) = k a) -> max_of k (map h l) = max_of k l.
Proof. intros A k h l H. unfold max_of. induction l as [|a l IH]; cbn [map fold_right]; [reflexivity|]. rewrite H, IH. reflexivity. Qed.
Lemma curve_levels_mv : forall c, curve_levels (mv_curve f c) = curve_levels c.
Proof. intros [l|l|l]; reflexivity. Qed.
Lemma surface_levels_mv : forall s, surface_levels (mv_surface f s) = surface_levels s.
Proof. intros [l|l]; [reflexivity|]. cbn [mv_surface surface_levels]. rewrite max_of_mv by exact curve_levels_mv. reflexivity. Qed.
Lemma levels_mv : forall g, levels (mv_geom f g) = levels g.
Proof.
  induction g using geom_ind'; cbn [mv_geom levels]; try reflexivity.
  - induction H as [|a l Ha _ IH]; cbn [map]; [reflexivity|]. rewrite Ha, IH. reflexivity.
  - rewrite max_of_mv by exact curve_levels_mv. reflexivity.
  - apply max_of_mv. exact curve_levels_mv.
  - apply max_of_mv. exact surface_levels_mv.
Qed.

Section Retained.
Hypothesis N : keeps_nan f.
Variables z m : bool.
Notation St := (stored z m).
Lemma stored_mv : forall c, St (C c) = C (St c).
Proof. reflexivity. Qed.
Lemma point_mv : forall c, point_or_empty (C c) = mv_geom f (point_or_empty c).
Proof.
  intros c. unfold point_or_empty, all_nanb. cbn [mv_coord cx cy cz cm]. rewrite N.
  destruct (f64_is_nan (cx c) && f64_is_nan (cy c) && match cz c with Some x => f64_is_nan x | None => true end && match cm c with Some x => f64_is_nan x | None => true end)%bool; reflexivity.
Qed.
Lemma maps_mv : forall A (k h : A -> A) l, (forall a, k (h a) = h (k a)) -> map k (map h l) = map h (map k l).
Proof. intros A k h l H. rewrite !map_map. apply map_ext. exact H. Qed.
Lemma line_mv : forall l, map St (map C l) = map C (map St l).
Proof. intros l. apply maps_mv. exact stored_mv. Qed.
Lemma rings_mv : forall l, map (map St) (map (map C) l) = map (map C) (map (map St) l).
Proof. intros l. apply maps_mv. exact line_mv. Qed.
Lemma polys_mv : forall l, map (map (map St)) (map (map (map C)) l) = map (map (map C)) (map (map (map St)) l).
Proof. intros l. apply maps_mv. exact rings_mv. Qed.
Lemma segment_mv : forall s, map_segment St (mv_segment f s) = mv_segment f (map_segment St s).
Proof. intros [l|l]; cbn [map_segment mv_segment]; rewrite line_mv; reflexivity. Qed.
Lemma curve_mv : forall s, map_curve St (mv_curve f s) = mv_curve f (map_curve St s).
Proof.
  intros [l|l|l]; cbn [map_curve mv_curve]; rewrite ?line_mv; try reflexivity.
  rewrite (maps_mv _ (map_segment St) (mv_segment f)) by exact segment_mv. reflexivity.
Qed.
Lemma surface_mv : forall s, map_surface St (mv_surface f s) = mv_surface f (map_surface St s).
Proof.
  intros [l|l]; cbn [map_surface mv_surface]; rewrite ?rings_mv; try reflexivity.
  rewrite (maps_mv _ (map_curve St) (mv_curve f)) by exact curve_mv. reflexivity.
Qed.
Lemma retained_mv : forall g, retained z m (mv_geom f g) = mv_geom f (retained z m g).
Proof.
  unfold retained. induction g using geom_ind'; cbn [mv_geom map_geom]; rewrite ?line_mv, ?rings_mv, ?polys_mv; try reflexivity.
  - rewrite stored_mv. apply point_mv.
  - f_equal. induction H as [|a l Ha _ IH]; cbn [map]; [reflexivity|]. rewrite Ha, IH. reflexivity.
  - f_equal. apply maps_mv. exact segment_mv.
  - f_equal. apply maps_mv. exact curve_mv.
  - f_equal. apply maps_mv. exact curve_mv.
  - f_equal. apply maps_mv. exact surface_mv.
Qed.
End Retained.

Theorem std_moved : forall dl d srid env env' ed ext emp o g tail,
  keeps_bits f -> keeps_nan f ->
  encodable g -> (levels g <= 128)%nat -> srid_ok dl srid -> env_ok dl ed env -> env_ok dl ed env' -> order_ok dl o ->
  reads_moved f (fun dr => process_wkb_type_geom dl dr (std dl d srid env ed ext emp o g ++ tail))
                (fun dr => process_wkb_type_geom dl dr (std dl d srid env' ed ext emp o (mv_geom f g) ++ tail)).
Proof.
  intros dl d srid env env' ed ext emp o g tail B N E L K V V' O S p s.
  assert (L' : (levels (mv_geom f g) <= 128)%nat) by (rewrite levels_mv; exact L).
  pose proof (delivers_std dl d srid env ed ext emp o g tail E L K V O) as D.
  pose proof (delivers_std dl d srid env' ed ext emp o (mv_geom f g) tail (encodable_mv B g E) L' K V' O) as D'.
  rewrite D'. change (p_dims p) with (p_dims (wrapped_xy f p)). rewrite D. cbn beta.
  rewrite run_wrap. cbn [map on_xy]. rewrite retained_mv by exact N. rewrite gevents_mv. reflexivity.
Qed.
End F.

Lemma mirror_keeps : keeps_bits mirror /\ keeps_nan mirror.
Proof. split; [intros x y X Y; split; assumption|]. intros x y. cbn. apply andb_comm. Qed.
Definition not_a_number : f64 := 0x7FF8000000000000%N.
Definition to_zero (x y : f64) : f64 * f64 := (f64_zero, f64_zero).
Lemma nan_differs :
  fst (observe (process_wkb_type_geom Wkb xy_dims (std Wkb xy_dims None [] xy_dims false false little
    (mv_geom to_zero (GPoint (mkC not_a_number not_a_number None None)))))) =
  [OEv (Srid None); OEv (PointBegin 0); OEv (Xy f64_zero f64_zero 0); OEv (PointEnd 0)] /\
  fst (observe (process_wkb_type_geom Wkb xy_dims (std Wkb xy_dims None [] xy_dims false false little
    (GPoint (mkC not_a_number not_a_number None None))))) =
  [OEv (Srid None); OEv (EmptyPoint 0)].
Proof. split; vm_compute; reflexivity. Qed.
