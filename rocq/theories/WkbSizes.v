(** The sizes a WKB blob can announce. *)
From Coq Require Import String Ascii.
From Coq Require Import List NArith ZArith Lia Bool.
From Coq Require Import Init.Byte.
From Verif Require Import Base BaseLemmas Event EventLemmas WkbModel WkbInv.
Import ListNotations.
Local Open Scope N_scope.
Local Open Scope list_scope.

(** the size announced by a callback *)
Definition announced (e : event) : nat :=
  match e with
  | MultiPointBegin n _ | LineStringBegin _ n _ | MultiLineStringBegin n _ | PolygonBegin _ n _
  | MultiPolygonBegin n _ | CollectionBegin n _ | CircularStringBegin n _ | CompoundCurveBegin n _
  | CurvePolygonBegin n _ | MultiCurveBegin n _ | MultiSurfaceBegin n _ | TriangleBegin _ n _
  | PolyhedralSurfaceBegin n _ | TinBegin n _ => n
  | _ => 0%nat
  end.
Definition modest (e : event) : Prop := N.of_nat (announced e) < 2 ^ 32.

Fixpoint only {A} (V : A -> Prop) (g : prog A) : Prop :=
  match g with
  | Done (Ok a) => V a
  | Done (Err _) => True
  | Call e k => modest e /\ only V k
  | _ => False
  end.
Lemma only_bind : forall A B (V : A -> Prop) (U : B -> Prop) g (f : A -> prog B),
  only V g -> (forall a, V a -> only U (f a)) -> only U (pbind g f).
Proof.
  intros A B V U g f. induction g as [[a|e]|e k IH|e k IH|i n v k IH]; intros H F; cbn in *; try contradiction; auto.
  destruct H as [H1 H2]. auto.
Qed.
Lemma only_calls : forall A V l (r : res A), only V (calls l (Done r)) -> Forall modest l.
Proof. induction l as [|e l IH]; intros r H; [constructor|]. destruct H as [H1 H2]. constructor; [exact H1|eauto]. Qed.

Definition onlyr {A} (V : A -> Prop) (f : rd A) : Prop := forall b, only (fun x => V (fst x)) (f b).
Definition any {A} (_ : A) : Prop := True.
Lemma o_bind : forall A B (V : A -> Prop) (U : B -> Prop) (f : rd A) (g : A -> rd B),
  onlyr V f -> (forall a, V a -> onlyr U (g a)) -> onlyr U (rbind f g).
Proof. intros A B V U f g H F b. unfold rbind. eapply only_bind; [apply H|]. intros [a r] Ha. apply F, Ha. Qed.
Lemma o_ret : forall A (a : A) (V : A -> Prop), V a -> onlyr V (rret a). Proof. intros A a V H b. exact H. Qed.
Lemma o_fail : forall A e (V : A -> Prop), onlyr V (rfail e). Proof. intros A e V b. exact I. Qed.
Lemma o_take : forall n, onlyr (fun l => length l = n) (rtake n).
Proof.
  intros n b. unfold rtake. destruct (Nat.ltb_spec (length b) n); [exact I|]. cbn. apply firstn_length_le. lia.
Qed.
Lemma o_weak : forall A (V U : A -> Prop) f, onlyr V f -> (forall a, V a -> U a) -> onlyr U f.
Proof.
  intros A V U f H F b. specialize (H b). revert H. generalize (f b). clear b.
  induction p as [[a|e]|e k IH|e k IH|i n v k IH]; cbn; auto. intros [H1 H2]. auto.
Qed.
Lemma o_map : forall A B (h : A -> B) f (V : A -> Prop) (U : B -> Prop), onlyr V f -> (forall a, V a -> U (h a)) -> onlyr U (rmap h f).
Proof. intros A B h f V U H F. unfold rmap. eapply o_bind; [exact H|]. intros a Ha. apply o_ret, F, Ha. Qed.
Lemma o_any : forall A B (h : A -> B) f (V : A -> Prop), onlyr V f -> onlyr any (rmap h f).
Proof. intros. eapply o_map; [eassumption|]. intros; exact I. Qed.
Lemma le_val_lt : forall l, le_val l < 256 ^ N.of_nat (length l).
Proof.
  induction l as [|b l IH]; [cbn; lia|]. cbn [le_val length]. rewrite Nat2N.inj_succ, N.pow_succ_r'.
  pose proof (Byte.to_N_bounded b) as Hb. unfold val. lia.
Qed.
Lemma o_u32 : forall e, onlyr (fun n => n < 2 ^ 32) (r_u32 e).
Proof.
  intros e. eapply o_map; [apply o_take|]. intros l H. destruct e; cbn [val_of].
  - pose proof (le_val_lt l) as L. rewrite H in L. exact L.
  - pose proof (le_val_lt (rev l)) as L. rewrite rev_length, H in L. exact L.
Qed.
Lemma o_u8 : onlyr any r_u8. Proof. eapply o_any, o_take. Qed.
Lemma o_i32 : forall e, onlyr any (r_i32 e). Proof. intros. eapply o_any, o_u32. Qed.
Lemma o_f64 : forall e, onlyr any (r_f64 e). Proof. intros. eapply o_any, o_take. Qed.
Lemma o_f32 : forall e, onlyr any (r_f32 e). Proof. intros. eapply o_any, o_take. Qed.
Lemma o_f64s : forall e n, onlyr any (r_f64s e n).
Proof.
  intros e n. induction n as [|n IH]; cbn; [apply o_ret; exact I|].
  eapply o_bind; [apply o_f64|]. intros. eapply o_bind; [apply IH|]. intros. apply o_ret. exact I.
Qed.
Lemma o_call : forall e, modest e -> onlyr any (rcall e).
Proof. intros e H b. cbn. split; [exact H|exact I]. Qed.
Lemma o_for : forall (f : nat -> rd unit) n i, (forall k, onlyr any (f k)) -> onlyr any (rfor f n i).
Proof.
  intros f n. induction n as [|n IH]; intros i H; cbn; [apply o_ret; exact I|].
  eapply o_bind; [apply H|]. intros. apply IH, H.
Qed.
Ltac o_step := first
  [ apply o_ret; exact I | apply o_fail | apply o_call; first [reflexivity | exact (eq_refl : N.compare 0 (2 ^ 32) = Lt)]
  | eapply o_bind; [first [apply o_u8 | apply o_i32 | apply o_f64s | apply o_u32 | apply o_f64 | apply o_f32]|intros]
  | match goal with |- onlyr _ (if ?c then _ else _) => destruct c end
  | match goal with |- onlyr _ (match ?c with Ok _ => _ | Err _ => _ end) => destruct c end ].
Lemma o_wkb_header : onlyr any read_wkb_header. Proof. unfold read_wkb_header. repeat o_step. Qed.
Lemma o_ewkb_header : onlyr any read_ewkb_header.
Proof.
  unfold read_ewkb_header. do 2 o_step. eapply (o_bind _ _ any); [|intros; apply o_ret; exact I].
  destruct (has_flag _ _); [eapply o_any, o_i32|apply o_ret; exact I].
Qed.
Lemma o_header : forall dl, onlyr any (read_header dl).
Proof.
  intros []; cbn [read_header]; [apply o_wkb_header|apply o_ewkb_header| | | ].
  - unfold read_gpkg_header. repeat o_step. eapply o_bind; [apply o_wkb_header|]. intros. apply o_ret; exact I.
  - unfold read_mysql_header. repeat o_step. eapply o_bind; [apply o_wkb_header|]. intros. repeat o_step.
  - unfold read_spatialite_header. repeat o_step.
Qed.
Lemma o_nested : forall dl i, onlyr any (nested_header dl i).
Proof.
  intros [] i; cbn [nested_header]; try apply o_wkb_header; try apply o_ewkb_header.
  unfold read_spatialite_nested_header. repeat o_step.
Qed.
Lemma o_ordinates : forall b i, onlyr any (read_coord_as b i).
Proof.
  intros b i. unfold read_coord_as. set (o := if b then _ else _).
  assert (O : onlyr any o) by (subst o; destruct b; [eapply o_any, o_f32|apply o_f64]).
  eapply o_bind; [exact O|]. intros. eapply o_bind; [exact O|]. intros.
  eapply (o_bind _ _ any); [destruct (i_z i); [eapply o_any, O|apply o_ret; exact I]|]. intros.
  eapply (o_bind _ _ any); [destruct (i_m i); [eapply o_any, o_f64|apply o_ret; exact I]|]. intros. apply o_ret; exact I.
Qed.
Lemma modest0 : forall e, announced e = 0%nat -> modest e.
Proof. intros e H. unfold modest. rewrite H. reflexivity. Qed.
Lemma o_emit : forall mu j c, onlyr any (emit_coord mu j c).
Proof.
  intros mu j [[[x y] z] m]. unfold emit_coord. eapply o_bind; [|intros; apply o_ret; exact I].
  apply o_call, modest0. destruct mu; reflexivity.
Qed.
Lemma o_coord : forall mu i j, onlyr any (process_coord mu i j).
Proof. intros. eapply o_bind; [apply o_ordinates|]. intros. apply o_emit. Qed.
Lemma o_comp : forall mu i j c, onlyr any (process_compressed_coord mu i j c).
Proof.
  intros. unfold process_compressed_coord. eapply o_bind; [apply o_ordinates|]. intros [[[rx ry] rz] rm] _.
  destruct c as [[[px py] pz] pm]. destruct mu;
    (eapply o_bind; [apply o_call, modest0; reflexivity|intros; apply o_ret; exact I]).
Qed.
Lemma o_loop : forall mu i n j c, onlyr any (compressed_loop mu i n j c).
Proof.
  intros mu i n. induction n as [|n IH]; intros j c; cbn; [apply o_ret; exact I|].
  eapply o_bind; [apply o_comp|]. intros. apply IH.
Qed.
Lemma o_coords : forall mu i n, onlyr any (process_coords mu i n).
Proof. intros. apply o_for. intros. eapply o_bind; [apply o_coord|]. intros. apply o_ret; exact I. Qed.
Ltac counted := eapply o_bind; [apply o_u32|]; let n := fresh "n" in let H := fresh "H" in intros n H; cbv zeta;
  eapply o_bind; [apply o_call; unfold modest; cbn [announced]; rewrite N2Nat.id; exact H|intros _ _].
Ltac closing := eapply o_bind; [|intros _ _; apply o_call, modest0; reflexivity].
Lemma o_line : forall mu i t j, onlyr any (process_linestring mu i t j).
Proof.
  intros. unfold process_linestring. counted. closing.
  destruct (_ && _); [|apply o_coords].
  eapply o_bind; [apply o_coord|]. intros. eapply o_bind; [apply o_loop|]. intros.
  eapply o_bind; [apply o_coord|]. intros. apply o_ret; exact I.
Qed.
Lemma o_arc : forall mu i j, onlyr any (process_circularstring mu i j).
Proof. intros. unfold process_circularstring. counted. closing. apply o_coords. Qed.
Lemma o_poly : forall mu i t j, onlyr any (process_polygon mu i t j).
Proof. intros. unfold process_polygon. counted. closing. apply o_for. intros. apply o_line. Qed.
Lemma o_tri : forall mu i t j, onlyr any (process_triangle mu i t j).
Proof. intros. unfold process_triangle. counted. closing. apply o_for. intros. apply o_line. Qed.
Section Nested.
  Variable rh : info -> rd info.
  Hypothesis Hrh : forall i, onlyr any (rh i).
  Lemma o_compound : forall mu i j d, onlyr any (process_compoundcurve mu rh i j d).
  Proof.
    intros. unfold process_compoundcurve. destruct (Nat.ltb _ _); [apply o_fail|]. counted. closing. apply o_for. intros k.
    eapply o_bind; [apply Hrh|]. intros ci _. destruct (i_type ci); try apply o_fail; [apply o_line|apply o_arc].
  Qed.
  Lemma o_curve : forall mu i j d, onlyr any (process_curve mu rh i j d).
  Proof.
    intros. unfold process_curve. eapply o_bind; [apply Hrh|]. intros ci _.
    destruct (i_type ci); try apply o_fail; [apply o_line|apply o_arc|apply o_compound].
  Qed.
  Lemma o_curvepoly : forall mu i j d, onlyr any (process_curvepolygon mu rh i j d).
  Proof.
    intros. unfold process_curvepolygon. destruct (Nat.ltb _ _); [apply o_fail|]. counted. closing. apply o_for. intros k.
    apply o_curve.
  Qed.
  Lemma o_geom : forall fuel mu i j d, onlyr any (process_geom_n fuel mu rh i j d).
  Proof.
    induction fuel as [|fuel IH]; intros mu i j d; cbn [process_geom_n]; [apply o_fail|].
    destruct (Nat.ltb _ _); [apply o_fail|].
    destruct (i_type i); try apply o_fail; try apply o_line; try apply o_arc; try apply o_compound; try apply o_poly;
      try apply o_tri; try apply o_curvepoly;
      try (counted; closing; apply o_for; intros k;
           first [ apply o_curve
                 | eapply o_bind; [apply Hrh|]; intros ci _;
                   first [ apply o_line | apply o_poly | apply o_tri | apply IH
                         | eapply o_bind; [apply o_coord|]; intros; apply o_ret; exact I
                         | destruct (i_type ci); try apply o_fail; [apply o_poly|apply o_curvepoly] ] ]).
    eapply o_bind; [apply o_ordinates|]. intros [[[x y] z] m] _. destruct (_ && _ && _ && _); [apply o_call, modest0; reflexivity|].
    eapply o_bind; [apply o_call, modest0; reflexivity|]. intros. eapply o_bind; [apply o_emit|]. intros.
    apply o_call, modest0. reflexivity.
  Qed.
End Nested.

Lemma wkb_modest : forall dl d b, exists l r,
  process_wkb_type_geom dl d b = calls l (Done r) /\ Forall modest l.
Proof.
  intros dl d b. destruct (lin_process dl d b) as (l & r & E). exists l, r. split; [exact E|].
  assert (O : onlyr any (process_wkb_type_geom dl d)).
  { unfold process_wkb_type_geom. eapply o_bind; [apply o_header|]. intros i _.
    eapply o_bind; [apply o_call, modest0; reflexivity|]. intros _ _. apply o_geom. apply o_nested. }
  specialize (O b). rewrite E in O. eapply only_calls. exact O.
Qed.
