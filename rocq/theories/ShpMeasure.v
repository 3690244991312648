(** Types whose records have measures (helper lemmas for C73). *)
From Coq Require Import String Ascii.
From Coq Require Import List NArith ZArith Lia Bool.
From Coq Require Import Init.Byte.
From Verif Require Import Base BaseLemmas Float Event EventLemmas Claims Geom FeatureSpec WkbModel WkbRead WkbInv WkbTop.
From Verif Require Import ShpModel ShpSpec ShpTop ShpFeatures ShpSafe ShpShort ShpMore ShpBound ShpTypeSpec ShpTypeTop.
Import ListNotations.
Local Open Scope list_scope.

(** the code of a record *)
Definition code_of (sh : shape) : Z :=
  match sh with
  | Null => 0
  | OnePoint v _ => type_code 1 v
  | ManyPoints v _ _ _ => type_code 8 v
  | Lines v _ _ _ => type_code 3 v
  | Areas v _ _ _ => type_code 5 v
  | Patches _ => 31
  end%Z.
Lemma code_at : forall n sh, int_at LE (record_bytes n sh) 8 = Some (code_of sh).
Proof.
  intros n sh.
  assert (L1 : length (be32 n) = 4%nat) by apply bytes_of_length.
  assert (L2 : length (be32 (words sh)) = 4%nat) by apply bytes_of_length.
  assert (X : exists r, content sh = le32 (code_of sh) ++ r /\ is_i32 (code_of sh)).
  { destruct sh as [|v c|v m e l|v m e l|v m e l|b]; cbn [content code_of].
    - exists []. split; [now rewrite app_nil_r|unfold is_i32; lia].
    - eexists. split; [reflexivity|destruct v; unfold is_i32; cbn; lia].
    - eexists. split; [reflexivity|destruct v; unfold is_i32; cbn; lia].
    - eexists. split; [reflexivity|destruct v; unfold is_i32; cbn; lia].
    - eexists. split; [reflexivity|destruct v; unfold is_i32; cbn; lia].
    - eexists. split; [reflexivity|unfold is_i32; lia]. }
  destruct X as (r & E & I). unfold record_bytes. rewrite E, (app_assoc (be32 n)).
  apply int_at_app; [rewrite app_length; lia|exact I].
Qed.

Definition unmeasured (e : event) : Prop := match e with Coord _ _ _ (Some _) _ _ _ => False | _ => True end.
Lemma mapi_unmeasured : forall multi l k, Forall (fun c => cm c = None) l -> Forall unmeasured (mapi (ev_coord multi) k l).
Proof.
  induction l as [|a l IH]; intros k H; cbn [mapi]; [constructor|]. inversion_clear H as [|? ? A B].
  constructor; [|now apply IH]. unfold ev_coord. destruct multi; cbn; [now rewrite A|exact I].
Qed.
Lemma flat_unmeasured : forall A (f : nat -> A -> list event) l k,
  (forall k a, In a l -> Forall unmeasured (f k a)) -> Forall unmeasured (flat_mapi f k l).
Proof.
  induction l as [|a l IH]; intros k H; cbn [flat_mapi]; [constructor|].
  apply Forall_app. split; [apply H; now left|apply IH; intros; apply H; now right].
Qed.
Lemma wrap_unmeasured : forall b l e, unmeasured b -> unmeasured e -> Forall unmeasured l -> Forall unmeasured (b :: l ++ [e]).
Proof. intros b l e B E H. constructor; [exact B|]. apply Forall_app. split; [exact H|]. constructor; [exact E|constructor]. Qed.
Lemma line_unmeasured : forall multi t k l, Forall (fun c => cm c = None) l -> Forall unmeasured (ev_line multi t k l).
Proof. intros. apply wrap_unmeasured; [exact I|exact I|]. now apply mapi_unmeasured. Qed.
Lemma visible_none : forall d l, Forall (coord_fits Flat false) l -> Forall (fun c => cm c = None) (map (visible d) l).
Proof.
  intros d l H. apply Forall_map. eapply Forall_impl; [|exact H]. intros c (_ & _ & _ & _ & _ & C). cbn.
  destruct (cm c); [discriminate C|]. now destruct (dm d).
Qed.

Lemma flat_shapes : forall d sh l, well_formed sh ->
  match sh with OnePoint v _ | ManyPoints v _ _ _ | Lines v _ _ _ | Areas v _ _ _ => v = Flat | _ => True end ->
  shape_events d sh l -> Forall unmeasured l.
Proof.
  intros d sh l [_ W] V E. destruct sh as [|v c|v m e p|v m e p|v m e p|b]; cbn [shape_events] in E; try (subst l; constructor).
  - destruct E as (g & R & ->). inversion R; subst; clear R. destruct W as [_ W].
    cbn [gevents]. apply (wrap_unmeasured (PointBegin 0) [_] (PointEnd 0)); [exact I..|]. constructor; [|constructor].
    unfold ev_coord, visible. cbn. destruct (multi_dim d); [|exact I]. rewrite W. now destruct (dm d).
  - destruct E as (g & R & ->). inversion R; subst; clear R. destruct W as (M & _ & W). cbn in M. subst m.
    cbn [gevents]. apply wrap_unmeasured; [exact I..|]. apply mapi_unmeasured. now apply visible_none.
  - destruct E as (g & R & ->). inversion R; subst; clear R. destruct W as (M & _ & W). cbn in M. subst m.
    cbn [gevents]. apply wrap_unmeasured; [exact I..|]. apply flat_unmeasured. intros k a A. apply in_map_iff in A.
    destruct A as (q & <- & A). apply line_unmeasured, visible_none. rewrite Forall_forall in W. now apply W.
  - destruct E as (g & R & ->). inversion R as [| | |? ? ? ? polys G]; subst; clear R. destruct W as (M & _ & W). cbn in M. subst m.
    cbn [gevents]. apply wrap_unmeasured; [exact I..|]. apply flat_unmeasured. intros k a A. apply in_map_iff in A.
    destruct A as (poly & <- & A). unfold ev_polygon. apply wrap_unmeasured; [exact I..|]. apply flat_unmeasured.
    intros k' a' A'. apply in_map_iff in A'. destruct A' as (q & <- & A'). apply line_unmeasured, visible_none.
    rewrite Forall_forall in W. apply W. destruct G as [G _]. rewrite <- G. apply in_concat. now exists poly.
Qed.

Definition measured_shape (t : shape_type) : shape :=
  let c := mkC f0 f1 None (Some f2) in
  let c3 := mkC f0 f1 (Some f1) (Some f2) in
  match t with
  | PointM => OnePoint Measured c | PointZ => OnePoint Tall c3
  | MultipointM => ManyPoints Measured true some_extent [c] | MultipointZ => ManyPoints Tall true some_extent [c3]
  | PolylineM => Lines Measured true some_extent [[c; c]] | PolylineZ => Lines Tall true some_extent [[c3; c3]]
  | PolygonM => Areas Measured true some_extent [[c; c]] | PolygonZ => Areas Tall true some_extent [[c3; c3]]
  | _ => Null
  end.

Lemma measured_types : forall t, type_has_m t = true <->
  exists sh, well_formed sh /\ int_at LE (record_bytes 1 sh) 8 = Some (type_number t) /\
    forall ck, exists l h x y z m i, makes (read_shape ck m_dims (record_bytes 1 sh)) l (Ok (h, [])) /\
      In (Coord x y z (Some m) None None i) l.
Proof.
  intros t. split.
  - intros H. exists (measured_shape t). split; [|split].
    + destruct t; try discriminate H; (split; [vm_compute; reflexivity|]); cbn; unfold coord_fits, extent_ok, f64_ok;
        repeat match goal with |- _ /\ _ => split | |- Forall _ _ => constructor end; cbn; try exact I; try reflexivity; try discriminate; try (vm_compute; reflexivity).
    + rewrite code_at. destruct t; try discriminate H; reflexivity.
    + intros ck. destruct t; try discriminate H;
        destruct ck; match goal with |- exists l h x y z m i, makes ?g l _ /\ _ =>
          let o := eval vm_compute in (strip (fst (observe g))) in exists o end;
        do 6 eexists; (split; [vm_compute; reflexivity|]); cbn; unfold ev_coord; auto 12.
  - intros (sh & W & C & M). rewrite code_at in C. injection C as C. specialize (M true).
    destruct M as (l & h & x & y & z & m & i & M & In).
    destruct (record_reads true m_dims 1 sh [] ltac:(unfold is_i32; lia) W) as (l' & E & R).
    rewrite app_nil_r in R. unfold reads in R.
    assert (Q : l = l').
    { rewrite R in M. pose proof (makes_of_calls _ l' (Ok ((1%Z, words sh), @nil byte))) as M'. unfold makes in M, M'. rewrite M' in M.
      injection M as M _. clear -M. revert l' M. induction l as [|a l IH]; intros [|b l'] M; try discriminate M; [reflexivity|].
      cbn in M. injection M as -> M. f_equal. now apply IH. }
    subst l'.
    assert (N : ~ Forall unmeasured l).
    { intros F. rewrite Forall_forall in F. exact (F _ In). }
    destruct sh as [|v c|v mm e p|v mm e p|v mm e p|b]; cbn [code_of] in C.
    + cbn in E. subst l. destruct In.
    + destruct v; [exfalso; apply N; exact (flat_shapes _ _ _ W eq_refl E)|..]; destruct t; try discriminate C; reflexivity.
    + destruct v; [exfalso; apply N; exact (flat_shapes _ _ _ W eq_refl E)|..]; destruct t; try discriminate C; reflexivity.
    + destruct v; [exfalso; apply N; exact (flat_shapes _ _ _ W eq_refl E)|..]; destruct t; try discriminate C; reflexivity.
    + destruct v; [exfalso; apply N; exact (flat_shapes _ _ _ W eq_refl E)|..]; destruct t; try discriminate C; reflexivity.
    + cbn in E. subst l. destruct In.
Qed.
