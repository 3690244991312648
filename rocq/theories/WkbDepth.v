(** Nesting depth of the WKB readers (helper lemmas for C10). *)
From Coq Require Import String Ascii.
From Coq Require Import List NArith ZArith Lia Bool ZifyBool ZifyNat ZifyN.
From Coq Require Import Init.Byte.
From Verif Require Import Base BaseLemmas Float Event EventLemmas Geom WkbModel WkbSpec WkbRead
  WkbReadTop WkbInv.
Import ListNotations.
Local Open Scope nat_scope.
Local Open Scope list_scope.

(** ** Open containers on arbitrary input *)
Lemma nesting_app : forall l1 l2, nesting (l1 ++ l2) = (nesting l1 + nesting l2)%Z.
Proof. induction l1 as [|e l IH]; intros l2; cbn [app nesting]; [lia|rewrite IH; lia]. Qed.

Definition within (n : nat) (l : list event) : Prop :=
  forall l1 l2, l = l1 ++ l2 -> (0 <= nesting l1 <= Z.of_nat n)%Z.

Lemma within_nil : forall n, within n [].
Proof. intros n l1 l2 H. destruct l1; [cbn; lia|discriminate]. Qed.

Lemma within_app : forall n l l', within n l -> nesting l = 0%Z -> within n l' -> within n (l ++ l').
Proof.
  intros n l l' H1 H0 H2 a b Hab.
  assert (Hs : forall (l a b l' : list event), l ++ l' = a ++ b ->
            (exists c, l = a ++ c) \/ (exists c, a = l ++ c /\ l' = c ++ b)).
  { clear. induction l as [|x l IH]; intros [|y a] b l' H; cbn in *.
    - left. exists []. reflexivity.
    - right. exists (y :: a). split; [reflexivity|exact H].
    - left. eexists. reflexivity.
    - injection H as -> H. destruct (IH _ _ _ H) as [[c ->]|[c [-> ->]]].
      + left. exists c. reflexivity.
      + right. exists c. split; reflexivity. }
  destruct (Hs _ _ _ _ Hab) as [[c ->]|[c [-> ->]]].
  - apply (H1 a c). reflexivity.
  - rewrite nesting_app, H0. apply (H2 c b). reflexivity.
Qed.

Lemma within_mono : forall n m l, within n l -> n <= m -> within m l.
Proof. intros n m l H Hn l1 l2 E. specialize (H l1 l2 E). lia. Qed.

Definition opn {A} (n : nat) (f : rd A) : Prop := forall b, exists l r,
  f b = calls l (Done r) /\ within n l /\
  match r with Ok _ => nesting l = 0%Z | Err _ => True end.

Lemma opn_mono : forall A n m (f : rd A), opn n f -> n <= m -> opn m f.
Proof.
  intros * H Hn b. destruct (H b) as (l & r & H1 & H2 & H3). exists l, r.
  repeat split; try assumption; try (destruct (within_mono _ _ _ H2 Hn l1 l2 H0); assumption).
Qed.

Lemma opn_silent : forall A n (f : rd A),
  (forall b, exists r, f b = Done r) -> opn n f.
Proof.
  intros A n f H b. destruct (H b) as [r Hr]. exists [], r. split; [exact Hr|].
  split; [apply within_nil|]. destruct r; [reflexivity|exact I].
Qed.

Lemma opn_ret : forall A n (a : A), opn n (rret a).
Proof. intros. apply opn_silent. intros b. eexists. reflexivity. Qed.
Lemma opn_fail : forall A n e, opn n (@rfail A e).
Proof. intros. apply opn_silent. intros b. eexists. reflexivity. Qed.
Lemma opn_take : forall n k, opn n (rtake k).
Proof. intros. apply opn_silent. intros b. apply take_lin. Qed.

Lemma opn_bind : forall A B n (f : rd A) (g : A -> rd B),
  opn n f -> (forall a, opn n (g a)) -> opn n (rbind f g).
Proof.
  intros * Hf Hg b. destruct (Hf b) as (l & [[a rest]|e] & H1 & H2 & H3).
  - destruct (Hg a rest) as (l' & r' & G1 & G2 & G3). exists (l ++ l'), r'.
    split; [rewrite (rbind_calls _ _ _ _ _ _ _ _ H1), G1, calls_app; reflexivity|].
    split; [apply within_app; assumption|].
    destruct r'; [rewrite nesting_app; lia|exact I].
  - exists l, (Err e). split; [apply rbind_calls_err; exact H1|]. split; assumption.
Qed.

Lemma opn_call0 : forall n e, nesting [e] = 0%Z -> opn n (rcall e).
Proof.
  intros n e H b. exists [e], (Ok (tt, b)). split; [reflexivity|]. split; [|exact H].
  intros l1 l2 E. destruct l1 as [|x [|y l1]]; [cbn; lia| |discriminate].
  injection E as <- _. rewrite H. lia.
Qed.

(** begin, middle, end *)
Lemma opn_wrap : forall A n b (f : rd A) en,
  nesting [b] = 1%Z -> nesting [en] = (-1)%Z -> opn n f ->
  opn (S n) (rcall b ;;; f ;;; rcall en).
Proof.
  intros A n b f en Hb He Hf s. destruct (Hf s) as (l & r & H1 & H2 & H3).
  assert (W : forall l1 l2, b :: l = l1 ++ l2 -> (0 <= nesting l1 <= Z.of_nat (S n))%Z).
  { intros [|x l1] l2 E; [cbn; lia|]. injection E as <- E. specialize (H2 l1 l2 E).
    change (b :: l1) with ([b] ++ l1). rewrite nesting_app, Hb. lia. }
  destruct r as [[a rest]|e].
  - exists (b :: l ++ [en]), (Ok (tt, rest)). split.
    + unfold rbind at 1. unfold rcall at 1. cbn [pbind pret fst snd calls].
      f_equal. rewrite (rbind_calls _ _ _ _ _ _ _ _ H1), calls_app. reflexivity.
    + split.
      * intros l1 l2 E.
        destruct l2 as [|y l2] using rev_ind.
        -- rewrite app_nil_r in E. subst l1. change (b :: l ++ [en]) with ([b] ++ l ++ [en]).
           rewrite !nesting_app, Hb, He. lia.
        -- clear IHl2. rewrite app_assoc in E. change (b :: l ++ [en]) with ((b :: l) ++ [en]) in E.
           apply app_inj_tail in E. destruct E as [E _]. apply (W l1 l2 E).
      * change (b :: l ++ [en]) with ([b] ++ l ++ [en]). rewrite !nesting_app, Hb, He. lia.
  - exists (b :: l), (Err e). split.
    + unfold rbind at 1. unfold rcall at 1. cbn [pbind pret fst snd calls].
      f_equal. rewrite (rbind_calls_err _ _ _ _ _ _ _ H1). reflexivity.
    + split; [exact W|exact I].
Qed.

Lemma opn_map : forall A B n (h : A -> B) f, opn n f -> opn n (rmap h f).
Proof. intros. apply opn_bind; [assumption|]. intros; apply opn_ret. Qed.

Lemma opn_for : forall n f k i, (forall j, opn n (f j)) -> opn n (rfor f k i).
Proof.
  induction k as [|k IH]; intros i H; cbn [rfor]; [apply opn_ret|].
  apply opn_bind; [apply H|]. intros _. apply IH, H.
Qed.

Lemma opn_u32 : forall n e, opn n (r_u32 e).
Proof. intros. apply opn_map, opn_take. Qed.
Lemma opn_u8 : forall n, opn n r_u8.
Proof. intros. apply opn_map, opn_take. Qed.
Lemma opn_i32 : forall n e, opn n (r_i32 e).
Proof. intros. apply opn_map, opn_u32. Qed.
Lemma opn_f64s : forall n e k, opn n (r_f64s e k).
Proof.
  induction k as [|k IH]; cbn [r_f64s]; [apply opn_ret|].
  apply opn_bind; [apply opn_map, opn_take|]. intros x.
  apply opn_bind; [exact IH|]. intros; apply opn_ret.
Qed.

Ltac og :=
  repeat first
    [ apply opn_ret | apply opn_fail | apply opn_take | apply opn_u8 | apply opn_u32 | apply opn_i32
    | apply opn_f64s
    | match goal with |- opn _ (rmap _ _) => apply opn_map
      | |- opn _ (rbind _ _) => apply opn_bind; intros end
    | progress cbv zeta
    | match goal with |- opn _ (if ?x then _ else _) => destruct x end
    | match goal with |- opn _ (match ?x with _ => _ end) => destruct x end ].

Lemma opn_wkb_header : forall n, opn n read_wkb_header.
Proof. intros. unfold read_wkb_header. og. Qed.
Lemma opn_ewkb_header : forall n, opn n read_ewkb_header.
Proof. intros. unfold read_ewkb_header. og. Qed.
Lemma opn_header : forall n dl, opn n (read_header dl).
Proof.
  intros n []; cbn [read_header]; try apply opn_wkb_header; try apply opn_ewkb_header.
  - unfold read_gpkg_header. og; try apply opn_wkb_header.
  - unfold read_mysql_header. og; try apply opn_wkb_header.
  - unfold read_spatialite_header. og.
Qed.
Lemma opn_nested : forall n dl i, opn n (nested_header dl i).
Proof.
  intros n [] i; cbn [nested_header]; try apply opn_wkb_header; try apply opn_ewkb_header.
  unfold read_spatialite_nested_header. og.
Qed.

Lemma opn_coord_as : forall n b i, opn n (read_coord_as b i).
Proof. intros. unfold read_coord_as, r_f64, r_f32. og. Qed.
Lemma opn_emit : forall n mu k c, opn n (emit_coord mu k c).
Proof.
  intros n mu k [[[x y] z] m]. unfold emit_coord. apply opn_bind; [|intros; apply opn_ret].
  apply opn_call0. destruct mu; reflexivity.
Qed.
Lemma opn_coord : forall n mu i k, opn n (process_coord mu i k).
Proof. intros. apply opn_bind; [apply opn_coord_as|]. intros; apply opn_emit. Qed.
Lemma opn_comp_coord : forall n mu i k c, opn n (process_compressed_coord mu i k c).
Proof.
  intros n mu i k [[[x y] z] m]. apply opn_bind; [apply opn_coord_as|]. intros [[[? ?] ?] ?].
  destruct mu; cbv zeta; (apply opn_bind; [apply opn_call0; reflexivity|intros; apply opn_ret]).
Qed.
Lemma opn_comp_loop : forall n mu i j k c, opn n (compressed_loop mu i j k c).
Proof.
  induction j as [|j IH]; intros k c; cbn [compressed_loop]; [apply opn_ret|].
  apply opn_bind; [apply opn_comp_coord|]. intros; apply IH.
Qed.
Lemma opn_coords : forall n mu i k, opn n (process_coords mu i k).
Proof.
  intros. apply opn_for. intros j. apply opn_bind; [apply opn_coord|]. intros; apply opn_ret.
Qed.

Lemma opn_container : forall n e (b : nat -> event) (mid : nat -> rd unit) en,
  (forall k, nesting [b k] = 1%Z) -> nesting [en] = (-1)%Z -> (forall k, opn n (mid k)) ->
  opn (S n) (k <- r_u32 e ;; rcall (b (N.to_nat k)) ;;; mid (N.to_nat k) ;;; rcall en).
Proof.
  intros. apply opn_bind; [apply opn_u32|]. intros k. apply opn_wrap; auto.
Qed.

Lemma opn_linestring : forall n mu i t k, opn (S n) (process_linestring mu i t k).
Proof.
  intros. apply (opn_container n _ (fun s => LineStringBegin t s k) (fun length => if i_compressed i && Nat.ltb 0 length then
     first <- process_coord mu i 0 ;;
     _prev <- compressed_loop mu i (length - 2) 1 first ;;
     process_coord mu i length ;;; rret tt
   else process_coords mu i length)); try reflexivity.
  intros j. destruct (_ && _); [|apply opn_coords].
  apply opn_bind; [apply opn_coord|]. intros c.
  apply opn_bind; [apply opn_comp_loop|]. intros c2.
  apply opn_bind; [apply opn_coord|]. intros; apply opn_ret.
Qed.
Lemma opn_circular : forall n mu i k, opn (S n) (process_circularstring mu i k).
Proof.
  intros. apply (opn_container n _ (fun s => CircularStringBegin s k)); try reflexivity.
  intros; apply opn_coords.
Qed.
Lemma opn_polygon : forall n mu i t k, opn (S (S n)) (process_polygon mu i t k).
Proof.
  intros. apply (opn_container (S n) _ (fun s => PolygonBegin t s k) (fun r => rfor _ r 0));
    try reflexivity.
  intros. apply opn_for. intros. apply opn_linestring.
Qed.
Lemma opn_triangle : forall n mu i t k, opn (S (S n)) (process_triangle mu i t k).
Proof.
  intros. apply (opn_container (S n) _ (fun s => TriangleBegin t s k) (fun r => rfor _ r 0));
    try reflexivity.
  intros. apply opn_for. intros. apply opn_linestring.
Qed.

Section Opn.
  Variable rh : info -> rd info.
  Hypothesis Hrh : forall n i, opn n (rh i).

  Lemma opn_compound : forall n mu i k d, opn (S (S n)) (process_compoundcurve mu rh i k d).
  Proof.
    intros. unfold process_compoundcurve. destruct (Nat.ltb _ _); [apply opn_fail|].
    apply (opn_container (S n) _ (fun s => CompoundCurveBegin s k) (fun r => rfor _ r 0));
      try reflexivity.
    intros. apply opn_for. intros. apply opn_bind; [apply Hrh|]. intros ci.
    destruct (i_type ci); try apply opn_fail; [apply opn_linestring|apply opn_circular].
  Qed.

  Lemma opn_compound_refused : forall n mu i k d, 128 < d -> opn n (process_compoundcurve mu rh i k d).
  Proof.
    intros. unfold process_compoundcurve, max_nesting_depth.
    destruct (Nat.ltb_spec 128 d); [apply opn_fail|lia].
  Qed.

  (** [d]: depth passed on *)
  Lemma opn_curve : forall n mu i k d, 131 <= n + d -> 1 <= n -> opn n (process_curve mu rh i k d).
  Proof.
    intros n mu i k d H Hn. unfold process_curve. apply opn_bind; [apply Hrh|]. intros ci.
    destruct n as [|n]; [lia|].
    destruct (i_type ci); try apply opn_fail; [apply opn_linestring|apply opn_circular|].
    destruct n as [|n]; [|apply opn_compound]. apply opn_compound_refused. lia.
  Qed.

  Lemma opn_curvepolygon : forall n mu i k d, 131 <= n + d ->
    opn n (process_curvepolygon mu rh i k d).
  Proof.
    intros n mu i k d H. unfold process_curvepolygon, max_nesting_depth.
    destruct (Nat.ltb_spec 128 d); [apply opn_fail|].
    destruct n as [|n]; [lia|].
    apply (opn_container n _ (fun s => CurvePolygonBegin s k) (fun r => rfor _ r 0));
      try reflexivity.
    intros. apply opn_for. intros. apply opn_curve; lia.
  Qed.

  Lemma opn_geom : forall fuel n mu i k d, 131 <= n + d ->
    opn n (process_geom_n fuel mu rh i k d).
  Proof.
    induction fuel as [|fuel IH]; intros n mu i k d H; [apply opn_fail|]. cbn [process_geom_n].
    unfold max_nesting_depth. destruct (Nat.ltb_spec 128 d); [apply opn_fail|].
    destruct n as [|[|[|n]]]; try lia.
    destruct (i_type i); try apply opn_fail.
    - apply opn_bind; [apply opn_coord_as|]. intros [[[x y] z] m].
      destruct (_ && _); [apply opn_call0; reflexivity|].
      apply opn_wrap; try reflexivity. apply opn_emit.
    - apply opn_linestring.
    - apply opn_polygon.
    - apply (opn_container _ _ (fun s => MultiPointBegin s k) (fun r => rfor _ r 0)); try reflexivity.
      intros. apply opn_for. intros. apply opn_bind; [apply Hrh|]. intros ci.
      apply opn_bind; [apply opn_coord|]. intros; apply opn_ret.
    - apply (opn_container _ _ (fun s => MultiLineStringBegin s k) (fun r => rfor _ r 0)); try reflexivity.
      intros. apply opn_for. intros. apply opn_bind; [apply Hrh|]. intros; apply opn_linestring.
    - apply (opn_container _ _ (fun s => MultiPolygonBegin s k) (fun r => rfor _ r 0)); try reflexivity.
      intros. apply opn_for. intros. apply opn_bind; [apply Hrh|]. intros; apply opn_polygon.
    - apply (opn_container _ _ (fun s => CollectionBegin s k) (fun r => rfor _ r 0)); try reflexivity.
      intros. apply opn_for. intros. apply opn_bind; [apply Hrh|]. intros; apply IH; lia.
    - apply opn_circular.
    - apply opn_compound.
    - apply opn_curvepolygon. lia.
    - apply (opn_container _ _ (fun s => MultiCurveBegin s k) (fun r => rfor _ r 0)); try reflexivity.
      intros. apply opn_for. intros. apply opn_curve; lia.
    - apply (opn_container _ _ (fun s => MultiSurfaceBegin s k) (fun r => rfor _ r 0)); try reflexivity.
      intros. apply opn_for. intros. apply opn_bind; [apply Hrh|]. intros ci.
      destruct (i_type ci); try apply opn_fail; [apply opn_polygon|apply opn_curvepolygon; lia].
    - apply (opn_container _ _ (fun s => PolyhedralSurfaceBegin s k) (fun r => rfor _ r 0)); try reflexivity.
      intros. apply opn_for. intros. apply opn_bind; [apply Hrh|]. intros; apply opn_polygon.
    - apply (opn_container _ _ (fun s => TinBegin s k) (fun r => rfor _ r 0)); try reflexivity.
      intros. apply opn_for. intros. apply opn_bind; [apply Hrh|]. intros; apply opn_triangle.
    - apply opn_triangle.
  Qed.
End Opn.

Lemma opn_process : forall dl d, opn 131 (process_wkb_type_geom dl d).
Proof.
  intros dl d. unfold process_wkb_type_geom. apply opn_bind; [apply opn_header|]. intros i.
  apply opn_bind; [apply opn_call0; reflexivity|]. intros _.
  apply opn_geom; [|lia]. intros. apply opn_nested.
Qed.

(** ** Too deeply nested encodings are refused *)
Definition refuses {A} (f : rd A) (b : list byte) : Prop :=
  exists l, f b = calls l (Done (Err nesting_error)).

Lemma refuses_fail : forall A b, refuses (@rfail A nesting_error) b.
Proof. intros A b. exists []. reflexivity. Qed.

Lemma refuses_bind_l : forall A B (f : rd A) (g : A -> rd B) b, refuses f b -> refuses (rbind f g) b.
Proof. intros * [l H]. exists l. apply rbind_calls_err. exact H. Qed.

Lemma refuses_bind_r : forall A B (f : rd A) (g : A -> rd B) b l a rest,
  reads f b l a rest -> refuses (g a) rest -> refuses (rbind f g) b.
Proof.
  intros * H [l2 H2]. exists (l ++ l2). rewrite (rbind_calls _ _ _ _ _ _ _ _ H), H2, calls_app.
  reflexivity.
Qed.

Lemma refuses_for : forall A (bad : A -> bool) (g : nat -> rd unit) (bs : nat -> A -> list byte) l i b,
  (forall k a rest, In a l -> bad a = false -> exists ev, reads (g k) (bs k a ++ rest) ev tt rest) ->
  (forall k a rest, In a l -> bad a = true -> refuses (g k) (bs k a ++ rest)) ->
  existsb bad l = true ->
  refuses (rfor g (length l) i) (flat_mapi bs i l ++ b).
Proof.
  induction l as [|a l IH]; intros i b H1 H2 H3; [discriminate|].
  cbn [length rfor flat_mapi existsb] in *. rewrite <- app_assoc.
  destruct (bad a) eqn:E.
  - apply refuses_bind_l, H2; [left; reflexivity|exact E].
  - destruct (H1 i a (flat_mapi bs (S i) l ++ b) (or_introl eq_refl) E) as [ev Hev].
    eapply refuses_bind_r; [exact Hev|]. apply IH; [| |exact H3].
    + intros k x rest Hx. apply H1. right. exact Hx.
    + intros k x rest Hx. apply H2. right. exact Hx.
Qed.

Lemma max_of_gt : forall A (f : A -> nat) l n, n < max_of f l ->
  existsb (fun a => Nat.ltb n (f a)) l = true.
Proof.
  induction l as [|a l IH]; intros n H; cbn [max_of fold_right existsb] in *; [lia|].
  destruct (Nat.ltb_spec n (f a)); [reflexivity|]. apply IH. unfold max_of. lia.
Qed.

Lemma existsb_imp : forall A (f g : A -> bool) l,
  (forall a, f a = true -> g a = true) -> existsb f l = true -> existsb g l = true.
Proof.
  intros * H H1. apply existsb_exists in H1. destruct H1 as (a & Ha & Hf).
  apply existsb_exists. exists a. auto.
Qed.

Section Refuse.
  Variable multi : bool.
  Variable rh : info -> rd info.
  Variable hdr : endian -> N -> list byte.
  Variables z m : bool.
  Variable o : list nat -> endian.
  Variable rel : endian -> endian -> Prop.
  Notation isi := (is_info z m).
  Hypothesis Hrh : forall i e e' t b,
    t <> TUnknown -> i_endian i = e -> i_z i = z -> i_m i = m -> rel e e' ->
    exists i', reads (rh i) (hdr e' (type_code t) ++ b) [] i' b /\ isi i' e' t.
  Hypothesis Ho : forall p k, rel (o p) (o (k :: p)).
  Notation cb := (coord_bytes z m).
  Notation cnt := (fun n : nat => N.of_nat n < 2 ^ 32)%N.

  Lemma refuses_hdr : forall i p k t t0 (g : info -> rd unit) bs b,
    t <> TUnknown -> isi i (o p) t0 ->
    (forall i', isi i' (o (k :: p)) t -> refuses (g i') (bs ++ b)) ->
    refuses (rbind (rh i) g) ((hdr (o (k :: p)) (type_code t) ++ bs) ++ b).
  Proof.
    intros i p k t t0 g bs b Ht (He & _ & Hz & Hm & _) H. rewrite <- app_assoc.
    destruct (Hrh i (o p) (o (k :: p)) t (bs ++ b) Ht He Hz Hm (Ho p k)) as (i' & H1 & H2).
    eapply refuses_bind_r; [exact H1|]. apply H. exact H2.
  Qed.

  Lemma refuses_members : forall A (bad : A -> bool) (f : list nat -> A -> list byte)
      (g : nat -> rd unit) (mk : nat -> event) (en : event) i p t l b,
    isi i (o p) t -> cnt (length l) ->
    (forall k a rest, In a l -> bad a = false -> exists ev, reads (g k) (f (k :: p) a ++ rest) ev tt rest) ->
    (forall k a rest, In a l -> bad a = true -> refuses (g k) (f (k :: p) a ++ rest)) ->
    existsb bad l = true ->
    refuses (rbind (r_u32 (i_endian i)) (fun n =>
             let c := N.to_nat n in
             rbind (rcall (mk c)) (fun _ => rbind (rfor g c 0) (fun _ => rcall en))))
          (members o p f l ++ b).
  Proof.
    intros * Hi Hn H1 H2 H3. unfold members. replace (i_endian i) with (o p) by (symmetry; apply Hi).
    rewrite <- app_assoc. eapply refuses_bind_r; [apply reads_count; exact Hn|].
    cbv zeta. rewrite Nnat.Nat2N.id. eapply refuses_bind_r; [apply reads_call|].
    apply refuses_bind_l. apply (refuses_for _ bad _ (fun k a => f (k :: p) a)); assumption.
  Qed.

  Ltac depth_ok := match goal with
    | |- context [Nat.ltb max_nesting_depth ?d] =>
        replace (Nat.ltb max_nesting_depth d) with false
          by (symmetry; apply Nat.ltb_ge; unfold max_nesting_depth in *; lia)
    end.
  Ltac depth_bad := match goal with
    | |- context [Nat.ltb max_nesting_depth ?d] =>
        replace (Nat.ltb max_nesting_depth d) with true
          by (symmetry; apply Nat.ltb_lt; unfold max_nesting_depth in *; lia)
    end.

  Lemma refuses_compound : forall i idx d b, 128 < d ->
    refuses (process_compoundcurve multi rh i idx d) b.
  Proof. intros. unfold process_compoundcurve. depth_bad. apply refuses_fail. Qed.

  Lemma refuses_curve : forall i p k t d c b,
    isi i (o p) t -> 129 < d + curve_levels c -> d <= 129 ->
    refuses (process_curve multi rh i k d) (curve_bytes hdr cb o (k :: p) c ++ b).
  Proof.
    intros i p k t d c b Hi Hd Hd'. unfold process_curve.
    destruct c as [l|l|l]; cbn [curve_bytes curve_levels] in *; try lia.
    apply (refuses_hdr i p k TCompoundCurve t); [discriminate|exact Hi|].
    intros i' Hi'. replace (i_type i') with TCompoundCurve by (symmetry; apply Hi').
    apply refuses_compound. lia.
  Qed.

  Lemma refuses_curves : forall i p t d (mk : nat -> event) en l b,
    isi i (o p) t -> cnt (length l) -> Forall (on_curve coord64 cnt) l ->
    d <= 129 -> 129 < d + max_of curve_levels l ->
    refuses (rbind (r_u32 (i_endian i)) (fun n =>
             let c := N.to_nat n in
             rbind (rcall (mk c)) (fun _ =>
               rbind (rfor (fun k => process_curve multi rh i k d) c 0) (fun _ => rcall en))))
          (members o p (curve_bytes hdr cb o) l ++ b).
  Proof.
    intros i p t d mk en l b Hi Hn Hl Hd Hm.
    apply (refuses_members _ (fun c => Nat.ltb 129 (d + curve_levels c)) _ _ mk en i p t); try assumption.
    - intros k a rest Ha Hb. rewrite Forall_forall in Hl.
      eexists. eapply (reads_curve multi rh hdr z m o rel Hrh Ho); eauto. apply Nat.ltb_ge in Hb. lia.
    - intros k a rest Ha Hb. eapply refuses_curve; eauto. apply Nat.ltb_lt in Hb. lia.
    - eapply existsb_imp; [|apply (max_of_gt _ curve_levels l (129 - d)); lia].
      intros c Hc. apply Nat.ltb_lt in Hc. apply Nat.ltb_lt. lia.
  Qed.

  Lemma refuses_curvepolygon : forall i p t idx d l b,
    isi i (o p) t -> cnt (length l) -> Forall (on_curve coord64 cnt) l ->
    128 < d + max_of curve_levels l ->
    refuses (process_curvepolygon multi rh i idx d) (members o p (curve_bytes hdr cb o) l ++ b).
  Proof.
    intros i p t idx d l b Hi Hn Hl Hd. unfold process_curvepolygon.
    destruct (Nat.ltb_spec max_nesting_depth d) as [H|H]; unfold max_nesting_depth in H;
      [apply refuses_fail|].
    apply (refuses_curves i p t (d + 1) (fun n => CurvePolygonBegin n idx)); auto; lia.
  Qed.

  Lemma refuses_geom : forall g fuel i p idx d b,
    isi i (o p) (gtype g) -> on_geom True (fun _ => True) coord64 cnt g ->
    128 < d + levels g -> 1 <= fuel -> 130 <= fuel + d ->
    refuses (process_geom_n fuel multi rh i idx d) (body hdr cb o p g ++ b).
  Proof.
    induction g as [c| |l|l|l|l|l|l IHg|l|l|l|l|l|l|l|l] using geom_ind';
      intros fuel i p idx d b Hi Hok Hd Hf1 Hf;
      (destruct fuel as [|fuel]; [lia|]); cbn [process_geom_n];
      (destruct (Nat.ltb_spec max_nesting_depth d) as [Hdd|Hdd]; unfold max_nesting_depth in Hdd;
        [apply refuses_fail|]);
      (match goal with |- context [match i_type i with _ => _ end] =>
         let H := fresh in pose proof (proj1 (proj2 Hi)) as H; rewrite H; clear H end);
      cbn [gtype type_of_code kind_code]; try (cbn [levels] in Hd; lia).
    - (* collection *)
      rewrite body_collection. rewrite levels_collection in Hd.
      apply on_geom_collection in Hok. destruct Hok as [Hn Hl].
      rewrite Forall_forall in Hl, IHg.
      apply (refuses_members _ (fun a => Nat.ltb 128 (d + S (levels a))) (geom_bytes hdr cb o) _
               (fun n => CollectionBegin n idx) (CollectionEnd idx) i p _ l b Hi Hn).
      + intros k a rest Ha Hb. apply Nat.ltb_ge in Hb. eexists. unfold geom_bytes.
        rewrite <- (proj1 (gtype_code a)).
        apply (reads_hdr rh hdr z m o rel Hrh Ho i p k (gtype a) (gtype (GCollection l)));
          [apply gtype_code|exact Hi|].
        intros i' Hi'. apply (reads_geom multi rh hdr z m o rel Hrh Ho); auto; lia.
      + intros k a rest Ha Hb. apply Nat.ltb_lt in Hb. unfold geom_bytes.
        rewrite <- (proj1 (gtype_code a)).
        apply (refuses_hdr i p k (gtype a) (gtype (GCollection l)));
          [apply gtype_code|exact Hi|].
        intros i' Hi'. apply IHg; auto; lia.
      + eapply existsb_imp; [|apply (max_of_gt _ (fun a => S (levels a)) l (128 - d)); lia].
        intros a Ha. apply Nat.ltb_lt in Ha. apply Nat.ltb_lt. lia.
    - (* compoundcurve *) cbn [levels] in Hd. apply refuses_compound. lia.
    - (* curvepolygon *)
      cbn [levels] in Hd. destruct Hok as [Hn Hl]. eapply refuses_curvepolygon; eauto. lia.
    - (* multicurve *)
      cbn [levels] in Hd. destruct Hok as [Hn Hl]. cbn [body].
      eapply (refuses_curves i p _ (d + 1) (fun n => MultiCurveBegin n idx)); eauto; lia.
    - (* multisurface *)
      cbn [levels] in Hd. destruct Hok as [Hn Hl]. cbn [body]. rewrite Forall_forall in Hl.
      apply (refuses_members _ (fun a => Nat.ltb 128 (d + surface_levels a)) (surface_bytes hdr cb o) _
               (fun n => MultiSurfaceBegin n idx) (MultiSurfaceEnd idx) i p _ l b Hi Hn).
      + intros k a rest Ha Hb. apply Nat.ltb_ge in Hb. specialize (Hl a Ha).
        destruct a as [r|cs]; cbn [surface_bytes on_surface surface_levels] in *; eexists.
        * apply (reads_hdr rh hdr z m o rel Hrh Ho i p k TPolygon (gtype (GMultiSurface l)));
            [discriminate|exact Hi|].
          intros i' Hi'. replace (i_type i') with TPolygon by (symmetry; apply Hi').
          eapply reads_polygon; eauto.
        * apply (reads_hdr rh hdr z m o rel Hrh Ho i p k TCurvePolygon (gtype (GMultiSurface l)));
            [discriminate|exact Hi|].
          intros i' Hi'. replace (i_type i') with TCurvePolygon by (symmetry; apply Hi').
          destruct Hl as [Hn' Hl']. eapply reads_curvepolygon; eauto. lia.
      + intros k a rest Ha Hb. apply Nat.ltb_lt in Hb. specialize (Hl a Ha).
        destruct a as [r|cs]; cbn [surface_bytes on_surface surface_levels] in *; [lia|].
        apply (refuses_hdr i p k TCurvePolygon (gtype (GMultiSurface l))); [discriminate|exact Hi|].
        intros i' Hi'. replace (i_type i') with TCurvePolygon by (symmetry; apply Hi').
        destruct Hl as [Hn' Hl']. eapply refuses_curvepolygon; eauto. lia.
      + eapply existsb_imp; [|apply (max_of_gt _ surface_levels l (128 - d)); lia].
        intros a Ha. apply Nat.ltb_lt in Ha. apply Nat.ltb_lt. lia.
  Qed.
End Refuse.

Lemma refuses_process : forall dl d bs i bd,
  (forall b, reads (read_header dl) (bs ++ b) [] i b) ->
  refuses (process_geom_n geom_fuel (multi_dim d) (nested_header dl) i 0 0) bd ->
  refuses (process_wkb_type_geom dl d) (bs ++ bd).
Proof.
  intros * H1 H2. unfold process_wkb_type_geom.
  eapply refuses_bind_r; [apply H1|]. eapply refuses_bind_r; [apply reads_call|]. exact H2.
Qed.

Lemma refuses_enc_wkb : forall d z m o g tail,
  encodable g -> 128 < levels g ->
  refuses (process_wkb_type_geom Wkb d) (enc_wkb z m o g ++ tail).
Proof.
  intros d z m o g tail Hg Hl. unfold enc_wkb. rewrite <- app_assoc.
  destruct (gtype_code g) as [Hc Hu]. rewrite <- Hc.
  eapply (refuses_process Wkb d _ (mkInfo (o []) (gtype g) z m None [] false));
    [intros; apply reads_wkb_header|].
  apply (refuses_geom (multi_dim d) read_wkb_nested_header (iso_header z m) z m o any
           (nested_iso z m) (fun _ _ => I)); try assumption; try (unfold geom_fuel; lia).
  repeat split.
Qed.

Lemma refuses_enc_ewkb : forall d z m o srid g tail,
  encodable g -> 128 < levels g ->
  (match srid with Some x => is_i32 x | None => True end) ->
  refuses (process_wkb_type_geom Ewkb d) (enc_ewkb z m o srid g ++ tail).
Proof.
  intros d z m o srid g tail Hg Hl Hs. unfold enc_ewkb. rewrite <- app_assoc.
  destruct (gtype_code g) as [Hc Hu]. rewrite <- Hc.
  eapply (refuses_process Ewkb d _ (mkInfo (o []) (gtype g) z m srid [] false));
    [intros; apply reads_ewkb_header; exact Hs|].
  apply (refuses_geom (multi_dim d) read_ewkb_nested_header (ewkb_header z m None) z m o any
           (nested_ewkb z m) (fun _ _ => I)); try assumption; try (unfold geom_fuel; lia).
  repeat split.
Qed.

Lemma refuses_enc_gpkg : forall d z m o extended empty ez em srid env g tail,
  encodable g -> 128 < levels g -> env_fits ez em env -> is_i32 srid ->
  refuses (process_wkb_type_geom Geopackage d)
        (enc_gpkg z m o (o []) extended empty ez em srid env g ++ tail).
Proof.
  intros d z m o extended empty ez em srid env g tail Hg Hl He Hs.
  unfold enc_gpkg, enc_wkb. destruct (gtype_code g) as [Hc Hu]. rewrite <- Hc.
  rewrite app_assoc, <- app_assoc.
  eapply (refuses_process Geopackage d _ (mkInfo (o []) (gtype g) z m (Some srid) env false));
    [intros; rewrite <- app_assoc; apply reads_gpkg_header; assumption|].
  apply (refuses_geom (multi_dim d) read_wkb_nested_header (iso_header z m) z m o any
           (nested_iso z m) (fun _ _ => I)); try assumption; try (unfold geom_fuel; lia).
  repeat split.
Qed.

Lemma refuses_enc_mysql : forall d z m o srid g tail,
  encodable g -> 128 < levels g -> (0 <= srid < 2 ^ 31)%Z -> o [] = LE ->
  refuses (process_wkb_type_geom MySQL d) (enc_mysql z m o srid g ++ tail).
Proof.
  intros d z m o srid g tail Hg Hl Hs Ho.
  unfold enc_mysql, enc_wkb. destruct (gtype_code g) as [Hc Hu]. rewrite <- Hc, Ho.
  rewrite app_assoc, <- app_assoc.
  eapply (refuses_process MySQL d _ (mkInfo LE (gtype g) z m (Some srid) [] false));
    [intros; rewrite <- app_assoc; apply reads_mysql_header; assumption|].
  apply (refuses_geom (multi_dim d) read_wkb_nested_header (iso_header z m) z m o any
           (nested_iso z m) (fun _ _ => I)); try assumption; try (unfold geom_fuel; lia).
  repeat split. symmetry. exact Ho.
Qed.

Lemma refuses_enc_spatialite : forall d z m o srid env g tail,
  encodable g -> 128 < levels g -> env4 env -> is_i32 srid ->
  refuses (process_wkb_type_geom SpatiaLite d) (enc_spatialite z m o srid env g ++ tail).
Proof.
  intros d z m o srid env g tail Hg Hl He Hs. unfold enc_spatialite.
  destruct (gtype_code g) as [Hc Hu]. rewrite <- Hc. rewrite <- !app_assoc.
  eapply (refuses_process SpatiaLite d _
            (mkInfo (o []) (gtype g) z m (srid_or_none srid) _ false));
    [intros; apply reads_spatialite_header; assumption|].
  apply (refuses_geom (multi_dim d) read_spatialite_nested_header (spatialite_sub_header z m) z m
           (fun _ => o []) eq (nested_spatialite z m) (fun _ _ => eq_refl));
    try assumption; try (unfold geom_fuel; lia).
  repeat split.
Qed.
