(** Facts about the WKB readers on arbitrary input (helper lemmas for C06-C11). *)
From Coq Require Import String Ascii.
From Coq Require Import List NArith ZArith Lia Bool ZifyBool ZifyNat ZifyN.
From Coq Require Import Init.Byte.
From Verif Require Import Base BaseLemmas Float Event EventLemmas Geom WkbModel.
Import ListNotations.
Local Open Scope nat_scope.
Local Open Scope list_scope.

(** ** Readers are a fixed list of callbacks followed by a result *)
Definition lin {A} (f : rd A) : Prop := forall b, exists l r, f b = calls l (Done r).

Lemma rbind_calls : forall A B (f : rd A) (g : A -> rd B) b l a rest,
  f b = calls l (Done (Ok (a, rest))) -> rbind f g b = calls l (g a rest).
Proof. intros * H. unfold rbind. rewrite H, pbind_calls. reflexivity. Qed.

Lemma rbind_calls_err : forall A B (f : rd A) (g : A -> rd B) b l e,
  f b = calls l (Done (Err e)) -> rbind f g b = calls l (Done (Err e)).
Proof. intros * H. unfold rbind. rewrite H, pbind_calls. reflexivity. Qed.

(** a decision procedure for membership of the closed class of readers: the predicates below
    are all closed under the same constructors *)
Class rd_class (P : forall A, rd A -> Prop) := {
  rc_ret : forall A (a : A), P A (rret a);
  rc_bind : forall A B (f : rd A) (g : A -> rd B), P A f -> (forall a, P B (g a)) -> P B (rbind f g);
  rc_call : forall e, P unit (rcall e);
  rc_take : forall n, P _ (rtake n);
  rc_fail : forall A e, P A (rfail e)
}.

Section Closed.
  Context {P : forall A, rd A -> Prop} {HP : rd_class P}.
  Arguments P {A}.

  Lemma rc_map : forall A B (h : A -> B) f, P f -> P (rmap h f).
  Proof. intros. apply rc_bind; [assumption|]. intros; apply rc_ret. Qed.

  Lemma rc_for : forall f n i, (forall k, P (f k)) -> P (rfor f n i).
  Proof.
    induction n as [|n IH]; intros i H; cbn [rfor]; [apply rc_ret|].
    apply rc_bind; [apply H|]. intros _. apply IH. exact H.
  Qed.

  Lemma rc_f64s : forall e n, P (r_f64s e n).
  Proof.
    induction n as [|n IH]; cbn [r_f64s]; [apply rc_ret|].
    apply rc_bind; [apply rc_map, rc_take|]. intros x.
    apply rc_bind; [exact IH|]. intros; apply rc_ret.
  Qed.

  Ltac go :=
    repeat first
      [ apply rc_ret | apply rc_take | apply rc_call | apply rc_fail | apply rc_f64s
      | match goal with |- P (rmap _ _) => apply rc_map | |- P (rfor _ _ _) => apply rc_for; intros
        | |- P (rbind _ _) => apply rc_bind; intros end
      | progress cbv zeta
      | match goal with |- P (if ?x then _ else _) => destruct x end
      | match goal with |- P (match ?x with _ => _ end) => destruct x end
      | match goal with |- P (let '(_, _) := ?x in _) => destruct x end
      | assumption ].

  Lemma rc_wkb_header : P read_wkb_header.
  Proof. unfold read_wkb_header, r_u8, r_u32. go. Qed.
  Lemma rc_ewkb_header : P read_ewkb_header.
  Proof. unfold read_ewkb_header, r_u8, r_i32, r_u32. go. Qed.
  Lemma rc_header : forall dl, P (read_header dl).
  Proof.
    intros []; cbn [read_header]; try apply rc_wkb_header; try apply rc_ewkb_header.
    - unfold read_gpkg_header, r_u8, r_i32, r_u32. go; try apply rc_wkb_header.
    - unfold read_mysql_header, r_u32. go; try apply rc_wkb_header.
    - unfold read_spatialite_header, r_u8, r_i32, r_u32. go.
  Qed.
  Lemma rc_nested : forall dl i, P (nested_header dl i).
  Proof.
    intros [] i; cbn [nested_header]; try apply rc_wkb_header; try apply rc_ewkb_header.
    unfold read_spatialite_nested_header, r_u8, r_u32. go.
  Qed.

  Lemma rc_coord_as : forall b i, P (read_coord_as b i).
  Proof. intros. unfold read_coord_as, r_f64, r_f32. go. Qed.
  Lemma rc_emit : forall mu k c, P (emit_coord mu k c).
  Proof. intros mu k [[[x y] z] m]. unfold emit_coord. go. Qed.
  Lemma rc_coord : forall mu i k, P (process_coord mu i k).
  Proof. intros. apply rc_bind; [apply rc_coord_as|]. intros. apply rc_emit. Qed.
  Lemma rc_comp_coord : forall mu i k c, P (process_compressed_coord mu i k c).
  Proof.
    intros mu i k [[[x y] z] m]. apply rc_bind; [apply rc_coord_as|].
    intros [[[? ?] ?] ?]. go.
  Qed.
  Lemma rc_comp_loop : forall mu i n k c, P (compressed_loop mu i n k c).
  Proof.
    induction n as [|n IH]; intros k c; cbn [compressed_loop]; [apply rc_ret|].
    apply rc_bind; [apply rc_comp_coord|]. intros; apply IH.
  Qed.
  Lemma rc_coords : forall mu i n, P (process_coords mu i n).
  Proof. intros. unfold process_coords. apply rc_for. intros. apply rc_bind; [apply rc_coord|intros; apply rc_ret]. Qed.

  Ltac go2 :=
    repeat first
      [ apply rc_ret | apply rc_take | apply rc_call | apply rc_fail
      | apply rc_coord | apply rc_coords | apply rc_comp_loop | apply rc_coord_as | apply rc_emit
      | assumption
      | match goal with |- P (rmap _ _) => apply rc_map | |- P (rfor _ _ _) => apply rc_for; intros
        | |- P (rbind _ _) => apply rc_bind; intros end
      | progress cbv zeta
      | match goal with |- P (if ?x then _ else _) => destruct x end
      | match goal with |- P (match ?x with _ => _ end) => destruct x end ].

  Lemma rc_linestring : forall mu i t k, P (process_linestring mu i t k).
  Proof. intros. unfold process_linestring, r_u32. go2. Qed.
  Lemma rc_circular : forall mu i k, P (process_circularstring mu i k).
  Proof. intros. unfold process_circularstring, r_u32. go2. Qed.
  Lemma rc_polygon : forall mu i t k, P (process_polygon mu i t k).
  Proof. intros. unfold process_polygon, r_u32. go2; try apply rc_linestring. Qed.
  Lemma rc_triangle : forall mu i t k, P (process_triangle mu i t k).
  Proof. intros. unfold process_triangle, r_u32. go2; try apply rc_linestring. Qed.

  Variable rh : info -> rd info.
  Hypothesis Hrh : forall i, P (rh i).

  Lemma rc_compound : forall mu i k d, P (process_compoundcurve mu rh i k d).
  Proof.
    intros. unfold process_compoundcurve, r_u32.
    go2; first [apply Hrh | apply rc_linestring | apply rc_circular].
  Qed.
  Lemma rc_curve : forall mu i k d, P (process_curve mu rh i k d).
  Proof.
    intros. unfold process_curve, r_u32.
    go2; first [apply Hrh | apply rc_linestring | apply rc_circular | apply rc_compound].
  Qed.
  Lemma rc_curvepolygon : forall mu i k d, P (process_curvepolygon mu rh i k d).
  Proof. intros. unfold process_curvepolygon, r_u32. go2; try apply rc_curve. Qed.

  Lemma rc_geom : forall fuel mu i k d, P (process_geom_n fuel mu rh i k d).
  Proof.
    induction fuel as [|fuel IH]; intros; cbn [process_geom_n]; [apply rc_fail|].
    unfold r_u32.
    go2; first [ apply Hrh | apply rc_linestring | apply rc_circular | apply rc_compound
               | apply rc_curve | apply rc_polygon | apply rc_triangle | apply rc_curvepolygon
               | apply IH ].
  Qed.
End Closed.

Lemma rc_process : forall (P : forall A, rd A -> Prop), rd_class P ->
  forall dl d, P unit (process_wkb_type_geom dl d).
Proof.
  intros P HP dl d. unfold process_wkb_type_geom.
  apply rc_bind; [apply (rc_header (HP := HP))|]. intros i.
  apply rc_bind; [apply rc_call|]. intros _. apply rc_geom. apply rc_nested.
Qed.

(** *** linearity *)
Lemma take_lin : forall n b, exists r, rtake n b = Done r.
Proof. intros n b. unfold rtake. destruct (Nat.ltb _ _); eexists; reflexivity. Qed.

Global Instance lin_class : rd_class (@lin).
Proof.
  split.
  - intros A a b. exists [], (Ok (a, b)). reflexivity.
  - intros A B f g Hf Hg b. destruct (Hf b) as (l & [[a rest]|e] & H).
    + destruct (Hg a rest) as (l2 & r2 & H2). exists (l ++ l2), r2.
      rewrite (rbind_calls _ _ _ _ _ _ _ _ H), H2, calls_app. reflexivity.
    + exists l, (Err e). apply rbind_calls_err. exact H.
  - intros e b. exists [e], (Ok (tt, b)). reflexivity.
  - intros n b. destruct (take_lin n b) as [r H]. exists [], r. exact H.
  - intros A e b. exists [], (Err e). reflexivity.
Qed.

Lemma lin_process : forall dl d, lin (process_wkb_type_geom dl d).
Proof. apply rc_process, lin_class. Qed.

(** *** extension of the input *)
Definition ext {A} (f : rd A) : Prop := forall p t,
  (exists l a rest, f p = calls l (Done (Ok (a, rest))) /\
                    f (p ++ t) = calls l (Done (Ok (a, rest ++ t)))) \/
  (exists l e, f p = calls l (Done (Err e)) /\ f (p ++ t) = calls l (Done (Err e))) \/
  (exists l l' r, f p = calls l (Done (Err EIo)) /\ f (p ++ t) = calls (l ++ l') (Done r)).

Global Instance ext_class : rd_class (fun A f => @ext A f /\ lin f).
Proof.
  split.
  - intros A a. split; [|apply rc_ret]. intros p t. left. exists [], a, p. split; reflexivity.
  - intros A B f g [Hf Lf] Hg. split; [|apply rc_bind; [exact Lf|intros; apply Hg]].
    intros p t. destruct (Hf p t) as [(l & a & rest & H1 & H2)|[(l & e & H1 & H2)|(l & l' & r & H1 & H2)]].
    + destruct (Hg a) as [Eg Lg].
      destruct (Eg rest t) as [(m & c & rest2 & G1 & G2)|[(m & e & G1 & G2)|(m & m' & r & G1 & G2)]].
      * left. exists (l ++ m), c, rest2.
        rewrite (rbind_calls _ _ _ _ _ _ _ _ H1), (rbind_calls _ _ _ _ _ _ _ _ H2), G1, G2, !calls_app.
        split; reflexivity.
      * right; left. exists (l ++ m), e.
        rewrite (rbind_calls _ _ _ _ _ _ _ _ H1), (rbind_calls _ _ _ _ _ _ _ _ H2), G1, G2, !calls_app.
        split; reflexivity.
      * right; right. exists (l ++ m), m', r.
        rewrite (rbind_calls _ _ _ _ _ _ _ _ H1), (rbind_calls _ _ _ _ _ _ _ _ H2), G1, G2, <- !app_assoc, !calls_app.
        split; reflexivity.
    + right; left. exists l, e. split; apply rbind_calls_err; assumption.
    + right; right. destruct r as [[a rest]|e].
      * destruct (Hg a) as [_ Lg]. destruct (Lg rest) as (m & r & G).
        exists l, (l' ++ m), r. split; [apply rbind_calls_err; exact H1|].
        rewrite (rbind_calls _ _ _ _ _ _ _ _ H2), G, app_assoc, (calls_app _ (l ++ l')). reflexivity.
      * exists l, l', (Err e). split; apply rbind_calls_err; assumption.
  - intros e. split; [|apply rc_call]. intros p t. left. exists [e], tt, p. split; reflexivity.
  - intros n. split; [|apply rc_take]. intros p t. unfold rtake.
    destruct (Nat.ltb_spec (length p) n).
    + right; right. destruct (take_lin n (p ++ t)) as [r Hr]. exists [], [], r.
      split; [reflexivity|]. unfold rtake in Hr. rewrite Hr. reflexivity.
    + left. exists [], (firstn n p), (skipn n p). split; [reflexivity|].
      rewrite app_length. replace (Nat.ltb (length p + length t) n) with false by (symmetry; apply Nat.ltb_ge; lia).
      rewrite firstn_app, skipn_app. replace (n - length p) with 0 by lia. cbn [firstn skipn].
      rewrite app_nil_r. reflexivity.
  - intros A e. split; [|apply rc_fail]. intros p t. right; left. exists [], e. split; reflexivity.
Qed.

Lemma ext_process : forall dl d, ext (process_wkb_type_geom dl d).
Proof. intros dl d. apply (rc_process _ ext_class dl d). Qed.

(** ** Credits: callbacks are paid for by consumed bytes *)
Definition okerr (e : error) : Prop := e = EIo \/ e = EGeometryFormat \/ e = nesting_error.

Definition bnd {A} (cin cout : nat) (f : rd A) : Prop := forall b, exists l r,
  f b = calls l (Done r) /\
  match r with
  | Ok (a, rest) => exists u, b = u ++ rest /\ length l + cout <= length u + cin
  | Err e => length l <= length b + cin /\ okerr e
  end.

Lemma bnd_ret : forall A (a : A) n, bnd n n (rret a).
Proof. intros A a n b. exists [], (Ok (a, b)). split; [reflexivity|]. exists []. cbn. split; [reflexivity|lia]. Qed.

Lemma bnd_bind : forall A B (f : rd A) (g : A -> rd B) n c m,
  bnd n c f -> (forall a, bnd c m (g a)) -> bnd n m (rbind f g).
Proof.
  intros * Hf Hg b. destruct (Hf b) as (l & [[a rest]|e] & H & Hb).
  - destruct Hb as (u & -> & Hu). destruct (Hg a rest) as (l2 & r2 & H2 & Hb2).
    exists (l ++ l2), r2. split.
    + rewrite (rbind_calls _ _ _ _ _ _ _ _ H), H2, calls_app. reflexivity.
    + rewrite !app_length. destruct r2 as [[a2 rest2]|e].
      * destruct Hb2 as (u2 & -> & Hu2). exists (u ++ u2). rewrite app_assoc. split; [reflexivity|].
        rewrite app_length. lia.
      * destruct Hb2. split; [lia|assumption].
  - exists l, (Err e). split; [apply rbind_calls_err; exact H|exact Hb].
Qed.

Lemma bnd_weaken : forall A (f : rd A) n m n' m',
  bnd n m f -> n + m' <= n' + m -> n <= n' -> bnd n' m' f.
Proof.
  intros * Hf H1 H2 b. destruct (Hf b) as (l & r & H & Hb). exists l, r. split; [exact H|].
  destruct r as [[a rest]|e].
  - destruct Hb as (u & -> & Hu). exists u. split; [reflexivity|lia].
  - destruct Hb. split; [lia|assumption].
Qed.

Lemma bnd_ret_le : forall A (a : A) n m, m <= n -> bnd n m (rret a).
Proof. intros A a n m H. eapply bnd_weaken; [apply (bnd_ret _ a n)|lia|lia]. Qed.

Lemma bnd_call : forall e n, bnd (S n) n (rcall e).
Proof. intros e n b. exists [e], (Ok (tt, b)). split; [reflexivity|]. exists []. split; [reflexivity|]. cbn. lia. Qed.

Lemma bnd_take : forall k n, bnd n (n + k) (rtake k).
Proof.
  intros k n b. unfold rtake. destruct (Nat.ltb_spec (length b) k).
  - exists [], (Err EIo). split; [reflexivity|]. cbn. split; [lia|left; reflexivity].
  - exists [], (Ok (firstn k b, skipn k b)). split; [reflexivity|]. exists (firstn k b).
    rewrite firstn_skipn, firstn_length. split; [reflexivity|]. cbn. lia.
Qed.

Lemma bnd_fail : forall A e n m, okerr e -> bnd n m (@rfail A e).
Proof. intros A e n m He b. exists [], (Err e). split; [reflexivity|]. cbn. split; [lia|exact He]. Qed.

Lemma bnd_map : forall A B (h : A -> B) f n m, bnd n m f -> bnd n m (rmap h f).
Proof. intros. eapply bnd_bind; [eassumption|]. intros. apply bnd_ret. Qed.

Lemma bnd_for : forall f k i n, (forall j, bnd 0 0 (f j)) -> bnd n n (rfor f k i).
Proof.
  induction k as [|k IH]; intros i n H; cbn [rfor]; [apply bnd_ret|].
  eapply bnd_bind with (c := n); [|intros; apply IH; exact H].
  eapply bnd_weaken; [apply H|lia|lia].
Qed.

Lemma bnd_u8 : forall n, bnd n (n + 1) r_u8.
Proof. intros. apply bnd_map, bnd_take. Qed.
Lemma bnd_u32 : forall e n, bnd n (n + 4) (r_u32 e).
Proof. intros. apply bnd_map, bnd_take. Qed.
Lemma bnd_i32 : forall e n, bnd n (n + 4) (r_i32 e).
Proof. intros. apply bnd_map, bnd_u32. Qed.
Lemma bnd_f64 : forall e n, bnd n (n + 8) (r_f64 e).
Proof. intros. apply bnd_map, bnd_take. Qed.
Lemma bnd_f64s : forall e k n, bnd n (n + k) (r_f64s e k).
Proof.
  induction k as [|k IH]; intros n; cbn [r_f64s].
  - rewrite Nat.add_0_r. apply bnd_ret.
  - eapply bnd_bind with (c := n + 1); [eapply bnd_weaken; [apply (bnd_f64 _ n)|lia|lia]|]. intros x.
    eapply bnd_bind; [apply IH|]. intros l. apply bnd_ret_le; lia.
Qed.

Ltac okerr_tac := unfold okerr; tauto.

Lemma bnd_wkb_header : bnd 0 5 read_wkb_header.
Proof.
  unfold read_wkb_header. eapply bnd_bind; [apply bnd_u8|]. intros x. cbv zeta.
  eapply bnd_bind; [apply bnd_u32|]. intros y. apply bnd_ret.
Qed.

Lemma bnd_ewkb_header : bnd 0 5 read_ewkb_header.
Proof.
  unfold read_ewkb_header. eapply bnd_bind; [apply bnd_u8|]. intros x. cbv zeta.
  eapply bnd_bind; [apply bnd_u32|]. intros y.
  eapply bnd_bind with (c := 5); [|intros; apply bnd_ret].
  destruct (has_flag _ _).
  - eapply bnd_weaken; [apply bnd_map, (bnd_i32 _ 0)|lia|lia].
  - apply bnd_ret.
Qed.

Lemma bnd_header : forall dl, bnd 0 5 (read_header dl).
Proof.
  intros []; cbn [read_header].
  - apply bnd_wkb_header.
  - apply bnd_ewkb_header.
  - unfold read_gpkg_header.
    eapply bnd_bind; [apply bnd_u8|]. intros m0. eapply bnd_bind; [apply bnd_u8|]. intros m1.
    destruct (negb _); [apply bnd_fail; okerr_tac|].
    eapply bnd_bind; [apply bnd_u8|]. intros v. eapply bnd_bind; [apply bnd_u8|]. intros fl.
    destruct (gpkg_env_len _) as [n|e] eqn:E.
    + cbv zeta. eapply bnd_bind; [apply bnd_i32|]. intros s.
      eapply bnd_bind; [apply bnd_f64s|]. intros en.
      eapply bnd_bind with (c := 5); [eapply bnd_weaken; [apply bnd_wkb_header|lia|lia]|].
      intros; apply bnd_ret.
    + apply bnd_fail. unfold gpkg_env_len in E. right; left.
      repeat match type of E with context[match ?x with _ => _ end] => destruct x; try discriminate end;
        injection E as <-; reflexivity.
  - unfold read_mysql_header. eapply bnd_bind; [apply bnd_u32|]. intros s.
    destruct (_ <=? _)%N; [apply bnd_fail; okerr_tac|].
    eapply bnd_bind with (c := 5); [eapply bnd_weaken; [apply bnd_wkb_header|lia|lia]|]. intros i.
    destruct (negb _); [apply bnd_fail; okerr_tac|apply bnd_ret].
  - unfold read_spatialite_header. eapply bnd_bind; [apply bnd_u8|]. intros st.
    destruct (negb _); [apply bnd_fail; okerr_tac|].
    eapply bnd_bind; [apply bnd_u8|]. intros fl. cbv zeta.
    eapply bnd_bind; [apply bnd_i32|]. intros s.
    destruct (negb _).
    + eapply bnd_bind; [apply bnd_u8|]. intros d. apply bnd_ret_le; lia.
    + eapply bnd_bind; [apply bnd_f64s|]. intros en.
      eapply bnd_bind; [apply bnd_u8|]. intros me.
      destruct (negb _); [apply bnd_fail; okerr_tac|].
      eapply bnd_bind; [apply bnd_u32|]. intros ty. apply bnd_ret_le; lia.
Qed.

Lemma bnd_nested : forall dl i, bnd 0 5 (nested_header dl i).
Proof.
  intros [] i; cbn [nested_header]; try apply bnd_wkb_header; try apply bnd_ewkb_header.
  unfold read_spatialite_nested_header. eapply bnd_bind; [apply bnd_u8|]. intros st.
  destruct (negb _); [apply bnd_fail; okerr_tac|].
  eapply bnd_bind; [apply bnd_u32|]. intros; apply bnd_ret.
Qed.

Lemma bnd_coord_as : forall b i n, bnd n (n + 8) (read_coord_as b i).
Proof.
  intros b i n. unfold read_coord_as. cbv zeta.
  set (ord := if b then _ else _).
  assert (Ho : forall n, bnd n (n + 4) ord).
  { intros k. subst ord. destruct b.
    - apply bnd_map. apply bnd_map, bnd_take.
    - eapply bnd_weaken; [apply (bnd_f64 _ k)|lia|lia]. }
  eapply bnd_bind; [apply Ho|]. intros x. eapply bnd_bind; [apply Ho|]. intros y.
  eapply bnd_bind with (c := n + 8).
  { destruct (i_z i); [|apply bnd_ret_le; lia].
    eapply bnd_weaken; [apply bnd_map, (Ho n)|lia|lia]. }
  intros z. eapply bnd_bind with (c := n + 8).
  { destruct (i_m i); [|apply bnd_ret_le; lia].
    eapply bnd_weaken; [apply bnd_map, (bnd_f64 _ n)|lia|lia]. }
  intros m. apply bnd_ret.
Qed.

Lemma bnd_emit : forall mu k c n, bnd (S n) n (emit_coord mu k c).
Proof.
  intros mu k [[[x y] z] m] n. unfold emit_coord. eapply bnd_bind; [apply bnd_call|].
  intros; apply bnd_ret.
Qed.

Lemma bnd_coord : forall mu i k n, bnd n n (process_coord mu i k).
Proof.
  intros. eapply bnd_bind; [apply bnd_coord_as|]. intros c.
  eapply bnd_weaken; [apply (bnd_emit _ _ _ n)|lia|lia].
Qed.

Lemma bnd_comp_coord : forall mu i k c n, bnd n n (process_compressed_coord mu i k c).
Proof.
  intros mu i k [[[x y] z] m] n. eapply bnd_bind; [apply bnd_coord_as|]. intros [[[? ?] ?] ?].
  destruct mu; cbv zeta; (eapply bnd_bind with (c := n);
    [eapply bnd_weaken; [apply (bnd_call _ n)|lia|lia]|intros; apply bnd_ret]).
Qed.

Lemma bnd_comp_loop : forall mu i j k c n, bnd n n (compressed_loop mu i j k c).
Proof.
  induction j as [|j IH]; intros k c n; cbn [compressed_loop]; [apply bnd_ret|].
  eapply bnd_bind; [apply bnd_comp_coord|]. intros; apply IH.
Qed.

Lemma bnd_unit : forall A (f : rd A) n m, bnd n m f -> bnd n m (f ;;; rret tt).
Proof. intros. eapply bnd_bind; [eassumption|]. intros; apply bnd_ret. Qed.

Lemma bnd_coords : forall mu i k n, bnd n n (process_coords mu i k).
Proof. intros. apply bnd_for. intros j. apply bnd_unit, bnd_coord. Qed.

(** count, begin, members, end *)
Lemma bnd_container : forall e (b : nat -> event) (mid : nat -> rd unit) en n,
  (forall k n, bnd n n (mid k)) ->
  bnd n n (k <- r_u32 e ;; rcall (b (N.to_nat k)) ;;; mid (N.to_nat k) ;;; rcall en).
Proof.
  intros e b mid en n H. eapply bnd_bind; [apply bnd_u32|]. intros k.
  eapply bnd_bind with (c := n + 1); [eapply bnd_weaken; [apply (bnd_call _ (n + 1))|lia|lia]|].
  intros _. eapply bnd_bind; [apply H|]. intros _.
  eapply bnd_weaken; [apply (bnd_call _ n)|lia|lia].
Qed.

Lemma bnd_linestring : forall mu i t k n, bnd n n (process_linestring mu i t k).
Proof.
  intros. apply (bnd_container _ (fun s => LineStringBegin t s k) (fun length => if i_compressed i && Nat.ltb 0 length then
     first <- process_coord mu i 0 ;;
     _prev <- compressed_loop mu i (length - 2) 1 first ;;
     process_coord mu i length ;;; rret tt
   else process_coords mu i length)).
  intros j n'. destruct (_ && _); [|apply bnd_coords].
  eapply bnd_bind; [apply bnd_coord|]. intros c.
  eapply bnd_bind; [apply bnd_comp_loop|]. intros c2. apply bnd_unit, bnd_coord.
Qed.

Lemma bnd_circular : forall mu i k n, bnd n n (process_circularstring mu i k).
Proof.
  intros. apply (bnd_container _ (fun s => CircularStringBegin s k)). intros; apply bnd_coords.
Qed.

Lemma bnd_polygon : forall mu i t k n, bnd n n (process_polygon mu i t k).
Proof.
  intros. apply (bnd_container _ (fun s => PolygonBegin t s k) (fun r => rfor _ r 0)).
  intros. apply bnd_for. intros. apply bnd_linestring.
Qed.

Lemma bnd_triangle : forall mu i t k n, bnd n n (process_triangle mu i t k).
Proof.
  intros. apply (bnd_container _ (fun s => TriangleBegin t s k) (fun r => rfor _ r 0)).
  intros. apply bnd_for. intros. apply bnd_linestring.
Qed.

Section Bnd.
  Variable rh : info -> rd info.
  Hypothesis Hrh : forall i, bnd 0 5 (rh i).

  Lemma bnd_rh : forall i n, bnd n n (rh i).
  Proof. intros. eapply bnd_weaken; [apply Hrh|lia|lia]. Qed.

  Lemma bnd_compound : forall mu i k d n, bnd n n (process_compoundcurve mu rh i k d).
  Proof.
    intros. unfold process_compoundcurve. destruct (Nat.ltb _ _); [apply bnd_fail; okerr_tac|].
    apply (bnd_container _ (fun s => CompoundCurveBegin s k) (fun r => rfor _ r 0)).
    intros. apply bnd_for. intros. eapply bnd_bind; [apply bnd_rh|]. intros ci.
    destruct (i_type ci); try (apply bnd_fail; okerr_tac); [apply bnd_linestring|apply bnd_circular].
  Qed.

  Lemma bnd_curve : forall mu i k d n, bnd n n (process_curve mu rh i k d).
  Proof.
    intros. unfold process_curve. eapply bnd_bind; [apply bnd_rh|]. intros ci.
    destruct (i_type ci); try (apply bnd_fail; okerr_tac);
      [apply bnd_linestring|apply bnd_circular|apply bnd_compound].
  Qed.

  Lemma bnd_curvepolygon : forall mu i k d n, bnd n n (process_curvepolygon mu rh i k d).
  Proof.
    intros. unfold process_curvepolygon. destruct (Nat.ltb _ _); [apply bnd_fail; okerr_tac|].
    apply (bnd_container _ (fun s => CurvePolygonBegin s k) (fun r => rfor _ r 0)).
    intros. apply bnd_for. intros. apply bnd_curve.
  Qed.

  Lemma bnd_geom : forall fuel mu i k d n, 1 <= fuel -> 130 <= fuel + d ->
    bnd n n (process_geom_n fuel mu rh i k d).
  Proof.
    induction fuel as [|fuel IH]; intros mu i k d n H1 H2; [lia|]. cbn [process_geom_n].
    unfold max_nesting_depth. destruct (Nat.ltb_spec 128 d); [apply bnd_fail; okerr_tac|].
    destruct (i_type i); try (apply bnd_fail; okerr_tac).
    - eapply bnd_bind; [apply bnd_coord_as|]. intros [[[x y] z] m].
      destruct (_ && _).
      + eapply bnd_weaken; [apply (bnd_call _ n)|lia|lia].
      + eapply bnd_bind with (c := n + 2); [eapply bnd_weaken; [apply (bnd_call _ (n + 2))|lia|lia]|].
        intros _. eapply bnd_bind with (c := n + 1); [eapply bnd_weaken; [apply (bnd_emit _ _ _ (n + 1))|lia|lia]|].
        intros _. eapply bnd_weaken; [apply (bnd_call _ n)|lia|lia].
    - apply bnd_linestring.
    - apply bnd_polygon.
    - apply (bnd_container _ (fun s => MultiPointBegin s k) (fun r => rfor _ r 0)).
      intros. apply bnd_for. intros. eapply bnd_bind; [apply bnd_rh|]. intros ci.
      apply bnd_unit, bnd_coord.
    - apply (bnd_container _ (fun s => MultiLineStringBegin s k) (fun r => rfor _ r 0)).
      intros. apply bnd_for. intros. eapply bnd_bind; [apply bnd_rh|]. intros; apply bnd_linestring.
    - apply (bnd_container _ (fun s => MultiPolygonBegin s k) (fun r => rfor _ r 0)).
      intros. apply bnd_for. intros. eapply bnd_bind; [apply bnd_rh|]. intros; apply bnd_polygon.
    - apply (bnd_container _ (fun s => CollectionBegin s k) (fun r => rfor _ r 0)).
      intros. apply bnd_for. intros. eapply bnd_bind; [apply bnd_rh|]. intros; apply IH; lia.
    - apply bnd_circular.
    - apply bnd_compound.
    - apply bnd_curvepolygon.
    - apply (bnd_container _ (fun s => MultiCurveBegin s k) (fun r => rfor _ r 0)).
      intros. apply bnd_for. intros. apply bnd_curve.
    - apply (bnd_container _ (fun s => MultiSurfaceBegin s k) (fun r => rfor _ r 0)).
      intros. apply bnd_for. intros. eapply bnd_bind; [apply bnd_rh|]. intros ci.
      destruct (i_type ci); try (apply bnd_fail; okerr_tac); [apply bnd_polygon|apply bnd_curvepolygon].
    - apply (bnd_container _ (fun s => PolyhedralSurfaceBegin s k) (fun r => rfor _ r 0)).
      intros. apply bnd_for. intros. eapply bnd_bind; [apply bnd_rh|]. intros; apply bnd_polygon.
    - apply (bnd_container _ (fun s => TinBegin s k) (fun r => rfor _ r 0)).
      intros. apply bnd_for. intros. eapply bnd_bind; [apply bnd_rh|]. intros; apply bnd_triangle.
    - apply bnd_triangle.
  Qed.
End Bnd.

Lemma bnd_process : forall dl d, bnd 0 0 (process_wkb_type_geom dl d).
Proof.
  intros dl d. unfold process_wkb_type_geom. eapply bnd_bind; [apply bnd_header|]. intros i.
  eapply bnd_bind with (c := 4); [apply bnd_call|]. intros _.
  eapply bnd_weaken; [apply (bnd_geom _ (bnd_nested dl) geom_fuel _ _ _ _ 0); unfold geom_fuel; lia|lia|lia].
Qed.
