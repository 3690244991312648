(** Lemmas behind C85: the errors of GDAL, GEOS and the tessellator. *)
From Coq Require Import String Ascii.
From Coq Require Import List NArith ZArith Lia Bool.
From Verif Require Import Base BaseLemmas Float Event ProcModel Claims TraceTop FaultSpec FaultTop GdalModel DrivenGdal.
From Verif Require GeosModel TessModel.
Import ListNotations.
Local Open Scope list_scope.

(** a geometry of a basic type; the members of a multipolygon are polygons *)
Definition polys (g : og) : Prop :=
  named (o_kind g) = true /\ (o_kind g = OMultiPolygon -> Forall (fun q => o_kind q = OPolygon) (o_kids g)).
Definition keeps (f : og -> og) : Prop := forall g, o_kind (f g) = o_kind g /\ o_kids (f g) = o_kids g.
Lemma keeps_set : forall i p, keeps (set_point i p).
Proof. intros i p [k z m pts kids]. unfold set_point. destruct k; try (split; reflexivity); destruct (c_int i) as [[|n]|]; split; reflexivity. Qed.
Lemma keeps_set2 : forall i x y, keeps (set_point_2d i x y).
Proof. intros i x y [k z m pts kids]. unfold set_point_2d. destruct k; try (split; reflexivity); destruct (c_int i) as [[|n]|]; split; reflexivity. Qed.
Lemma polys_keeps : forall f g, keeps f -> polys g -> polys (f g).
Proof. intros f g K [A B]. destruct (K g) as [E F]. split; [rewrite E; exact A|rewrite E, F; exact B]. Qed.
Lemma path_kind : forall f path g, (forall q, o_kind (f q) = o_kind q) -> o_kind (at_path path f g) = o_kind g.
Proof. intros f [|i r] g K; [apply K|]. destruct g; reflexivity. Qed.
Lemma nth_kinds : forall f i l, (forall q, o_kind (f q) = o_kind q) -> Forall (fun q => o_kind q = OPolygon) l -> Forall (fun q => o_kind q = OPolygon) (at_nth i f l).
Proof.
  intros f i l K H. revert i. induction H as [|a l A H IH]; intros i; [destruct i; constructor|].
  destruct i; cbn; constructor; auto. rewrite K. exact A.
Qed.
Lemma polys_path : forall f path g, keeps f -> polys g -> polys (at_path path f g).
Proof.
  intros f [|i r] g K H; [exact (polys_keeps f g K H)|]. destruct g as [k z m pts kids]. destruct H as [A B]. split; [exact A|].
  intros M. cbn. apply nth_kinds; [|exact (B M)]. intros q. apply path_kind. intros p. apply (K p).
Qed.
Lemma lift_kind : forall z m g, o_kind (lift z m g) = o_kind g.
Proof. intros z m [k z0 m0 pts kids]. reflexivity. Qed.
Lemma polys_add : forall g a g', add g a = Ok g' -> polys g -> polys g'.
Proof.
  intros [k z m pts kids] a g' E [A B]. unfold add in E. destruct (fits_in _ _) eqn:F; [|discriminate E]. cbn [lift] in E. injection E as <-.
  split; [exact A|]. cbn in *. intros M. specialize (B M). subst k. apply Forall_app. split.
  - clear - B. induction B as [|q l Q B IH]; constructor; [rewrite lift_kind; exact Q|exact IH].
  - constructor; [|constructor]. rewrite lift_kind. destruct (o_kind a); try discriminate F; reflexivity.
Qed.
Lemma code_kind : forall g n, named (o_kind g) = true -> (full_code g mod 1000 = n)%N -> (1 <= n <= 6)%N -> code (o_kind g) = n.
Proof.
  intros [k z m pts kids] n H E R. subst n. destruct k; try discriminate H; destruct z, m; vm_compute in R; try reflexivity; destruct R as [_ R]; now contradiction R.
Qed.
Lemma codes : forall g, named (o_kind g) = true -> forall P : N -> N -> Prop,
  (forall c, (1 <= c <= 6)%N -> P c c) -> (forall c n, ~ (1 <= n <= 6)%N -> P c n) -> P (code (o_kind g)) (full_code g mod 1000)%N.
Proof.
  intros g H P A B. destruct (N.le_gt_cases 1 (full_code g mod 1000)) as [L|L]; [destruct (N.le_gt_cases (full_code g mod 1000) 6) as [M|M]|].
  - rewrite (code_kind g _ H eq_refl (conj L M)). apply A. split; assumption.
  - apply B. lia.
  - apply B. lia.
Qed.
(** a geometry of the sort that the number says takes the member offered *)
Lemma add_fits : forall g a, fits_in (o_kind g) (o_kind a) = true -> exists g', add g a = Ok g'.
Proof. intros g a H. unfold add. rewrite H. destruct (lift _ _ g). eexists. reflexivity. Qed.

Definition gdal_fine (e : event) (r : gw * res unit) : Prop :=
  match r with (s', Ok _) => polys (g_geom s') | (_, Err x) => In x (gdal_ways (OEv e)) end.
Lemma line_fine : forall e s f, keeps f -> polys (g_geom s) -> In undefined (gdal_ways (OEv e)) -> gdal_fine e (on_line s f).
Proof.
  intros e s f K H U. unfold on_line. destruct (g_line s); cbn; [exact H| |exact U]. apply polys_path; assumption.
Qed.
Lemma add_fine : forall e s a, polys (g_geom s) -> fits_in (o_kind (g_geom s)) (o_kind a) = true -> gdal_fine e (try_add s a).
Proof.
  intros e s a H F. unfold try_add. destruct (add_fits _ _ F) as [g' E]. rewrite E. exact (polys_add _ _ _ E H).
Qed.
Lemma four : forall g, named (o_kind g) = true -> (full_code g mod 1000 = 4)%N -> o_kind g = OMultiPoint.
Proof. intros g H E. pose proof (code_kind g 4 H E ltac:(lia)) as C. destruct g as [k z m pts kids]. destruct k; try discriminate H; try discriminate C; reflexivity. Qed.
Lemma line_parent : forall g, named (o_kind g) = true -> (full_code g mod 1000 = 5 \/ full_code g mod 1000 = 3)%N -> fits_in (o_kind g) OLineString = true.
Proof.
  intros g H [E|E]; [pose proof (code_kind g 5 H E ltac:(lia)) as C|pose proof (code_kind g 3 H E ltac:(lia)) as C];
    destruct g as [k z m pts kids]; destruct k; try discriminate H; try discriminate C; reflexivity.
Qed.
Lemma by_position : forall (P : gw * res unit -> Prop) n a b c d, P a -> (n = 4%N -> P b) -> P c -> P d ->
  P (match n with 1 | 2 => a | 4 => b | 5 | 3 | 6 => c | _ => d end)%N.
Proof. intros P n a b c d Ha Hb Hc Hd. destruct n as [|n]; [exact Hd|]. do 4 (try assumption; try destruct n as [n|n|]; try assumption); now apply Hb. Qed.
Lemma by_owner : forall (P : gw * res unit -> Prop) n a b d, (n = 5 \/ n = 3 -> P a)%N -> (n = 6%N -> P b) -> P d ->
  P (match n with 5 | 3 => a | 6 => b | _ => d end)%N.
Proof.
  intros P n a b d Ha Hb Hd. destruct n as [|n]; [exact Hd|].
  do 4 (try assumption; try destruct n as [n|n|]; try assumption); first [apply Ha; left; reflexivity|apply Ha; right; reflexivity|apply Hb; reflexivity].
Qed.
Lemma step_fine : forall e s, polys (g_geom s) -> gdal_fine e (gdal_step s e).
Proof.
  intros e s H. unfold gdal_step.
  assert (New : forall k, named k = true -> polys (empty_geom s k)) by (intros k K; split; [exact K|constructor]).
  destruct e; try exact H; try (apply New; reflexivity).
  - apply by_position; [apply polys_keeps; [apply keeps_set2|exact H]| |apply line_fine; [apply keeps_set2|exact H|right; left; reflexivity]|left; reflexivity].
    intros E. apply add_fine; [exact H|]. rewrite (proj1 (keeps_set2 0 x y _)). rewrite (four (g_geom s) (proj1 H)); [reflexivity|]. rewrite E. reflexivity.
  - apply by_position; [apply polys_keeps; [apply keeps_set|exact H]| |apply line_fine; [apply keeps_set|exact H|right; left; reflexivity]|left; reflexivity].
    intros E. apply add_fine; [exact H|]. rewrite (proj1 (keeps_set 0 _ _)). rewrite (four (g_geom s) (proj1 H) E). reflexivity.
  - left. reflexivity.
  - destruct tagged; [apply New; reflexivity|]. apply by_owner.
    + intros E. pose proof (line_parent _ (proj1 H) E) as F. destruct (add_fits (g_geom s) (empty_geom s OLineString) F) as [g' A]. rewrite A. exact (polys_add _ _ _ A H).
    + intros E. pose proof (six _ (proj1 H) E) as K. pose proof (proj2 H K) as Q. apply Forall_rev in Q.
      destruct (rev (o_kids (g_geom s))) as [|poly r]; [right; left; reflexivity|]. inversion Q as [|? ? P1 P2]. subst.
      destruct (add_fits poly (empty_geom s OLineString)) as [p' A]; [rewrite P1; reflexivity|]. rewrite A. cbn [gdal_fine g_geom].
      destruct (g_geom s) as [k z m pts kids]. split; [exact (proj1 H)|]. intros M. cbn [o_kids at_path].
      pose proof (proj2 H M) as Ks. cbn in Ks. clear - Ks A P1.
      assert (Pk : o_kind p' = OPolygon).
      { unfold add in A. destruct (fits_in _ _); [|discriminate A]. destruct poly as [k0 z0 m0 pts0 kids0]. cbn in A. injection A as <-. exact P1. }
      generalize (length kids - 1). induction Ks as [|a l Ha Ks IH]; intros [|i]; cbn; constructor; try assumption; try apply IH.
    + left. reflexivity.
  - destruct tagged; [apply New; reflexivity|]. unfold try_add. destruct (add _ _) as [g'|x] eqn:A; [exact (polys_add _ _ _ A H)|].
    rewrite (add_errors _ _ _ A). left. reflexivity.
Qed.
Lemma gdal_only : forall d, fails_only (gdal_writer d) (gw_with d) gdal_ways.
Proof.
  intros d. apply (only_inv _ _ _ _ (fun s => polys (g_geom s))); [split; [reflexivity|discriminate]| |].
  - intros [e|i n v] s s' H E; unfold one in E; cbn [feed p_step p_prop gdal_writer default_prop] in E; [|injection E as <-; exact H].
    pose proof (step_fine e s H) as P. destruct (gdal_step s e) as [q [u|x]]; [injection E as <-; exact P|discriminate E].
  - intros [e|i n v] s s' x H E; unfold one in E; cbn [feed p_step p_prop gdal_writer default_prop] in E; [|discriminate E].
    pose proof (step_fine e s H) as P. destruct (gdal_step s e) as [q [u|y]]; [discriminate E|injection E as _ <-; exact P].
Qed.
Theorem gdal_fails : fails_as (gdal_writer xy_dims) (gw_with xy_dims) gdal_ways.
Proof.
  split; [apply gdal_only|]. intros o x H. destruct o as [e|]; [|destruct H].
  set (freed := [OEv (MultiLineStringBegin 1 0); OEv (LineStringBegin false 1 0); OEv (PolygonBegin true 1 0)]).
  destruct e; cbn [gdal_ways] in H; try (destruct H; fail); try (destruct tagged; [destruct H; fail|]).
  - destruct H as [<-|[<-|[]]]; [at_once [OEv (Coord 0%N 0%N None None None None 0)]|at_once freed].
  - destruct H as [<-|[<-|[]]]; [at_once [OEv (Coord 0%N 0%N None None None None 0)]|at_once freed].
  - destruct H as [<-|[]]. at_once (@nil obs).
  - destruct H as [<-|[<-|[]]]; [at_once (@nil obs)|at_once [OEv (MultiPolygonBegin 1 0)]].
  - destruct H as [<-|[]]. at_once (@nil obs).
Qed.

(** ** GEOS *)
Theorem geos_fails_only : forall lib, fails_only (GeosModel.geos_writer lib) GeosModel.gs_init (geos_ways lib).
Proof.
  intros lib. apply only_any; [|discriminate]. intros e s s' x E. cbn [p_step GeosModel.geos_writer] in E.
  assert (Cap : forall elt n q, (if GeosModel.capacity_ok elt n then (q, Ok tt) else (s, Err EPanic)) = (s', Err x) -> In x (given (overfull elt n) EPanic)).
  { intros elt n q Q. unfold GeosModel.capacity_ok in Q. unfold overfull. rewrite N.leb_antisym. destruct (N.ltb _ _); [discriminate Q|].
    injection Q as _ <-. left. reflexivity. }
  destruct e; cbn [GeosModel.geos_step] in E; cbn [geos_ways]; try discriminate E; try (exact (Cap _ _ _ E));
    try (split_in E; injection E as _ <-; first [left; reflexivity|right; left; reflexivity]).
Qed.
Theorem geos_fails : forall lib, refuses_single lib -> fails_as (GeosModel.geos_writer lib) GeosModel.gs_init (geos_ways lib).
Proof.
  intros lib [Hl Hr]. split; [apply geos_fails_only|]. intros o x H. destruct o as [e|]; [|destruct H].
  assert (One : GeosModel.new_seq 1 = [(f64_zero, f64_zero)]) by (vm_compute; reflexivity).
  assert (Cap : forall elt n, overfull elt n = true -> GeosModel.capacity_ok elt n = false).
  { intros elt n Q. unfold GeosModel.capacity_ok. unfold overfull in Q. rewrite N.leb_antisym in Q. destruct (N.ltb _ _); [discriminate Q|reflexivity]. }
  destruct e; cbn [geos_ways] in H; try (destruct H; fail); try (destruct tagged; [|destruct H; fail]);
    try (apply given_in in H; destruct H as [Hb ->]; exists []; split; [reflexivity|]; cbn; rewrite (Cap _ _ Hb); reflexivity).
  - destruct H as [<-|[<-|[]]]; [at_once (@nil obs)|]. exists [OEv (MultiPointBegin 0 0)]. split; [reflexivity|]. destruct idx; reflexivity.
  - destruct H as [<-|[]]. at_once (@nil obs).
  - destruct H as [<-|[<-|[]]]; [at_once (@nil obs)|]. at_once [OEv (MultiPointBegin 2 0)].
  - destruct H as [<-|[]]. at_once (@nil obs).
  - destruct H as [<-|[<-|[]]]; [at_once (@nil obs)|]. exists [OEv (LineStringBegin true 1 0)]. split; [reflexivity|]. cbn -[GeosModel.new_seq]. rewrite One, Hl. reflexivity.
  - destruct H as [<-|[]]. exists [OEv (LineStringBegin true 1 0)]. split; [reflexivity|]. cbn -[GeosModel.new_seq]. rewrite One, Hl. reflexivity.
  - destruct H as [<-|[<-|[]]]; [at_once (@nil obs)|]. exists [OEv (LineStringBegin true 1 0)]. split; [reflexivity|]. cbn -[GeosModel.new_seq]. rewrite One, Hr. reflexivity.
Qed.

(** ** Tessellator *)
Definition path_inv (ly : TessModel.lyon) (s : TessModel.ts) : Prop := TessModel.checks ly = true -> TessModel.ts_open s = TessModel.ts_started s.
Theorem tess_fails_only : forall narrow ly, fails_only (TessModel.tessellator narrow ly) TessModel.ts_init (tess_ways ly).
Proof.
  intros narrow ly. apply (only_inv _ _ _ _ (path_inv ly)); [intros _; reflexivity| |].
  - intros [e|i n v] s s' H E; unfold one in E; cbn [feed p_step p_prop TessModel.tessellator default_prop] in E; [|injection E as <-; exact H].
    destruct (TessModel.tess_step narrow ly s e) as [q [[]|x]] eqn:F; [|discriminate E]. injection E as <-.
    intros C. specialize (H C). destruct s as [st pa op ou]. cbn in H. subst op.
    destruct e; cbn [TessModel.tess_step default_step] in F; try (injection F as <-; reflexivity);
      unfold TessModel.andthen, TessModel.close_started, TessModel.b_begin, TessModel.b_line, TessModel.b_close, TessModel.tessellate_line, TessModel.tessellate_poly, TessModel.set_started, TessModel.fresh in F;
      cbn [TessModel.ts_started TessModel.ts_path TessModel.ts_open TessModel.ts_out] in F; rewrite ?C in F.
    + destruct (Nat.eqb idx 0); destruct st; cbn in F; split_in F; injection F as <-; reflexivity.
    + destruct st, tagged; cbn in F; rewrite ?C in F; cbn in F; split_in F; injection F as <-; reflexivity.
    + destruct st; cbn in F; rewrite ?C in F; cbn in F; split_in F; injection F as <-; reflexivity.
  - intros [e|i n v] s s' x H E; unfold one in E; cbn [feed p_step p_prop TessModel.tessellator default_prop] in E; [|discriminate E].
    destruct (TessModel.tess_step narrow ly s e) as [q [u|y]] eqn:F; [discriminate E|]. injection E as _ <-.
    destruct s as [st pa op ou]. unfold path_inv in H. cbn in H.
    destruct e; cbn [TessModel.tess_step default_step] in F; try discriminate F;
      unfold TessModel.andthen, TessModel.close_started, TessModel.b_begin, TessModel.b_line, TessModel.b_close, TessModel.tessellate_line, TessModel.tessellate_poly, TessModel.set_started, TessModel.fresh in F;
      cbn [TessModel.ts_started TessModel.ts_path TessModel.ts_open TessModel.ts_out] in F; cbn [tess_ways].
    + destruct (Nat.eqb idx 0), (TessModel.checks ly); cbn in F; split_in F; injection F as _ <-; left; reflexivity.
    + injection F as _ <-. left. reflexivity.
    + destruct (TessModel.checks ly) eqn:C.
      * rewrite (H eq_refl) in F. destruct st, tagged; cbn in F; rewrite ?C in F; cbn in F; split_in F; injection F as _ <-; left; reflexivity.
      * destruct st, tagged; cbn in F; rewrite ?C in F; cbn in F; split_in F; injection F as _ <-; left; reflexivity.
    + assert (T : forall l z, TessModel.threes l = Err z -> z = EPanic).
      { clear. assert (T : forall n l z, length l < n -> TessModel.threes l = Err z -> z = EPanic).
        { induction n as [|n IH]; intros l z L T; [lia|]. destruct l as [|a [|b [|c r]]]; try discriminate T; try (injection T as <-; reflexivity).
          cbn in T. destruct (TessModel.threes r) eqn:R; [discriminate T|]. injection T as <-. apply (IH r); [cbn in L; lia|exact R]. }
        intros l z. apply (T (Datatypes.S (length l))). lia. }
      destruct st, (TessModel.checks ly && negb op); cbn -[TessModel.threes] in F; split_in F; injection F as _ <-; left; try reflexivity; symmetry; eapply T; eassumption.
Qed.
Theorem tess_fails : forall narrow ly, refuses_empty ly -> fails_as (TessModel.tessellator narrow ly) TessModel.ts_init (tess_ways ly).
Proof.
  intros narrow ly [[a Ha] [b Hb]]. split; [apply tess_fails_only|]. intros o x H. destruct o as [e|]; [|destruct H].
  destruct e; cbn [tess_ways] in H; try (destruct H; fail); try (destruct tagged; [|destruct H; fail]).
  - apply given_in in H. destruct H as [C ->]. destruct idx as [|i].
    + destruct (TessModel.point_ok ly (TessModel.pos32 narrow x0 y)) eqn:P.
      * exists [OEv (Xy x0 y 0)]. split; cbn; unfold TessModel.b_begin; cbn; rewrite C, P; cbn; unfold TessModel.b_begin; cbn; rewrite ?C, ?P; reflexivity.
      * exists []. split; [reflexivity|]. cbn. unfold TessModel.b_begin. cbn. rewrite C, P. reflexivity.
    + exists []. split; [reflexivity|]. cbn. unfold TessModel.b_line. cbn. rewrite C. reflexivity.
  - destruct H as [<-|[]]. at_once (@nil obs).
  - destruct H as [<-|[]]. exists []. split; [reflexivity|]. cbn. unfold TessModel.tessellate_line. cbn. rewrite andb_false_r, Ha. reflexivity.
  - destruct H as [<-|[]]. exists []. split; [reflexivity|]. cbn. unfold TessModel.tessellate_poly. cbn. rewrite andb_false_r, Hb. reflexivity.
Qed.
