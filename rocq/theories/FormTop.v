(** C87: proofs. *)
From Coq Require Import String Ascii.
From Coq Require Import List NArith ZArith Lia Bool.
From Verif Require Import Base Float Event Claims TraceTop StaysSpec StaysTop FormSpec.
From Verif Require SvgModel GeoJsonModel WktModel WkbModel.
Import ListNotations.
Local Open Scope list_scope.

Lemma fill_app : forall A (t1 t2 : list (option A)) n1 n2, gaps t1 = length n1 -> fill (t1 ++ t2) (n1 ++ n2) = fill t1 n1 ++ fill t2 n2.
Proof.
  intros A. induction t1 as [|[a|] t1 IH]; intros t2 n1 n2 H.
  - destruct n1; [reflexivity|discriminate H].
  - cbn. rewrite IH; [reflexivity|exact H].
  - destruct n1 as [|n n1]; [discriminate H|]. cbn. rewrite IH; [apply app_assoc|]. injection H as H. exact H.
Qed.
Lemma gaps_app : forall A (t1 t2 : list (option A)), gaps (t1 ++ t2) = gaps t1 + gaps t2.
Proof. intros. unfold gaps. rewrite filter_app, app_length. reflexivity. Qed.
Lemma fill_some : forall A (l : list A) n, fill (map Some l) n = l.
Proof. induction l as [|a l IH]; intros n; cbn; [reflexivity|rewrite IH; reflexivity]. Qed.
Lemma gaps_some : forall A (l : list A), gaps (map Some l) = 0.
Proof. induction l as [|a l IH]; [reflexivity|exact IH]. Qed.

Section Filled.
  Context {S A : Type} (R : obs -> obs -> Prop) (numbers : obs -> list f64) (show : f64 -> list A) (out : S -> list A)
    (after : list A -> S -> S) (p : proc S).
  Hypothesis Hout : forall x s, out (after x s) = x ++ out s.
  Hypothesis Hafter : forall x y s, after x (after y s) = after (x ++ y) s.
  Hypothesis Hnil : forall s, after [] s = s.
  Hypothesis Hframes : frames after p.
  Hypothesis Hlen : forall o o', R o o' -> length (numbers o') = length (numbers o).
  Hypothesis Hrefl : forall o, R o o.
  Hypothesis Hone : forall s o, out s = [] ->
    (exists t k, gaps t = length (numbers o) /\ out k = [] /\
       forall o', R o o' -> one p o' s = (after (fill t (map show (numbers o'))) k, Ok tt)) \/
    exists x, forall o', R o o' -> snd (one p o' s) = Err x.
  Lemma all_len : forall l l', Forall2 R l l' -> length (flat_map numbers l') = length (flat_map numbers l).
  Proof. induction 1 as [|o o' l l' H F IH]; cbn; [reflexivity|]. rewrite !app_length, (Hlen _ _ H), IH. reflexivity. Qed.
  Lemma filled_from : forall l s, out s = [] -> exists t k r,
    (forall l', Forall2 R l l' -> snd (feed p l' s) = r) /\
    (r = Ok tt -> gaps t = length (flat_map numbers l) /\ out k = [] /\
      forall l', Forall2 R l l' -> fst (feed p l' s) = after (fill t (map show (flat_map numbers l'))) k).
  Proof.
    induction l as [|o l IH]; intros s E.
    - exists [], s, (Ok tt). split; [|intros _; split; [reflexivity|]; split; [exact E|]]; intros l' F; inversion F; subst; [reflexivity|].
      cbn. symmetry. apply Hnil.
    - destruct (Hone s o E) as [(t1 & k1 & G1 & K1 & H1)|[x X]].
      + destruct (IH k1 K1) as (t2 & k2 & r2 & V & W). exists (t1 ++ t2), k2, r2.
        assert (Q : forall o' l', R o o' -> Forall2 R l l' ->
          feed p (o' :: l') s = (after (fill t1 (map show (numbers o'))) (fst (feed p l' k1)), snd (feed p l' k1))).
        { intros o' l' Ro F. rewrite feed_cons, (H1 o' Ro). apply frames_all, Hframes. }
        split.
        * intros l' F. inversion F as [|? o' ? l'' Ro F']; subst. rewrite (Q _ _ Ro F'). cbn [snd]. apply V, F'.
        * intros Er. destruct (W Er) as (G2 & K2 & H2). split; [|split; [exact K2|]].
          -- rewrite gaps_app, G1, G2. cbn. rewrite app_length. reflexivity.
          -- intros l' F. inversion F as [|? o' ? l'' Ro F']; subst. rewrite (Q _ _ Ro F'). cbn [fst flat_map].
             rewrite (H2 _ F'), map_app, fill_app, Hafter; [reflexivity|]. rewrite map_length, (Hlen _ _ Ro). exact G1.
      + exists [], s, (Err x). split; [|discriminate].
        intros l' F. inversion F as [|? o' ? l'' Ro F']; subst. rewrite feed_cons. specialize (X o' Ro). destruct (one p o' s) as [s' [[]|y]]; [discriminate X|exact X].
  Qed.
  Lemma filled_by : forall s0, out s0 = [] -> filled R numbers show out p s0.
  Proof.
    intros s0 E l. destruct (filled_from l s0 E) as (t & k & r & V & W).
    assert (D : Forall2 R l l) by (clear -Hrefl; induction l; constructor; auto).
    split.
    - intros l' F. rewrite (V _ F), (V _ D). reflexivity.
    - rewrite (V _ D). intros Er. destruct (W Er) as (G & K & H). exists t. split; [exact G|].
      intros l' F. rewrite (H _ F), Hout, K, app_nil_r. reflexivity.
  Qed.
  (** callbacks without coordinates *)
  Hypothesis Hsplit : forall s, exists s0, s = after (out s) s0 /\ out s0 = [].
  Lemma one_plain : forall o, numbers o = [] -> (forall o', R o o' -> o' = o) -> forall s,
    (exists t k, gaps t = length (numbers o) /\ out k = [] /\
       forall o', R o o' -> one p o' s = (after (fill t (map show (numbers o'))) k, Ok tt)) \/
    exists x, forall o', R o o' -> snd (one p o' s) = Err x.
  Proof.
    intros o N Q s. destruct (one p o s) as [s' [[]|x]] eqn:T.
    - left. destruct (Hsplit s') as (k & E & K). exists (map Some (out s')), k. split; [rewrite N; apply gaps_some|]. split; [exact K|].
      intros o' Ro. rewrite (Q _ Ro), fill_some, <- E. exact T.
    - right. exists x. intros o' Ro. rewrite (Q _ Ro), T. reflexivity.
  Qed.
End Filled.
Lemma alike_same : forall o o', (forall x y i, o <> OEv (Xy x y i)) -> (forall x y z m t tm i, o <> OEv (Coord x y z m t tm i)) -> alike o o' -> o' = o.
Proof.
  intros o o' H1 H2 E. unfold alike in E. destruct o as [e|i n v].
  - destruct e; try (exfalso; eapply H1; reflexivity); try (exfalso; eapply H2; reflexivity);
      destruct o' as [e'|i' n' v']; try discriminate E; destruct e'; try discriminate E; symmetry; exact E.
  - destruct o' as [e'|i' n' v']; [destruct e'; discriminate E|symmetry; exact E].
Qed.
Lemma alike_xy : forall x y i o', alike (OEv (Xy x y i)) o' -> exists x' y', o' = OEv (Xy x' y' i).
Proof.
  intros x y i o' E. destruct o' as [e'|]; [|discriminate E]. destruct e'; try discriminate E. injection E as <-. eauto.
Qed.
Definition same_opt {V} (a b : option V) : Prop := match a, b with Some _, Some _ => True | None, None => True | _, _ => False end.
Lemma alike_coord : forall x y z m t tm i o', alike (OEv (Coord x y z m t tm i)) o' ->
  exists x' y' z' m' t' tm', o' = OEv (Coord x' y' z' m' t' tm' i) /\ same_opt z z' /\ same_opt m m'.
Proof.
  intros x y z m t tm i o' E. destruct o' as [e'|]; [|discriminate E]. destruct e'; try discriminate E.
  injection E as Ez Em Et Etm <-. do 6 eexists. split; [reflexivity|].
  split; [destruct z, z0|destruct m, m0]; try discriminate; exact I.
Qed.

(** ** Texts *)
Definition tx (s : string) : list (option ascii) := map Some (chars s).
Lemma fill_tx : forall s t n, fill (tx s ++ t) n = chars s ++ fill t n.
Proof. intros s t n. exact (fill_app _ (tx s) t [] n (gaps_some _ _) ) || (rewrite <- (app_nil_l n) at 1; unfold tx; rewrite fill_app; [rewrite fill_some; reflexivity|apply gaps_some]). Qed.
Lemma fill_gap : forall A (t : list (option A)) x n, fill (None :: t) (x :: n) = x ++ fill t n.
Proof. reflexivity. Qed.
Lemma gaps_tx : forall s t, gaps (tx s ++ t) = gaps t.
Proof. intros s t. rewrite gaps_app. unfold tx. rewrite gaps_some. reflexivity. Qed.
Lemma gaps_none : forall A (t : list (option A)), gaps (None :: t) = Datatypes.S (gaps t).
Proof. reflexivity. Qed.
Lemma text_is : forall s w, chars s = w -> s = text_after w ""%string.
Proof. intros s w <-. apply text_split. Qed.
Lemma empty_text : forall s, chars s = [] -> s = ""%string.
Proof. intros [|a s] E; [reflexivity|discriminate E]. Qed.
Lemma text_after_app : forall x y s, text_after x (text_after y s) = text_after (x ++ y) s.
Proof.
  intros x y s. unfold text_after. rewrite <- sapp_assoc. f_equal.
  induction x as [|a x IH]; [reflexivity|]. cbn. rewrite IH. reflexivity.
Qed.
Lemma text_nil : forall s, text_after [] s = s.
Proof. reflexivity. Qed.
Lemma text_parts : forall s, exists s0, s = text_after (chars s) s0 /\ chars s0 = [].
Proof. intros s. exists ""%string. split; [apply text_split|reflexivity]. Qed.
Definition texts (f : f64 -> string) (x : f64) : list ascii := chars (f x).
Lemma same_len : forall a b, same_opt a b -> length (given_opt b) = length (given_opt a).
Proof. intros [a|] [b|] H; try reflexivity; destruct H. Qed.

Ltac plain tac := first [
  solve [apply one_plain; [tac|reflexivity|
    let o' := fresh "o'" in let R := fresh "R" in intros o' R; apply alike_same; [discriminate|discriminate|first [exact R|exact (proj1 R)]]]] ].

Theorem svg_filled : forall fmt c, filled alike (svg_numbers (SvgModel.sv_invert c)) (texts fmt) chars (SvgModel.svg_writer fmt c) ""%string.
Proof.
  intros fmt c. apply (filled_by alike _ _ chars text_after); [apply chars_after|apply text_after_app|apply text_nil|apply svg_frames| | | |reflexivity].
  - intros o o' E. unfold alike in E. destruct o as [[]|], o' as [[]|]; try discriminate E; reflexivity.
  - reflexivity.
  - intros s o E. apply empty_text in E. subst s.
    destruct o as [e|i n v]; [destruct e|]; try (plain ltac:(exact text_parts)).
    + left. exists ([None] ++ tx " " ++ [None] ++ tx " "), ""%string. split; [reflexivity|]. split; [reflexivity|].
      intros o' R. apply alike_xy in R. destruct R as (x' & y' & ->). unfold one. cbn [feed p_step SvgModel.svg_writer SvgModel.svg_step]. f_equal.
      apply text_is. rewrite !chars_app. cbn [svg_numbers map app]. rewrite !fill_gap, fill_tx. cbn [app]. rewrite fill_gap.
      rewrite <- (app_nil_r (tx " ")), fill_tx. reflexivity.
    + left. exists [], ""%string. split; [reflexivity|]. split; [reflexivity|].
      intros o' R. apply alike_coord in R. destruct R as (x' & y' & z' & m' & t' & tm' & -> & _). reflexivity.
Qed.

Definition comma (i : nat) : string := if Nat.ltb 0 i then ","%string else ""%string.
Lemma gj_comma_empty : forall i, GeoJsonModel.gj_comma "" i = comma i.
Proof. reflexivity. Qed.
(** a position as an array *)
Definition array (i : nat) (z : bool) : list (option ascii) :=
  tx (comma i) ++ tx "[" ++ None :: tx "," ++ None :: (if z then tx "," ++ [None] else []) ++ tx "]" ++ [].
Lemma array_gaps : forall i z, gaps (array i z) = if z then 3 else 2.
Proof. intros i z. unfold array. rewrite !gaps_tx. destruct z; reflexivity. Qed.
Ltac fills := repeat (cbn [app fill]; rewrite ?fill_gap, ?fill_tx, ?chars_app, <- ?app_assoc).
Lemma is_nil : forall s, chars s ++ [] = chars s.
Proof. intros s. apply app_nil_r. Qed.
Definition has {V} (o : option V) : bool := match o with Some _ => true | None => false end.
Lemma json_len : forall o o', alike o o' -> length (json_numbers o') = length (json_numbers o).
Proof.
  intros o o' E. destruct o as [e|].
  2:{ apply alike_same in E; [subst o'; reflexivity|discriminate|discriminate]. }
  destruct e; try (apply alike_same in E; [subst o'; reflexivity|discriminate|discriminate]).
  - apply alike_xy in E. destruct E as (x' & y' & ->). reflexivity.
  - apply alike_coord in E. destruct E as (x' & y' & z' & m' & t' & tm' & -> & Z & _). cbn. rewrite (same_len _ _ Z). reflexivity.
Qed.
Lemma json_xy : forall fmt32 fmt d x y i,
  one (GeoJsonModel.geojson_writer fmt32 fmt d) (OEv (Xy x y i)) ""%string =
  (text_after (fill (array i false) (map (texts fmt) [x; y])) "", Ok tt).
Proof.
  intros. unfold one. cbn [feed p_step GeoJsonModel.geojson_writer GeoJsonModel.gj_step]. f_equal. apply text_is.
  rewrite gj_comma_empty. unfold array. cbn [map]. fills. reflexivity.
Qed.
Lemma json_coord : forall fmt32 fmt d x y z m t tm i,
  one (GeoJsonModel.geojson_writer fmt32 fmt d) (OEv (Coord x y z m t tm i)) ""%string =
  (text_after (fill (array i (has z)) (map (texts fmt) ([x; y] ++ given_opt z))) "", Ok tt).
Proof.
  intros. unfold one. cbn [feed p_step GeoJsonModel.geojson_writer GeoJsonModel.gj_step]. f_equal. apply text_is.
  rewrite gj_comma_empty. unfold array. destruct z; cbn [map has given_opt app]; fills; reflexivity.
Qed.
Lemma has_same : forall a b : option f64, same_opt a b -> has b = has a.
Proof. intros [a|] [b|] H; try reflexivity; destruct H. Qed.
Lemma json_gaps : forall i (z : option f64) x y, gaps (array i (has z)) = length ([x; y] ++ given_opt z).
Proof. intros. rewrite array_gaps. destruct z; reflexivity. Qed.
Theorem json_filled : forall fmt32 fmt d, filled alike json_numbers (texts fmt) chars (GeoJsonModel.geojson_writer fmt32 fmt d) ""%string.
Proof.
  intros fmt32 fmt d.
  apply (filled_by alike _ _ chars text_after); [apply chars_after|apply text_after_app|apply text_nil|apply json_frames|apply json_len|reflexivity| |reflexivity].
  intros s o E. apply empty_text in E. subst s.
  destruct o as [e|i n v]; [destruct e|]; try (plain ltac:(exact text_parts)).
  - left. exists (array idx false), ""%string. split; [apply array_gaps|]. split; [reflexivity|].
    intros o' R. apply alike_xy in R. destruct R as (x' & y' & ->). apply json_xy.
  - left. exists (array idx (has z)), ""%string. split; [apply json_gaps|]. split; [reflexivity|].
    intros o' R. apply alike_coord in R. destruct R as (x' & y' & z' & m' & t' & tm' & -> & Z & _). rewrite json_coord, (has_same _ _ Z). reflexivity.
Qed.

Lemma lines_parts : forall s : nat * string, exists s0, s = lines_after (chars (snd s)) s0 /\ chars (snd s0) = [].
Proof. intros [n s]. exists (n, ""%string). split; [|reflexivity]. unfold lines_after. cbn. f_equal. apply text_split. Qed.
Theorem lines_filled : forall fmt32 fmt, filled alike json_numbers (texts fmt) (fun s => chars (snd s)) (GeoJsonModel.geojson_line_writer fmt32 fmt) (0, ""%string).
Proof.
  intros fmt32 fmt.
  apply (filled_by alike _ _ (fun s => chars (snd s)) lines_after).
  - intros x [n s]. apply chars_after.
  - intros x y [n s]. unfold lines_after. cbn. rewrite text_after_app. reflexivity.
  - intros [n s]. reflexivity.
  - apply lines_frames.
  - apply json_len.
  - reflexivity.
  - intros [n s] o E. cbn [snd] in E. apply empty_text in E. subst s.
    destruct o as [e|i a v]; [destruct e|]; try (plain ltac:(exact lines_parts)).
    + left. exists (array idx false), (n, ""%string). split; [apply array_gaps|]. split; [reflexivity|].
      intros o' R. apply alike_xy in R. destruct R as (x' & y' & ->). 
      pose proof (json_xy fmt32 fmt xy_dims x' y' idx) as Q. unfold one in *. cbn in *. unfold lines_after. cbn. injection Q as Q. rewrite Q. reflexivity.
    + left. exists (array idx (has z)), (n, ""%string). split; [apply json_gaps|]. split; [reflexivity|].
      intros o' R. apply alike_coord in R. destruct R as (x' & y' & z' & m' & t' & tm' & -> & Z & _).
      pose proof (json_coord fmt32 fmt xy_dims x' y' z' m' t' tm' idx) as Q. rewrite (has_same _ _ Z) in Q. unfold one in *. cbn in *. unfold lines_after. cbn. injection Q as Q. rewrite Q. reflexivity.
  - reflexivity.
Qed.

(** ** WKT *)
Lemma wkt_parts : forall s, exists s0, s = wkt_after (chars (WktModel.k_out s)) s0 /\ chars (WktModel.k_out s0) = [].
Proof.
  intros [sr f sz ou]. exists (WktModel.mkWktSt sr f sz ""%string). split; [|reflexivity]. unfold wkt_after. cbn. f_equal. apply text_split.
Qed.
Definition row (i : nat) (z m : bool) : list (option ascii) :=
  tx (comma i) ++ None :: tx " " ++ None :: (if z then tx " " ++ [None] else []) ++ (if m then tx " " ++ [None] else []).
Lemma row_gaps : forall i (z m : option f64) x y, gaps (row i (has z) (has m)) = length ([x; y] ++ given_opt z ++ given_opt m).
Proof. intros. unfold row. rewrite gaps_tx. destruct z, m; reflexivity. Qed.
Lemma wkt_put : forall sr f sz a t, WktModel.put (WktModel.mkWktSt sr f sz a) t = WktModel.mkWktSt sr f sz (a ++ t)%string.
Proof. reflexivity. Qed.
Lemma wkt_comma_empty : forall sr f sz i, WktModel.wkt_comma (WktModel.mkWktSt sr f sz ""%string) i = WktModel.mkWktSt sr f sz (comma i).
Proof. intros. unfold WktModel.wkt_comma, comma. destruct (Nat.ltb 0 i); reflexivity. Qed.
Lemma wkt_is : forall sr f sz s w, chars s = w -> WktModel.mkWktSt sr f sz s = wkt_after w (WktModel.mkWktSt sr f sz ""%string).
Proof. intros sr f sz s w E. unfold wkt_after. cbn. f_equal. apply text_is, E. Qed.
Lemma wkt_xy : forall fmt c sr f sz x y i,
  one (WktModel.wkt_writer fmt c) (OEv (Xy x y i)) (WktModel.mkWktSt sr f sz ""%string) =
  (wkt_after (fill (if all_nan (OEv (Xy x y i)) then tx (comma i) ++ tx "EMPTY" ++ [] else row i false false)
                   (map (texts fmt) (wkt_numbers (OEv (Xy x y i))))) (WktModel.mkWktSt sr f sz ""%string), Ok tt).
Proof.
  intros. unfold one. cbn [feed p_step WktModel.wkt_writer WktModel.wkt_step]. cbv zeta. f_equal. rewrite wkt_comma_empty.
  unfold wkt_numbers. cbn [all_nan]. destruct (f64_is_nan x && f64_is_nan y); rewrite wkt_put; apply wkt_is; unfold row; cbn [map]; fills;
    rewrite ?app_nil_r; reflexivity.
Qed.
Lemma wkt_coord : forall fmt c sr f sz x y z m t tm i,
  one (WktModel.wkt_writer fmt c) (OEv (Coord x y z m t tm i)) (WktModel.mkWktSt sr f sz ""%string) =
  (wkt_after (fill (if all_nan (OEv (Coord x y z m t tm i)) then tx (comma i) ++ tx "EMPTY" ++ [] else row i (has z) (has m))
                   (map (texts fmt) (wkt_numbers (OEv (Coord x y z m t tm i))))) (WktModel.mkWktSt sr f sz ""%string), Ok tt).
Proof.
  intros. unfold one. cbn [feed p_step WktModel.wkt_writer WktModel.wkt_step]. cbv zeta. f_equal. rewrite wkt_comma_empty.
  unfold wkt_numbers, WktModel.opt_is_nan. cbn [all_nan].
  destruct (f64_is_nan x && f64_is_nan y && match z with Some x0 => f64_is_nan x0 | None => true end && match m with Some x0 => f64_is_nan x0 | None => true end).
  - rewrite wkt_put. apply wkt_is. cbn [map]. fills. rewrite ?app_nil_r; reflexivity.
  - destruct z, m; rewrite !wkt_put; apply wkt_is; unfold row; cbn [map has given_opt app]; fills; rewrite ?app_nil_r; reflexivity.
Qed.
Lemma wkt_len : forall o o', alike_nan o o' -> length (wkt_numbers o') = length (wkt_numbers o).
Proof.
  intros o o' [E N]. unfold wkt_numbers. rewrite N. destruct (all_nan o'); [reflexivity|]. clear N. destruct o as [e|].
  2:{ apply alike_same in E; [subst o'; reflexivity|discriminate|discriminate]. }
  destruct e; try (apply alike_same in E; [subst o'; reflexivity|discriminate|discriminate]).
  - apply alike_xy in E. destruct E as (x' & y' & ->). reflexivity.
  - apply alike_coord in E. destruct E as (x' & y' & z' & m' & t' & tm' & -> & Z & M). cbn. rewrite !app_length, (same_len _ _ Z), (same_len _ _ M). reflexivity.
Qed.
Theorem wkt_filled : forall fmt c srid, filled alike_nan wkt_numbers (texts fmt) (fun s => chars (WktModel.k_out s)) (WktModel.wkt_writer fmt c) (WktModel.wkt_init srid).
Proof.
  intros fmt c srid.
  apply (filled_by alike_nan _ _ (fun s => chars (WktModel.k_out s)) wkt_after).
  - intros x s. apply chars_after.
  - intros x y s. unfold wkt_after. cbn. rewrite text_after_app. reflexivity.
  - intros []. reflexivity.
  - apply wkt_frames.
  - apply wkt_len.
  - intros o. split; reflexivity.
  - intros [sr f sz s] o E. cbn in E. apply empty_text in E. subst s.
    destruct o as [e|i a v]; [destruct e|]; try (plain ltac:(exact wkt_parts)).
    + left. exists (if all_nan (OEv (Xy x y idx)) then tx (comma idx) ++ tx "EMPTY" ++ [] else row idx false false), (WktModel.mkWktSt sr f sz ""%string).
      split; [|split; [reflexivity|]].
      * unfold wkt_numbers. destruct (all_nan (OEv (Xy x y idx))); [rewrite !gaps_tx; reflexivity|]. unfold row. rewrite !gaps_tx. reflexivity.
      * intros o' [R N]. apply alike_xy in R. destruct R as (x' & y' & ->). rewrite N. apply wkt_xy.
    + left. exists (if all_nan (OEv (Coord x y z m t tm idx)) then tx (comma idx) ++ tx "EMPTY" ++ [] else row idx (has z) (has m)), (WktModel.mkWktSt sr f sz ""%string).
      split; [|split; [reflexivity|]].
      * unfold wkt_numbers. destruct (all_nan (OEv (Coord x y z m t tm idx))); [rewrite !gaps_tx; reflexivity|]. apply row_gaps.
      * intros o' [R N]. apply alike_coord in R. destruct R as (x' & y' & z' & m' & t' & tm' & -> & Z & M).
        rewrite N, <- (has_same _ _ Z), <- (has_same _ _ M). apply wkt_coord.
  - reflexivity.
Qed.

(** ** WKB *)
Lemma wkb_parts : forall s, exists s0, s = wkb_after (WkbModel.w_out s) s0 /\ WkbModel.w_out s0 = [].
Proof.
  intros [f st n o]. exists (WkbModel.mkWst f st n []). split; [|reflexivity]. unfold wkb_after. cbn. rewrite app_nil_r. reflexivity.
Qed.
Lemma wkb_len : forall d o o', alike o o' -> length (wkb_numbers d o') = length (wkb_numbers d o).
Proof.
  intros d o o' E. destruct o as [e|].
  2:{ apply alike_same in E; [subst o'; reflexivity|discriminate|discriminate]. }
  destruct e; try (apply alike_same in E; [subst o'; reflexivity|discriminate|discriminate]).
  - apply alike_xy in E. destruct E as (x' & y' & ->). reflexivity.
  - apply alike_coord in E. destruct E as (x' & y' & z' & m' & t' & tm' & -> & Z & M). cbn. rewrite !app_length.
    destruct (dz d), (dm d); rewrite ?(same_len _ _ Z), ?(same_len _ _ M); reflexivity.
Qed.
Definition by_opt (w : f64 -> list Byte.byte) (on : bool) (z : option f64) : list (option Byte.byte) :=
  if on then (if has z then [None] else map Some (w f64_zero)) else [].
Definition cell (w : f64 -> list Byte.byte) (d : dims) (h : list Byte.byte) (z m : option f64) : list (option Byte.byte) :=
  map Some h ++ None :: None :: by_opt w (dz d) z ++ by_opt w (dm d) m.
Lemma by_opt_gaps : forall w on z, gaps (by_opt w on z) = length (if on then given_opt z else []).
Proof. intros w [] [z|]; unfold by_opt; cbn [has]; try reflexivity. apply gaps_some. Qed.
Lemma by_opt_fill : forall w on z, fill (by_opt w on z) (map w (if on then given_opt z else [])) =
  if on then w (opt_default f64_zero z) else [].
Proof. intros w [] [z|]; unfold by_opt; cbn [has given_opt map]; try reflexivity; [apply app_nil_r|apply fill_some]. Qed.
Lemma cell_fill : forall w d h x y z m,
  fill (cell w d h z m) (map w ([x; y] ++ (if dz d then given_opt z else []) ++ (if dm d then given_opt m else []))) =
  h ++ w x ++ w y ++ (if dz d then w (opt_default f64_zero z) else []) ++ (if dm d then w (opt_default f64_zero m) else []).
Proof.
  intros. unfold cell. rewrite <- (app_nil_l (map w _)), fill_app; [|apply gaps_some]. rewrite fill_some. f_equal.
  cbn [app map]. rewrite !fill_gap. do 2 f_equal. rewrite map_app, fill_app; [rewrite !by_opt_fill; reflexivity|].
  rewrite map_length. apply by_opt_gaps.
Qed.
Lemma cell_gaps : forall w d h x y z m,
  gaps (cell w d h z m) = length ([x; y] ++ (if dz d then given_opt z else []) ++ (if dm d then given_opt m else [])).
Proof.
  intros. unfold cell. rewrite gaps_app, gaps_some, !gaps_none, gaps_app, !by_opt_gaps. cbn [app length]. rewrite app_length. reflexivity.
Qed.
Lemma by_opt_has : forall w on a b, same_opt a b -> by_opt w on a = by_opt w on b.
Proof. intros w on [a|] [b|] H; try reflexivity; destruct H. Qed.
Lemma coordinate_one : forall c s, WkbModel.w_out s = [] ->
  (exists h k, WkbModel.w_out k = [] /\ forall x y z m, WkbModel.write_coordinate c s x y z m =
    (wkb_after (h ++ WkbModel.w_f64 (WkbModel.w_endian c) x ++ WkbModel.w_f64 (WkbModel.w_endian c) y ++
       (if dz (WkbModel.w_dims c) then WkbModel.w_f64 (WkbModel.w_endian c) (opt_default f64_zero z) else []) ++
       (if dm (WkbModel.w_dims c) then WkbModel.w_f64 (WkbModel.w_endian c) (opt_default f64_zero m) else [])) k, Ok tt)) \/
  exists e, forall x y z m, snd (WkbModel.write_coordinate c s x y z m) = Err e.
Proof.
  intros c s E.
  assert (K : forall s1 x y z m,
    (let s := WkbModel.out_app s1 (WkbModel.w_f64 (WkbModel.w_endian c) x) in
     let s := WkbModel.out_app s (WkbModel.w_f64 (WkbModel.w_endian c) y) in
     let s := if dz (WkbModel.w_dims c) then WkbModel.out_app s (WkbModel.w_f64 (WkbModel.w_endian c) (opt_default f64_zero z)) else s in
     if dm (WkbModel.w_dims c) then WkbModel.out_app s (WkbModel.w_f64 (WkbModel.w_endian c) (opt_default f64_zero m)) else s) =
    wkb_after (WkbModel.w_out s1 ++ WkbModel.w_f64 (WkbModel.w_endian c) x ++ WkbModel.w_f64 (WkbModel.w_endian c) y ++
       (if dz (WkbModel.w_dims c) then WkbModel.w_f64 (WkbModel.w_endian c) (opt_default f64_zero z) else []) ++
       (if dm (WkbModel.w_dims c) then WkbModel.w_f64 (WkbModel.w_endian c) (opt_default f64_zero m) else []))
     (WkbModel.mkWst (WkbModel.w_first s1) (WkbModel.w_state s1) (WkbModel.w_nest s1) [])).
  { intros [f st n o] x y z m. cbv zeta. unfold wkb_after, WkbModel.out_app.
    destruct (dz (WkbModel.w_dims c)), (dm (WkbModel.w_dims c)); cbn [WkbModel.w_out WkbModel.w_first WkbModel.w_state WkbModel.w_nest];
      rewrite ?app_nil_r, <- ?app_assoc; reflexivity. }
  unfold WkbModel.write_coordinate.
  assert (N : forall s1, (exists h k, WkbModel.w_out k = [] /\ forall x y z m, 
    ((let s := WkbModel.out_app s1 (WkbModel.w_f64 (WkbModel.w_endian c) x) in
     let s := WkbModel.out_app s (WkbModel.w_f64 (WkbModel.w_endian c) y) in
     let s := if dz (WkbModel.w_dims c) then WkbModel.out_app s (WkbModel.w_f64 (WkbModel.w_endian c) (opt_default f64_zero z)) else s in
     if dm (WkbModel.w_dims c) then WkbModel.out_app s (WkbModel.w_f64 (WkbModel.w_endian c) (opt_default f64_zero m)) else s), @Ok unit tt) =
    (wkb_after (h ++ WkbModel.w_f64 (WkbModel.w_endian c) x ++ WkbModel.w_f64 (WkbModel.w_endian c) y ++
       (if dz (WkbModel.w_dims c) then WkbModel.w_f64 (WkbModel.w_endian c) (opt_default f64_zero z) else []) ++
       (if dm (WkbModel.w_dims c) then WkbModel.w_f64 (WkbModel.w_endian c) (opt_default f64_zero m) else [])) k, Ok tt))).
  { intros s1. do 2 eexists. split; [|intros; f_equal; apply K]. reflexivity. }
  destruct (WkbModel.w_state s); try (left; exact (N s)).
  destruct (WkbModel.write_header c s WkbModel.TPoint) as [s1 [[]|e]] eqn:H; [left; exact (N s1)|right; exists e; reflexivity].
Qed.
Theorem wkb_filled : forall c, filled alike (wkb_numbers (WkbModel.w_dims c)) (WkbModel.w_f64 (WkbModel.w_endian c)) WkbModel.w_out (WkbModel.wkb_writer c) WkbModel.wst_init.
Proof.
  intros c.
  apply (filled_by alike _ _ WkbModel.w_out wkb_after).
  - intros x s. reflexivity.
  - intros x y s. unfold wkb_after. cbn. rewrite app_assoc. reflexivity.
  - intros []. reflexivity.
  - apply wkb_frames.
  - apply wkb_len.
  - reflexivity.
  - intros s o E.
    assert (One : forall e, (exists st, one (WkbModel.wkb_writer c) (OEv e) s = st) -> one (WkbModel.wkb_writer c) (OEv e) s = WkbModel.wkb_step c s e).
    { intros e _. unfold one. cbn [feed p_step WkbModel.wkb_writer]. destruct (WkbModel.wkb_step c s e) as [s' [[]|x]]; reflexivity. }
    destruct o as [e|i a v]; [destruct e|]; try (plain ltac:(exact wkb_parts)).
    + destruct (coordinate_one c s E) as [(h & k & Hk & H)|[x0 X]].
      * left. exists (cell (WkbModel.w_f64 (WkbModel.w_endian c)) (WkbModel.w_dims c) h None None), k.
        assert (Nn : forall x y, wkb_numbers (WkbModel.w_dims c) (OEv (Xy x y idx)) = [x; y] ++ (if dz (WkbModel.w_dims c) then given_opt None else []) ++ (if dm (WkbModel.w_dims c) then given_opt None else [])).
        { intros. destruct (dz _), (dm _); reflexivity. }
        split; [|split; [exact Hk|]].
        -- rewrite Nn. apply cell_gaps.
        -- intros o' R. apply alike_xy in R. destruct R as (x' & y' & ->). rewrite One; [|eauto]. cbn [WkbModel.wkb_step]. rewrite H, Nn, cell_fill. reflexivity.
      * right. exists x0. intros o' R. apply alike_xy in R. destruct R as (x' & y' & ->). rewrite One; [|eauto]. apply X.
    + destruct (coordinate_one c s E) as [(h & k & Hk & H)|[x0 X]].
      * left. exists (cell (WkbModel.w_f64 (WkbModel.w_endian c)) (WkbModel.w_dims c) h z m), k.
        split; [|split; [exact Hk|]].
        -- apply cell_gaps.
        -- intros o' R. apply alike_coord in R. destruct R as (x' & y' & z' & m' & t' & tm' & -> & Z & M). rewrite One; [|eauto]. cbn [WkbModel.wkb_step].
           unfold cell. rewrite (by_opt_has _ _ _ _ Z), (by_opt_has _ _ _ _ M).
           rewrite H, <- cell_fill. reflexivity.
      * right. exists x0. intros o' R. apply alike_coord in R. destruct R as (x' & y' & z' & m' & t' & tm' & -> & Z & M). rewrite One; [|eauto]. apply X.
  - reflexivity.
Qed.
