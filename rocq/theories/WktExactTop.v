(** Exact extents of C15 and C16 (helper lemmas). *)
From Coq Require Import String Ascii.
From Coq Require Import List NArith ZArith Lia Bool.
From Verif Require Import Base BaseLemmas Event EventLemmas Claims Geom WkbModel WkbSpec WkbClaims
  WktModel WktSpec WktWrite WktParse WktTop WktExactSpec WktFlex.
Import ListNotations.
Local Open Scope list_scope.
Local Open Scope string_scope.

(** ** Only the 64-bit patterns matter *)
Definition trim (fmt : f64 -> string) (x : f64) : string := if (x <? 2 ^ 64)%N then fmt x else if f64_is_nan x then fmt qnan else "".
Lemma trim_ok : forall fmt x, f64_ok x -> trim fmt x = fmt x.
Proof. intros fmt x H. unfold trim. unfold f64_ok in H. apply N.ltb_lt in H. now rewrite H. Qed.

Section Trim.
  Variable fmt : f64 -> string.
  Variables z m : bool.
  Notation Q := (fun _ : nat => True).
  Lemma trim_coord : forall c, coord64 c -> coord_text (trim fmt) z m c = coord_text fmt z m c.
  Proof.
    intros c (X & Y & Z & M). unfold coord_text. destruct (all_nanb (shown z m c)); [reflexivity|].
    rewrite !trim_ok by assumption. unfold shown. cbn [cz cm].
    assert (O : forall o, of64_ok o -> ordinate_text (trim fmt) o = ordinate_text fmt o).
    { intros [o|] Ho; [|reflexivity]. cbn [ordinate_text]. now rewrite trim_ok. }
    rewrite !O; [reflexivity|destruct m; [exact M|exact I]|destruct z; [exact Z|exact I]].
  Qed.
  Lemma trim_map : forall A (X : A -> Prop) (f f' : A -> string) l, (forall a, X a -> f a = f' a) ->
    Forall X l -> map f l = map f' l.
  Proof. intros A X f f' l H K. induction K; cbn; [reflexivity|]. rewrite (H _ H0). now f_equal. Qed.
  Lemma trim_line : forall l, on_line coord64 Q l -> line_text (trim fmt) z m l = line_text fmt z m l.
  Proof. intros l [_ H]. unfold line_text. f_equal. exact (trim_map _ _ _ _ l trim_coord H). Qed.
  Lemma trim_rings : forall l, on_rings coord64 Q l -> rings_text (trim fmt) z m l = rings_text fmt z m l.
  Proof. intros l [_ H]. unfold rings_text. f_equal. exact (trim_map _ _ _ _ l trim_line H). Qed.
  Lemma trim_arc : forall l, on_line coord64 Q l -> arc_text (trim fmt) z m l = arc_text fmt z m l.
  Proof. intros l [_ H]. unfold arc_text. f_equal. exact (trim_map _ _ _ _ l trim_coord H). Qed.
  Lemma trim_segment : forall l, on_segment coord64 Q l -> segment_text (trim fmt) z m l = segment_text fmt z m l.
  Proof. intros [l|l] H; [now apply trim_line|now apply trim_arc]. Qed.
  Lemma trim_curve : forall l, on_curve coord64 Q l -> curve_text (trim fmt) z m l = curve_text fmt z m l.
  Proof.
    intros [l|l|l] H; [now apply trim_line|now apply trim_arc|]. destruct H as [_ H]. cbn [curve_text].
    unfold compound_text. f_equal. exact (trim_map _ _ _ _ l trim_segment H).
  Qed.
  Lemma trim_surface : forall l, on_surface coord64 Q l -> surface_text (trim fmt) z m l = surface_text fmt z m l.
  Proof.
    intros [l|l] H; [now apply trim_rings|]. destruct H as [_ H]. cbn [surface_text].
    unfold curvepolygon_text. f_equal. exact (trim_map _ _ _ _ l trim_curve H).
  Qed.
  Lemma trim_geom : forall g, ordinates64 g -> wkt_text (trim fmt) z m g = wkt_text fmt z m g.
  Proof.
    unfold ordinates64. induction g using geom_ind'; [intros [G _]; cbn [wkt_text]; now rewrite trim_coord|..];
      cbn [on_geom wkt_text]; intros G; try exact eq_refl;
      destruct G as [_ G]; unfold arc_text, compound_text, curvepolygon_text; try f_equal;
      try (first [exact (trim_map _ _ _ _ _ trim_coord G)|exact (trim_map _ _ _ _ _ trim_line G)
        |exact (trim_map _ _ _ _ _ trim_rings G)|exact (trim_map _ _ _ _ _ trim_segment G)
        |exact (trim_map _ _ _ _ _ trim_curve G)|exact (trim_map _ _ _ _ _ trim_surface G)]).
    induction l as [|a l IH]; [reflexivity|]. inversion H; subst. destruct G as [G1 G2].
    cbn [map]. rewrite H2 by exact G1. f_equal. auto.
  Qed.
End Trim.

(** ** C15: counting spaces *)
Fixpoint spaces (s : string) : nat :=
  match s with "" => 0 | String a r => (if Ascii.eqb a " "%char then 1 else 0) + spaces r end.
Lemma spaces_app : forall a b, spaces (a ++ b) = (spaces a + spaces b)%nat.
Proof. induction a as [|c a IH]; intros b; cbn; [reflexivity|]. rewrite IH. lia. Qed.
Lemma spaces_none : forall s, no_space s = true -> spaces s = 0%nat.
Proof.
  induction s as [|a s IH]; intros H; [reflexivity|]. cbn in *. apply andb_true_iff in H.
  destruct H as [H1 H2]. apply negb_true_iff in H1. now rewrite H1, IH.
Qed.

(** [t'] has at least the spaces of [t], the same number only if [X], and [X] makes them equal *)
Definition agree (t t' : string) (X : Prop) : Prop :=
  (spaces t <= spaces t')%nat /\ (spaces t = spaces t' -> X) /\ (X -> t = t').

Lemma agree_eq : forall t, agree t t True.
Proof. intros t. repeat split; lia. Qed.
Lemma agree_iff : forall t t' X Y, (X <-> Y) -> agree t t' X -> agree t t' Y.
Proof. unfold agree. tauto. Qed.

Lemma agree_concat : forall A (f f' : A -> string) (X : A -> Prop) l,
  (forall a, In a l -> agree (f a) (f' a) (X a)) ->
  agree (String.concat "," (map f l)) (String.concat "," (map f' l)) (Forall X l).
Proof.
  induction l as [|a l IH]; intros H; [cbn; repeat split; auto|].
  destruct (H a (or_introl eq_refl)) as (A1 & A2 & A3).
  destruct (IH (fun b Hb => H b (or_intror Hb))) as (B1 & B2 & B3). clear IH H.
  destruct l as [|b l].
  - cbn [map String.concat]. repeat split; [exact A1|constructor; auto|intros K; inversion K; auto].
  - change (String.concat "," (map f (a :: b :: l)))
      with (f a ++ "," ++ String.concat "," (map f (b :: l))).
    change (String.concat "," (map f' (a :: b :: l)))
      with (f' a ++ "," ++ String.concat "," (map f' (b :: l))).
    unfold agree. rewrite !spaces_app. cbn [spaces Ascii.eqb Bool.eqb].
    split; [lia|]. split.
    + intros E. constructor; [apply A2; lia|apply B2; lia].
    + intros K. inversion K; subst. now rewrite A3, B3.
Qed.
Lemma agree_group : forall A (f f' : A -> string) (X : A -> Prop) l,
  (forall a, In a l -> agree (f a) (f' a) (X a)) ->
  agree (group (map f l)) (group (map f' l)) (Forall X l).
Proof.
  intros A f f' X [|a l] H; [cbn; repeat split; auto|].
  destruct (agree_concat A f f' X (a :: l) H) as (B1 & B2 & B3).
  change (group (map f (a :: l))) with ("(" ++ String.concat "," (map f (a :: l)) ++ ")").
  change (group (map f' (a :: l))) with ("(" ++ String.concat "," (map f' (a :: l)) ++ ")").
  unfold agree. rewrite !spaces_app. split; [lia|]. split; [intros E; apply B2; lia|].
  intros K. now rewrite B3.
Qed.
Lemma agree_tagged : forall A (f f' : A -> string) (X : A -> Prop) tag l,
  (forall a, In a l -> agree (f a) (f' a) (X a)) ->
  agree (tagged_group tag (map f l)) (tagged_group tag (map f' l)) (True /\ Forall X l).
Proof.
  intros A f f' X tag [|a l] H; [cbn; repeat split; auto|].
  destruct (agree_group A f f' X (a :: l) H) as (B1 & B2 & B3).
  change (tagged_group tag (map f (a :: l))) with (tag ++ group (map f (a :: l))).
  change (tagged_group tag (map f' (a :: l))) with (tag ++ group (map f' (a :: l))).
  unfold agree. rewrite !spaces_app. split; [lia|]. split; [intros E; split; [exact I|apply B2; lia]|].
  intros [_ K]. now rewrite B3.
Qed.

Section Count.
  Variable fmt : f64 -> string.
  Hypothesis N : forall x, no_space (fmt x) = true.
  Variables z m : bool.
  Notation P := (fun c => ((z = false -> cz c = None) /\ (m = false -> cm c = None)) \/ all_nanb c = true).
  Notation Q := (fun _ : nat => True).

  Lemma spaces_ordinate : forall o, spaces (ordinate_text fmt o) = match o with Some _ => 1%nat | None => 0%nat end.
  Proof. intros [x|]; [|reflexivity]. cbn [ordinate_text]. rewrite spaces_app, (spaces_none (fmt x)); [reflexivity|apply N]. Qed.

  Lemma agree_coord : forall c, agree (coord_text fmt z m c) (coord_text fmt true true c) (P c).
  Proof.
    intros c. unfold coord_text.
    replace (shown true true c) with c by (destruct c; reflexivity).
    destruct (all_nanb c) eqn:E.
    - assert (E2 : all_nanb (shown z m c) = true).
      { unfold all_nanb, shown in *. cbn. rewrite !andb_true_iff in *.
        destruct E as [[[-> ->] E3] E4]. destruct z, m; rewrite ?E3, ?E4; repeat split. }
      rewrite E2. apply (agree_iff _ _ True); [|apply agree_eq]. split; [intros _; now right|auto].
    - assert (K : (spaces (ordinate_text fmt (cz (shown z m c))) + spaces (ordinate_text fmt (cm (shown z m c))) <=
                   spaces (ordinate_text fmt (cz c)) + spaces (ordinate_text fmt (cm c)))%nat /\
                  ((spaces (ordinate_text fmt (cz (shown z m c))) + spaces (ordinate_text fmt (cm (shown z m c))) =
                   spaces (ordinate_text fmt (cz c)) + spaces (ordinate_text fmt (cm c)))%nat ->
                   (z = false -> cz c = None) /\ (m = false -> cm c = None))).
      { rewrite !spaces_ordinate. unfold shown. cbn [cz cm].
        destruct z, m, (cz c), (cm c); split; try lia; intros H; split; intros; try reflexivity; try lia; discriminate. }
      destruct K as [K1 K2]. destruct (all_nanb (shown z m c)) eqn:E2.
      + unfold agree. rewrite !spaces_app, !(spaces_none (fmt _)) by apply N. cbn [spaces Ascii.eqb Bool.eqb].
        change (spaces "EMPTY") with 0%nat. change (spaces " ") with 1%nat. split; [lia|]. split; [lia|].
        intros [[H1 H2]|H]; [|discriminate]. exfalso. clear K1 K2.
        assert (S : shown z m c = c).
        { unfold shown. destruct c as [x y a b]. cbn in *. clear E E2. destruct z, m; rewrite ?H1, ?H2 by reflexivity; reflexivity. }
        rewrite S in E2. congruence.
      + unfold agree. rewrite !spaces_app, !(spaces_none (fmt _)) by apply N.
        change (spaces " ") with 1%nat. split; [lia|]. split; [intros H; left; apply K2; lia|].
        intros [[H1 H2]|H]; [|discriminate].
        assert (S : shown z m c = c).
        { unfold shown. destruct c as [x y a b]. cbn in *. clear E E2. destruct z, m; rewrite ?H1, ?H2 by reflexivity; reflexivity. }
        now rewrite S.
  Qed.

  Lemma agree_line : forall l, agree (line_text fmt z m l) (line_text fmt true true l) (on_line P Q l).
  Proof.
    intros l. eapply agree_iff; [|apply agree_group; intros; apply agree_coord]. unfold on_line. tauto.
  Qed.
  Lemma agree_rings : forall l, agree (rings_text fmt z m l) (rings_text fmt true true l) (on_rings P Q l).
  Proof.
    intros l. eapply agree_iff; [|apply agree_group; intros; apply agree_line]. unfold on_rings. tauto.
  Qed.
  Lemma agree_arc : forall l, agree (arc_text fmt z m l) (arc_text fmt true true l) (on_line P Q l).
  Proof. intros l. apply agree_tagged; intros; apply agree_coord. Qed.
  Lemma agree_segment : forall l, agree (segment_text fmt z m l) (segment_text fmt true true l) (on_segment P Q l).
  Proof. intros [l|l]; [apply agree_line|apply agree_arc]. Qed.
  Lemma agree_curve : forall l, agree (curve_text fmt z m l) (curve_text fmt true true l) (on_curve P Q l).
  Proof.
    intros [l|l|l]; [apply agree_line|apply agree_arc|]. apply agree_tagged. intros; apply agree_segment.
  Qed.
  Lemma agree_surface : forall l, agree (surface_text fmt z m l) (surface_text fmt true true l) (on_surface P Q l).
  Proof. intros [l|l]; [apply agree_rings|]. apply agree_tagged. intros; apply agree_curve. Qed.

  Lemma agree_geom : forall g, agree (wkt_text fmt z m g) (wkt_text fmt true true g) (settled z m g).
  Proof.
    unfold settled. induction g using geom_ind'; cbn [on_geom].
    - apply (agree_iff _ _ (True /\ Forall P [c])).
      + split; [intros [_ K]; inversion K; auto|intros [K _]; split; [exact I|]; constructor; [exact K|constructor]].
      + exact (agree_tagged coord (coord_text fmt z m) (coord_text fmt true true) P "POINT" [c]
                 (fun a _ => agree_coord a)).
    - apply agree_eq.
    - apply agree_tagged; intros; apply agree_coord.
    - apply agree_tagged; intros; apply agree_coord.
    - apply agree_tagged; intros; apply agree_line.
    - apply agree_tagged; intros; apply agree_line.
    - apply agree_tagged; intros; apply agree_rings.
    - eapply agree_iff; [|apply (agree_tagged geom (wkt_text fmt z m) (wkt_text fmt true true)
        (on_geom True (fun _ => True) P Q) "GEOMETRYCOLLECTION" l)].
      + split; intros [_ K]; (split; [exact I|]).
        * clear H. induction K; [exact I|]. split; assumption.
        * clear H. induction l as [|a l IH]; [constructor|]. destruct K. constructor; auto.
      + intros a Ha. rewrite Forall_forall in H. exact (H a Ha).
    - apply agree_tagged; intros; apply agree_coord.
    - apply agree_tagged; intros; apply agree_segment.
    - apply agree_tagged; intros; apply agree_curve.
    - apply agree_tagged; intros; apply agree_curve.
    - apply agree_tagged; intros; apply agree_surface.
    - apply agree_tagged; intros; apply agree_line.
    - apply agree_tagged; intros; apply agree_rings.
    - apply agree_tagged; intros; apply agree_rings.
  Qed.
End Count.

Lemma app_inv : forall a b c : string, a ++ b = a ++ c -> b = c.
Proof. induction a as [|x a IH]; intros b c H; [exact H|]. cbn in H. injection H. apply IH. Qed.

Lemma wkt_output_exact : forall A (src : dims -> prog A) l dl d srid fmt g r,
  spaceless fmt -> ordinates64 g ->
  delivers src (fun multi => map Srid l ++ gevents multi 0 g)%list (Ok r) ->
  (to_wkt_with_opts fmt src dl d srid =
   Ok ((match dl with PlainWkt => "" | Ewkt => srid_prefix srid l end) ++ wkt_text fmt (dz d) (dm d) g) <->
   (multi_dim d = true -> settled (dz d) (dm d) g)).
Proof.
  intros A src l dl d srid fmt g r N O D. rewrite (to_wkt_any A src l dl d srid fmt g r D).
  destruct (multi_dim d) eqn:E.
  - assert (N' : forall x, no_space (trim fmt x) = true).
    { intros x. unfold trim. destruct (x <? 2 ^ 64)%N eqn:E2; [apply N; unfold f64_ok; now apply N.ltb_lt|].
      destruct (f64_is_nan x); [apply N; reflexivity|reflexivity]. }
    destruct (agree_geom (trim fmt) N' (dz d) (dm d) g) as (A1 & A2 & A3).
    rewrite !trim_geom in A1, A2, A3 by exact O. split.
    + intros H _. assert (H' := f_equal (fun r => match r with Ok s => s | Err _ => "" end) H). cbn in H'.
      apply app_inv in H'. apply A2. now rewrite H'.
    + intros H. now rewrite (A3 (H eq_refl)).
  - destruct (dims_flags d E) as [-> ->]. split; [discriminate|reflexivity].
Qed.

(** ** C16 *)
Section Flexible.
  Variable fmt : f64 -> string.
  Variable num : string -> option f64.
  Hypothesis F : formats fmt num.

  Definition p_more : parser (option f64) := fun s =>
    match lit " " s with
    | Some t => match p_num num t with Some (x, t) => Some (Some x, t) | None => None end
    | None => Some (None, s)
    end.
  Definition p_pos : parser coord := fun s =>
    match lit "EMPTY" s with
    | Some t => Some (mkC qnan qnan None None, t)
    | None =>
        match p_num num s with
        | Some (x, t) =>
            match lit " " t with
            | Some t =>
                match p_num num t with
                | Some (y, t) =>
                    match p_more t with
                    | Some (a, t) =>
                        match p_more t with
                        | Some (b, t) => Some (mkC x y a b, t)
                        | None => None
                        end
                    | None => None
                    end
                | None => None
                end
            | None => None
            end
        | None => None
        end
    end.

  Lemma no_more : forall s, ends s -> p_more s = Some (None, s).
  Proof.
    intros [|a s] H; [reflexivity|]. unfold p_more. cbn [lit]. cbn in H.
    apply andb_true_iff in H. destruct H as [_ H]. apply negb_true_iff in H.
    destruct (Ascii.eqb_spec " "%char a) as [<-|]; [discriminate H|]. reflexivity.
  Qed.
  Lemma one_more : forall x s, f64_ok x -> stops s -> p_more (ordinate_text fmt (Some x) ++ s) = Some (Some (canon x), s).
  Proof.
    intros x s Hx Hs. cbn [ordinate_text]. unfold p_more. rewrite sapp_assoc, lit_app.
    now rewrite (parses_num fmt num F x Hx s Hs).
  Qed.

  Definition stripped (e : bool) (c : coord) : coord := if e then c else mkC (cx c) (cy c) None None.
  Lemma shown_stripped : forall e c, shown e e c = stripped e c.
  Proof. intros [] [x y a b]; reflexivity. Qed.

  Lemma reads_pos : forall e c, coord64 c -> reads p_pos (coord_text fmt e e c) (numbers e c).
  Proof.
    intros e c Hc s Hs. unfold coord_text, numbers. fold (stripped e c). rewrite shown_stripped.
    destruct (all_nanb (stripped e c)) eqn:E.
    - unfold p_pos. now rewrite lit_app.
    - assert (X : cx (stripped e c) = cx c) by (destruct e; reflexivity).
      assert (Y : cy (stripped e c) = cy c) by (destruct e; reflexivity).
      rewrite X, Y. destruct Hc as (Bx & By & Bz & Bm).
      assert (Sz : of64_ok (cz (stripped e c))) by (destruct e; [exact Bz|exact I]).
      assert (Sm : of64_ok (cm (stripped e c))) by (destruct e; [exact Bm|exact I]).
      rewrite !sapp_assoc. unfold p_pos.
      destruct (F (cx c) Bx) as (H1 & H2 & H3).
      rewrite (lit_word "EMPTY" (fmt (cx c))); [|exact H2|reflexivity|exact H1|reflexivity].
      rewrite (parses_num fmt num F (cx c) Bx); [|reflexivity]. rewrite lit_app.
      rewrite (parses_num fmt num F (cy c) By);
        [|apply stops_ordinate, stops_ordinate, ends_stops; exact Hs].
      destruct (cz (stripped e c)) as [vz|], (cm (stripped e c)) as [vm|]; cbn [of64_ok] in Sz, Sm.
      + rewrite one_more; [|exact Sz|reflexivity]. rewrite one_more; [|exact Sm|apply ends_stops; exact Hs].
        reflexivity.
      + rewrite one_more; [|exact Sz|apply ends_stops; exact Hs].
        change (ordinate_text fmt None ++ s) with s. now rewrite no_more.
      + change (ordinate_text fmt None ++ ordinate_text fmt (Some vm) ++ s) with (ordinate_text fmt (Some vm) ++ s).
        rewrite one_more; [|exact Sm|apply ends_stops; exact Hs]. now rewrite no_more.
      + change (ordinate_text fmt None ++ ordinate_text fmt None ++ s) with s. now rewrite !no_more.
  Qed.

  Lemma text_determines : forall e g g', ordinates64 g -> ordinates64 g' ->
    wkt_text fmt e e g = wkt_text fmt e e g' -> as_written e g = as_written e g'.
  Proof.
    intros e g g' H H' E.
    pose proof (flex_text fmt e e p_pos (numbers e) (reads_pos e) g H) as T.
    pose proof (flex_text fmt e e p_pos (numbers e) (reads_pos e) g' H') as T'.
    rewrite E, T' in T. injection T as T. unfold as_written. now symmetry.
  Qed.

  Hypothesis N : forall x, f64_is_nan x = true -> fmt x = fmt qnan.
  Lemma fmt_canon : forall x, fmt (canon x) = fmt x.
  Proof. intros x. unfold canon. destruct (f64_is_nan x) eqn:E; [symmetry; now apply N|reflexivity]. Qed.
  Lemma nan_canon : forall x, f64_is_nan (canon x) = f64_is_nan x.
  Proof. intros x. unfold canon. destruct (f64_is_nan x) eqn:E; [reflexivity|exact E]. Qed.

  Lemma coord_written : forall e c, coord_text fmt true true (numbers e c) = coord_text fmt e e c.
  Proof.
    intros e c. unfold coord_text. rewrite !shown_stripped. change (stripped true (numbers e c)) with (numbers e c).
    unfold numbers. fold (stripped e c). destruct (all_nanb (stripped e c)) eqn:E; [reflexivity|].
    assert (X : cx (stripped e c) = cx c) by (destruct e; reflexivity).
    assert (Y : cy (stripped e c) = cy c) by (destruct e; reflexivity).
    rewrite X, Y. unfold all_nanb in *. rewrite X, Y in E. cbn [cx cy cz cm].
    destruct (cz (stripped e c)) as [vz|], (cm (stripped e c)) as [vm|]; cbn [option_map] in *;
      rewrite ?nan_canon; cbn [ordinate_text]; rewrite ?fmt_canon;
      rewrite ?andb_true_r in E |- *; rewrite ?E, ?sapp_nil; reflexivity.
  Qed.
  Lemma line_written : forall e l, map (coord_text fmt true true) (map (numbers e) l) = map (coord_text fmt e e) l.
  Proof. intros e l. rewrite map_map. apply map_ext. apply coord_written. Qed.
  Lemma ltext_written : forall e l, line_text fmt true true (map (numbers e) l) = line_text fmt e e l.
  Proof. intros e l. unfold line_text. now rewrite line_written. Qed.
  Lemma rings_written : forall e l,
    map (line_text fmt true true) (map (map (numbers e)) l) = map (line_text fmt e e) l.
  Proof. intros e l. rewrite map_map. apply map_ext. apply ltext_written. Qed.
  Lemma polys_written : forall e l,
    map (rings_text fmt true true) (map (map (map (numbers e))) l) = map (rings_text fmt e e) l.
  Proof. intros e l. rewrite map_map. apply map_ext. intros a. unfold rings_text. now rewrite rings_written. Qed.
  Lemma segments_written : forall e l,
    map (segment_text fmt true true) (map (map_segment (numbers e)) l) = map (segment_text fmt e e) l.
  Proof.
    intros e l. rewrite map_map. apply map_ext. intros [a|a]; cbn [map_segment segment_text];
      [apply ltext_written|]. unfold arc_text. now rewrite line_written.
  Qed.
  Lemma curves_written : forall e l,
    map (curve_text fmt true true) (map (map_curve (numbers e)) l) = map (curve_text fmt e e) l.
  Proof.
    intros e l. rewrite map_map. apply map_ext. intros [a|a|a]; cbn [map_curve curve_text];
      [apply ltext_written| |]; [unfold arc_text|unfold compound_text]; now rewrite ?line_written, ?segments_written.
  Qed.
  Lemma surfaces_written : forall e l,
    map (surface_text fmt true true) (map (map_surface (numbers e)) l) = map (surface_text fmt e e) l.
  Proof.
    intros e l. rewrite map_map. apply map_ext. intros [a|a]; cbn [map_surface surface_text];
      [unfold rings_text|unfold curvepolygon_text]; now rewrite ?rings_written, ?curves_written.
  Qed.

  Lemma text_written : forall e g, wkt_text fmt true true (as_written e g) = wkt_text fmt e e g.
  Proof.
    intros e. unfold as_written.
    induction g using geom_ind'; cbn [map_geom wkt_text];
      unfold arc_text, compound_text, curvepolygon_text;
      rewrite ?line_written, ?rings_written, ?polys_written, ?segments_written, ?curves_written, ?surfaces_written;
      try reflexivity.
    - now rewrite coord_written.
    - f_equal. rewrite map_map. apply map_ext_in. intros a Ha. rewrite Forall_forall in H. exact (H a Ha).
  Qed.
End Flexible.

Lemma wkt_unambiguous_exact : forall fmt num A B (src1 : dims -> prog A) (src2 : dims -> prog B) d g1 g2 r1 r2,
  formats fmt num -> one_nan fmt -> ordinates64 g1 -> ordinates64 g2 ->
  delivers src1 (fun multi => gevents multi 0 g1) (Ok r1) ->
  delivers src2 (fun multi => gevents multi 0 g2) (Ok r2) ->
  (to_wkt_ndim fmt src1 d = to_wkt_ndim fmt src2 d <->
   as_written (multi_dim d) g1 = as_written (multi_dim d) g2).
Proof.
  intros fmt num A B src1 src2 d g1 g2 r1 r2 F N H1 H2 D1 D2. unfold to_wkt_ndim.
  rewrite (to_wkt_any A src1 [] PlainWkt d None fmt g1 r1 D1).
  rewrite (to_wkt_any B src2 [] PlainWkt d None fmt g2 r2 D2). split.
  - intros E. assert (E' : wkt_text fmt (multi_dim d) (multi_dim d) g1 = wkt_text fmt (multi_dim d) (multi_dim d) g2)
      by (cbn in E; congruence).
    exact (text_determines fmt num F (multi_dim d) g1 g2 H1 H2 E').
  - intros E.
    assert (N' : forall x, f64_is_nan x = true -> trim fmt x = trim fmt qnan).
    { intros x Hx. unfold trim. destruct (x <? 2 ^ 64)%N eqn:E2.
      - apply N; [unfold f64_ok; now apply N.ltb_lt|exact Hx].
      - rewrite Hx. reflexivity. }
    rewrite <- (trim_geom fmt (multi_dim d) (multi_dim d) g1 H1), <- (trim_geom fmt (multi_dim d) (multi_dim d) g2 H2).
    rewrite <- (text_written (trim fmt) N' (multi_dim d) g1), E, (text_written (trim fmt) N'). reflexivity.
Qed.
