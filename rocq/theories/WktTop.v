(** Assembly of the WKT claims (helper lemmas for C15-C18). *)
From Coq Require Import String Ascii.
From Coq Require Import List NArith ZArith Lia Bool.
From Coq Require Import Numbers.DecimalString Numbers.DecimalN Init.Byte.
From Verif Require Import Base BaseLemmas Event EventLemmas Claims Geom WkbModel WkbSpec WkbClaims
  WkbRead WkbReadTop WkbTop WktModel WktSpec WktWrite WktParse.
Import ListNotations.
Local Open Scope list_scope.
Local Open Scope string_scope.

(** ** Writer *)
Lemma carries_all : forall g, carries true true g.
Proof.
  unfold carries.
  assert (L : forall l, on_line (fun c => (true = false -> cz c = None) /\ (true = false -> cm c = None))
     (fun _ => True) l).
  { intros l. split; [exact I|]. apply Forall_forall. intros; split; discriminate. }
  assert (R : forall l, on_rings (fun c => (true = false -> cz c = None) /\ (true = false -> cm c = None))
     (fun _ => True) l).
  { intros l. split; [exact I|]. apply Forall_forall. intros; apply L. }
  assert (Sg : forall l, on_segment (fun c => (true = false -> cz c = None) /\ (true = false -> cm c = None))
     (fun _ => True) l).
  { intros [l|l]; apply L. }
  assert (Cv : forall l, on_curve (fun c => (true = false -> cz c = None) /\ (true = false -> cm c = None))
     (fun _ => True) l).
  { intros [l|l|l]; try apply L. split; [exact I|]. apply Forall_forall. intros; apply Sg. }
  assert (Sf : forall l, on_surface (fun c => (true = false -> cz c = None) /\ (true = false -> cm c = None))
     (fun _ => True) l).
  { intros [l|l]; [apply R|]. split; [exact I|]. apply Forall_forall. intros; apply Cv. }
  induction g using geom_ind'; cbn [on_geom];
    try exact I; try apply L; try apply R;
    try (split; [exact I|]; apply Forall_forall; intros; first [apply L|apply R|apply Sg|apply Cv|apply Sf]).
  - split; [split; discriminate|exact I].
  - split; [exact I|]. induction H; [exact I|]. split; assumption.
Qed.

Lemma to_wkt_any : forall A (src : dims -> prog A) l dl d srid fmt g r,
  delivers src (fun multi => map Srid l ++ gevents multi 0 g)%list (Ok r) ->
  to_wkt_with_opts fmt src dl d srid =
  Ok ((match dl with PlainWkt => "" | Ewkt => srid_prefix srid l end) ++
      wkt_text fmt (multi_dim d) (multi_dim d) g).
Proof.
  intros. eapply to_wkt_opts; [eassumption|tauto|]. intros ->. apply carries_all.
Qed.

Lemma dims_flags : forall d, multi_dim d = false -> dz d = false /\ dm d = false.
Proof. intros d E. unfold multi_dim in E. rewrite !orb_false_iff in E. tauto. Qed.

Lemma to_wkt_configured : forall A (src : dims -> prog A) l dl d srid fmt g r,
  delivers src (fun multi => map Srid l ++ gevents multi 0 g)%list (Ok r) ->
  (multi_dim d = true -> carries (dz d) (dm d) g) ->
  to_wkt_with_opts fmt src dl d srid =
  Ok ((match dl with PlainWkt => "" | Ewkt => srid_prefix srid l end) ++
      wkt_text fmt (dz d) (dm d) g).
Proof. intros. eapply to_wkt_opts; [eassumption|apply dims_flags|assumption]. Qed.

Lemma on_line_weaken : forall (P P' : coord -> Prop) (Q : nat -> Prop) l, (forall c, P c -> P' c) -> on_line P Q l -> on_line P' Q l.
Proof. intros P P' Q l H [H1 H2]. split; [exact H1|]. eapply Forall_impl; [|exact H2]. exact H. Qed.
Lemma on_rings_weaken : forall (P P' : coord -> Prop) (Q : nat -> Prop) l, (forall c, P c -> P' c) -> on_rings P Q l -> on_rings P' Q l.
Proof.
  intros P P' Q l H [H1 H2]. split; [exact H1|]. eapply Forall_impl; [|exact H2].
  intros a. apply on_line_weaken, H.
Qed.
Lemma on_segment_weaken : forall (P P' : coord -> Prop) (Q : nat -> Prop) l, (forall c, P c -> P' c) -> on_segment P Q l -> on_segment P' Q l.
Proof. intros P P' Q [l|l] H; apply on_line_weaken, H. Qed.
Lemma on_curve_weaken : forall (P P' : coord -> Prop) (Q : nat -> Prop) l, (forall c, P c -> P' c) -> on_curve P Q l -> on_curve P' Q l.
Proof.
  intros P P' Q [l|l|l] H; try apply on_line_weaken, H. intros [H1 H2]. split; [exact H1|].
  eapply Forall_impl; [|exact H2]. intros a. apply on_segment_weaken, H.
Qed.
Lemma on_surface_weaken : forall (P P' : coord -> Prop) (Q : nat -> Prop) l, (forall c, P c -> P' c) -> on_surface P Q l -> on_surface P' Q l.
Proof.
  intros P P' Q [l|l] H; try apply on_rings_weaken, H. intros [H1 H2]. split; [exact H1|].
  eapply Forall_impl; [|exact H2]. intros a. apply on_curve_weaken, H.
Qed.
Lemma on_geom_weaken : forall E T (P P' : coord -> Prop) Q, (forall c, P c -> P' c) ->
  forall g, on_geom E T P Q g -> on_geom E T P' Q g.
Proof.
  intros E T P P' Q H g.
  induction g using geom_ind'; cbn [on_geom];
    try exact (fun x => x); try (exact (on_line_weaken P P' Q _ H)); try (exact (on_rings_weaken P P' Q _ H));
    try (intros [H1 H2]; split; [exact H1|]; eapply Forall_impl; [|exact H2]; intros a;
         first [exact (on_line_weaken P P' Q _ H)|exact (on_rings_weaken P P' Q _ H)|exact (on_segment_weaken P P' Q _ H)
               |exact (on_curve_weaken P P' Q _ H)|exact (on_surface_weaken P P' Q _ H)]).
  - intros [H1 H2]. split; auto.
  - intros [H1 H2]. split; [exact H1|]. clear H1. induction H0; [exact I|]. destruct H2. split; [auto|]. now apply IHForall.
Qed.

Lemma exactly_carries : forall z m g, exactly z m g -> carries z m g.
Proof.
  intros z m g. apply on_geom_weaken. intros c (_ & H1 & H2). split; intros ->; assumption.
Qed.

Lemma exactly_flat : forall g, exactly false false g ->
  on_geom True (fun _ => True) (fun c => cz c = None /\ cm c = None) (fun _ => True) g.
Proof. intros g. apply on_geom_weaken. intros c [_ H]. exact H. Qed.

(** ** Recovering the geometry *)
Notation nfc := (fun c => f64_is_nan (cx c) = false /\ f64_is_nan (cy c) = false /\
            match cz c with Some v => f64_is_nan v = false | None => True end /\
            match cm c with Some v => f64_is_nan v = false | None => True end).
Notation nfq := (fun _ : nat => True).
Lemma canon_line : forall l, on_line nfc nfq l ->
  map canon_coord l = l.
Proof.
  intros l [_ H]. induction H as [|c l (H1 & H2 & H3 & H4) _ IH]; [reflexivity|]. cbn [map]. rewrite IH.
  f_equal. unfold canon_coord, canon. destruct c as [x y z m]. cbn [cx cy cz cm] in *.
  rewrite H1, H2. destruct z, m; cbn [option_map]; rewrite ?H3, ?H4; reflexivity.
Qed.

Lemma map_fix : forall A (P : A -> Prop) (f : A -> A) l, (forall a, P a -> f a = a) -> Forall P l -> map f l = l.
Proof. intros A P f l H. induction 1; cbn [map]; [reflexivity|]. now rewrite H, IHForall. Qed.

Lemma canon_nan_free : forall g, nan_free g -> canon_geom g = g.
Proof.
  assert (R : forall l, on_rings nfc nfq l -> map (map canon_coord) l = l).
  { intros l [_ H]. eapply map_fix; [|exact H]. apply canon_line. }
  assert (Sg : forall l, on_segment nfc nfq l -> map_segment canon_coord l = l).
  { intros [l|l] H; cbn [map_segment]; f_equal; apply canon_line, H. }
  assert (Cv : forall l, on_curve nfc nfq l -> map_curve canon_coord l = l).
  { intros [l|l|l] H; cbn [map_curve]; f_equal; try apply canon_line, H.
    destruct H as [_ H]. eapply map_fix; [|exact H]. apply Sg. }
  assert (Sf : forall l, on_surface nfc nfq l -> map_surface canon_coord l = l).
  { intros [l|l] H; cbn [map_surface]; f_equal; [apply R, H|].
    destruct H as [_ H]. eapply map_fix; [|exact H]. apply Cv. }
  unfold nan_free, canon_geom.
  induction g using geom_ind'; intros Hg; cbn [map_geom on_geom] in *;
    try (f_equal; first [apply canon_line, Hg|apply R, Hg|exact (map_fix _ _ _ _ canon_line (proj2 Hg))
         |exact (map_fix _ _ _ _ R (proj2 Hg))|exact (map_fix _ _ _ _ Sg (proj2 Hg))
         |exact (map_fix _ _ _ _ Cv (proj2 Hg))|exact (map_fix _ _ _ _ Sf (proj2 Hg))]).
  - f_equal. assert (E : map canon_coord [c] = [c]) by (apply canon_line; split; [exact I|constructor; [apply Hg|constructor]]).
    now injection E.
  - reflexivity.
  - f_equal. destruct Hg as [_ Hg].
    induction H as [|a l Ha _ IH]; [reflexivity|]. cbn [map]. destruct Hg as [H1 H2]. now rewrite Ha, IH.
Qed.

Lemma recover : forall fmt num A (src : dims -> prog A) d g r,
  formats fmt num -> exactly (dz d) (dm d) g ->
  delivers src (fun multi => gevents multi 0 g) (Ok r) ->
  exists text,
    to_wkt_ndim fmt src d = Ok text /\ parse_wkt num (dz d) (dm d) text = Some (canon_geom g).
Proof.
  intros fmt num A src d g r F E H. eexists. split.
  - unfold to_wkt_ndim. apply (to_wkt_configured A src [] PlainWkt d None fmt g r H).
    intros _. apply exactly_carries, E.
  - cbn [append]. apply parse_text; assumption.
Qed.

Lemma unambiguous : forall fmt num A B (src1 : dims -> prog A) (src2 : dims -> prog B) d g1 g2 r1 r2,
  formats fmt num -> exactly (dz d) (dm d) g1 -> exactly (dz d) (dm d) g2 ->
  nan_free g1 -> nan_free g2 ->
  delivers src1 (fun multi => gevents multi 0 g1) (Ok r1) ->
  delivers src2 (fun multi => gevents multi 0 g2) (Ok r2) ->
  to_wkt_ndim fmt src1 d = to_wkt_ndim fmt src2 d -> g1 = g2.
Proof.
  intros fmt num A B src1 src2 d g1 g2 r1 r2 F E1 E2 N1 N2 H1 H2 E.
  destruct (recover fmt num A src1 d g1 r1 F E1 H1) as (t1 & T1 & P1).
  destruct (recover fmt num B src2 d g2 r2 F E2 H2) as (t2 & T2 & P2).
  rewrite T1, T2 in E. injection E as ->. rewrite P1 in P2. injection P2 as P2.
  now rewrite !canon_nan_free in P2 by assumption.
Qed.

(** ** A formatter: the bit pattern in decimal *)
Definition show_bits (x : f64) : string :=
  if f64_is_nan x then "NaN" else NilZero.string_of_uint (N.to_uint x).
Definition read_bits (s : string) : option f64 :=
  if String.eqb s "NaN" then Some qnan else option_map N.of_uint (NilZero.uint_of_string s).

Lemma uint_no_delim : forall d, no_delim (NilEmpty.string_of_uint d) = true.
Proof. induction d; cbn; auto. Qed.

Lemma bits_format : formats show_bits read_bits.
Proof.
  intros x _. unfold show_bits, canon. destruct (f64_is_nan x); [repeat split; reflexivity|].
  pose proof (DecimalN.Unsigned.of_to x) as E.
  destruct (N.to_uint x) as [|d|d|d|d|d|d|d|d|d|d] eqn:D.
  1: { rewrite <- E. repeat split; reflexivity. }
  all: split; [apply (uint_no_delim (_ d))|split; [reflexivity|]];
    unfold read_bits; rewrite (NilZero.usu (_ d)) by discriminate; cbn [option_map]; rewrite E; reflexivity.
Qed.

(** ** Reader *)
Section Read.
  Variable multi : bool.
  Lemma wcoord_calls : forall k c, wkt_coord multi k c = ok_calls [ev_coord multi k c].
  Proof. intros k c. unfold wkt_coord, ev_coord. destruct multi; reflexivity. Qed.
  Lemma wline_calls : forall t k l, wkt_linestring multi t k l = ok_calls (ev_line multi t k l).
  Proof.
    intros. unfold wkt_linestring. rewrite (pfor_mapi _ _ (ev_coord multi)) by (intros; apply wcoord_calls).
    rewrite !pcall_calls, !pthen_calls. reflexivity.
  Qed.
  Lemma wpolygon_calls : forall t k l, wkt_polygon multi t k l = ok_calls (ev_polygon multi t k l).
  Proof.
    intros. unfold wkt_polygon. rewrite (pfor_calls _ _ (ev_line multi false)) by (intros; apply wline_calls).
    rewrite !pcall_calls, !pthen_calls. reflexivity.
  Qed.

  Lemma somes_map : forall A (l : list (option A)) r, somes l = Some r -> l = map Some r.
  Proof.
    induction l as [|[a|] l IH]; intros r H; cbn in H; [injection H as <-; reflexivity| |discriminate].
    destruct (somes l) as [r'|]; [|discriminate]. injection H as <-. cbn. f_equal. apply IH; reflexivity.
  Qed.

  Fixpoint wkt_ind_size (w : wkt) : nat :=
    match w with
    | WCollection l => S ((fix go (l : list wkt) : nat := match l with [] => 0 | a :: r => wkt_ind_size a + go r end) l)
    | _ => 0
    end.

  Lemma wgeom_calls : forall n w g i, (wkt_ind_size w <= n)%nat -> wkt_geom w = Some g ->
    process_wkt_geom_n multi i w = ok_calls (gevents multi i g).
  Proof.
    induction n as [n IHn] using lt_wf_ind. intros w g i Hn Hg.
    destruct w as [[c|]|l|l|l|r|l|l]; cbn [wkt_geom] in Hg.
    - injection Hg as <-. cbn [process_wkt_geom_n]. rewrite wcoord_calls, !pcall_calls, !pthen_calls. reflexivity.
    - injection Hg as <-. reflexivity.
    - destruct (somes l) as [r|] eqn:E; [|discriminate]. injection Hg as <-.
      apply somes_map in E. subst l. cbn [process_wkt_geom_n]. rewrite map_length.
      assert (L : forall k, pfor (fun k p => match p with Some c => wkt_coord multi k c | None => pret tt end) k (map Some r)
         = ok_calls (mapi (ev_coord multi) k r)).
      { clear. induction r as [|a r IH]; intros k; cbn [map pfor mapi]; [reflexivity|].
        rewrite IH, wcoord_calls, pthen_calls. reflexivity. }
      rewrite L, !pcall_calls, !pthen_calls. reflexivity.
    - injection Hg as <-. apply wline_calls.
    - injection Hg as <-. cbn [process_wkt_geom_n].
      rewrite (pfor_calls _ _ (ev_line multi false)) by (intros; apply wline_calls).
      rewrite !pcall_calls, !pthen_calls. reflexivity.
    - injection Hg as <-. apply wpolygon_calls.
    - injection Hg as <-. cbn [process_wkt_geom_n].
      rewrite (pfor_calls _ _ (ev_polygon multi false)) by (intros; apply wpolygon_calls).
      rewrite !pcall_calls, !pthen_calls. reflexivity.
    - destruct (somes (map wkt_geom l)) as [r|] eqn:E; [|discriminate]. injection Hg as <-.
      apply somes_map in E. cbn [process_wkt_geom_n].
      assert (EL : length l = length r).
      { rewrite <- (map_length wkt_geom l), E, map_length. reflexivity. }
      rewrite EL. clear EL.
      assert (L : forall k, (fix go (i : nat) (l : list wkt) : prog unit :=
                   match l with [] => pret tt | a :: r => pthen (process_wkt_geom_n multi i a) (go (S i) r) end) k l
         = ok_calls (flat_mapi (gevents multi) k r)).
      { cbn [wkt_ind_size] in Hn. destruct n as [|n]; [lia|]. apply le_S_n in Hn.
        assert (IH : forall w g i, (wkt_ind_size w <= n)%nat -> wkt_geom w = Some g ->
           process_wkt_geom_n multi i w = ok_calls (gevents multi i g)) by (apply IHn; lia).
        clear IHn i. revert r E Hn. induction l as [|a l IHl]; intros [|b r] E Hn k; try discriminate; [reflexivity|].
        cbn [map] in E. injection E as Ea E. cbn [flat_mapi].
        rewrite (IH a b k), (IHl r E), pthen_calls by (assumption || lia). reflexivity. }
      rewrite L, !pcall_calls, !pthen_calls. rewrite gevents_collection. reflexivity.
  Qed.
End Read.

Lemma wkt_delivers : forall w g, wkt_geom w = Some g ->
  delivers (process_wkt_geom w) (fun multi => gevents multi 0 g) (Ok tt).
Proof.
  intros w g H. apply delivers_calls. intros d. unfold process_wkt_geom.
  apply (wgeom_calls (multi_dim d) (wkt_ind_size w) w g 0 (le_n _) H).
Qed.

Lemma from_wkb_text : forall fmt dl d srid env ed ext emp o g,
  encodable g -> (levels g <= 128)%nat -> srid_ok dl srid -> env_ok dl ed env -> order_ok dl o ->
  ewkt_from_wkb fmt dl (std dl d srid env ed ext emp o g) =
  Ok (srid_prefix None [reported_srid dl srid] ++ wkt_text fmt true true (retained (dz d) (dm d) g)).
Proof.
  intros fmt dl d srid env ed ext emp o g Hg Hl Hs He Ho. unfold ewkt_from_wkb.
  apply (to_wkt_any _ _ [reported_srid dl srid] Ewkt xyzm_dims None fmt
           (retained (dz d) (dm d) g) (tt, trailer dl)).
  apply delivers_std0; assumption.
Qed.

Lemma from_wkb_plain : forall fmt dl d srid env ed ext emp o g,
  encodable g -> (levels g <= 128)%nat -> srid_ok dl srid -> env_ok dl ed env -> order_ok dl o ->
  wkt_from_wkb fmt dl (std dl d srid env ed ext emp o g) =
  Ok (wkt_text fmt false false (retained (dz d) (dm d) g)).
Proof.
  intros fmt dl d srid env ed ext emp o g Hg Hl Hs He Ho. unfold wkt_from_wkb.
  apply (to_wkt_any _ _ [reported_srid dl srid] PlainWkt xy_dims None fmt
           (retained (dz d) (dm d) g) (tt, trailer dl)).
  apply delivers_std0; assumption.
Qed.

Lemma ewkt_prefix : forall fmt d srid before after g,
  exists s, run (wkt_writer fmt (mkWktCfg d Ewkt))
              (map Srid before ++ gevents (multi_dim d) 0 g ++ map Srid after) (wkt_init srid) = (s, Ok tt) /\
            k_out s = srid_prefix srid before ++ wkt_text fmt (multi_dim d) (multi_dim d) g.
Proof.
  intros. apply (wkt_output fmt (mkWktCfg d Ewkt)); cbn [k_dims]; [tauto|].
  intros ->. apply carries_all.
Qed.
Lemma wkt_no_prefix : forall fmt d srid before after g,
  exists s, run (wkt_writer fmt (mkWktCfg d PlainWkt))
              (map Srid before ++ gevents (multi_dim d) 0 g ++ map Srid after) (wkt_init srid) = (s, Ok tt) /\
            k_out s = wkt_text fmt (multi_dim d) (multi_dim d) g.
Proof.
  intros. apply (wkt_output fmt (mkWktCfg d PlainWkt)); cbn [k_dims]; [tauto|].
  intros ->. apply carries_all.
Qed.

Lemma empty_point_text : forall fmt dl d srid env ed ext emp o c,
  coord64 c -> srid_ok dl srid -> env_ok dl ed env -> order_ok dl o ->
  all_nan (stored (dz d) (dm d) c) ->
  wkt_from_wkb fmt dl (std dl d srid env ed ext emp o (GPoint c)) = Ok "POINT EMPTY" /\
  ewkt_from_wkb fmt dl (std dl d srid env ed ext emp o (GPoint c)) =
  Ok (srid_prefix None [reported_srid dl srid] ++ "POINT EMPTY").
Proof.
  intros fmt dl d srid env ed ext emp o c Hc Hs He Ho Hn.
  assert (G : encodable (GPoint c)) by (split; [exact Hc|exact I]).
  assert (E : retained (dz d) (dm d) (GPoint c) = GEmptyPoint).
  { unfold retained. cbn [map_geom]. unfold point_or_empty.
    destruct (all_nanb (stored (dz d) (dm d) c)) eqn:B; [reflexivity|].
    exfalso. revert B Hn. unfold all_nanb, all_nan, onan.
    destruct (cz _), (cm _); rewrite ?andb_false_iff; intuition congruence. }
  split.
  - rewrite from_wkb_plain, E by (assumption || (cbn; lia)). reflexivity.
  - rewrite from_wkb_text, E by (assumption || (cbn; lia)). reflexivity.
Qed.
