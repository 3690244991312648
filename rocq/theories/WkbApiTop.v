(** Proofs for C76. *)
From Coq Require Import String Ascii.
From Coq Require Import List NArith ZArith Lia Bool.
From Coq Require Import Init.Byte.
From Verif Require Import Base BaseLemmas Event EventLemmas Claims Geom WkbModel WkbSpec WkbClaims WkbRead WkbReadTop WkbMore WkbApiModel WkbApiSpec DrivenSpec.
Import ListNotations.
Local Open Scope N_scope.
Local Open Scope list_scope.

(** ** Two writers in step *)
Section Sim.
  Context {S T : Type} (p : proc S) (q : proc T) (R : S -> T -> Prop).
  Definition in_step : Prop := forall s t, R s t ->
    (forall e, snd (p_step p s e) = snd (p_step q t e) /\ R (fst (p_step p s e)) (fst (p_step q t e))) /\
    (forall i n v, snd (p_prop p s i n v) = snd (p_prop q t i n v) /\ R (fst (p_prop p s i n v)) (fst (p_prop q t i n v))).
End Sim.
Lemma in_step_exec : forall S T (p : proc S) (q : proc T) R, in_step p q R -> forall A (g : prog A) s t, R s t ->
  snd (exec p g s) = snd (exec q g t) /\ R (fst (exec p g s)) (fst (exec q g t)).
Proof.
  intros S T p q R I A g. induction g as [r|e k IH|e k IH|i n v k IH]; intros s t H; cbn.
  - now split.
  - destruct (proj1 (I s t H) e) as (E & N). destruct (p_step p s e) as [s' [u|x]], (p_step q t e) as [t' [u'|x']]; cbn in *; try discriminate E.
    + now apply IH.
    + split; [congruence|exact N].
  - apply IH. exact (proj2 (proj1 (I s t H) e)).
  - destruct (proj2 (I s t H) i n v) as (E & N). destruct (p_prop p s i n v) as [s' [u|x]], (p_prop q t i n v) as [t' [u'|x']]; cbn in *; try discriminate E.
    + injection E as ->. now apply IH.
    + split; [congruence|exact N].
Qed.

(** the writers differ in what they put out for headers only *)
Section Writers.
  Variables c c' : wcfg.
  Variable R : wst -> wst -> Prop.
  Hypothesis dims_same : w_dims c = w_dims c'.
  Hypothesis endian_same : w_endian c = w_endian c'.
  Hypothesis foot : w_dialect c <> SpatiaLite /\ w_dialect c' <> SpatiaLite.
  Hypothesis R_nest : forall s s', R s s' -> w_nest s = w_nest s'.
  Hypothesis R_state : forall s s', R s s' -> w_state s = w_state s'.
  Hypothesis R_app : forall s s' b, R s s' -> R (out_app s b) (out_app s' b).
  Hypothesis R_set : forall s s' g, R s s' -> R (set_state s g) (set_state s' g).
  Hypothesis R_incr : forall s s', R s s' -> R (nest_incr s) (nest_incr s').
  Hypothesis R_decr : forall s s' n, R s s' -> R (mkWst (w_first s) (w_state s) n (w_out s)) (mkWst (w_first s') (w_state s') n (w_out s')).
  Hypothesis R_header : forall s s' t, R s s' ->
    snd (write_header c s t) = snd (write_header c' s' t) /\ R (fst (write_header c s t)) (fst (write_header c' s' t)).

  Definition both (a b : wst * res unit) : Prop := snd a = snd b /\ R (fst a) (fst b).
  Lemma both_size : forall s s' t n, R s s' -> both (header_size c s t n) (header_size c' s' t n).
  Proof.
    intros s s' t n H. unfold header_size. destruct (R_header s s' t H) as (E & N).
    destruct (write_header c s t) as [a [u|x]], (write_header c' s' t) as [a' [u'|x']]; cbn in *; try discriminate E.
    - split; [reflexivity|]. rewrite endian_same. now apply R_app.
    - split; [exact E|exact N].
  Qed.
  Lemma both_then : forall a b g, both a b -> both (then_state g a) (then_state g b).
  Proof.
    intros [a [u|x]] [b [u'|x']] g (E & N); cbn in *; try discriminate E; split; cbn; auto.
  Qed.
  Lemma both_foot : forall s s', R s s' -> both (write_footer c s) (write_footer c' s').
  Proof.
    intros s s' H. unfold write_footer. destruct foot as (A & B).
    destruct (w_dialect c), (w_dialect c'); try contradiction; split; auto.
  Qed.
  Lemma both_decr : forall s s' k k', R s s' -> (forall a b, R a b -> both (k a) (k' b)) -> both (nest_decr s k) (nest_decr s' k').
  Proof.
    intros s s' k k' H K. unfold nest_decr. rewrite <- (R_nest s s' H). destruct (w_nest s); [now split|]. apply K. now apply R_decr.
  Qed.
  Lemma both_coord : forall s s' x y z m, R s s' -> both (write_coordinate c s x y z m) (write_coordinate c' s' x y z m).
  Proof.
    intros s s' x y z m H. unfold write_coordinate.
    assert (K : forall a b, R a b ->
      R (if dm (w_dims c) then out_app (if dz (w_dims c) then out_app (out_app (out_app a (w_f64 (w_endian c) x)) (w_f64 (w_endian c) y)) (w_f64 (w_endian c) (opt_default f64_zero z)) else out_app (out_app a (w_f64 (w_endian c) x)) (w_f64 (w_endian c) y)) (w_f64 (w_endian c) (opt_default f64_zero m)) else if dz (w_dims c) then out_app (out_app (out_app a (w_f64 (w_endian c) x)) (w_f64 (w_endian c) y)) (w_f64 (w_endian c) (opt_default f64_zero z)) else out_app (out_app a (w_f64 (w_endian c) x)) (w_f64 (w_endian c) y))
        (if dm (w_dims c') then out_app (if dz (w_dims c') then out_app (out_app (out_app b (w_f64 (w_endian c') x)) (w_f64 (w_endian c') y)) (w_f64 (w_endian c') (opt_default f64_zero z)) else out_app (out_app b (w_f64 (w_endian c') x)) (w_f64 (w_endian c') y)) (w_f64 (w_endian c') (opt_default f64_zero m)) else if dz (w_dims c') then out_app (out_app (out_app b (w_f64 (w_endian c') x)) (w_f64 (w_endian c') y)) (w_f64 (w_endian c') (opt_default f64_zero z)) else out_app (out_app b (w_f64 (w_endian c') x)) (w_f64 (w_endian c') y))).
    { intros a b AB. rewrite <- dims_same, <- endian_same. destruct (dm (w_dims c)), (dz (w_dims c)); auto 6. }
    cbv zeta. rewrite <- (R_state s s' H). destruct (R_header s s' TPoint H) as (E & N).
    destruct (w_state s); try (split; [reflexivity|]; cbn; now apply K);
      destruct (write_header c s TPoint) as [a [u|e]], (write_header c' s' TPoint) as [a' [u'|e']]; cbn in *; try discriminate E;
      (split; cbn; [first [reflexivity|exact E]|first [now apply K|exact N]]).
  Qed.
  Lemma writers_step : in_step (wkb_writer c) (wkb_writer c') R.
  Proof.
    intros s s' H. split; [|intros i n v; now split]. intros e. change (both (wkb_step c s e) (wkb_step c' s' e)). unfold wkb_step.
    destruct e; cbn [default_step]; try (now split); try (now apply both_coord); try (now apply R_header); try (now apply both_foot);
      try (now apply both_size); try (apply both_size; now apply R_incr);
      try (apply both_then, both_size; now auto); try (apply both_foot; now auto);
      try (apply both_decr; [exact H|]; intros a b AB; apply both_foot; now auto).
    rewrite <- (R_state s s' H), <- endian_same. destruct (w_state s); try (now apply both_size). split; [reflexivity|now apply R_app].
  Qed.
End Writers.

Lemma type_id_plain : forall t, N.lor (type_code t) 0 = type_code t.
Proof. intros t. apply N.lor_0_r. Qed.

(** EWKB without SRID, z and m is WKB, whatever the source does *)
Lemma ewkb_is_wkb : forall src d, dz d = false -> dm d = false -> to_ewkb src d None = to_wkb src d.
Proof.
  intros src d Z M. unfold to_ewkb, to_wkb, to_wkb_dialect. cbn [with_opts with_extended_opts w_read_dims].
  set (c := with_opts Ewkb d None []). set (c' := with_opts Wkb d None []).
  change (with_extended_opts Ewkb d d None [] xy_dims false false) with c.
  change (with_extended_opts Wkb d d None [] xy_dims false false) with c'.
  pose (R := fun s s' : wst => w_nest s = w_nest s' /\ w_state s = w_state s' /\ w_out s = w_out s').
  assert (I : in_step (wkb_writer c) (wkb_writer c') R).
  { apply writers_step; try reflexivity; try (split; discriminate); unfold R; cbn; try tauto.
    - intros s s' b (A & B & E). repeat split; congruence.
    - intros s s' (A & B & E). repeat split; congruence.
    - intros s s' t (A & B & E). unfold write_header, write_ewkb_header, write_wkb_header, c, c'. cbn.
      rewrite Z, M. cbn. destruct (w_first s); cbn; repeat split; try assumption; now rewrite E. }
  destruct (in_step_exec _ _ _ _ R I _ (src d) wst_init wst_init) as (E & N); [now repeat split|].
  destruct (exec (wkb_writer c) (src d) wst_init) as [s [u|x]], (exec (wkb_writer c') (src d) wst_init) as [s' [u'|x']]; cbn in *;
    try discriminate E; [f_equal; exact (proj2 (proj2 N))|congruence].
Qed.

(** ** A header in front *)
Lemma exec_recorder_grows : forall A (g : prog A) s, fst (exec (recorder xy_dims true) g s) = s ++ heard g.
Proof.
  unfold heard. intros A g. induction g as [r|e k IH|e k IH|i n v k IH]; intros s; cbn.
  - symmetry. apply app_nil_r.
  - rewrite IH, (IH [_]), app_assoc. reflexivity.
  - rewrite IH, (IH [_]), app_assoc. reflexivity.
  - rewrite IH, (IH _ [_]), app_assoc. reflexivity.
Qed.

Section Front.
  Variables c c' : wcfg.
  Variable front : list byte -> list byte.
  Hypothesis dims_same : w_dims c = w_dims c'.
  Hypothesis endian_same : w_endian c = w_endian c'.
  Hypothesis kind : w_dialect c <> SpatiaLite.
  Hypothesis later : forall s t, w_first s = false -> write_header c s t = (write_wkb_header c s t, Ok tt).
  Hypothesis front_app : forall a b, (5 <= length a)%nat -> front (a ++ b) = front a ++ b.
  Hypothesis kind' : w_dialect c' = Wkb.
  Hypothesis front_out : forall s t, w_first s = true -> w_out s = [] ->
    write_header c s t = (mkWst false (w_state s) (w_nest s) (front (w_out (write_wkb_header c s t))), Ok tt).

  Definition before (s s' : wst) : Prop :=
    w_nest s = w_nest s' /\ w_state s = Normal /\ w_state s' = Normal /\ w_first s = true /\ w_out s = [] /\ w_out s' = [].
  Definition after (s s' : wst) : Prop :=
    w_nest s = w_nest s' /\ w_state s = w_state s' /\ w_first s = false /\ (5 <= length (w_out s'))%nat /\ w_out s = front (w_out s').

  Lemma wkb_header_out : forall k s t, w_out (write_wkb_header k s t) = w_out s ++ w_out (write_wkb_header k wst_init t).
  Proof. intros k s t. unfold write_wkb_header. cbn [out_app w_out wst_init app]. now rewrite app_assoc. Qed.
  Lemma wkb_header_same : forall s t, write_wkb_header c s t = write_wkb_header c' s t.
  Proof. intros s t. unfold write_wkb_header. now rewrite dims_same, endian_same. Qed.
  Lemma app_long : forall (l r : list byte), (5 <= length l -> 5 <= length (l ++ r))%nat.
  Proof. intros l r H. rewrite app_length. lia. Qed.

  Lemma after_step : in_step (wkb_writer c) (wkb_writer c') after.
  Proof.
    apply writers_step; try assumption; unfold after.
    - rewrite kind'. split; [exact kind|discriminate].
    - tauto.
    - tauto.
    - intros s s' b (A & B & F & N & E). cbn. repeat split; try assumption; [now apply app_long|]. now rewrite E, front_app.
    - intros s s' g (A & B & F & N & E). now repeat split.
    - intros s s' (A & B & F & N & E). cbn. repeat split; try assumption. now rewrite A.
    - intros s s' n (A & B & F & N & E). now repeat split.
    - intros s s' t (A & B & F & N & E).
      assert (W : write_header c s t = (write_wkb_header c s t, Ok tt)) by now apply later.
      assert (W' : write_header c' s' t = (write_wkb_header c' s' t, Ok tt)) by (unfold write_header; now rewrite kind').
      rewrite W, W', wkb_header_same. cbn [fst snd]. split; [reflexivity|].
      rewrite (wkb_header_out c' s), (wkb_header_out c' s'), E, front_app by assumption. repeat split; try assumption. now apply app_long.
  Qed.

  Definition turns (a b : wst * res unit) : Prop := snd a = snd b /\ after (fst a) (fst b).
  Lemma turn_header : forall s s' t, before s s' -> turns (write_header c s t) (write_header c' s' t).
  Proof.
    intros s s' t (A & B & B' & F & E & E'). rewrite (front_out s t F E). unfold write_header at 1. rewrite kind'.
    split; [reflexivity|]. cbn [fst]. unfold after. cbn [w_nest w_state w_first w_out].
    rewrite wkb_header_same, (wkb_header_out c' s), (wkb_header_out c' s'), E, E'. repeat split.
    - exact A.
    - rewrite B. cbn. now rewrite B'.
    - rewrite app_length. unfold write_wkb_header. cbn [w_out out_app wst_init app]. rewrite app_length. unfold w_u8, w_u32. rewrite bytes_of_length. cbn. lia.
  Qed.
  Lemma turn_app : forall s s' b, after s s' -> after (out_app s b) (out_app s' b).
  Proof.
    unfold after. intros s s' b (A & B & F & N & E). cbn. repeat split; try assumption; [now apply app_long|]. now rewrite E, front_app.
  Qed.
  Lemma turn_size : forall s s' t n, before s s' -> turns (header_size c s t n) (header_size c' s' t n).
  Proof.
    intros s s' t n H. unfold header_size. destruct (turn_header s s' t H) as (E & N).
    destruct (write_header c s t) as [a [u|x]], (write_header c' s' t) as [a' [u'|x']]; cbn in *; try discriminate E.
    - split; [reflexivity|]. rewrite endian_same. now apply turn_app.
    - split; [exact E|exact N].
  Qed.
  Lemma turn_then : forall a b g, turns a b -> turns (then_state g a) (then_state g b).
  Proof.
    intros [a [u|x]] [b [u'|x']] g (E & N); cbn in *; try discriminate E; split; cbn; auto; unfold after in *; cbn; tauto.
  Qed.
  Lemma before_incr : forall s s', before s s' -> before (nest_incr s) (nest_incr s').
  Proof. unfold before. intros s s' (A & B). cbn. now rewrite A. Qed.
  Definition stays (a b : wst * res unit) : Prop := snd a = snd b /\ before (fst a) (fst b).
  Lemma stay_foot : forall s s', before s s' -> stays (write_footer c s) (write_footer c' s').
  Proof. intros s s' H. unfold write_footer. rewrite kind'. destruct (w_dialect c); try contradiction; split; auto. Qed.
  Lemma stay_decr : forall s s' k k', before s s' -> (forall a b, before a b -> stays (k a) (k' b)) -> stays (nest_decr s k) (nest_decr s' k').
  Proof.
    intros s s' k k' H K. unfold nest_decr. rewrite <- (proj1 H). destruct (w_nest s); [now split|]. apply K.
    unfold before in *. cbn. tauto.
  Qed.
  Lemma before_state : forall s s', before s s' -> before (set_state s Normal) (set_state s' Normal).
  Proof. unfold before. cbn. tauto. Qed.
  Lemma begin_step : forall s s' e, before s s' -> begins_geometry e = true -> turns (wkb_step c s e) (wkb_step c' s' e).
  Proof.
    intros s s' e H B. destruct e; try discriminate B; unfold wkb_step; try (now apply turn_header); try (now apply turn_size);
      try (apply turn_size; now apply before_incr); try (apply turn_then, turn_size; first [assumption|now apply before_incr]).
    rewrite (proj1 (proj2 H)), (proj1 (proj2 (proj2 H))). now apply turn_size.
  Qed.
  Lemma other_step : forall s s' e, before s s' -> begins_geometry e = false -> is_position e = false ->
    stays (wkb_step c s e) (wkb_step c' s' e).
  Proof.
    intros s s' e H B P. destruct e; try discriminate B; try discriminate P; unfold wkb_step; cbn [default_step]; try (now split);
      try (now apply stay_foot); try (apply stay_foot; now apply before_state);
      try (apply stay_decr; [exact H|]; intros a b AB; first [now apply stay_foot|apply stay_foot; now apply before_state]).
  Qed.
  Lemma front_exec : forall A (g : prog A) s s', before s s' -> opened (heard g) ->
    snd (exec (wkb_writer c) g s) = snd (exec (wkb_writer c') g s') /\
    (before (fst (exec (wkb_writer c) g s)) (fst (exec (wkb_writer c') g s')) \/
     after (fst (exec (wkb_writer c) g s)) (fst (exec (wkb_writer c') g s'))).
  Proof.
    intros A g. induction g as [r|e k IH|e k IH|i n v k IH]; intros s s' H O.
    - split; [reflexivity|now left].
    - unfold heard in O. cbn [exec recorder p_step fst app] in O. rewrite exec_recorder_grows in O. cbn [app opened] in O.
      cbn [exec]. change (p_step (wkb_writer c)) with (wkb_step c). change (p_step (wkb_writer c')) with (wkb_step c').
      destruct (begins_geometry e) eqn:B; [|destruct (is_position e) eqn:P; [contradiction O|]].
      + destruct (begin_step s s' e H B) as (E & N).
        destruct (wkb_step c s e) as [a [u|x]], (wkb_step c' s' e) as [a' [u'|x']]; cbn [fst snd] in *; try discriminate E.
        * destruct (in_step_exec _ _ _ _ _ after_step _ k a a' N) as (E1 & N1). split; [exact E1|now right].
        * split; [congruence|now right].
      + destruct (other_step s s' e H B P) as (E & N).
        destruct (wkb_step c s e) as [a [u|x]], (wkb_step c' s' e) as [a' [u'|x']]; cbn [fst snd] in *; try discriminate E.
        * now apply IH.
        * split; [congruence|now left].
    - unfold heard in O. cbn [exec recorder p_step fst app] in O. rewrite exec_recorder_grows in O. cbn [app opened] in O.
      cbn [exec]. change (p_step (wkb_writer c)) with (wkb_step c). change (p_step (wkb_writer c')) with (wkb_step c').
      destruct (begins_geometry e) eqn:B; [|destruct (is_position e) eqn:P; [contradiction O|]].
      + destruct (begin_step s s' e H B) as (E & N).
        destruct (in_step_exec _ _ _ _ _ after_step _ k _ _ N) as (E1 & N1). split; [exact E1|now right].
      + destruct (other_step s s' e H B P) as (E & N). now apply IH.
    - unfold heard in O. cbn [exec recorder p_prop fst app] in O. rewrite exec_recorder_grows in O. cbn [app opened] in O.
      cbn [exec wkb_writer p_prop default_prop]. now apply IH.
  Qed.
  Lemma front_all : forall (g : prog unit), opened (heard g) ->
    match exec (wkb_writer c) g wst_init with (s, Ok _) => Ok (w_out s) | (_, Err e) => Err e end =
    match exec (wkb_writer c') g wst_init with
    | (s, Ok _) => match w_out s with [] => Ok [] | b => Ok (front b) end
    | (_, Err e) => Err e
    end /\
    match exec (wkb_writer c') g wst_init with (s, Ok _) => w_out s = [] \/ (5 <= length (w_out s))%nat | _ => True end.
  Proof.
    intros g O. destruct (front_exec _ g wst_init wst_init) as (E & N); [now repeat split|exact O|].
    destruct (exec (wkb_writer c) g wst_init) as [s [u|x]], (exec (wkb_writer c') g wst_init) as [s' [u'|x']]; cbn [fst snd] in *;
      try discriminate E; [|split; [congruence|exact I]].
    destruct N as [(_ & _ & _ & _ & N & N')|(_ & _ & _ & N & N')].
    - rewrite N, N'. split; [reflexivity|now left].
    - rewrite N'. split; [|now right]. destruct (w_out s'); [cbn in N; lia|reflexivity].
  Qed.
End Front.

Lemma gpkg_front : forall src d srid env, opened (heard (src d)) ->
  to_gpkg_wkb src d srid env = behind (gpkg_header LE false false false false (opt_default 0%Z srid) env) (to_wkb src d).
Proof.
  intros src d srid env O. unfold to_gpkg_wkb, to_wkb, to_wkb_dialect.
  edestruct (front_all (with_opts Geopackage d srid env) (with_opts Wkb d None [])
    (fun b => gpkg_header LE false false false false (opt_default 0%Z srid) env ++ b)) as (E & _).
  8: exact O.
  8: { change (w_read_dims (with_opts Geopackage d srid env)) with d. change (w_read_dims (with_opts Wkb d None [])) with d. rewrite E.
    clear E. destruct (exec _ (src d) wst_init) as [s [u|x]]; [|reflexivity]. destruct (w_out s); reflexivity. }
  all: try reflexivity; try discriminate.
  - intros s t F. unfold write_header. cbn [w_dialect with_opts with_extended_opts]. now rewrite F.
  - intros a b _. apply app_assoc.
  - intros s t F E. unfold write_header. cbn [w_dialect with_opts with_extended_opts]. rewrite F. f_equal.
    unfold write_gpkg_header, write_wkb_header, set_first, out_app. cbn [w_out w_first w_state w_nest]. rewrite E. f_equal.
    unfold gpkg_header. cbn [app]. rewrite <- !app_assoc. destruct env; reflexivity.
Qed.
Lemma mysql_front : forall src srid, (0 <= opt_default 0 srid)%Z -> opened (heard (src xy_dims)) ->
  to_mysql_wkb src srid = behind (bytes_of LE 4 (Z.to_N (opt_default 0%Z srid))) (to_wkb src xy_dims).
Proof.
  intros src srid P O. unfold to_mysql_wkb, to_wkb, to_wkb_dialect.
  edestruct (front_all (with_opts MySQL xy_dims srid []) (with_opts Wkb xy_dims None [])
    (fun b => bytes_of LE 4 (Z.to_N (opt_default 0%Z srid)) ++ b)) as (E & _).
  8: exact O.
  8: { change (w_read_dims (with_opts MySQL xy_dims srid [])) with xy_dims. change (w_read_dims (with_opts Wkb xy_dims None [])) with xy_dims. rewrite E.
    clear E. destruct (exec _ (src xy_dims) wst_init) as [s [u|x]]; [|reflexivity]. destruct (w_out s); reflexivity. }
  all: try reflexivity; try discriminate.
  - intros s t F. unfold write_header. cbn [w_dialect with_opts with_extended_opts]. now rewrite F.
  - intros s t F E. unfold write_header. cbn [w_dialect with_opts with_extended_opts]. rewrite F.
    unfold write_mysql_header. cbn [w_srid with_opts with_extended_opts]. destruct srid as [v|].
    + cbn [opt_default] in *. replace (v <? 0)%Z with false by (symmetry; now apply Z.ltb_ge). f_equal.
      unfold write_wkb_header, set_first, out_app. cbn [w_out w_first w_state w_nest]. rewrite E. reflexivity.
    + f_equal. unfold write_wkb_header, set_first, out_app. cbn [w_out w_first w_state w_nest]. rewrite E. reflexivity.
Qed.
Definition stamp (srid : Z) (b : list byte) : list byte :=
  match b with
  | o :: a :: b :: c :: d :: rest => o :: a :: b :: c :: byte_of (val d + 32) :: bytes_of LE 4 (i32_to_u32 srid) ++ rest
  | _ => b
  end.
Lemma ewkb_stamp : forall src d srid, dz d = false -> dm d = false -> opened (heard (src d)) ->
  to_ewkb src d (Some srid) = stamped srid (to_wkb src d).
Proof.
  intros src d srid Z M O. unfold to_ewkb, to_wkb, to_wkb_dialect.
  edestruct (front_all (with_opts Ewkb d (Some srid) []) (with_opts Wkb d None []) (stamp srid)) as (E & L).
  8: exact O.
  8: { change (w_read_dims (with_opts Ewkb d (Some srid) [])) with d. change (w_read_dims (with_opts Wkb d None [])) with d. rewrite E.
    clear E. destruct (exec _ (src d) wst_init) as [s [u|x]]; [|reflexivity]. destruct L as [->|L]; [reflexivity|].
    destruct (w_out s) as [|a0 [|a1 [|a2 [|a3 [|a4 r]]]]]; try (cbn in L; lia). reflexivity. }
  all: try reflexivity; try discriminate.
  - intros s t F. unfold write_header, write_ewkb_header, write_wkb_header. cbn [w_dialect w_dims w_srid with_opts with_extended_opts out_app w_first].
    now rewrite F, Z, M.
  - intros [|a0 [|a1 [|a2 [|a3 [|a4 a]]]]] b L; try (cbn in L; lia). cbn [stamp app]. now rewrite <- app_assoc.
  - intros s t F E. unfold write_header, write_ewkb_header, write_wkb_header.
    cbn [w_dialect w_dims w_srid w_endian with_opts with_extended_opts out_app w_first w_out w_state w_nest set_first is_some andb].
    rewrite F, Z, M, E. unfold set_first, out_app. cbn [w_state w_nest w_out w_first]. rewrite E. destruct t; reflexivity.
Qed.

(** ** Readers *)
Lemma same_info : forall f multi e t z m s s' v v' a b,
  process_geom_n f multi read_wkb_nested_header (mkInfo e t z m s v false) a b =
  process_geom_n f multi read_wkb_nested_header (mkInfo e t z m s' v' false) a b.
Proof. intros f multi e t z m s s' v v' a b. destruct f as [|f]; [reflexivity|]. cbn [process_geom_n i_type]. destruct (Nat.ltb _ _); [reflexivity|]. destruct t; reflexivity. Qed.
Lemma wkb_header_cases : forall b,
  (exists x, read_wkb_header b = Done (Err x)) \/
  (exists x r t z m r', b = x :: r /\ read_wkb_header b = Done (Ok (mkInfo (endian_of (negb (val x =? 0))) t z m None [] false, r'))).
Proof.
  intros [|x b]; [left; eexists; reflexivity|]. set (e := endian_of (negb (val x =? 0))).
  assert (W : read_wkb_header (x :: b) = pbind (r_u32 e b) (fun q => Done (Ok
    (mkInfo e (type_of_code (fst q mod 1000)) (dim_has_z (fst q / 1000)) (dim_has_m (fst q / 1000)) None [] false, snd q)))).
  { unfold read_wkb_header, rbind at 1. rewrite u8_cons. cbn [pbind pret fst snd]. unfold rbind, rret, pret. fold e.
    unfold r_u32, rmap, rbind, rtake. destruct (Nat.ltb _ _); reflexivity. }
  assert (C : (exists y, r_u32 e b = Done (Err y)) \/ exists n r', r_u32 e b = Done (Ok (n, r'))).
  { unfold r_u32, rmap, rbind, rtake. destruct (Nat.ltb _ _); [left; eexists; reflexivity|right; do 2 eexists; reflexivity]. }
  destruct C as [(y & C)|(n & r' & C)]; rewrite C in W; cbn [pbind] in W.
  - left. eexists. exact W.
  - right. exists x, b. do 4 eexists. split; [reflexivity|exact W].
Qed.
Lemma in_order_mark : forall e x r, in_order e (x :: r) -> endian_of (negb (val x =? 0)) = e.
Proof.
  intros e x r H. cbn in H. destruct e.
  - destruct (N.eqb_spec (val x) 0) as [V|V]; [|reflexivity]. exfalso.
    assert (X : x = x00) by (apply val_inj; exact V). apply H in X. discriminate X.
  - assert (X : x = x00) by now apply H. subst x. reflexivity.
Qed.

(** the header of WKB behind other bytes *)
Definition redated (e : endian) (srid : Z) (env : list f64) (g : prog (info * list byte)) : prog (info * list byte) :=
  pbind g (fun q => pret (mkInfo e (i_type (fst q)) (i_z (fst q)) (i_m (fst q)) (Some srid) env false, snd q)).
Lemma redated_reader : forall dl d e srid env b body, nested_header dl = read_wkb_nested_header -> in_order e body ->
  read_header dl b = redated e srid env (read_wkb_header body) ->
  process_wkb_type_geom dl d b = announcing (Some srid) (process_wkb_type_geom Wkb d body) /\
  wrapper_dims dl b = wrapper_dims Wkb body.
Proof.
  intros dl d e srid env b body N O H.
  destruct (wkb_header_cases body) as [(x & C)|(x & r & t & z & m & r' & B & C)]; rewrite C in H; cbn in H.
  - split.
    + unfold process_wkb_type_geom, rbind. rewrite H. cbn [read_header]. rewrite C. reflexivity.
    + unfold wrapper_dims, header_info. rewrite H. cbn [read_header]. now rewrite C.
  - rewrite B in O. rewrite (in_order_mark _ _ _ O) in C. split.
    + unfold process_wkb_type_geom, rbind at 1. rewrite H. unfold rbind at 2. cbn [read_header]. rewrite C. cbn -[process_geom_n geom_fuel].
      rewrite N, (same_info _ _ _ _ _ _ (Some srid) None env []). reflexivity.
    + unfold wrapper_dims, header_info. rewrite H. cbn [read_header]. now rewrite C.
Qed.
Lemma mysql_header_eq : forall s body, s < 2 ^ 31 -> in_order LE body ->
  read_mysql_header (bytes_of LE 4 s ++ body) = redated LE (Z.of_N s) [] (read_wkb_header body).
Proof.
  intros s body S O. unfold read_mysql_header, rbind at 1. rewrite (reads_u32 LE s body) by lia. cbn [calls pbind fst snd].
  replace (2 ^ 31 <=? s) with false by (symmetry; apply N.leb_gt; exact S).
  destruct (wkb_header_cases body) as [(x & C)|(x & r & t & z & m & r' & B & C)]; unfold redated, rbind; rewrite C; [reflexivity|].
  rewrite B in O. rewrite (in_order_mark _ _ _ O). reflexivity.
Qed.
Lemma gpkg_header_eq : forall e ext emp ez em srid env body, env_fits ez em env -> is_i32 srid ->
  read_gpkg_header (gpkg_header e ext emp ez em srid env ++ body) = redated e srid env (read_wkb_header body).
Proof.
  intros he extended empty ez em srid env body [Hlen Henv] Hs.
  unfold read_gpkg_header, gpkg_header. rewrite <- !app_assoc. cbn [app].
  unfold rbind at 1. rewrite u8_cons. cbn [pbind pret fst snd]. unfold rbind at 1. rewrite u8_cons. cbn [pbind pret fst snd].
  change (val x47 =? 71) with true. change (val x50 =? 80) with true. cbn [negb andb].
  unfold rbind at 1. rewrite u8_cons. cbn [pbind pret fst snd]. unfold rbind at 1. rewrite u8_cons. cbn [pbind pret fst snd].
  rewrite val_byte_of.
  set (fl := (flag extended 32 + flag empty 16 + 2 * gpkg_env_code env ez em +
              flag (endian_eqb he LE) 1) mod 256).
  assert (H1 : gpkg_env_len (N.shiftr (N.land fl 14) 1) = Ok (length env)).
  { unfold fl. destruct env as [|x env].
    - destruct extended, empty, ez, em, he; reflexivity.
    - destruct Hlen as [Hlen|Hlen]; [discriminate|]. rewrite Hlen.
      destruct extended, empty, ez, em, he; reflexivity. }
  assert (H2 : endian_of (negb (N.land fl 1 =? 0)) = he).
  { unfold fl. destruct env as [|x env]; destruct extended, empty, ez, em, he; reflexivity. }
  rewrite H1, H2.
  unfold rbind at 1. rewrite (reads_i32 he srid _ Hs). cbn [calls pbind fst snd].
  unfold rbind at 1. rewrite (reads_f64s he env body Henv). cbn [calls pbind fst snd].
  unfold rbind, redated. destruct (read_wkb_header body) as [[[i r]|x]| | |] eqn:C;
    destruct (wkb_header_cases body) as [(x' & C')|(x' & r1 & t & z & m & r' & B & C')]; rewrite C in C'; try discriminate C'; reflexivity.
Qed.
Lemma mysql_reader : forall d s body, s < 2 ^ 31 -> in_order LE body ->
  process_wkb_type_geom MySQL d (bytes_of LE 4 s ++ body) = announcing (Some (Z.of_N s)) (process_wkb_type_geom Wkb d body) /\
  wrapper_dims MySQL (bytes_of LE 4 s ++ body) = wrapper_dims Wkb body.
Proof. intros d s body S O. eapply redated_reader; [reflexivity|exact O|]. now apply mysql_header_eq. Qed.
Lemma gpkg_reader : forall d e ext emp ez em srid env body, env_ok Geopackage (mkDims ez em false false) env -> is_i32 srid -> in_order e body ->
  process_wkb_type_geom Geopackage d (gpkg_header e ext emp ez em srid env ++ body) =
    announcing (Some srid) (process_wkb_type_geom Wkb d body) /\
  wrapper_dims Geopackage (gpkg_header e ext emp ez em srid env ++ body) = wrapper_dims Wkb body.
Proof. intros d e ext emp ez em srid env body E S O. eapply redated_reader; [reflexivity|exact O|]. now apply gpkg_header_eq. Qed.

(** a source that gives a position before anything begins *)
Definition stray (_ : dims) : prog unit := ok_calls [Xy 0 0 0%nat; PointBegin 0%nat; Xy 0 0 0%nat; PointEnd 0%nat].
Lemma stray_refutes : to_gpkg_wkb stray xy_dims None [] <> behind (gpkg_header LE false false false false 0%Z []) (to_wkb stray xy_dims).
Proof. vm_compute. discriminate. Qed.
(** a line from (0,0) to (1,1) *)
Definition small_line (_ : dims) : prog unit :=
  ok_calls [LineStringBegin true 2%nat 0%nat; Xy 0 0 0%nat; Xy 4607182418800017408 4607182418800017408 1%nat; LineStringEnd true 0%nat].
(** WKB of a point, big endian *)
Definition big_point : list byte := [x00; x00; x00; x00; x01] ++ repeat x00 16.

(** ** Metadata of the wrappers *)
Definition quiet {A} (f : rd A) : Prop := forall b, exists r, f b = Done r.
Lemma quiet_ret : forall A (a : A), quiet (rret a). Proof. intros A a b. eexists. reflexivity. Qed.
Lemma quiet_fail : forall A e, quiet (@rfail A e). Proof. intros A e b. eexists. reflexivity. Qed.
Lemma quiet_bind : forall A B (f : rd A) (g : A -> rd B), quiet f -> (forall a, quiet (g a)) -> quiet (rbind f g).
Proof.
  intros A B f g F G b. destruct (F b) as [[[a r]|e] E]; unfold rbind; rewrite E; cbn [pbind]; [apply G|eexists; reflexivity].
Qed.
Lemma quiet_map : forall A B (h : A -> B) f, quiet f -> quiet (rmap h f).
Proof. intros A B h f F. apply quiet_bind; [exact F|]. intros a. apply quiet_ret. Qed.
Lemma quiet_take : forall k, quiet (rtake k).
Proof. intros k b. unfold rtake. destruct (Nat.ltb _ _); eexists; reflexivity. Qed.
Lemma quiet_f64s : forall e n, quiet (r_f64s e n).
Proof.
  intros e n. induction n as [|n IH]; cbn [r_f64s]; [apply quiet_ret|].
  apply quiet_bind; [apply quiet_map, quiet_take|]. intros x. apply quiet_bind; [exact IH|]. intros l. apply quiet_ret.
Qed.
Ltac hush := repeat first
  [ apply quiet_ret | apply quiet_fail | apply quiet_f64s | apply quiet_take | apply quiet_map
  | apply quiet_bind; [|intros ?]
  | match goal with |- quiet (if ?b then _ else _) => destruct b end
  | match goal with |- quiet (match ?b with Ok _ => _ | Err _ => _ end) => destruct b end
  | progress (unfold r_u8, r_u32, r_i32, r_f64; cbv zeta) ].
Lemma quiet_header : forall dl, quiet (read_header dl).
Proof.
  assert (W : quiet read_wkb_header) by (unfold read_wkb_header; hush).
  intros [| | | |]; cbn [read_header].
  - exact W.
  - unfold read_ewkb_header. hush.
  - unfold read_gpkg_header. hush.
  - unfold read_spatialite_header. hush.
  - unfold read_mysql_header. hush.
Qed.
Lemma wrapper_metadata : forall dl d b,
  match observe (process_wkb_type_geom dl d b) with
  | ([], r) => (exists x, r = Err x) /\ wrapper_dims dl b = xy_dims /\ wrapper_srid dl b = None
  | (e :: _, _) => e = OEv (Srid (wrapper_srid dl b))
  end.
Proof.
  intros dl d b. unfold wrapper_srid, wrapper_dims, header_info, process_wkb_type_geom, rbind at 1.
  destruct (quiet_header dl b) as [[[i r]|x] E]; rewrite E; cbn [pbind].
  - match goal with |- match observe (rbind (rcall ?e) ?f ?c) with _ => _ end =>
      change (observe (rbind (rcall e) f c)) with (exec (recorder xy_dims false) (f tt c) [OEv e]) end.
    assert (G : forall A (g : prog A) o l, exists l', fst (exec (recorder xy_dims false) g (o :: l)) = o :: l').
    { intros A g. induction g as [r0|e k IH|e k IH|j n v k IH]; intros o l; cbn [exec recorder p_step p_prop fst app];
        [eexists; reflexivity|apply IH|apply IH|apply IH]. }
    destruct (G _ (process_geom_n geom_fuel (multi_dim d) (nested_header dl) i 0 0 r) (OEv (Srid (i_srid i))) []) as [l' L].
    cbn [fst snd]. destruct (exec (recorder xy_dims false) (process_geom_n geom_fuel (multi_dim d) (nested_header dl) i 0 0 r) [OEv (Srid (i_srid i))]) as [l2 r2].
    cbn [fst] in L. subst l2. destruct dl; try reflexivity.
    destruct (wkb_header_cases b) as [(x & C)|(x & r1 & t & z & m & r' & B & C)]; cbn [read_header] in E; rewrite C in E; [discriminate E|].
    injection E as <- _. reflexivity.
  - cbn. split; [eexists; reflexivity|]. split; [reflexivity|]. destruct dl; reflexivity.
Qed.
