(** Several geometries through one WktWriter (helper lemmas for C79). *)
From Coq Require Import String Ascii.
From Coq Require Import List NArith ZArith Lia Bool.
From Verif Require Import Base BaseLemmas Event EventLemmas Claims Geom WkbSpec WkbRead WktModel WktSpec WktWrite WktParse SeveralSpec.
Import ListNotations.
Local Open Scope list_scope.
Local Open Scope string_scope.

Lemma numbered_from : forall A (f : nat -> A -> list event) l i,
  flat_mapi f i l = flat_map (fun p => f (fst p) (snd p)) (combine (seq i (length l)) l).
Proof. induction l as [|a l IH]; intros i; cbn; [reflexivity|]. now rewrite IH. Qed.
Lemma numbered_parts : forall multi l, flat_mapi (gevents multi) 0 l = parts multi (numbered l).
Proof. intros. apply numbered_from. Qed.
Lemma numbered_snd : forall l, map snd (numbered l) = l.
Proof.
  intros l. unfold numbered. generalize 0%nat. induction l as [|a l IH]; intros i; cbn; [reflexivity|]. now rewrite IH.
Qed.
Lemma numbered_order : forall l, in_order (numbered l).
Proof.
  intros [|a l]; [exact I|]. split; [reflexivity|]. apply Forall_forall. intros [k g] H. apply in_combine_l in H.
  apply in_seq in H. cbn. lia.
Qed.
Lemma numbered_one : forall l, match numbered l with [] => 0%nat | _ => 1%nat end = match l with [] => 0%nat | _ => 1%nat end.
Proof. intros [|a l]; reflexivity. Qed.
Lemma gathered_numbered : forall multi l,
  CollectionBegin (match l with [] => 0 | _ => 1 end) 0 :: flat_mapi (gevents multi) 0 l ++ [CollectionEnd 0] =
  gathered multi (numbered l).
Proof. intros. unfold gathered. rewrite numbered_one, numbered_parts. reflexivity. Qed.

Lemma cat_cons : forall a l, cat (a :: l) = a ++ cat l.
Proof. intros a [|b l]; cbn; [now rewrite sapp_nil|reflexivity]. Qed.
Lemma cat_rest : forall (f : geom -> string) r, Forall (fun q : nat * geom => (0 < fst q)%nat) r -> forall a,
  a ++ cat (map (fun p => lead (fst p) ++ f (snd p)) r) = String.concat "," (a :: map f (map snd r)).
Proof.
  induction r as [|q r IH]; intros H a; [cbn; now rewrite sapp_nil|].
  inversion_clear H. cbn [map]. rewrite cat_cons.
  change (String.concat "," (a :: f (snd q) :: map f (map snd r)))
    with (a ++ "," ++ String.concat "," (f (snd q) :: map f (map snd r))).
  rewrite <- IH by assumption. destruct (fst q); [lia|]. cbn [lead append]. reflexivity.
Qed.
(** the members of the collection *)
Lemma cat_order : forall (f : geom -> string) ps, in_order ps ->
  cat (map (fun p => lead (fst p) ++ f (snd p)) ps) = String.concat "," (map f (map snd ps)).
Proof.
  intros f [|p r] H; [reflexivity|]. destruct H as [H1 H2]. cbn [map]. rewrite cat_cons, H1. cbn [lead append].
  now apply cat_rest.
Qed.
(** ... and only then *)
Lemma sapp_inj : forall a b c : string, a ++ b = a ++ c -> b = c.
Proof. induction a as [|x a IH]; intros b c H; [exact H|]. cbn in H. injection H as H. now apply IH. Qed.
Lemma rest_order : forall (f : geom -> string) r, (forall g, exists x y, f g = String x y /\ x <> ","%char) -> forall t,
  cat (map (fun p => lead (fst p) ++ f (snd p)) r) ++ t = cat (map (fun g => "," ++ f g) (map snd r)) ++ t ->
  Forall (fun q : nat * geom => (0 < fst q)%nat) r.
Proof.
  intros f r F t. induction r as [|q r IH]; intros H; [constructor|].
  cbn [map] in H. rewrite !cat_cons in H. destruct q as [[|k] g]; cbn [fst snd lead append] in H.
  - exfalso. destruct (F g) as (x & y & E & N). rewrite E in H. cbn in H. injection H as H _. congruence.
  - injection H as H. rewrite !sapp_assoc in H. apply sapp_inj in H. constructor; [cbn; lia|]. now apply IH.
Qed.
Lemma cat_commas : forall (f : geom -> string) a l, String.concat "," (a :: map f l) = a ++ cat (map (fun g => "," ++ f g) l).
Proof.
  intros f a l. revert a. induction l as [|b l IH]; intros a; [cbn; now rewrite sapp_nil|].
  cbn [map]. rewrite cat_cons. change (String.concat "," (a :: f b :: map f l)) with (a ++ "," ++ String.concat "," (f b :: map f l)).
  rewrite IH, !sapp_assoc. reflexivity.
Qed.
Lemma order_only : forall (f : geom -> string) ps t, (forall g, exists x y, f g = String x y /\ x <> ","%char) ->
  cat (map (fun p => lead (fst p) ++ f (snd p)) ps) ++ t = String.concat "," (map f (map snd ps)) ++ t -> in_order ps.
Proof.
  intros f [|[k g] r] t F H; [exact I|]. cbn [map fst snd] in H. rewrite cat_cons, cat_commas in H. cbn [fst snd] in H.
  destruct k as [|k]; cbn [lead append] in H.
  - rewrite !sapp_assoc in H. apply sapp_inj in H. split; [reflexivity|]. exact (rest_order f r F t H).
  - exfalso. destruct (F g) as (x & y & E & N). rewrite E in H. cbn in H. injection H as H _. congruence.
Qed.
Lemma text_start : forall fmt zz mm g, exists x y, wkt_text fmt zz mm g = String x y /\ x <> ","%char.
Proof.
  intros fmt zz mm g. destruct g as [c| |l|l|l|l|l|l|l|l|l|l|l|l|l|l]; cbn [wkt_text];
    unfold arc_text, compound_text, curvepolygon_text;
    try match goal with |- context [tagged_group _ ?m] => destruct m end; do 2 eexists; (split; [reflexivity|discriminate]).
Qed.

Section Wkt.
  Variable fmt : f64 -> string.
  Variable c : wktcfg.
  Variables zz mm : bool.
  Hypothesis flags : multi_dim (k_dims c) = false -> zz = false /\ mm = false.
  Notation w := (wkt_writer fmt c).
  Notation multi := (multi_dim (k_dims c)).
  Notation text := (wkt_text fmt zz mm).
  Definition marked (p : nat * geom) : string := lead (fst p) ++ text (snd p).

  Lemma lead_comma : forall k, comma_text k = lead k.
  Proof. intros [|k]; reflexivity. Qed.
  Lemma parts_emit : forall ps, (multi = true -> Forall (fun p => carries zz mm (snd p)) ps) ->
    emits fmt c (parts multi ps) (cat (map marked ps)).
  Proof.
    induction ps as [|p ps IH]; intros H s S.
    - cbn. now rewrite put_empty.
    - unfold parts. cbn [flat_map map]. rewrite run_app, cat_cons.
      pose proof (geom_emit fmt c zz mm flags (snd p) (fst p)) as G. unfold emits in G. rewrite G; [|intros M; specialize (H M); now inversion H|exact S].
      fold (parts multi ps). rewrite IH; [|intros M; specialize (H M); now inversion H|now apply put_settled].
      rewrite put_put. unfold marked. now rewrite lead_comma.
  Qed.
  Lemma gathered_emit : forall ps, (multi = true -> Forall (fun p => carries zz mm (snd p)) ps) ->
    emits fmt c (gathered multi ps)
      (match ps with [] => "GEOMETRYCOLLECTION EMPTY" | _ => "GEOMETRYCOLLECTION(" ++ cat (map marked ps) ++ ")" end).
  Proof.
    intros ps H s S. unfold gathered. cbn [run]. cbn [wkt_writer p_step wkt_step].
    rewrite begin_settled by exact S. change (mkProc (k_dims c) (wkt_step fmt c) default_prop) with w.
    destruct ps as [|p ps].
    - cbn [parts flat_map app run p_step wkt_writer wkt_step geom_end push put k_sizes k_srid k_first k_out].
      reflexivity.
    - rewrite run_app.
      rewrite parts_emit; [|exact H|].
      2:{ apply put_settled. destruct S as [S|S]; [left|right]; exact S. }
      rewrite put_put. cbn [run p_step wkt_writer wkt_step geom_end push put k_sizes k_srid k_first k_out Nat.ltb Nat.leb].
      unfold put. cbn [k_sizes k_srid k_first k_out]. rewrite !sapp_assoc. reflexivity.
  Qed.
  Lemma run_header_any : forall ps s, ps <> [] ->
    run w (parts multi ps) (wkt_header c s) = run w (parts multi ps) s.
  Proof.
    intros [|p ps] s H; [congruence|]. unfold parts. cbn [flat_map].
    rewrite !run_app. destruct p as [k g]. cbn [fst snd].
    replace (run w (gevents multi k g) (wkt_header c s)) with (run w (gevents multi k g) s); [reflexivity|].
    destruct g; unfold gevents, ev_line, ev_arc, ev_polygon, ev_triangle, ev_compound, ev_curvepolygon;
      cbn [app run wkt_writer p_step wkt_step]; rewrite begin_header; reflexivity.
  Qed.
End Wkt.

Section Api.
  Variable A : Type.
  Variable src : dims -> prog A.
  Variable fmt : f64 -> string.
  Variables (dl : wkt_dialect) (d : dims) (srid : option Z) (l : list (option Z)) (ps : list (nat * geom)) (r : A).
  Notation prefix := (match dl with PlainWkt => "" | Ewkt => srid_prefix srid l end).

  Lemma to_wkt_events : forall ev t, 
    delivers src (fun multi => map Srid l ++ ev multi)%list (Ok r) ->
    (forall s, run (wkt_writer fmt (mkWktCfg d dl)) (ev (multi_dim d)) (wkt_header (mkWktCfg d dl) s) =
               run (wkt_writer fmt (mkWktCfg d dl)) (ev (multi_dim d)) s) ->
    emits fmt (mkWktCfg d dl) (ev (multi_dim d)) t ->
    to_wkt_with_opts fmt src dl d srid = Ok (prefix ++ t).
  Proof.
    intros ev t D H E. unfold to_wkt_with_opts.
    pose proof (D _ (wkt_writer fmt (mkWktCfg d dl)) (wkt_init srid)) as X.
    cbn [wkt_writer p_dims k_dims] in X. rewrite X. clear X.
    change (mkProc d (wkt_step fmt (mkWktCfg d dl)) default_prop) with (wkt_writer fmt (mkWktCfg d dl)).
    rewrite run_app, run_srids. cbn [wkt_init k_srid k_first k_sizes k_out].
    rewrite <- H, E by apply header_settles. cbn [k_out put].
    now rewrite (header_prefix (mkWktCfg d dl) srid l).
  Qed.

  Variables zz mm : bool.
  Hypothesis flags : multi_dim d = false -> zz = false /\ mm = false.
  Hypothesis Hps : multi_dim d = true -> Forall (fun p => carries zz mm (snd p)) ps.

  Lemma to_wkt_parts : ps <> [] ->
    delivers src (fun multi => map Srid l ++ parts multi ps)%list (Ok r) ->
    to_wkt_with_opts fmt src dl d srid =
    Ok (prefix ++ cat (map (fun p => lead (fst p) ++ wkt_text fmt zz mm (snd p)) ps)).
  Proof.
    intros N D. apply (to_wkt_events (fun multi => parts multi ps)); [exact D| |].
    - intros s. now apply (run_header_any fmt (mkWktCfg d dl)).
    - now apply (parts_emit fmt (mkWktCfg d dl) zz mm flags).
  Qed.
  Lemma to_wkt_gathered :
    delivers src (fun multi => map Srid l ++ gathered multi ps)%list (Ok r) ->
    to_wkt_with_opts fmt src dl d srid =
    Ok (prefix ++ match ps with [] => "GEOMETRYCOLLECTION EMPTY"
        | _ => "GEOMETRYCOLLECTION(" ++ cat (map (fun p => lead (fst p) ++ wkt_text fmt zz mm (snd p)) ps) ++ ")" end).
  Proof.
    intros D. apply (to_wkt_events (fun multi => gathered multi ps)); [exact D| |].
    - intros s. unfold gathered. cbn [run wkt_writer p_step wkt_step]. rewrite begin_header. reflexivity.
    - now apply (gathered_emit fmt (mkWktCfg d dl) zz mm flags).
  Qed.
  (** the WKT of the collection exactly if they are numbered so *)
  Lemma to_wkt_gathered_exact :
    delivers src (fun multi => map Srid l ++ gathered multi ps)%list (Ok r) ->
    (to_wkt_with_opts fmt src dl d srid = Ok (prefix ++ wkt_text fmt zz mm (GCollection (map snd ps))) <-> in_order ps).
  Proof.
    intros D. rewrite (to_wkt_gathered D).
    assert (T : wkt_text fmt zz mm (GCollection (map snd ps)) =
      match ps with [] => "GEOMETRYCOLLECTION EMPTY"
      | _ => "GEOMETRYCOLLECTION(" ++ String.concat "," (map (wkt_text fmt zz mm) (map snd ps)) ++ ")" end).
    { destruct ps; reflexivity. }
    rewrite T. split.
    - intros H. injection H as H. apply sapp_inj in H. destruct ps as [|p q]; [exact I|].
      apply (sapp_inj "GEOMETRYCOLLECTION(") in H.
      exact (order_only (wkt_text fmt zz mm) _ ")" (text_start fmt zz mm) H).
    - intros H. destruct ps as [|p q]; [reflexivity|]. now rewrite (cat_order (wkt_text fmt zz mm)).
  Qed.
End Api.

(** without the collection around them two are no WKT text *)
Lemma several_unreadable : forall fmt num z m p q ps, formats fmt num -> exactly z m (snd p) -> (0 < fst q)%nat -> fst p = 0%nat ->
  parse_wkt num z m (cat (map (fun p => lead (fst p) ++ wkt_text fmt z m (snd p)) (p :: q :: ps))) = None.
Proof.
  intros fmt num z m p q ps F E Q P. cbn [map]. rewrite !cat_cons, P. cbn [lead append].
  destruct (fst q) as [|k]; [lia|]. cbn [lead]. rewrite sapp_assoc.
  set (rest := "," ++ _). unfold parse_wkt.
  assert (L : (coll_depth (snd p) < String.length (wkt_text fmt z m (snd p) ++ rest))%nat).
  { rewrite slength_app. pose proof (depth_bound fmt z m (snd p)). lia. }
  rewrite (parses_geom fmt num z m F (snd p) _ E L rest eq_refl). reflexivity.
Qed.
