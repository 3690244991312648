(** Several geometries through one GeoJsonWriter (helper lemmas for C79). *)
From Coq Require Import String Ascii.
From Coq Require Import List NArith ZArith Lia Bool.
From Verif Require Import Base BaseLemmas Event EventLemmas Claims Geom WkbSpec WkbRead ProcModel ProcSpec JsonSpec JsonLemmas FeatureSpec
  GeoJsonModel GeoJsonSpec GeoJsonWrite GeoJsonTop SeveralSpec.
From Verif Require SeveralText.
Import ListNotations.
Local Open Scope list_scope.
Local Open Scope string_scope.

(** ** Texts of values in a row *)
Definition toks (p : nat * list token) : list token := match fst p with O => snd p | _ => KPunct "," :: snd p end.
Definition row (l : list (nat * string)) : string := cat (map (fun p => lead (fst p) ++ snd p) l).
Definition object_text (t : string) : Prop := exists r, t = String "{" r.
(** the text denotes a value and its tokens are these *)
Definition item (p : nat * string) (q : nat * list token) : Prop :=
  fst p = fst q /\ lexes (snd p) (snd q) /\ (exists v, parses (snd q) v) /\ object_text (snd p).

Lemma row_cons : forall p l, row (p :: l) = lead (fst p) ++ snd p ++ row l.
Proof. intros. unfold row. cbn [map]. rewrite SeveralText.cat_cons, sapp_assoc. reflexivity. Qed.
Lemma row_lexes : forall l tl, Forall2 item l tl -> forall close tc, ends_word close = true -> lexes0 close tc ->
  lexes0 (row l ++ close) (flat_map toks tl ++ tc) /\ ends_word (row l ++ close) = true.
Proof.
  intros l tl H close tc E C. induction H as [|[k t] [k' ts] l tl (K & L & _ & (r & O)) _ [IH1 IH2]]; [split; assumption|].
  cbn [fst snd] in *. subst k' t. rewrite row_cons. cbn [fst snd flat_map]. rewrite !sapp_assoc, <- app_assoc.
  pose proof (lexes0_after _ _ _ _ L IH2 IH1) as X. unfold toks at 1. cbn [fst snd].
  destruct k as [|k]; cbn [lead].
  - split; [exact X|reflexivity].
  - split; [|reflexivity]. exact (lexes0_app "," _ [KPunct ","] _ eq_refl X).
Qed.
Lemma row_lexes_end : forall l tl, Forall2 item l tl ->
  lexes (row l) (flat_map toks tl) /\ (l <> [] -> ends_word (row l) = true).
Proof.
  intros l tl H. induction H as [|[k t] [k' ts] l tl (K & L & _ & (r & O)) H [IH1 IH2]]; [split; [reflexivity|congruence]|].
  cbn [fst snd] in *. subst k' t. rewrite row_cons. cbn [fst snd flat_map]. split.
  - assert (X : lexes (String "{" r ++ row l) (ts ++ flat_map toks tl)).
    { destruct H as [|p q l tl H1 H2]; [cbn; now rewrite sapp_nil, app_nil_r|].
      apply lexes_after; [exact L|apply IH2; congruence|exact IH1]. }
    unfold toks at 1. cbn [fst snd]. destruct k as [|k]; [exact X|].
    exact (lexes_app "," _ [KPunct ","] _ eq_refl X).
  - intros _. destruct k; reflexivity.
Qed.

(** a value after a value is no list of members *)
Lemma value_token : forall ts v, parses ts v -> exists t r, ts = t :: r /\ value_step [] t <> None.
Proof.
  intros [|t r] v P; specialize (P MValue [] (or_introl eq_refl)); cbn [pda_run pda_step attach] in P.
  - discriminate P.
  - exists t, r. split; [reflexivity|]. destruct (value_step [] t); congruence.
Qed.
Lemma not_after : forall t st, value_step [] t <> None -> pda_step (MAfter, FArr st :: []) t = None /\
  forall st' r, pda_step (MAfter, FArr st' :: r) t = None.
Proof.
  intros t st V. assert (X : forall st' r, pda_step (MAfter, FArr st' :: r) t = None).
  { intros st' r. destruct t as [a|s|s| | |]; try reflexivity. cbn [value_step] in V.
    destruct a as [[] [] [] [] [] [] [] []]; try reflexivity; exfalso; apply V; reflexivity. }
  split; [apply X|exact X].
Qed.
Lemma run_after : forall l tl, Forall2 item l tl -> forall done st,
  (Forall (fun p => (0 < fst p)%nat) l -> exists done', pda_run (flat_map toks tl) (MAfter, FArr done :: st) = Some (MAfter, FArr done' :: st)) /\
  (~ Forall (fun p => (0 < fst p)%nat) l -> forall more, pda_run (flat_map toks tl ++ more) (MAfter, FArr done :: st) = None).
Proof.
  intros l tl H. induction H as [|[k t] [k' ts] l tl (K & L & (v & P) & _) _ IH]; intros done st.
  - split; [intros _; exists done; reflexivity|]. intros N. exfalso. apply N. constructor.
  - cbn [fst snd] in *. subst k'. cbn [flat_map]. unfold toks at 1 3. cbn [fst snd]. destruct k as [|k].
    + split; [intros F; inversion F; subst; cbn in *; lia|]. intros _ more. rewrite <- app_assoc.
      destruct (value_token ts v P) as (t0 & r0 & -> & V). cbn [app pda_run].
      destruct (not_after t0 done V) as [_ X]. now rewrite X.
    + cbn [app pda_run pda_step]. split.
      * intros F. inversion F; subst. rewrite pda_app, (P MValue) by now left. cbn [attach]. now apply IH.
      * intros N more. rewrite <- app_assoc, pda_app, (P MValue) by now left. cbn [attach]. apply IH.
        intros F. apply N. constructor; [cbn; lia|exact F].
Qed.
Definition ordered (l : list (nat * string)) : Prop :=
  match l with [] => True | p :: r => fst p = 0%nat /\ Forall (fun q => (0 < fst q)%nat) r end.
Lemma run_first_bad : forall l tl, Forall2 item l tl -> ~ ordered l -> forall st more,
  pda_run (flat_map toks tl ++ more) (MFirst, FArr [] :: st) = None.
Proof.
  intros l tl H N st more. destruct H as [|[k t] [k' ts] l tl (K & L & (v & P) & _) H]; [exfalso; apply N; exact I|].
  cbn [fst snd] in *. subst k'. cbn [flat_map]. unfold toks at 1. cbn [fst snd]. destruct k as [|k].
  - rewrite <- app_assoc, pda_app, (P MFirst) by now right. cbn [attach]. apply (run_after l tl H).
    intros F. apply N. split; [reflexivity|exact F].
  - reflexivity.
Qed.

(** two values in a row are no JSON text *)
Lemma two_values : forall p q l tl, Forall2 item (p :: q :: l) tl -> parse_json (row (p :: q :: l)) = None.
Proof.
  intros p q l tl H. destruct (row_lexes_end _ _ H) as [L _]. unfold parse_json. unfold lexes in L. rewrite L. clear L.
  inversion_clear H as [|? [k1 t1] ? tl' (K1 & _ & (v1 & P1) & _) H']. inversion_clear H' as [|? [k2 t2] ? tl'' (K2 & _ & (v2 & P2) & _) _].
  cbn [fst snd flat_map] in *. unfold toks at 1 2. cbn [fst snd]. destruct k1 as [|k1]; [|reflexivity].
  rewrite pda_app, (P1 MValue) by now left. cbn [attach].
  destruct (value_token t2 v2 P2) as (t0 & r0 & -> & _). destruct k2; reflexivity.
Qed.

Section Writer.
  Variable fmt32 : N -> string.
  Variable fmt : f64 -> string.
  Variable d : dims.
  Notation W := (geojson_writer fmt32 fmt d).
  Notation multi := (multi_dim d).
  Definition texts (ps : list (nat * geom)) : list (nat * string) := map (fun p => (fst p, gtext fmt multi (snd p))) ps.

  Lemma lead_comma : forall k, comma_text k = lead k.
  Proof. intros [|k]; reflexivity. Qed.
  Lemma parts_emit : forall ps, Forall (fun p => geojson_kind (snd p) = true) ps ->
    emits fmt32 fmt d (parts multi ps) (row (texts ps)).
  Proof.
    induction ps as [|p ps IH]; intros H out; [cbn; now rewrite sapp_nil|].
    inversion_clear H. unfold parts. cbn [flat_map]. rewrite run_app. rewrite (geom_emit fmt32 fmt d (snd p) (fst p)) by assumption.
    fold (parts multi ps). rewrite IH by assumption. unfold texts. cbn [map]. rewrite row_cons, lead_comma. cbn [fst snd].
    rewrite !sapp_assoc. reflexivity.
  Qed.
  Lemma gathered_emit : forall ps, Forall (fun p => geojson_kind (snd p) = true) ps ->
    emits fmt32 fmt d (gathered multi ps)
      (kind_open "GeometryCollection" "geometries" "[" ++ row (texts ps) ++ "]}").
  Proof.
    intros ps H out. unfold gathered. cbn [run].
    change (p_step W out (CollectionBegin _ 0)) with (out ++ kind_open "GeometryCollection" "geometries" "[", @Ok unit tt).
    cbv beta iota. rewrite run_app, (parts_emit ps H). cbn [run p_step geojson_writer gj_step]. rewrite !sapp_assoc. reflexivity.
  Qed.
  Lemma row_order : forall ps, in_order ps ->
    kind_open "GeometryCollection" "geometries" "[" ++ row (texts ps) ++ "]}" = gtext fmt multi (GCollection (map snd ps)).
  Proof.
    intros ps H. unfold row, texts. rewrite map_map. cbn [fst snd].
    rewrite (SeveralText.cat_order (gtext fmt multi) ps H). cbn [gtext]. unfold obj, arr, kind_open. rewrite !sapp_assoc.
    cbn [append].
    replace (String.concat "," (map (gtext fmt multi) (map snd ps))) with (concat_sep "," (map (gtext fmt multi) (map snd ps))).
    - rewrite ?sapp_assoc. reflexivity.
    - generalize (map (gtext fmt multi) (map snd ps)). intros [|a l]; [reflexivity|]. cbn [concat_sep]. revert a.
      induction l as [|b l IH]; intros a; [cbn; now rewrite sapp_nil|]. unfold sep_all. cbn [fold_right]. fold (sep_all "," l).
      rewrite IH. reflexivity.
  Qed.
  Lemma object_start : forall g, geojson_kind g = true -> object_text (gtext fmt multi g).
  Proof. intros g K. destruct g; try discriminate K; eexists; reflexivity. Qed.

  Variable num : string -> option f64.
  Hypothesis F : json_format finite fmt num.
  Lemma texts_items : forall ps, Forall (fun p => geojson_kind (snd p) = true /\ finite_geom multi (snd p)) ps ->
    exists tl, Forall2 item (texts ps) tl.
  Proof.
    induction 1 as [|p ps [K G] _ (tl & IH)]; [exists []; constructor|].
    destruct (gtext_denotes fmt num multi F (snd p) K G) as (ts & L & P).
    exists ((fst p, ts) :: tl). constructor; [|exact IH]. repeat split; [exact L|eexists; exact P|now apply object_start].
  Qed.
  Lemma texts_ordered : forall ps, ordered (texts ps) -> in_order ps.
  Proof.
    intros [|p ps]; [intros _; exact I|]. intros [H1 H2]. split; [exact H1|]. unfold texts in H2. rewrite Forall_map in H2. exact H2.
  Qed.

  Definition usable (p : nat * geom) : Prop := geojson_kind (snd p) = true /\ finite_geom multi (snd p).
  Lemma usable_kind : forall ps, Forall usable ps -> Forall (fun p => geojson_kind (snd p) = true) ps.
  Proof. intros ps H. eapply Forall_impl; [|exact H]. intros a A. apply A. Qed.

  Lemma json_gathered : forall ps, Forall usable ps -> in_order ps ->
    exists out j, run W (gathered multi ps) "" = (out, Ok tt) /\ parse_json out = Some j /\
      geometry_of num j = Some (kept_geom multi (GCollection (map snd ps))).
  Proof.
    intros ps H O. eexists. exists (gjson fmt multi (GCollection (map snd ps))).
    assert (K : geojson_kind (GCollection (map snd ps)) = true).
    { cbn [geojson_kind]. apply forallb_forall. intros g G. apply in_map_iff in G. destruct G as (p & <- & G).
      rewrite Forall_forall in H. apply (H p G). }
    assert (N : finite_geom multi (GCollection (map snd ps))).
    { apply on_geom_collection. split; [exact I|]. apply Forall_map. eapply Forall_impl; [|exact H]. intros a A. apply A. }
    split; [apply (gathered_emit ps); now apply usable_kind|]. cbn [append]. rewrite row_order by exact O. split.
    - apply denotes_parse. now apply gtext_denotes with (num := num).
    - now apply gjson_ok.
  Qed.
  Lemma json_gathered_bad : forall ps, Forall usable ps -> ~ in_order ps ->
    exists out, run W (gathered multi ps) "" = (out, Ok tt) /\ parse_json out = None.
  Proof.
    intros ps H O. eexists. split; [apply (gathered_emit ps); now apply usable_kind|]. cbn [append].
    destruct (texts_items ps H) as (tl & T).
    destruct (row_lexes _ _ T "]}" [KPunct "]"; KPunct "}"] eq_refl eq_refl) as [L _].
    assert (X : lexes (kind_open "GeometryCollection" "geometries" "[" ++ row (texts ps) ++ "]}")
      ([KPunct "{"; KStr "type"; KPunct ":"; KStr "GeometryCollection"; KPunct ","; KStr "geometries"; KPunct ":"; KPunct "["] ++
       flat_map toks tl ++ [KPunct "]"; KPunct "}"])).
    { apply lexes0_lexes, lexes0_app; [reflexivity|exact L]. }
    unfold parse_json. unfold lexes in X. rewrite X. cbn [app pda_run pda_step value_step close_step key_step attach].
    rewrite (run_first_bad _ _ T); [reflexivity|]. intros Q. apply O. now apply texts_ordered.
  Qed.
  Lemma json_parts_bad : forall p q ps, Forall usable (p :: q :: ps) ->
    exists out, run W (parts multi (p :: q :: ps)) "" = (out, Ok tt) /\ parse_json out = None.
  Proof.
    intros p q ps H. eexists. split; [apply (parts_emit (p :: q :: ps)); now apply usable_kind|]. cbn [append].
    destruct (texts_items _ H) as (tl & T). unfold texts in *. cbn [map] in *. exact (two_values _ _ _ _ T).
  Qed.
  (** in brackets they are the members of an array *)
  Lemma json_parts : forall ps, Forall usable ps -> in_order ps ->
    exists out js, run W (parts multi ps) "" = (out, Ok tt) /\ parse_json ("[" ++ out ++ "]") = Some (JArr js) /\
      map (geometry_of num) js = map (fun p => Some (kept_geom multi (snd p))) ps.
  Proof.
    intros ps H O. eexists. exists (map (gjson fmt multi) (map snd ps)).
    split; [apply (parts_emit ps); now apply usable_kind|]. cbn [append]. split.
    - apply denotes_parse.
      assert (E : row (texts ps) = concat_sep "," (map (gtext fmt multi) (map snd ps))).
      { unfold row, texts. rewrite map_map. cbn [fst snd]. rewrite (SeveralText.cat_order (gtext fmt multi) ps O).
        generalize (map (gtext fmt multi) (map snd ps)). intros [|a l]; [reflexivity|]. cbn [concat_sep]. revert a.
        induction l as [|b l IH]; intros a; [cbn; now rewrite sapp_nil|]. unfold sep_all. cbn [fold_right]. fold (sep_all "," l).
        rewrite <- IH. reflexivity. }
      rewrite E. change (String "[" ?x) with ("[" ++ x).
      apply (denotes_arr "[" "," "]"); try reflexivity; [|apply joins_comma].
      clear -H F. induction H as [|p ps [K G] _ IH]; cbn [map]; constructor; [|exact IH].
      now apply gtext_denotes with (num := num).
    - rewrite !map_map. apply map_ext_in. intros p P. rewrite Forall_forall in H. destruct (H p P). now apply gjson_ok.
  Qed.
End Writer.
