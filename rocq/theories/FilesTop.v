(** Assembly of claim C69. *)
From Coq Require Import String Ascii.
From Coq Require Import List NArith ZArith Lia Bool Sorted.
From Verif Require Import Base BaseLemmas Event EventLemmas Claims Geom WkbModel WkbSpec WkbRead WkbReadTop WktModel WktSpec WktParse WktTop
  ProcTop FeatureSpec JsonSpec JsonLemmas GeoJsonModel GeoJsonSpec GeoJsonWrite GeoJsonTop GeoJsonLines GeoJsonRead GeoJsonMore
  CsvModel CsvSpec CsvTop ChainSpec ChainTop FilesSpec.
Import ListNotations.
Local Open Scope list_scope.

(** ** Conditions on geometries taken together *)
Section Join.
  Variables E1 E2 E3 : Prop.
  Variables T1 T2 T3 P1 P2 P3 : coord -> Prop.
  Variables Q1 Q2 Q3 : nat -> Prop.
  Hypothesis JE : E1 -> E2 -> E3.
  Hypothesis JT : forall c, P1 c -> T1 c -> P2 c -> T2 c -> T3 c.
  Hypothesis JP : forall c, P1 c -> P2 c -> P3 c.
  Hypothesis JQ : forall n, Q1 n -> Q2 n -> Q3 n.
  Lemma join_list : forall A (F1 F2 F3 : A -> Prop) l, (forall a, F1 a -> F2 a -> F3 a) ->
    Q1 (length l) /\ Forall F1 l -> Q2 (length l) /\ Forall F2 l -> Q3 (length l) /\ Forall F3 l.
  Proof.
    intros A F1 F2 F3 l J [A1 B1] [A2 B2]. split; [now apply JQ|]. clear A1 A2.
    induction l as [|a l IH]; [constructor|]. inversion_clear B1. inversion_clear B2. constructor; auto.
  Qed.
  Lemma join_line : forall l, on_line P1 Q1 l -> on_line P2 Q2 l -> on_line P3 Q3 l.
  Proof. intros l. now apply join_list. Qed.
  Lemma join_rings : forall l, on_rings P1 Q1 l -> on_rings P2 Q2 l -> on_rings P3 Q3 l.
  Proof. intros l. apply join_list. apply join_line. Qed.
  Lemma join_segment : forall l, on_segment P1 Q1 l -> on_segment P2 Q2 l -> on_segment P3 Q3 l.
  Proof. intros [l|l]; apply join_line. Qed.
  Lemma join_curve : forall l, on_curve P1 Q1 l -> on_curve P2 Q2 l -> on_curve P3 Q3 l.
  Proof. intros [l|l|l]; [apply join_line|apply join_line|apply join_list, join_segment]. Qed.
  Lemma join_surface : forall l, on_surface P1 Q1 l -> on_surface P2 Q2 l -> on_surface P3 Q3 l.
  Proof. intros [l|l]; [apply join_rings|apply join_list, join_curve]. Qed.
  Lemma join_geom : forall g, on_geom E1 T1 P1 Q1 g -> on_geom E2 T2 P2 Q2 g -> on_geom E3 T3 P3 Q3 g.
  Proof.
    intros g. induction g using geom_ind'; cbn [on_geom];
      try (now apply join_line); try (now apply join_rings); try (apply join_list; now apply join_rings);
      try (apply join_list; now apply join_segment); try (apply join_list; now apply join_curve); try (apply join_list; now apply join_surface).
    - intros [A B] [C D]. split; [now apply JP|now apply (JT c)].
    - exact JE.
    - intros A B. apply (on_geom_collection E1 T1 P1 Q1) in A. apply (on_geom_collection E2 T2 P2 Q2) in B.
      apply (on_geom_collection E3 T3 P3 Q3). destruct A as [A1 A2], B as [B1 B2]. split; [now apply JQ|].
      clear A1 B1. induction H as [|a l X _ IH]; [constructor|]. inversion_clear A2. inversion_clear B2. constructor; auto.
  Qed.
End Join.

Lemma flat_conforming : forall g, exactly false false g -> no_empty g -> nan_free g -> conforming false false g.
Proof.
  intros g X N F. apply exactly_flat in X. unfold no_empty, nan_free, conforming in *.
  assert (Y : on_geom False (fun _ => True) (fun c => cz c = None /\ cm c = None) (fun _ => True) g).
  { eapply join_geom; [| | | |exact X|exact N]; cbn; auto. }
  eapply join_geom; [| | | |exact Y|exact F]; cbn; auto.
  intros c _ _ (A & _) _. unfold all_nanb. now rewrite A.
Qed.
Lemma finite_either : forall z g, finite_geom true g -> finite_geom z g.
Proof.
  intros z g. unfold finite_geom. apply on_geom_weaken. intros c (A & B & C). split; [exact A|]. split; [exact B|]. intros _. exact (C eq_refl).
Qed.

(** ** Datasets *)
Lemma features_at : forall multi gi gi' l i, (forall k, k < length l -> gi (i + k) = gi' (i + k)) ->
  flat_mapi (fun i f => feature_obs multi i (gi i) f) i l = flat_mapi (fun i f => feature_obs multi i (gi' i) f) i l.
Proof.
  intros multi gi gi' l. induction l as [|f l IH]; intros i H; [reflexivity|]. cbn [flat_mapi].
  rewrite (IH (S i)).
  - rewrite <- (Nat.add_0_r i) at 2. rewrite <- (Nat.add_0_r i) at 4.
    rewrite H; [now rewrite ?Nat.add_0_r|cbn; lia].
  - intros k K. rewrite !Nat.add_succ_l, <- !Nat.add_succ_r. apply H. cbn [length]. lia.
Qed.
Lemma dataset_at_zero : forall multi gi name l, (forall i, i < length l -> gi i = 0) ->
  dataset_at multi gi name l = dataset_obs multi name l.
Proof.
  intros multi gi name l H. unfold dataset_at, dataset_obs. f_equal. f_equal.
  apply (features_at multi gi (fun _ => 0) l 0). exact H.
Qed.

Section Files.
  Variable t : tools.
  Variable num32 : string -> option N.
  Variable num wnum : string -> option f64.
  Hypothesis F32 : json_format finite32 (t_format32 t) num32.
  Hypothesis F : json_format finite (t_format t) num.
  Hypothesis WF : formats (t_wkt_format t) wnum.
  Hypothesis GT : geojson_tool t num32 num.
  Hypothesis WT : wkt_tool t wnum.
  Hypothesis OL : one_line t.

  Definition arrives (src : dims -> prog unit) (gi : nat -> nat) (name : option string) (l : list feature) : Prop :=
    delivers_obs src (fun multi => dataset_at multi gi name l) (Ok tt).

  Lemma json_safe : forall z f, json_feature f -> safe_feature z f.
  Proof.
    intros z f (l & g & P & G & [O _] & V & K & _ & FN & _). unfold safe_feature. rewrite P, G. split.
    - split; [exact O|]. eapply Forall_impl; [|exact V]. intros [[i n] v] [A B]. split; [exact A|].
      cbn [snd] in *. destruct v; cbn in *; tauto.
    - split; [exact K|now apply finite_either].
  Qed.
  Lemma feature_any : forall z f j, json_feature f -> option_map (kept_geom z) (f_geom f) = f_geom f ->
    feature_json num32 num z f j -> feature_json num32 num true f j.
  Proof.
    intros z f j (l & g & P & G & _ & _ & _ & _ & _ & KT) KZ (props & geo & O & A & B).
    exists props, geo. split; [exact O|]. split; [exact A|]. rewrite G in *. destruct geo as [x|]; [|exact B].
    cbn in *. injection KZ as KZ. rewrite KT. now rewrite KZ in B.
  Qed.
  Lemma dataset_any : forall z name l j, Forall json_feature l ->
    Forall (fun x => option_map (kept_geom z) (f_geom x) = f_geom x) l ->
    dataset_json num32 num z name l j -> dataset_json num32 num true name l j.
  Proof.
    intros z name l j R K (js & O & A). exists js. split; [exact O|]. clear O. revert R K.
    induction A as [|f x l js B _ IH]; intros R K; [constructor|].
    inversion_clear R. inversion_clear K. constructor; [eapply feature_any; eassumption|auto].
  Qed.

  Lemma json_file : forall d src gi name l, accepts l gi name (GeoJsonFile d) -> arrives src gi name l ->
    exists src', through t (GeoJsonFile d) src = Ok src' /\ arrives src' (fun i => i) None l.
  Proof.
    intros d src gi name l (R & K & N & Z) H. cbn [through].
    assert (S : Forall (safe_feature (multi_dim d)) l).
    { eapply Forall_impl; [|exact R]. apply json_safe. }
    destruct (dataset_written (t_format32 t) (t_format t) d num32 num F32 F name l N S) as (text & j & W & P & J).
    pose proof (H _ (geojson_writer (t_format32 t) (t_format t) d) EmptyString) as E. cbn [p_dims geojson_writer] in E.
    rewrite dataset_at_zero in E by exact Z. rewrite E, W.
    destruct (proj1 GT text j name l P (dataset_any _ _ _ _ R K J) R) as (x & X & A).
    eexists. split; [reflexivity|]. rewrite X.
    exact (plays_delivers _ _ (fun d => collection_play (t_ser t) (multi_dim d) x l A)).
  Qed.

  Lemma without_return_end : forall a, without_return (a ++ "}")%string = (a ++ "}")%string.
  Proof.
    induction a as [|c a IH]; [reflexivity|]. cbn [append without_return].
    rewrite IH. destruct (a ++ "}")%string eqn:E; [|reflexivity]. destruct a; discriminate E.
  Qed.
  Lemma lines_from_line : forall a s r, has_newline a = false ->
    lines_from s (a ++ nl ++ r)%string = without_return (s ++ a)%string :: lines_from EmptyString r.
  Proof.
    induction a as [|c a IH]; intros s r H.
    - cbn. now rewrite sapp_nil.
    - cbn [has_newline] in H. apply orb_false_iff in H. destruct H as [H1 H2].
      cbn [append lines_from]. unfold newline_char. rewrite H1. fold newline_char.
      rewrite IH by exact H2. now rewrite sapp_assoc.
  Qed.
  Lemma lines_of_texts : forall l, Forall (fun a => has_newline a = false /\ exists b, a = (b ++ "}")%string) l ->
    lines_of (String.concat EmptyString (map (fun a => (a ++ nl)%string) l)) = l.
  Proof.
    unfold lines_of. induction 1 as [|a l [A [b B]] H IH]; [reflexivity|].
    assert (C : String.concat EmptyString (map (fun a => (a ++ nl)%string) (a :: l)) =
                (a ++ nl ++ String.concat EmptyString (map (fun a => (a ++ nl)%string) l))%string).
    { destruct l as [|c l]; [cbn; now rewrite ?sapp_nil|]. cbn [map String.concat]. now rewrite sapp_assoc. }
    rewrite C, lines_from_line by exact A. rewrite IH. f_equal. cbn [append]. now rewrite B, without_return_end.
  Qed.

  Lemma single_json : forall i f, json_feature f -> single_line (IFeature i f).
  Proof.
    intros i f (l & g & P & _ & _ & V & _). cbn [single_line]. rewrite P. eapply Forall_impl; [|exact V].
    intros [[k n] v] [A B]. cbn [fst snd] in *.
    assert (PN : forall s, plain_text s = true -> has_newline s = false).
    { clear. induction s as [|c s IH]; intros H; [reflexivity|]. cbn [plain_text has_newline] in *.
      apply andb_prop in H. destruct H as [H H3]. apply andb_prop in H. destruct H as [_ H2].
      rewrite (IH H3), orb_false_r. destruct (Ascii.eqb_spec c (ascii_of_N 10)) as [->|]; [discriminate H2|reflexivity]. }
    split; [now apply PN|]. destruct v; try exact I; try contradiction. now apply PN.
  Qed.
  Lemma features_items : forall multi l i,
    flat_map (item_obs multi) (mapi IFeature i l) = flat_mapi (fun i f => feature_obs multi i 0 f) i l.
  Proof. intros multi l. induction l as [|f l IH]; intros i; [reflexivity|]. cbn [mapi flat_map flat_mapi item_obs]. now rewrite IH. Qed.

  Lemma lines_file : forall src gi name l, accepts l gi name LinesFile -> arrives src gi name l ->
    exists src', through t LinesFile src = Ok src' /\ arrives src' (fun _ => 0) None l.
  Proof.
    intros src gi name l (R & K & Z) H. cbn [through].
    set (items := mapi IFeature 0 l).
    assert (KI : forall k, forallb item_kind (mapi IFeature k l) = true).
    { clear - R. induction R as [|f l (ps & g & P & G & _ & _ & KG & _) _ IH]; intros k; [reflexivity|].
      cbn [mapi forallb item_kind]. now rewrite G, KG, IH. }
    assert (SI : forall k, Forall single_line (mapi IFeature k l)).
    { clear - R. induction R as [|f l A _ IH]; intros k; [constructor|].
      cbn [mapi]. constructor; [now apply single_json|apply IH]. }
    destruct (line_text (t_format32 t) (t_format t) xy_dims false name items EmptyString (KI 0)) as (texts & T & _ & W & Q).
    specialize (Q (proj1 OL) (proj2 OL) (SI 0)).
    pose proof (H _ (geojson_line_writer (t_format32 t) (t_format t)) (0, EmptyString)) as E.
    cbn [p_dims geojson_line_writer multi_dim] in E. rewrite dataset_at_zero in E by exact Z.
    unfold dataset_obs in E. rewrite <- (features_items _ l 0) in E. fold items in E.
    change (multi_dim xy_dims) with false in E. rewrite E, W. cbn [snd append].
    assert (X : exists xs, map (t_geojson t) texts = map (fun x => Ok (GjFeature x)) xs /\ Forall2 (is_feature_of (t_ser t)) xs l /\
                  Forall (fun a => exists b, a = (b ++ "}")%string) texts).
    { unfold items in T. clear - T R K GT F32 F. revert T. generalize 0. revert texts.
      induction R as [|f l A R IH]; intros texts k T; cbn [mapi] in T; inversion T as [|? a ? texts' T1 T2]; subst.
      - exists []. repeat split; constructor.
      - inversion_clear K as [|? ? K1 K2]. destruct (IH K2 texts' (S k) T2) as (xs & X1 & X2 & X3).
        cbn [alone item_obs] in T1. change false with (multi_dim xy_dims) in T1.
        pose proof (json_safe (multi_dim xy_dims) f A) as SF.
        rewrite (feature_feed (t_format32 t) (t_format t) xy_dims f 0 EmptyString (safe_kind xy_dims f SF)) in T1.
        injection T1 as T1. cbn [append fsep Nat.ltb Nat.leb] in T1.
        destruct (feature_denotes (t_format32 t) (t_format t) xy_dims num32 num F32 F f SF) as (j & D & J).
        apply denotes_parse in D. rewrite T1 in D.
        destruct (proj2 GT a j f D (feature_any _ f j A K1 J) A) as (x & Y & B).
        exists (x :: xs). cbn [map]. split; [now rewrite Y, X1|]. split; [constructor; assumption|].
        constructor; [|exact X3]. rewrite <- T1. unfold ftext. eexists. rewrite <- sapp_assoc. reflexivity. }
    destruct X as (xs & X1 & X2 & X3).
    rewrite (lines_of_texts texts).
    2:{ apply Forall_forall. intros a I. rewrite Forall_forall in Q, X3. split; [now apply Q|now apply X3]. }
    eexists. split; [reflexivity|]. rewrite X1.
    exact (plays_delivers _ _ (fun d => lines_play (t_ser t) (multi_dim d) xs l X2)).
  Qed.

  Lemma csv_file : forall src gi name l, accepts l gi name CsvFile -> arrives src gi name l ->
    exists src', through t CsvFile src = Ok src' /\ arrives src' (fun _ => 0) None l.
  Proof.
    intros src gi name l (NE & C & names & HC) H. cbn [through].
    assert (P : forall f g, In f l -> f_geom f = Some g ->
       parses (t_wkt t) (wkt_text (t_wkt_format t) false false g) (WkbSpec.retained false false g)).
    { intros f g I G. rewrite Forall_forall in C. destruct (C f I) as (ps & _ & _ & X). rewrite G in X.
      destruct X as (K & X & N & FN). rewrite (retained_conforming false false g (flat_conforming g X N FN)).
      pose proof (parse_text (t_wkt_format t) wnum false false WF g X) as Q. rewrite (canon_nan_free g FN) in Q.
      destruct (WT _ _ Q K) as (w & W1 & W2). exists w. now split. }
    destruct (csv_round (t_format32 t) (t_wkt_format t) (t_debug t) (t_wkt t) unit src gi name names l tt NE H HC P)
      as (header & rows & l' & E & A & D).
    rewrite E. cbn [on_ok]. eexists. split; [reflexivity|].
    assert (Q : l' = l); [|rewrite Q in D; exact D].
    clear - A C. revert C. induction A as [|f f' l l' (G & texts & T & PR) _ IH]; intros C; [reflexivity|].
    inversion_clear C as [|? ? C1 C2]. rewrite (IH C2). f_equal. destruct C1 as (ps & P & S & X).
    destruct f as [fp fg], f' as [fp' fg']. cbn [f_props f_geom] in *. subst fp. unfold the_props in *. cbn [f_props] in *.
    f_equal.
    - rewrite PR. f_equal. clear - T S. revert S. induction T as [|[q v] s ps texts A _ IH]; intros S; [reflexivity|].
      inversion_clear S as [|? ? [s' S1] S2]. cbn [snd] in *. subst v. inversion A; subst. cbn [map combine fst]. f_equal. now apply IH.
    - rewrite G. destruct fg as [g|]; [|reflexivity]. cbn. destruct X as (_ & X & N & FN).
      now rewrite (retained_conforming false false g (flat_conforming g X N FN)).
  Qed.

  Lemma files_chain : forall fs src gi name l, passes l gi name fs -> arrives src gi name l ->
    exists src', all_through t fs src = Ok src' /\ arrives src' (finally_numbered gi fs) (finally_named name fs) l.
  Proof.
    induction fs as [|f fs IH]; intros src gi name l Q H; [exists src; split; [reflexivity|exact H]|].
    destruct Q as [Q1 Q2].
    assert (E : exists src', through t f src = Ok src' /\ arrives src' (numbers f) None l).
    { destruct f; cbn [numbers]; eauto using json_file, lines_file, csv_file. }
    destruct E as (src' & E & H'). destruct (IH src' _ _ l Q2 H') as (src2 & E2 & H2).
    exists src2. cbn [all_through finally_numbered finally_named]. rewrite E. split; [exact E2|].
    destruct fs; exact H2.
  Qed.
End Files.
