(** Paths, extents and what the input delivers. *)
From Coq Require Import String Ascii.
From Coq Require Import List NArith ZArith Lia Bool.
From Verif Require Import Base Event EventLemmas Claims Geom FeatureSpec ProcModel ProcSpec ProcTop WktModel WktSpec WktTop
  CsvModel CsvSpec CsvTop GeoJsonModel GeoJsonSpec GeoJsonRead SvgModel CliModel CliSpec.
Import ListNotations.
Local Open Scope list_scope.
Local Open Scope string_scope.

Lemma split_cons : forall c s, split_on c s <> [].
Proof. intros c s. destruct s as [|a s]; cbn; [discriminate|]. destruct (split_on c s); [discriminate|]. destruct (Ascii.eqb a c); discriminate. Qed.
Lemma split_none : forall c s, contains c s = false -> split_on c s = [s].
Proof.
  intros c. induction s as [|a s IH]; intros H; cbn in *; [reflexivity|]. apply orb_false_iff in H. destruct H as [H1 H2].
  rewrite (IH H2), H1. reflexivity.
Qed.
Lemma split_app : forall c s t, split_on c (s ++ String c t) = (split_on c s ++ split_on c t)%list.
Proof.
  intros c s t. induction s as [|a s IH]; cbn.
  - destruct (split_on c t) eqn:E; [destruct (split_cons c t E)|]. rewrite Ascii.eqb_refl. reflexivity.
  - rewrite IH. destruct (split_on c s) as [|x l] eqn:E; [destruct (split_cons c s E)|]. cbn.
    destruct (Ascii.eqb a c); reflexivity.
Qed.
Lemma split_empty : forall c s, split_on c s = [""] -> s = "".
Proof.
  intros c [|a s]; cbn; [reflexivity|]. destruct (split_on c s) as [|x l] eqn:E; [destruct (split_cons c s E)|].
  destruct (Ascii.eqb a c); intros H; inversion H.
Qed.
Lemma contains_app : forall c s t, contains c (s ++ t) = contains c s || contains c t.
Proof. intros c s t. induction s as [|a s IH]; cbn; [reflexivity|]. rewrite IH. apply orb_assoc. Qed.

Lemma name_of : forall dir n, (dir = "" \/ exists up, dir = up ++ "/") -> contains "/" n = false ->
  n <> "" -> n <> "." -> n <> ".." -> file_name (dir ++ n) = Some n.
Proof.
  intros dir n D C N1 N2 N3. unfold file_name.
  assert (H : exists l, split_on "/" (dir ++ n) = (l ++ [n])%list).
  { destruct D as [->|[up ->]].
    - exists []. cbn. apply split_none. exact C.
    - exists (split_on "/" up). rewrite <- (split_none _ _ C), <- split_app. f_equal.
      clear. induction up as [|a up IH]; cbn; [reflexivity|]. f_equal. exact IH. }
  destruct H as [l H]. rewrite H, filter_app. cbn [filter].
  destruct (String.eqb n "") eqn:E1; [apply String.eqb_eq in E1; contradiction|].
  destruct (String.eqb n ".") eqn:E2; [apply String.eqb_eq in E2; contradiction|]. cbn [orb negb].
  rewrite rev_app_distr. cbn [rev app].
  destruct (String.eqb n "..") eqn:E3; [apply String.eqb_eq in E3; contradiction|]. reflexivity.
Qed.
Lemma extension_of : forall p e, ends_in p e -> extension p = Some e.
Proof.
  intros p e (dir & stem & -> & D & S1 & S2 & E1 & E2 & E3). unfold extension.
  rewrite (name_of dir (stem ++ "." ++ e) D).
  - change ("." ++ e) with (String "." e). rewrite split_app, (split_none _ _ E2), rev_app_distr. cbn [rev app].
    destruct (rev (split_on "." stem)) as [|x [|y l]] eqn:R.
    + apply (f_equal (@rev string)) in R. rewrite rev_involutive in R. destruct (split_cons "." stem R).
    + apply (f_equal (@rev string)) in R. rewrite rev_involutive in R. cbn in R.
      destruct x; [|reflexivity]. destruct (S1 (split_empty _ _ R)).
    + destruct x; reflexivity.
  - rewrite contains_app, S2. cbn. exact E1.
  - destruct stem; [contradiction|]. intros H. inversion H.
  - destruct stem as [|a [|b s]]; [contradiction| |]; cbn; intros H; inversion H.
  - destruct stem as [|a [|b s]]; [contradiction| |]; cbn; intros H; inversion H; [contradiction|].
    destruct s; inversion H.
Qed.
Lemma extension_none : forall p e, no_extension p -> e <> "" -> has (extension p) e = false.
Proof.
  intros p e (dir & n & P & D & N1 & N2 & N3) E.
  assert (E' : String.eqb "" e = false) by (apply String.eqb_neq; intros H; apply E; symmetry; exact H).
  assert (S : n <> ".") by (intros ->; discriminate N3). assert (S' : n <> "..") by (intros ->; discriminate N3).
  unfold extension. destruct P as [->|[->| ->]].
  - rewrite (name_of dir n D N2 N1 S S'), (split_none _ _ N3). reflexivity.
  - rewrite (name_of dir ("." ++ n) D).
    + change ("." ++ n) with ("" ++ String "." n). rewrite split_app, (split_none _ _ N3). cbn [rev app split_on]. reflexivity.
    + cbn. exact N2.
    + discriminate.
    + cbn. intros H. inversion H. contradiction.
    + cbn. intros H. inversion H. contradiction.
  - rewrite (name_of dir (n ++ ".") D).
    + rewrite split_app, (split_none _ _ N3). cbn [rev app split_on]. destruct n; [contradiction|]. exact E'.
    + rewrite contains_app, N2. reflexivity.
    + destruct n; [contradiction|discriminate].
    + destruct n as [|a [|b n]]; [contradiction| |]; cbn; intros H; inversion H.
    + destruct n as [|a [|b n]]; [contradiction| |]; cbn; intros H; inversion H; [subst; discriminate N3|].
      destruct n; inversion H.
Qed.

Lemma split_head : forall c s x l, split_on c s = x :: l -> s = x \/ exists t, s = x ++ String c t.
Proof.
  intros c. induction s as [|a s IH]; intros x l H; cbn in H.
  - inversion H. left. reflexivity.
  - destruct (split_on c s) as [|y m] eqn:E; [inversion H; destruct (split_cons c s E)|].
    destruct (Ascii.eqb a c) eqn:A; inversion H; subst.
    + apply Ascii.eqb_eq in A. subst. right. exists s. reflexivity.
    + destruct (IH y l eq_refl) as [->|[t ->]]; [left; reflexivity|right; exists t; reflexivity].
Qed.
Lemma local_path : forall p, local p -> is_remote p = false.
Proof.
  intros p (U & N1 & N2). unfold is_remote. destruct (split_on "/" p) as [|x l] eqn:E; [reflexivity|].
  apply orb_false_iff. split; apply String.eqb_neq; intros ->.
  - destruct (split_head _ _ _ _ E) as [H|[t H]]; [contradiction|]. apply U. exists t. left. exact H.
  - destruct (split_head _ _ _ _ E) as [H|[t H]]; [contradiction|]. apply U. exists t. right. exact H.
Qed.
Lemma remote_path : forall p, url p -> is_remote p = true.
Proof.
  intros p (t & [->| ->]); unfold is_remote.
  - change ("http:/" ++ t) with ("http:" ++ String "/" t). rewrite split_app. reflexivity.
  - change ("https:/" ++ t) with ("https:" ++ String "/" t). rewrite split_app. reflexivity.
Qed.

(** ** The extent *)
Lemma extent_parsed : forall w a ext, extent_given w a ext -> parse_extent_option w (a_extent a) = Ok ext.
Proof.
  intros w a ext H. unfold extent_given in H. destruct (a_extent a) as [t|], ext as [e|]; try contradiction; [|reflexivity].
  destruct H as (p & q & r & s & -> & C & P & Q & R & S). cbn [forallb] in C. rewrite !andb_true_iff in C.
  destruct C as (C1 & C2 & C3 & C4 & _). apply negb_true_iff in C1, C2, C3, C4.
  cbn [parse_extent_option]. unfold parse_extent.
  change (p ++ "," ++ q ++ "," ++ r ++ "," ++ s) with (p ++ String "," (q ++ String "," (r ++ String "," s))).
  rewrite !split_app, !split_none by assumption. cbn [app floats]. rewrite P, Q, R, S. destruct e; reflexivity.
Qed.
(** ** Selecting the reader *)
Lemma has_some : forall x e, has (Some x) e = String.eqb x e.
Proof. reflexivity. Qed.
Lemma update_same : forall f n t, update f n t n = Some t.
Proof. intros. unfold update. rewrite String.eqb_refl. reflexivity. Qed.
Lemma update_other : forall f n t m, m <> n -> update f n t m = f m.
Proof. intros f n t m H. unfold update. destruct (String.eqb m n) eqn:E; [apply String.eqb_eq in E; contradiction|reflexivity]. Qed.

Lemma chosen : forall w a ext f i text, input_is a i -> (i = InHttp \/ f (w_resolve w (a_input a)) = Some text) ->
  forall d, transform w a ext f d =
    match i with
    | InCsv => match a_column a with
               | None => pfail EPanic
               | Some c => let (headers, records) := w_csv w text in
                           process_csv_features (w_wkt w) (multi_dim d) c headers records
               end
    | InJson => read_geojson (w_ser w) (multi_dim d) (w_json w text)
    | InLines => read_geojson_lines (w_ser w) (multi_dim d) (w_lines w text)
    | InParquet => w_parquet w text ext d
    | InFgb => w_fgb w text ext d
    | InWkt => read_wkt (w_wkt w) (multi_dim d) text
    | InHttp => w_http w (a_input a) ext d
    end.
Proof.
  intros w a ext f i text (L & e & IE & EE) F d. unfold transform. cbn zeta. rewrite (extension_of _ _ EE), !has_some.
  destruct i; [..|rewrite (remote_path _ L); cbn in IE; destruct IE as [<-|[]]; reflexivity];
    (destruct F as [F|F]; [discriminate F|]); rewrite (local_path _ L), F;
    cbn in IE; (destruct IE as [<-|IE]; [reflexivity|]); try contradiction; (destruct IE as [<-|[]]; reflexivity).
Qed.
Lemma input_delivers : forall w a ext f text i name gi l, input_is a i -> (i = InHttp \/ f (w_resolve w (a_input a)) = Some text) ->
  holds w a ext text i name gi l ->
  delivers_obs (transform w a ext f) (fun multi => dataset_at multi gi name l) (Ok tt).
Proof.
  intros w a ext f text i name gi l Is F H. pose proof (chosen w a ext f i text Is F) as T.
  intros S p s. rewrite T. clear T Is F. destruct H.
  - rewrite H, H0. exact (read_features (w_wkt w) column headers gi rs l H1 H2 S p s).
  - rewrite H.
    exact (plays_delivers (fun d => read_geojson (w_ser w) (multi_dim d) (Ok (GjFeatures ps)))
             (fun multi => dataset_at multi (fun i => i) None l)
             (fun d => collection_play (w_ser w) (multi_dim d) ps l H0) S p s).
  - rewrite H.
    pose proof (plays_delivers (fun d => read_geojson (w_ser w) (multi_dim d) (Ok (GjFeature pf)))
             (fun multi => OEv (DatasetBegin None) :: feature_obs multi 0 0 f0 ++ [OEv DatasetEnd])%list
             (fun d => single_play (w_ser w) (multi_dim d) 0 pf f0 H0 H1) S p s) as P.
    rewrite P. unfold dataset_at. cbn [flat_mapi]. rewrite app_nil_r. reflexivity.
  - rewrite H.
    exact (plays_delivers (fun d => read_geojson_lines (w_ser w) (multi_dim d) (map (fun f => Ok (GjFeature f)) ps))
             (fun multi => dataset_at multi (fun _ => 0%nat) None l)
             (fun d => lines_play (w_ser w) (multi_dim d) ps l H0) S p s).
  - exact (H S p s).
  - exact (H S p s).
  - exact (H S p s).
Qed.
