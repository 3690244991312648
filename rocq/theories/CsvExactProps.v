(** C27, exact extent: what CsvWriter makes of every dataset.  Read with: CsvSpec.v ([is_table],
    [dataset_at]), CsvExactSpec.v ([names_of], [known], [fitting]), FeatureSpec.v ([delivers_obs]). *)
From Coq Require Import String Ascii.
From Coq Require Import List NArith ZArith Lia Bool.
From Verif Require Import Base Event Claims Geom ProcModel ProcSpec WktModel WktSpec WktTop FeatureSpec
  GeoJsonModel CsvModel CsvSpec CsvTop CsvExactSpec CsvExactTop.
Import ListNotations.
Local Open Scope string_scope.
Local Open Scope list_scope.

(** The first feature gives the header.  The features after it are written, each as its record, up to
    the first one that does not fit: a property whose name is not the one the header has under its
    number panics, another number of properties is an error.  If all fit, all are written. *)
Theorem C27_exact : forall fmt32 fmt debug d A (src : dims -> prog A) gi name f l r,
  delivers_obs src (fun multi => dataset_at multi gi name (f :: l)) r ->
  exists s x before rest,
    exec (csv_writer fmt32 fmt debug d) (src d) csv_init = (s, x) /\
    l = before ++ rest /\ Forall (fitting (names_of f)) before /\
    is_table fmt32 fmt (multi_dim d) (names_of f) (f :: before) (o_records (cs_csv s)) /\
    match rest with
    | [] => x = r
    | bad :: _ => (~ known (names_of f) bad /\ x = Err EPanic) \/
                  (known (names_of f) bad /\ length (the_props bad) <> length (names_of f) /\ x = Err EDataset)
    end.
Proof. exact csv_exact. Qed.
Print Assumptions C27_exact.
Example C27_exact_met :
  delivers_obs (fun d => replay (dataset_at (multi_dim d) (fun i => i) None misordered))
    (fun multi => dataset_at multi (fun i => i) None misordered) (Ok tt) /\
  Forall (fitting ["a"; "b"]) misordered /\
  ~ known (names_of (mkFeature (Some [(1%nat, "b", CBool true)]) None)) (mkFeature (Some [(1%nat, "b", CBool true)]) None) /\
  known ["a"] (mkFeature (Some []) None).
Proof.
  split; [exact (replay_delivers (fun m => dataset_at m (fun i => i) None misordered))|].
  split; [repeat constructor|]. split; [|constructor].
  intros H. inversion H as [|? ? H1 _]; subst. discriminate H1.
Qed.

(** A second dataset after one with features: its first feature panics if it has properties, and is an
    error if it has none but the first dataset had.  Nothing of it is written. *)
Theorem C27_second_exact : forall fmt32 fmt debug d gi gi' name name' f l f' l',
  Forall (fitting (names_of f)) l ->
  exists s s' x,
    feed (csv_writer fmt32 fmt debug d) (dataset_at (multi_dim d) gi name (f :: l)) csv_init = (s, Ok tt) /\
    feed (csv_writer fmt32 fmt debug d) (dataset_at (multi_dim d) gi' name' (f' :: l')) s = (s', x) /\
    (the_props f' <> [] -> x = Err EPanic) /\
    (the_props f' = [] -> the_props f <> [] -> x = Err EDataset) /\
    (the_props f' <> [] \/ the_props f <> [] -> o_records (cs_csv s') = o_records (cs_csv s)).
Proof. exact csv_second. Qed.
Print Assumptions C27_second_exact.
Example C27_second_exact_met :
  Forall (fitting (names_of (one_prop "a" 1))) [one_prop "a" 2] /\ the_props (one_prop "a" 3) <> [].
Proof. split; [repeat constructor|discriminate]. Qed.

(** C28, for a record that ends before the geometry column (which the csv crate does not return unless it is told to
    take records of several lengths): its fields are delivered as properties, then the reader reports that the
    column is not found. *)
Theorem C28_short_record : forall parse column headers gi rs l r rest, first_at column headers gi ->
  Forall2 (is_record parse headers gi) rs l -> (length r <= gi)%nat ->
  delivers_obs (fun d => process_csv_features parse (multi_dim d) column (Ok headers) (map Ok rs ++ Ok r :: rest))
    (fun multi => OEv (DatasetBegin None) :: flat_mapi (fun i f => feature_obs multi i 0 f) 0 l ++
       OEv (FeatureBegin (length rs)) :: OEv PropertiesBegin ::
       map prop_obs (combine (combine (seq 0 (length r)) headers) (map CString r)) ++ [OEv PropertiesEnd]) (Err (ECsv 0)).
Proof. exact read_short_record. Qed.
Print Assumptions C28_short_record.
Example C28_short_record_met : first_at "geom" ["name"; "geom"] 1 /\ (length ["A"] <= 1)%nat /\
  delivers_obs (fun d => process_csv_features origin_parse (multi_dim d) "geom" (Ok ["name"; "geom"]) [Ok ["A"]])
    (fun _ => [OEv (DatasetBegin None); OEv (FeatureBegin 0); OEv PropertiesBegin; OProp 0 "name" (CString "A");
               OEv PropertiesEnd]) (Err (ECsv 0)).
Proof.
  assert (F : first_at "geom" ["name"; "geom"] 1) by (split; [reflexivity|intros [H|[]]; discriminate H]).
  split; [exact F|]. split; [apply le_n|].
  exact (C28_short_record origin_parse "geom" ["name"; "geom"] 1 [] [] ["A"] [] F (Forall2_nil _) (le_n _)).
Qed.
