(** C22, exactly which texts GeoJSON output carries. *)
From Coq Require Import String Ascii.
From Coq Require Import List NArith ZArith Bool.
From Verif Require Import Base Event Claims Geom ProcSpec JsonSpec FeatureSpec GeoJsonModel GeoJsonSpec GeoJsonMore GeoJsonExact.
Import ListNotations.
Local Open Scope string_scope.
Local Open Scope list_scope.

(** C22.  The output for a feature with one text is JSON for that feature exactly if the text has neither
    backslashes nor control characters; quotes are fine. *)
Theorem C22_text_exact : forall fmt32 fmt num32 num d t v, v = CString t \/ v = CDateTime t ->
  (exists j, parse_json (fst (feed (geojson_writer fmt32 fmt d)
               (dataset_obs (multi_dim d) None [one_prop 0 "a" v]) "")) = Some j /\
             dataset_json num32 num (multi_dim d) None [one_prop 0 "a" v] j) <->
  plain_text t = true.
Proof. exact value_exact. Qed.
Print Assumptions C22_text_exact.
(** the same for the name of a property *)
Theorem C22_key_exact : forall fmt32 fmt num32 num d n b,
  (exists j, parse_json (fst (feed (geojson_writer fmt32 fmt d)
               (dataset_obs (multi_dim d) None [one_prop 0 n (CBool b)]) "")) = Some j /\
             dataset_json num32 num (multi_dim d) None [one_prop 0 n (CBool b)] j) <->
  plain_text n = true.
Proof. exact key_exact. Qed.
Print Assumptions C22_key_exact.
(** the name of a dataset has to be free of quotes, too *)
Theorem C22_name_exact : forall fmt32 fmt num32 num d n,
  (exists j, parse_json (fst (feed (geojson_writer fmt32 fmt d) (dataset_obs (multi_dim d) (Some n) []) "")) = Some j /\
             dataset_json num32 num (multi_dim d) (Some n) [] j) <->
  plain_text n = true /\ no_quote n = true.
Proof. exact name_exact. Qed.
Print Assumptions C22_name_exact.
(** a property that is JSON text has to be JSON text *)
Theorem C22_json_exact : forall fmt32 fmt num32 num d t,
  (exists j, parse_json (fst (feed (geojson_writer fmt32 fmt d)
               (dataset_obs (multi_dim d) None [one_prop 0 "a" (CJson t)]) "")) = Some j /\
             dataset_json num32 num (multi_dim d) None [one_prop 0 "a" (CJson t)] j) <->
  parse_json t <> None.
Proof. exact raw_exact. Qed.
Print Assumptions C22_json_exact.
Example C22_exact_met : plain_text "say ""hi""" = true /\ plain_text "a\b" = false /\ plain_text nl = false /\
  no_quote "say ""hi""" = false /\ parse_json "{""k"": [1, null]}" <> None /\ parse_json "1, 2" = None.
Proof. repeat split; try reflexivity. discriminate. Qed.
