(** Proofs about which texts GeoJSON output can carry (helper lemmas for C22). *)
From Coq Require Import String Ascii.
From Coq Require Import List NArith ZArith Lia Bool.
From Verif Require Import Base Event Claims Geom ProcModel ProcSpec JsonSpec JsonLemmas JsonExact FeatureSpec
  GeoJsonModel GeoJsonSpec GeoJsonWrite GeoJsonTop GeoJsonRead GeoJsonMore.
Import ListNotations.
Local Open Scope string_scope.
Local Open Scope list_scope.

Lemma escape_texts : forall t, escape t = texts true t.
Proof.
  induction t as [|c t IH]; [reflexivity|]. cbn [escape texts]. unfold written. cbn [andb].
  destruct (Ascii.eqb c """") eqn:E.
  - apply Ascii.eqb_eq in E. subst c. change (is_quote """") with true. cbn iota. now rewrite IH.
  - replace (is_quote c) with false; [cbn; now rewrite IH|]. symmetry. destruct (is_quote c) eqn:Q; [|reflexivity].
    apply quote_code in Q. subst c. discriminate.
Qed.
Lemma raw_texts : forall t, texts false t = t.
Proof. induction t as [|c t IH]; [reflexivity|]. cbn [texts]. unfold written. cbn. now rewrite IH. Qed.
Lemma unquoted_no_quote : forall t, unquoted t = no_quote t.
Proof.
  induction t as [|c t IH]; [reflexivity|]. cbn [unquoted no_quote]. rewrite IH. f_equal. f_equal.
  destruct (Ascii.eqb c """") eqn:E.
  - apply Ascii.eqb_eq in E. now subst c.
  - destruct (is_quote c) eqn:Q; [|reflexivity]. apply quote_code in Q. subst c. discriminate.
Qed.

Ltac flat := repeat (first [rewrite sapp_assoc | progress cbn [append]]).
Definition head : string :=
  ("{" ++ nl ++ """type"": ""FeatureCollection""," ++ nl ++ """features"": [{""type"": ""Feature"", ""properties"": {")%string.
(** the text of a dataset *)
Definition out_of fmt32 fmt d (name : option string) (l : list feature) : string :=
  fst (feed (geojson_writer fmt32 fmt d) (dataset_obs (multi_dim d) name l) "").
Definition right fmt32 fmt num32 num d (name : option string) (l : list feature) : Prop :=
  exists j, parse_json (out_of fmt32 fmt d name l) = Some j /\ dataset_json num32 num (multi_dim d) name l j.
Definition one_doc (n : string) (w : json) : json :=
  JObj [("type", JStr "FeatureCollection");
        ("features", JArr [JObj [("type", JStr "Feature"); ("properties", JObj [(n, w)])]])].
Lemma one_json : forall num32 num z n v j, dataset_json num32 num z None [one_prop 0 n v] j ->
  exists w, value_json num32 num v w /\ j = one_doc n w.
Proof.
  intros num32 num z n v j (js & O & F). inversion F as [|a b l l' (props & geo & OF & PR & GE) R]; subst. inversion R; subst.
  destruct props as [ps|]; [|contradiction]. cbn in PR. inversion PR as [|x y lx ly [N V] R']; subst. inversion R'; subst.
  destruct geo; [contradiction|]. destruct y as [k w]. cbn in N, V. subst k. exists w. split; [exact V|].
  unfold is_object in O, OF. cbn in O, OF. subst. reflexivity.
Qed.
Lemma one_json_back : forall num32 num z n v w, value_json num32 num v w ->
  dataset_json num32 num z None [one_prop 0 n v] (one_doc n w).
Proof.
  intros num32 num z n v w V. eexists. split; [reflexivity|]. constructor; [|constructor].
  exists (Some [(n, w)]), None. split; [reflexivity|]. split; [|exact I]. constructor; [|constructor]. split; [reflexivity|exact V].
Qed.
Lemma name_json : forall num32 num z n j, dataset_json num32 num z (Some n) [] j <->
  j = JObj [("type", JStr "FeatureCollection"); ("name", JStr n); ("features", JArr [])].
Proof.
  intros. split.
  - intros (js & O & F). inversion F; subst. exact O.
  - intros ->. exists []. split; [reflexivity|constructor].
Qed.
(** *** What is written *)
Lemma text_out : forall fmt32 fmt d n t v, v = CString t \/ v = CDateTime t ->
  out_of fmt32 fmt d None [one_prop 0 n v] = (head ++ dq ++ escape n ++ """: """ ++ escape t ++ """}}]}")%string.
Proof.
  intros fmt32 fmt d n t v [-> | ->]; unfold out_of, head, dq, nl; cbn -[escape append]; unfold name_text, dq, nl; flat; reflexivity.
Qed.
Lemma flag_out : forall fmt32 fmt d n b,
  out_of fmt32 fmt d None [one_prop 0 n (CBool b)] =
  (head ++ dq ++ escape n ++ """: " ++ (if b then "true" else "false") ++ "}}]}")%string.
Proof.
  intros fmt32 fmt d n b; unfold out_of, head; cbn -[escape append]; unfold name_text, dq, nl; destruct b; flat; reflexivity.
Qed.
Lemma name_out : forall fmt32 fmt d n, out_of fmt32 fmt d (Some n) [] =
  ("{" ++ nl ++ """type"": ""FeatureCollection""," ++ nl ++ """name"": """ ++ n ++ """," ++ nl ++ """features"": []}")%string.
Proof. intros fmt32 fmt d n. unfold out_of. cbn -[append]. unfold dq, nl. flat. reflexivity. Qed.

Lemma good_true : forall t, good true t = plain_text t.
Proof. intros. unfold good. cbn [orb]. apply andb_true_r. Qed.
Lemma value_exact : forall fmt32 fmt num32 num d t v, v = CString t \/ v = CDateTime t ->
  (right fmt32 fmt num32 num d None [one_prop 0 "a" v] <-> plain_text t = true).
Proof.
  intros fmt32 fmt num32 num d t v V. split.
  - intros (j & P & D). destruct (one_json _ _ _ _ _ _ D) as (w & W & ->).
    assert (w = JStr t) as -> by (destruct V as [-> | ->]; inversion W; reflexivity).
    rewrite (text_out fmt32 fmt d "a" t v V), (escape_texts t) in P. rewrite <- good_true.
    apply (only_good true (head ++ """a"": """) (firstn 18 (toks (one_doc "a" (JStr ""))))%string t "}}]}" (one_doc "a" (JStr t)) 
       [KPunct "}"; KPunct "}"; KPunct "]"; KPunct "}"]%char).
    + reflexivity.
    + intros acc. cbn. intros ts F. discriminate.
    + reflexivity.
    + exact P.
    + reflexivity.
  - intros H. assert (S : Forall (safe_feature (multi_dim d)) [one_prop 0 "a" v]).
    { constructor; [|constructor]. split; [|exact I]. split; [reflexivity|]. constructor; [|constructor].
      split; [reflexivity|]. destruct V as [-> | ->]; exact H. }
    destruct (dataset_written show_num show_num d read_num read_num (show_num_ok _) (show_num_ok _) None _ I S) as (out & j & O & P & D).
    exists j. split.
    + rewrite (text_out fmt32 fmt d "a" t v V). rewrite <- (text_out show_num show_num d "a" t v V). unfold out_of. rewrite O. exact P.
    + destruct (one_json _ _ _ _ _ _ D) as (w & W & ->). apply one_json_back.
      destruct V as [-> | ->]; inversion W; constructor.
Qed.
Lemma key_exact : forall fmt32 fmt num32 num d n b,
  right fmt32 fmt num32 num d None [one_prop 0 n (CBool b)] <-> plain_text n = true.
Proof.
  intros fmt32 fmt num32 num d n b. split.
  - intros (j & P & D). destruct (one_json _ _ _ _ _ _ D) as (w & W & ->).
    rewrite (flag_out fmt32 fmt d n b), (escape_texts n) in P. rewrite <- good_true.
    apply (only_good true (head ++ dq) (firstn 16 (toks (one_doc "a" (JStr ""))))%string n
       (": " ++ (if b then "true" else "false") ++ "}}]}") (one_doc n w) (KPunct ":" :: toks w ++ [KPunct "}"; KPunct "}"; KPunct "]"; KPunct "}"])%char).
    + reflexivity.
    + intros acc. destruct b; cbn; intros ts F; discriminate.
    + reflexivity.
    + exact P.
    + cbn. now rewrite <- ?app_assoc.
  - intros H. assert (S : Forall (safe_feature (multi_dim d)) [one_prop 0 n (CBool b)]).
    { constructor; [|constructor]. split; [|exact I]. split; [reflexivity|]. constructor; [|constructor].
      split; [exact H|exact I]. }
    destruct (dataset_written show_num show_num d read_num read_num (show_num_ok _) (show_num_ok _) None _ I S) as (out & j & O & P & D).
    exists j. split.
    + rewrite (flag_out fmt32 fmt d n b). rewrite <- (flag_out show_num show_num d n b). unfold out_of. rewrite O. exact P.
    + destruct (one_json _ _ _ _ _ _ D) as (w & W & ->). apply one_json_back. inversion W; constructor.
Qed.
Lemma name_exact : forall fmt32 fmt num32 num d n,
  right fmt32 fmt num32 num d (Some n) [] <-> plain_text n = true /\ no_quote n = true.
Proof.
  intros fmt32 fmt num32 num d n. split.
  - intros (j & P & D). apply name_json in D. subst j.
    rewrite name_out in P. rewrite <- unquoted_no_quote, <- andb_true_iff. change (good false n = true).
    set (doc := JObj [("type", JStr "FeatureCollection"); ("name", JStr n); ("features", JArr [])]) in P.
    rewrite <- (raw_texts n) in P at 1.
    apply (only_good false ("{" ++ nl ++ """type"": ""FeatureCollection""," ++ nl ++ """name"": """) (firstn 7 (toks doc)) n
       ("," ++ nl ++ """features"": []}") doc (skipn 8 (toks doc))).
    + reflexivity.
    + intros acc. cbn. exact I.
    + reflexivity.
    + exact P.
    + reflexivity.
  - intros H. destruct (dataset_written show_num show_num d read_num read_num (show_num_ok _) (show_num_ok _) (Some n) [] H (Forall_nil _)) as (out & j & O & P & D).
    exists j. split.
    + rewrite name_out. rewrite <- (name_out show_num show_num d). unfold out_of. rewrite O. exact P.
    + apply name_json. exact (proj1 (name_json _ _ _ _ _) D).
Qed.
Lemma raw_out : forall fmt32 fmt d n t,
  out_of fmt32 fmt d None [one_prop 0 n (CJson t)] = (head ++ dq ++ escape n ++ """: " ++ t ++ "}}]}")%string.
Proof.
  intros fmt32 fmt d n t; unfold out_of, head; cbn -[escape append]; unfold name_text, dq, nl; flat; reflexivity.
Qed.
Lemma raw_exact : forall fmt32 fmt num32 num d t,
  right fmt32 fmt num32 num d None [one_prop 0 "a" (CJson t)] <-> parse_json t <> None.
Proof.
  intros fmt32 fmt num32 num d t. split.
  - intros (j & P & D). destruct (one_json _ _ _ _ _ _ D) as (w & W & ->). inversion W; subst. congruence.
  - intros H. assert (S : Forall (safe_feature (multi_dim d)) [one_prop 0 "a" (CJson t)]).
    { constructor; [|constructor]. split; [|exact I]. split; [reflexivity|]. constructor; [|constructor].
      split; [reflexivity|exact H]. }
    destruct (dataset_written show_num show_num d read_num read_num (show_num_ok _) (show_num_ok _) None _ I S) as (out & j & O & P & D).
    exists j. split.
    + rewrite raw_out. rewrite <- (raw_out show_num show_num d). unfold out_of. rewrite O. exact P.
    + destruct (one_json _ _ _ _ _ _ D) as (w & W & ->). apply one_json_back. inversion W; now constructor.
Qed.
