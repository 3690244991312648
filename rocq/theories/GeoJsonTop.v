(** Properties, features, datasets and lines of GeoJSON (helper lemmas for C21-C25). *)
From Coq Require Import String Ascii.
From Coq Require Import List NArith ZArith Lia Bool.
From Coq Require Import Numbers.DecimalString Numbers.DecimalFacts Numbers.DecimalPos Numbers.DecimalN.
From Verif Require Import Base BaseLemmas Event EventLemmas Claims Geom WkbSpec ProcModel ProcSpec ProcTop
  JsonSpec JsonLemmas FeatureSpec GeoJsonModel GeoJsonSpec GeoJsonWrite.
Import ListNotations.
Local Open Scope list_scope.
Local Open Scope string_scope.

(** ** Integers are JSON numbers *)
Lemma digits_run : forall u s, (s = NInt) -> num_run s (NilEmpty.string_of_uint u) = true.
Proof. induction u; intros s ->; cbn; auto. Qed.
Lemma uint_number : forall u s, (s = NStart \/ s = NSign) -> u <> Decimal.Nil -> Decimal.unorm u = u ->
  num_run s (NilEmpty.string_of_uint u) = true.
Proof.
  intros u s S N U. destruct u; [congruence| |..]; try (destruct S; subst s; cbn; now apply digits_run).
  destruct u; try (destruct S; subst s; reflexivity).
  all: exfalso; unfold Decimal.unorm in U; cbn [Decimal.nzhead] in U; try discriminate U.
  destruct (Decimal.nzhead u) eqn:E; try discriminate U. exact (nzhead_nonzero _ _ E).
Qed.
Lemma pos_uint : forall p, Pos.to_uint p <> Decimal.Nil /\ Decimal.unorm (Pos.to_uint p) = Pos.to_uint p.
Proof.
  intros p. split; [apply Unsigned.to_uint_nonnil|].
  pose proof (DecimalN.Unsigned.to_of (Pos.to_uint p)) as H.
  change (Pos.to_uint p) with (N.to_uint (Npos p)) in H at 1. rewrite DecimalN.Unsigned.of_to in H.
  symmetry. exact H.
Qed.
Lemma uint_text : forall u, u <> Decimal.Nil -> NilZero.string_of_uint u = NilEmpty.string_of_uint u.
Proof. intros [] H; [congruence|reflexivity..]. Qed.
Lemma int_number : forall z, json_number (show_z z) = true.
Proof.
  intros [|p|p]; [reflexivity| |]; unfold show_z; cbn [Z.to_int NilZero.string_of_int];
    destruct (pos_uint p) as [N U]; rewrite uint_text by exact N; unfold json_number.
  - apply uint_number; auto.
  - cbn [num_run]. change (num_step NStart "-") with (Some NSign). cbn iota. apply uint_number; auto.
Qed.

(** ** Properties *)
Section Props.
  Variable fmt32 : N -> string.
  Variable fmt : f64 -> string.

  Definition vtext (v : colval) : string :=
    match v with
    | CString t | CDateTime t => quoted (esc_quotes t)
    | v => show_colval fmt32 fmt v
    end.
  Definition ptext (q : nat * string * colval) : string := member_text (snd (fst q)) (vtext (snd q)).
  Definition numbered_from (i : nat) (l : list (nat * string * colval)) : Prop :=
    map (fun q => fst (fst q)) l = seq i (length l).

  Lemma prop_put : forall out i n v, (match v with CBinary _ => False | _ => True end) ->
    gj_prop fmt32 fmt out i n v =
    (out ++ (if Nat.ltb 0 i then ", " else "") ++ ptext (i, n, v), Ok false).
  Proof.
    intros out i n v B. unfold ptext, member_text, quoted. cbn [fst snd].
    assert (E : (if Nat.ltb 0 i then out ++ ", " else out) = out ++ (if Nat.ltb 0 i then ", " else "")).
    { destruct (Nat.ltb 0 i); [reflexivity|now rewrite sapp_nil]. }
    unfold gj_prop. rewrite E. unfold name_text, dq, vtext.
    destruct v; try contradiction; rewrite !escape_quotes; unfold quoted;
      cbn [append]; rewrite ?sapp_assoc; cbn [append]; rewrite ?sapp_assoc; reflexivity.
  Qed.

  Section Feed.
    (** any writer that handles properties like GeoJsonWriter: [st n out] is a state with text [out] *)
    Context {S0 : Type}.
    Variable p : proc S0.
    Variable st : string -> S0.
    Hypothesis Hp : forall out i n v, p_prop p (st out) i n v =
      (st (fst (gj_prop fmt32 fmt out i n v)), snd (gj_prop fmt32 fmt out i n v)).

    Lemma props_feed : forall l i out, numbered_from i l ->
      Forall (fun q => match snd q with CBinary _ => False | _ => True end) l ->
      feed p (map prop_obs l) (st out) =
      (st (out ++ (if Nat.ltb 0 i then sep_all ", " (map ptext l) else concat_sep ", " (map ptext l))), Ok tt).
    Proof.
      induction l as [|[[j n] v] l IH]; intros i out N B.
      { cbn. destruct i; cbn; now rewrite sapp_nil. }
      unfold numbered_from in N. cbn in N. injection N as -> N.
      inversion B as [|? ? B1 B2]; subst. cbn [snd] in B1.
      cbn [map feed prop_obs fst snd]. rewrite Hp, prop_put by exact B1. cbn [fst snd].
      rewrite (IH (S i)) by assumption. f_equal. f_equal.
      destruct i; cbn [Nat.ltb Nat.leb map concat_sep sep_all fold_right append]; rewrite !sapp_assoc; reflexivity.
    Qed.
  End Feed.

  Variable num32 : string -> option N.
  Variable num : string -> option f64.
  Hypothesis F32 : json_format finite32 fmt32 num32.
  Hypothesis F : json_format finite fmt num.

  Lemma value_denotes : forall v, safe_value v -> exists j, denotes (vtext v) j /\ value_json num32 num v j.
  Proof.
    intros v H. destruct v; cbn [safe_value] in H; cbn [vtext show_colval];
      try (eexists; split; [apply denotes_num, int_number|constructor; apply decimal_show]).
    - exists (JBool v). split; [|constructor].
      destruct v; [apply (denotes_word _ KTrue)|apply (denotes_word _ KFalse)]; reflexivity.
    - eexists. split; [apply denotes_num, F32, H|constructor; apply F32, H].
    - eexists. split; [apply denotes_num, F, H|constructor; apply F, H].
    - eexists. split; [now apply denotes_str|constructor].
    - destruct (parse_json v) as [j|] eqn:E; [|congruence]. exists j.
      split; [now apply parse_denotes|now constructor].
    - eexists. split; [now apply denotes_str|constructor].
    - contradiction.
  Qed.
  Lemma props_members : forall l,
    Forall (fun q => plain_text (snd (fst q)) = true /\ safe_value (snd q)) l ->
    exists ms, Forall2 is_member (map ptext l) ms /\
      Forall2 (fun q m => snd (fst q) = fst m /\ value_json num32 num (snd q) (snd m)) l ms.
  Proof.
    induction 1 as [|[[i n] v] l [P V] H IH]; [exists []; split; constructor|].
    destruct IH as (ms & M1 & M2). destruct (value_denotes v V) as (j & D & J).
    exists ((n, j) :: ms). split; constructor; auto. now apply member_ok.
  Qed.
End Props.

(** ** Features *)
Definition opt_text {A} (o : option A) (f : A -> string) : list string :=
  match o with Some a => [f a] | None => [] end.

Section Features.
  Variable fmt32 : N -> string.
  Variable fmt : f64 -> string.
  Variable multi : bool.

  Definition props_text (l : list (nat * string * colval)) : string :=
    "{" ++ concat_sep ", " (map (ptext fmt32 fmt) l) ++ "}".
  Definition feature_members (f : feature) : list string :=
    member_text "type" (quoted "Feature") ::
    opt_text (f_props f) (fun l => member_text "properties" (props_text l)) ++
    opt_text (f_geom f) (fun g => member_text "geometry" (gtext fmt multi g)).
  Definition ftext (f : feature) : string := "{" ++ concat_sep ", " (feature_members f) ++ "}".

  (** what the text consists of *)
  Definition props_part (f : feature) : string :=
    match f_props f with
    | Some l => ", ""properties"": {" ++ concat_sep ", " (map (ptext fmt32 fmt) l) ++ "}"
    | None => ""
    end.
  Definition geom_part (f : feature) : string :=
    match f_geom f with Some g => ", ""geometry"": " ++ gtext fmt multi g | None => "" end.
  Lemma ftext_parts : forall f, ftext f = "{""type"": ""Feature""" ++ props_part f ++ geom_part f ++ "}".
  Proof.
    intros f. unfold ftext, feature_members, props_part, geom_part, concat_sep, sep_all, opt_text, props_text.
    destruct (f_props f), (f_geom f); cbn; rewrite ?sapp_assoc, ?sapp_nil; cbn; rewrite ?sapp_assoc; reflexivity.
  Qed.
End Features.

Definition kind_ok (f : feature) : Prop :=
  match f_props f with
  | Some l => from_zero l /\ Forall (fun q => match snd q with CBinary _ => False | _ => True end) l
  | None => True
  end /\
  match f_geom f with Some g => geojson_kind g = true | None => True end.

Section Writer.
  Variable fmt32 : N -> string.
  Variable fmt : f64 -> string.
  Variable d : dims.
  Notation W := (geojson_writer fmt32 fmt d).
  Notation multi := (multi_dim d).

  Definition fsep (i : nat) : string := if Nat.ltb 0 i then "," ++ newline else "".

  Lemma feature_feed : forall f i out, kind_ok f ->
    feed W (feature_obs multi i 0 f) out = (out ++ fsep i ++ ftext fmt32 fmt multi f, Ok tt).
  Proof.
    intros f i out [KP KG]. unfold feature_obs. rewrite ftext_parts.
    cbn [feed p_step geojson_writer gj_step]. rewrite feed_app.
    assert (P : forall out, feed W (match f_props f with
       | Some l => OEv PropertiesBegin :: map prop_obs l ++ [OEv PropertiesEnd] | None => [] end)%list out
       = (out ++ props_part fmt32 fmt f, Ok tt)).
    { intros o. unfold props_part. destruct (f_props f) as [l|]; [|cbn; now rewrite sapp_nil].
      cbn [feed p_step geojson_writer gj_step]. rewrite feed_app.
      rewrite (props_feed fmt32 fmt W (fun o => o)
        (fun out i n v => surjective_pairing (gj_prop fmt32 fmt out i n v)) l 0 _ (proj1 KP) (proj2 KP)).
      cbn [Nat.ltb Nat.leb feed p_step geojson_writer gj_step]. rewrite !sapp_assoc. reflexivity. }
    rewrite P, feed_app.
    assert (G : forall out, feed W (match f_geom f with
       | Some g => OEv GeometryBegin :: map OEv (gevents multi 0 g) ++ [OEv GeometryEnd] | None => [] end)%list out
       = (out ++ geom_part fmt multi f, Ok tt)).
    { intros o. unfold geom_part. destruct (f_geom f) as [g|]; [|cbn; now rewrite sapp_nil].
      cbn [feed p_step geojson_writer gj_step]. rewrite feed_app, feed_run, (geom_emit fmt32 fmt d g 0 KG).
      cbn [feed p_step geojson_writer gj_step comma_text Nat.ltb Nat.leb append].
      rewrite !sapp_assoc, sapp_nil. reflexivity. }
    rewrite G. cbn [feed p_step geojson_writer gj_step]. unfold fsep, newline, nl.
    rewrite !sapp_assoc. reflexivity.
  Qed.
  Lemma features_feed : forall l i out, Forall kind_ok l ->
    feed W (flat_mapi (fun i f => feature_obs multi i 0 f) i l) out =
    (out ++ (if Nat.ltb 0 i then sep_all ("," ++ newline) (map (ftext fmt32 fmt multi) l)
             else concat_sep ("," ++ newline) (map (ftext fmt32 fmt multi) l)), Ok tt).
  Proof.
    induction l as [|f l IH]; intros i out H; cbn [flat_mapi].
    { destruct i; cbn; now rewrite sapp_nil. }
    inversion H as [|? ? H1 H2]; subst. rewrite feed_app, feature_feed by exact H1.
    rewrite (IH (S i)) by exact H2. f_equal. unfold fsep.
    destruct i; cbn [Nat.ltb Nat.leb map concat_sep sep_all fold_right append]; rewrite !sapp_assoc; reflexivity.
  Qed.

  Definition dtext (name : option string) (l : list feature) : string :=
    "{" ++ newline ++ """type"": ""FeatureCollection""" ++
    (match name with Some n => "," ++ newline ++ """name"": """ ++ n ++ """" | None => "" end) ++
    "," ++ newline ++ """features"": [" ++
    concat_sep ("," ++ newline) (map (ftext fmt32 fmt multi) l) ++ "]}".
  Lemma dataset_feed : forall name l out, Forall kind_ok l ->
    feed W (dataset_obs multi name l) out = (out ++ dtext name l, Ok tt).
  Proof.
    intros name l out H. unfold dataset_obs, dtext. cbn [feed p_step geojson_writer gj_step].
    rewrite feed_app, (features_feed l 0) by exact H. cbn [Nat.ltb Nat.leb feed p_step geojson_writer gj_step].
    rewrite !sapp_assoc. reflexivity.
  Qed.

  Variable num32 : string -> option N.
  Variable num : string -> option f64.
  Hypothesis F32 : json_format finite32 fmt32 num32.
  Hypothesis F : json_format finite fmt num.

  Lemma safe_kind : forall f, safe_feature multi f -> kind_ok f.
  Proof.
    intros f [P G]. split.
    - destruct (f_props f); [|exact I]. destruct P as [P1 P2]. split; [exact P1|].
      eapply Forall_impl; [|exact P2]. intros [q v] [_ S]. cbn [snd] in *. destruct v; auto.
    - destruct (f_geom f); [apply G|exact I].
  Qed.
  Lemma feature_denotes : forall f, safe_feature multi f ->
    exists j, denotes (ftext fmt32 fmt multi f) j /\ feature_json num32 num multi f j.
  Proof.
    intros f [P G]. unfold ftext.
    assert (XP : exists props, Forall2 is_member
        (opt_text (f_props f) (fun l => member_text "properties" (props_text fmt32 fmt l)))
        (opt_list (option_map (fun l => ("properties", JObj l)) props)) /\
        same_option (Forall2 (fun q m => snd (fst q) = fst m /\ value_json num32 num (snd q) (snd m))) (f_props f) props).
    { destruct (f_props f) as [l|]; [|exists None; split; [constructor|exact I]].
      destruct (props_members fmt32 fmt num32 num F32 F l (proj2 P)) as (ms & M1 & M2).
      exists (Some ms). split; [|exact M2]. constructor; [|constructor]. apply member_ok; [reflexivity|].
      unfold props_text. apply denotes_obj; try reflexivity; [exact M1|apply joins_space]. }
    assert (XG : exists geo, Forall2 is_member
        (opt_text (f_geom f) (fun g => member_text "geometry" (gtext fmt multi g)))
        (opt_list (option_map (fun g => ("geometry", g)) geo)) /\
        same_option (fun g j => geometry_of num j = Some (kept_geom multi g)) (f_geom f) geo).
    { destruct (f_geom f) as [g|]; [|exists None; split; [constructor|exact I]].
      exists (Some (gjson fmt multi g)). split; [|cbn; apply gjson_ok; [exact F|apply G..]].
      constructor; [|constructor]. apply member_ok; [reflexivity|].
      apply gtext_denotes with (num := num); [exact F|apply G..]. }
    destruct XP as (props & P1 & P2), XG as (geo & G1 & G2).
    eexists. split.
    - apply denotes_obj with (ms := flat_map opt_list [Some ("type", JStr "Feature");
                   option_map (fun l => ("properties", JObj l)) props;
                   option_map (fun g => ("geometry", g)) geo]); try reflexivity; [|apply joins_space].
      unfold feature_members. cbn [flat_map opt_list app]. constructor.
      + apply member_ok; [reflexivity|apply (denotes_str "Feature"); reflexivity].
      + rewrite List.app_nil_r. now apply Forall2_app.
    - exists props, geo. repeat split; assumption.
  Qed.
  Lemma features_denote : forall l, Forall (safe_feature multi) l ->
    exists js, Forall2 denotes (map (ftext fmt32 fmt multi) l) js /\ Forall2 (feature_json num32 num multi) l js.
  Proof.
    induction 1 as [|f l Hf H IH]; [exists []; split; constructor|].
    destruct (feature_denotes f Hf) as (j & D & J), IH as (js & D' & J').
    exists (j :: js). split; constructor; assumption.
  Qed.

  Lemma no_quote_esc : forall t, no_quote t = true -> esc_quotes t = t.
  Proof.
    intros t. rewrite <- escape_quotes. induction t as [|c t IH]; intros H; [reflexivity|].
    cbn [no_quote escape] in *. apply andb_true_iff in H. destruct H as [H1 H2].
    apply negb_true_iff in H1. rewrite H1, (IH H2). reflexivity.
  Qed.
  Lemma dataset_denotes : forall name l, safe_name name -> Forall (safe_feature multi) l ->
    exists j, denotes (dtext name l) j /\ dataset_json num32 num multi name l j.
  Proof.
    intros name l N H. destruct (features_denote l H) as (js & D & J).
    set (ms := flat_map opt_list [Some ("type", JStr "FeatureCollection");
                   option_map (fun n => ("name", JStr n)) name; Some ("features", JArr js)]).
    exists (JObj ms). split; [|exists js; split; [reflexivity|exact J]].
    assert (E : dtext name l = ("{" ++ newline) ++ concat_sep ("," ++ newline)
      (member_text "type" (quoted "FeatureCollection") ::
       opt_text name (fun n => member_text "name" (quoted (esc_quotes n))) ++
       [member_text "features" ("[" ++ concat_sep ("," ++ newline) (map (ftext fmt32 fmt multi) l) ++ "]")]) ++ "}").
    { unfold dtext. generalize (concat_sep ("," ++ newline) (map (ftext fmt32 fmt multi) l)). intros t.
      unfold concat_sep, sep_all, opt_text, member_text, quoted. destruct name as [n|].
      - rewrite (no_quote_esc n) by apply N. cbn. rewrite ?sapp_assoc, ?sapp_nil. cbn.
        rewrite ?sapp_assoc, ?sapp_nil. cbn. rewrite ?sapp_assoc, ?sapp_nil. reflexivity.
      - cbn. rewrite ?sapp_assoc, ?sapp_nil. cbn. rewrite ?sapp_assoc, ?sapp_nil. reflexivity. }
    rewrite E. apply denotes_obj; try reflexivity; [|apply joins_newline].
    unfold ms. cbn [flat_map opt_list app]. constructor.
    { apply member_ok; [reflexivity|apply (denotes_str "FeatureCollection"); reflexivity]. }
    apply Forall2_app.
    - destruct name as [n|]; [|constructor]. constructor; [|constructor].
      apply member_ok; [reflexivity|apply denotes_str, N].
    - constructor; [|constructor]. apply member_ok; [reflexivity|].
      apply denotes_arr; try reflexivity; [exact D|apply joins_newline].
  Qed.

  Lemma dataset_written : forall name l, safe_name name -> Forall (safe_feature multi) l ->
    exists out j, feed W (dataset_obs multi name l) "" = (out, Ok tt) /\
      parse_json out = Some j /\ dataset_json num32 num multi name l j.
  Proof.
    intros name l N H. destruct (dataset_denotes name l N H) as (j & D & J).
    exists (dtext name l), j. repeat split; [|now apply denotes_parse|exact J].
    apply dataset_feed. eapply Forall_impl; [|exact H]. apply safe_kind.
  Qed.
  Lemma geometry_written : forall g, geojson_kind g = true -> finite_geom multi g ->
    exists out j, run W (gevents multi 0 g) "" = (out, Ok tt) /\
      parse_json out = Some j /\ geometry_of num j = Some (kept_geom multi g).
  Proof.
    intros g K G. exists (gtext fmt multi g), (gjson fmt multi g). repeat split.
    - apply (geom_emit fmt32 fmt d g 0 K).
    - apply denotes_parse. now apply gtext_denotes with (num := num).
    - now apply gjson_ok.
  Qed.
End Writer.
