(** Which names and styles an SVG document carries unchanged: exactly those without markup (helper
    lemmas for C43). *)
From Coq Require Import String Ascii.
From Coq Require Import List NArith ZArith Lia Bool.
From Verif Require Import Base BaseLemmas Float Event EventLemmas Claims Geom ProcModel ProcSpec ProcTop
  FeatureSpec JsonLemmas GeoJsonWrite GeoJsonLines XmlSpec SvgModel SvgSpec SvgTop.
Import ListNotations.
Local Open Scope list_scope.
Local Open Scope string_scope.

(** ** The nodes of a text are those of its tokens *)
Definition norm (t : xtoken) : list xtoken :=
  match t with XEmpty n a => [XOpen n a; XClose n] | t => [t] end.
Fixpoint nt (n : node) : list xtoken :=
  match n with
  | Ch c => [XChar c]
  | Elem n a k => XOpen n a :: flat_map nt k ++ [XClose n]
  end%list.
Fixpoint frame_base (l : list xframe) : list xtoken :=
  match l with
  | [] => []
  | (k, a, kids) :: r => frame_base r ++ XOpen k a :: flat_map nt kids
  end%list.
Definition base (st : list xframe * list node) : list xtoken := (flat_map nt (snd st) ++ frame_base (fst st))%list.
Lemma base_add : forall n st, base (xml_add n st) = (base st ++ nt n)%list.
Proof.
  intros n [[|[[k a] kids] r] top]; unfold base; cbn [xml_add fst snd frame_base]; rewrite flat_map_app; cbn [flat_map];
    rewrite ?app_nil_r, <- ?app_assoc; reflexivity.
Qed.
Lemma base_build : forall st t st', xml_build st t = Some st' -> base st' = (base st ++ norm t)%list.
Proof.
  intros st t st' H. destruct t; cbn [xml_build norm] in *.
  - injection H as <-. unfold base. cbn [fst snd frame_base flat_map]. now rewrite <- app_assoc.
  - injection H as <-. now rewrite base_add.
  - destruct st as [[|[[k a] kids] r] top]; cbn [fst snd] in H; [discriminate|].
    destruct (String.eqb_spec name k) as [->|]; [|discriminate].
    assert (st' = xml_add (Elem k a kids) (r, top)) as -> by congruence. rewrite base_add.
    unfold base. cbn [fst snd frame_base nt]. rewrite <- !app_assoc. reflexivity.
  - injection H as <-. now rewrite base_add.
Qed.
Lemma base_tree : forall l st st', xml_tree st l = Some st' -> base st' = (base st ++ flat_map norm l)%list.
Proof.
  induction l as [|t l IH]; intros st st' H; cbn [xml_tree flat_map] in *.
  - injection H as <-. now rewrite app_nil_r.
  - destruct (xml_build st t) as [s|] eqn:E; [|discriminate]. rewrite (IH _ _ H), (base_build _ _ _ E), <- app_assoc.
    reflexivity.
Qed.
Lemma parse_tokens : forall t l, parse_xml t = Some l ->
  exists ts, xml_lex SContent t = Some (SContent, ts) /\ flat_map norm ts = flat_map nt l.
Proof.
  intros t l H. unfold parse_xml in H. destruct (xml_lex SContent t) as [[s ts]|]; [|discriminate].
  destruct s; try discriminate. exists ts. split; [reflexivity|].
  destruct (xml_tree ([], []) ts) as [[[|f r] top]|] eqn:E; try discriminate. injection H as ->.
  apply base_tree in E. unfold base in E. cbn in E. now rewrite app_nil_r in E.
Qed.

(** ** Character data *)
(** no character of markup is character data *)
Definition no_markup (t : xtoken) : Prop :=
  match t with XChar c => lt_c c = false /\ amp_c c = false | _ => True end.
Ltac steps H :=
  repeat match type of H with
  | (if ?b then _ else _) = _ => let E := fresh "E" in destruct b eqn:E
  end; try discriminate H; injection H as <- <-; repeat constructor; cbn; auto.
Lemma step_markup : forall s c s' ts, xml_step s c = Some (s', ts) -> Forall no_markup ts.
Proof. intros s c s' ts H. destruct s; cbn [xml_step] in H; steps H. Qed.
Lemma lex_markup : forall t s s' ts, xml_lex s t = Some (s', ts) -> Forall no_markup ts.
Proof.
  induction t as [|c t IH]; intros s s' ts H; cbn [xml_lex] in H; [injection H as <- <-; constructor|].
  destruct (xml_step s c) as [[s1 t1]|] eqn:E; [|discriminate].
  destruct (xml_lex s1 t) as [[s2 t2]|] eqn:E2; [|discriminate]. injection H as <- <-.
  apply Forall_app. eauto using step_markup.
Qed.
Lemma norm_markup : forall ts, Forall no_markup ts -> Forall no_markup (flat_map norm ts).
Proof.
  induction 1 as [|t ts H _ IH]; cbn [flat_map]; [constructor|]. apply Forall_app. split; [|exact IH].
  destruct t; cbn [norm]; repeat (apply Forall_cons; [first [exact I|exact H]|]); apply Forall_nil.
Qed.
Lemma nt_chars : forall s, flat_map nt (chars s) = map XChar (list_ascii_of_string s).
Proof. induction s as [|c s IH]; cbn; [reflexivity|]. f_equal. exact IH. Qed.
Lemma chars_markup : forall s, Forall no_markup (map XChar (list_ascii_of_string s)) -> content_plain s = true.
Proof.
  induction s as [|c s IH]; intros H; cbn in *; [reflexivity|]. inversion H as [|? ? A B]; subst. cbn in A.
  destruct A as [-> ->]. now rewrite IH.
Qed.
Lemma content_lex : forall s, content_plain s = true ->
  xml_lex SContent s = Some (SContent, map XChar (list_ascii_of_string s)).
Proof.
  induction s as [|c s IH]; intros H; cbn [content_plain] in H; [reflexivity|].
  rewrite !andb_true_iff, !negb_true_iff in H. destruct H as [[A B] C].
  cbn [xml_lex xml_step list_ascii_of_string map]. rewrite A, B, (IH C). reflexivity.
Qed.

(** ** Attributes *)
(** inside a start tag: its name and the attributes so far *)
Definition tag (s : xstate) : option (string * list (string * string)) :=
  match s with
  | SName n => Some (n, [])
  | SAttrs n a | SAttr n a _ | SEquals n a _ | SValue n a _ _ | SAfter n a | SSlash n a => Some (n, a)
  | _ => None
  end.
Lemma step_tag : forall s c s' ts n a, xml_step s c = Some (s', ts) -> tag s = Some (n, a) ->
  (exists n' a', tag s' = Some (n', a ++ a')%list /\ ts = []) \/
  (exists n', ts = [XOpen n' a] \/ ts = [XEmpty n' a]).
Proof.
  intros s c s' ts n a H T. destruct s; cbn [tag] in T; try discriminate T; injection T as <- <-; cbn [xml_step] in H;
    repeat match type of H with (if ?b then _ else _) = _ => destruct b end; try discriminate H; injection H as <- <-;
    first [left; eexists; first [exists []; cbn [tag]; rewrite ?app_nil_r; split; reflexivity|eexists; cbn [tag]; split; reflexivity]
          |right; eexists; solve [left; reflexivity|right; reflexivity]].
Qed.
(** the next token has these attributes first *)
Lemma lex_tag : forall t s ts n a, xml_lex s t = Some (SContent, ts) -> tag s = Some (n, a) ->
  exists n' a' r, ts = (XOpen n' (a ++ a') :: r)%list \/ ts = (XEmpty n' (a ++ a') :: r)%list.
Proof.
  induction t as [|c t IH]; intros s ts n a H T; cbn [xml_lex] in H.
  - injection H as -> <-. discriminate T.
  - destruct (xml_step s c) as [[s1 t1]|] eqn:E; [|discriminate].
    destruct (xml_lex s1 t) as [[s2 t2]|] eqn:E2; [|discriminate]. injection H as -> <-.
    destruct (step_tag _ _ _ _ _ _ E T) as [(n' & a' & T' & ->)|(n' & [->| ->])].
    + destruct (IH _ _ _ _ E2 T') as (n2 & a2 & r & G). exists n2, (a' ++ a2)%list, r. rewrite app_assoc. exact G.
    + exists n', [], t2. rewrite app_nil_r. now left.
    + exists n', [], t2. rewrite app_nil_r. now right.
Qed.
(** a value ends at the first quote *)
Lemma lex_value : forall t n a k v ts, xml_lex (SValue n a k v) t = Some (SContent, ts) ->
  exists w u, t = (w ++ String (ascii_of_N 34) u) /\ xml_plain w = true /\
    xml_lex (SAfter n (a ++ [(k, (v ++ w)%string)])) u = Some (SContent, ts).
Proof.
  induction t as [|c t IH]; intros n a k v ts H; cbn [xml_lex xml_step] in H; [discriminate|].
  destruct (quot_c c) eqn:Q.
  - exists "", t. assert (c = ascii_of_N 34) as ->.
    { unfold quot_c, eqc in Q. apply N.eqb_eq in Q. rewrite <- Q. symmetry. apply ascii_N_embedding. }
    split; [reflexivity|]. split; [reflexivity|]. rewrite sapp_nil.
    destruct (xml_lex (SAfter n (a ++ [(k, v)])%list) t) as [[s2 t2]|] eqn:E; [|discriminate].
    injection H as -> <-. reflexivity.
  - destruct (lt_c c || amp_c c) eqn:L; [discriminate|]. apply orb_false_iff in L.
    destruct (xml_lex (SValue n a k (snoc v c)) t) as [[s2 t2]|] eqn:E; [|discriminate]. injection H as -> <-.
    destruct (IH _ _ _ _ _ E) as (w & u & -> & P & G). exists (String c w), u. split; [reflexivity|]. split.
    + cbn [xml_plain]. unfold plain_c. now rewrite Q, (proj1 L), (proj2 L), P.
    + cbn [app]. unfold snoc in G. rewrite sapp_assoc in G. exact G.
Qed.
(** so the token that follows an attribute that begins here has a plain value for it *)
Lemma lex_attribute : forall t n k ts n' v a' r,
  xml_lex (SValue n [] k "") t = Some (SContent, ts) -> flat_map norm ts = (XOpen n' ((k, v) :: a') :: r)%list ->
  xml_plain v = true.
Proof.
  intros t n k ts n' v a' r H N. destruct (lex_value _ _ _ _ _ _ H) as (w & u & -> & P & G).
  destruct (lex_tag _ _ _ _ _ G eq_refl) as (n2 & a2 & r2 & [->| ->]); cbn in N; injection N; intros; subst; exact P.
Qed.

Section Exact.
  Variable fmt : f64 -> string.
  Variable c : svgcfg.
  Hypothesis F : forall x, xml_plain (fmt x) = true.

  Definition style_text : string := match sv_style c with Some s => "<style>" ++ s ++ "</style>" ++ svg_nl | None => "" end.
  Definition style_nodes : list node := match sv_style c with Some s => [Elem "style" [] (chars s); newline] | None => [] end.
  Definition text_of (name : option string) (l : list feature) : string :=
    svg_header fmt c name ++ show_nodes (flat_map (feature_drawing fmt c) l) ++ svg_nl ++ "</g>" ++ svg_nl ++ "</svg>".
  Lemma style_lex : plain_style (sv_style c) ->
    xml_lex SContent style_text = Some (SContent, flat_map nt style_nodes).
  Proof.
    unfold style_text, style_nodes, plain_style. destruct (sv_style c) as [s|]; [|reflexivity]. intros S.
    rewrite lex_app. change (xml_lex SContent "<style>") with (Some (SContent, [XOpen "style" []])). cbn iota.
    rewrite lex_app, (content_lex _ S). cbn iota.
    change (xml_lex SContent ("</style>" ++ svg_nl)) with (Some (SContent, [XClose "style"; XChar (ascii_of_N 10)])).
    cbn iota. cbn [flat_map nt app]. rewrite nt_chars, <- app_assoc. reflexivity.
  Qed.
  Lemma exact : forall name l,
    parse_xml (text_of name l) = Some (document fmt c name l) <-> plain_option name /\ plain_style (sv_style c).
  Proof.
    intros name l. split.
    2: { intros [N S]. apply stands_parse. now apply document_stands. }
    intros H. destruct (parse_tokens _ _ H) as (ts & L & E).
    assert (S : plain_style (sv_style c)).
    { pose proof (norm_markup _ (lex_markup _ _ _ _ L)) as M. rewrite E in M. unfold document in M.
      destruct (sv_style c) as [s|]; [|exact I]. cbn [plain_style]. apply chars_markup. rewrite <- nt_chars.
      rewrite Forall_forall in M |- *. intros x X. apply M. cbn [flat_map nt app]. right. right.
      apply in_or_app. left. apply in_or_app. left. right. right. apply in_or_app. left.
      apply in_or_app. left. exact X. }
    split; [|exact S].
    destruct name as [n|]; [|exact I]. cbn [plain_option].
    assert (T : text_of (Some n) l =
      ("<?xml version=""1.0""?>" ++ svg_nl) ++ svg_opening fmt c ++ svg_nl ++ style_text ++ "<g id=""" ++
      (n ++ """>" ++ show_nodes (flat_map (feature_drawing fmt c) l) ++ svg_nl ++ "</g>" ++ svg_nl ++ "</svg>")).
    { unfold text_of, svg_header, svg_opening, style_text. rewrite !sapp_assoc. reflexivity. }
    rewrite T in L. clear T H.
    rewrite lex_app in L.
    change (xml_lex SContent ("<?xml version=""1.0""?>" ++ svg_nl)) with (Some (SContent, [XChar (ascii_of_N 10)])) in L.
    cbn iota in L. rewrite lex_app, (opening_lex fmt c F) in L. cbn iota in L.
    rewrite lex_app in L. change (xml_lex SContent svg_nl) with (Some (SContent, [XChar (ascii_of_N 10)])) in L.
    cbn iota in L. rewrite lex_app, (style_lex S) in L. cbn iota in L. rewrite lex_app in L.
    change (xml_lex SContent "<g id=""") with (Some (SValue "g" [] "id" "", @nil xtoken)) in L. cbn iota in L.
    match type of L with context [xml_lex (SValue _ _ _ _) ?t] =>
      destruct (xml_lex (SValue "g" [] "id" "") t) as [[s2 t2]|] eqn:E2; [|discriminate L] end.
    injection L as -> <-. cbn [app] in E. unfold document in E. cbn [flat_map norm nt app] in E.
    injection E as E. rewrite flat_map_app in E.
    assert (NN : flat_map norm (flat_map nt style_nodes) = flat_map nt style_nodes).
    { unfold style_nodes. destruct (sv_style c) as [s|]; [|reflexivity]. cbn [flat_map nt app norm].
      rewrite !flat_map_app, nt_chars. cbn [flat_map norm app]. do 2 f_equal.
      clear. f_equal. f_equal. induction s as [|x s IH]; cbn; [reflexivity|]. now f_equal. }
    rewrite NN in E. fold style_nodes in E. rewrite flat_map_app, <- !app_assoc in E. apply app_inv_head in E.
    cbn [flat_map nt app] in E. exact (lex_attribute _ _ _ _ _ _ _ _ E2 E).
  Qed.
End Exact.

Lemma svg_exact : forall fmt c gi name l, (forall x, xml_plain (fmt x) = true) ->
  Forall (fun f => match f_geom f with Some g => no_empty_point g = true | None => True end) l ->
  exists t, feed (svg_writer fmt c)
              (OEv (DatasetBegin name) :: flat_mapi (fun i f => feature_obs false i (gi i) f) 0 l ++ [OEv DatasetEnd])%list ""
            = (t, Ok tt) /\
    (parse_xml t = Some (document fmt c name l) <-> plain_option name /\ plain_style (sv_style c)).
Proof.
  intros fmt c gi name l F E. eexists. split; [apply dataset_feed; exact E|]. exact (exact fmt c F name l).
Qed.
