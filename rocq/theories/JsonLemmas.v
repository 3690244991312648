(** Facts about the reference parser of JsonSpec.v: values of composed texts. *)
From Coq Require Import String Ascii.
From Coq Require Import List NArith ZArith Lia Bool.
From Verif Require Import JsonSpec.
Import ListNotations.
Local Open Scope string_scope.
Local Open Scope list_scope.

Lemma sapp_assoc : forall a b c : string, ((a ++ b) ++ c = a ++ b ++ c)%string.
Proof. induction a as [|x a IH]; intros; cbn; [reflexivity|now rewrite IH]. Qed.
Lemma sapp_nil : forall a : string, (a ++ "" = a)%string.
Proof. induction a as [|x a IH]; cbn; [reflexivity|now rewrite IH]. Qed.

(** ** Lexer *)
Lemma lex_run_app : forall a b s,
  lex_run (a ++ b) s = match lex_run a s with Some s' => lex_run b s' | None => None end.
Proof.
  induction a as [|c a IH]; intros b s; cbn [lex_run append]; [reflexivity|].
  destruct (lex_step s c); [apply IH|reflexivity].
Qed.

Definition shift (p : list token) (s : lstate) : lstate := (p ++ fst s, snd s).
Lemma flush_shift : forall p s, flush (shift p s) = option_map (app p) (flush s).
Proof.
  intros p [ts m]. destruct m; cbn; try reflexivity.
  destruct (classify w); cbn; [now rewrite app_assoc|reflexivity].
Qed.
Lemma idle_shift : forall p ts c, idle_step (p ++ ts) c = shift p (idle_step ts c).
Proof.
  intros. unfold idle_step, shift. destruct (is_space c), (is_punct c), (is_quote c); cbn;
  rewrite ?app_assoc; reflexivity.
Qed.
Lemma step_shift : forall p s c, lex_step (shift p s) c = option_map (shift p) (lex_step s c).
Proof.
  intros p [ts m] c. destruct m; cbn [lex_step shift fst snd option_map].
  - now rewrite idle_shift.
  - destruct (is_word c); [reflexivity|].
    change (p ++ ts, LWord w) with (shift p (ts, LWord w)). rewrite flush_shift.
    destruct (flush (ts, LWord w)); cbn [option_map]; [now rewrite idle_shift|reflexivity].
  - destruct (is_quote c); [cbn; unfold shift; cbn; now rewrite app_assoc|].
    destruct (is_backslash c); [reflexivity|]. destruct (is_control c); reflexivity.
  - destruct (escaped c); [reflexivity|]. destruct (Ascii.eqb c "u"); reflexivity.
  - destruct (hex_value c) as [d|]; [|reflexivity]. cbn zeta.
    destruct k as [|[|[|[|k]]]]; try reflexivity. destruct (hex_done _ _ _); reflexivity.
  - destruct (is_backslash c); reflexivity.
  - destruct (Ascii.eqb c "u"); reflexivity.
Qed.
Lemma run_shift : forall t p s, lex_run t (shift p s) = option_map (shift p) (lex_run t s).
Proof.
  induction t as [|c t IH]; intros p s; cbn [lex_run]; [reflexivity|].
  rewrite step_shift. destruct (lex_step s c); cbn [option_map]; [apply IH|reflexivity].
Qed.

(** [t] is a complete sequence of tokens, the last one possibly ended by what follows *)
Definition lexes (t : string) (ts : list token) : Prop := lex t = Some ts.
(** the last token is ended *)
Definition lexes0 (t : string) (ts : list token) : Prop := lex_run t ([], LIdle) = Some (ts, LIdle).

Lemma lexes0_lexes : forall t ts, lexes0 t ts -> lexes t ts.
Proof. intros t ts H. unfold lexes, lex. now rewrite H. Qed.

Lemma run_tokens : forall t ts p, lexes0 t ts -> lex_run t (p, LIdle) = Some (p ++ ts, LIdle).
Proof.
  intros t ts p H. change (p, LIdle) with (shift p ([], LIdle)) at 1 || idtac.
  replace (p, LIdle) with (shift p ([], LIdle)) by (unfold shift; cbn; now rewrite app_nil_r).
  rewrite run_shift, H. reflexivity.
Qed.

Lemma lexes_app : forall a b ta tb, lexes0 a ta -> lexes b tb -> lexes (a ++ b) (ta ++ tb).
Proof.
  intros a b ta tb Ha Hb. unfold lexes, lex in *. rewrite lex_run_app, Ha.
  replace (ta, LIdle) with (shift ta ([], LIdle)) by (unfold shift; cbn; now rewrite app_nil_r).
  rewrite run_shift. destruct (lex_run b ([], LIdle)) as [s|]; [|discriminate].
  cbn [option_map]. rewrite flush_shift, Hb. reflexivity.
Qed.
Lemma lexes0_app : forall a b ta tb, lexes0 a ta -> lexes0 b tb -> lexes0 (a ++ b) (ta ++ tb).
Proof.
  intros a b ta tb Ha Hb. unfold lexes0 in *. rewrite lex_run_app, Ha. now apply run_tokens.
Qed.

(** [t] starts with a character that ends a word *)
Definition ends_word (t : string) : bool := match t with String c _ => negb (is_word c) | "" => false end.

Lemma flush_step : forall s ts c, flush s = Some ts -> is_word c = false ->
  lex_step s c = Some (idle_step ts c).
Proof.
  intros [t m] ts c H W. destruct m; cbn in *; try discriminate.
  - injection H as ->. reflexivity.
  - rewrite W, H. reflexivity.
Qed.
Lemma lexes0_after : forall a b ta tb, lexes a ta -> ends_word b = true -> lexes0 b tb -> lexes0 (a ++ b) (ta ++ tb).
Proof.
  intros a b ta tb Ha E Hb. unfold lexes, lex, lexes0 in *. rewrite lex_run_app.
  destruct (lex_run a ([], LIdle)) as [s|]; [|discriminate].
  destruct b as [|c b]; [discriminate|]. cbn [ends_word] in E. apply negb_true_iff in E.
  cbn [lex_run] in *. rewrite (flush_step _ _ _ Ha E).
  assert (X : lex_run (String c b) (ta, LIdle) = Some (ta ++ tb, LIdle)) by (apply run_tokens; exact Hb).
  cbn [lex_run] in X. destruct (lex_step (ta, LIdle) c) eqn:Y; [|discriminate].
  cbn [lex_step] in Y. injection Y as <-. exact X.
Qed.
Lemma lexes_after : forall a b ta tb, lexes a ta -> ends_word b = true -> lexes b tb -> lexes (a ++ b) (ta ++ tb).
Proof.
  intros a b ta tb Ha E Hb. unfold lexes, lex in *. rewrite lex_run_app.
  destruct (lex_run a ([], LIdle)) as [s|]; [|discriminate].
  destruct b as [|c b]; [discriminate|]. cbn [ends_word] in E. apply negb_true_iff in E.
  cbn [lex_run] in *. rewrite (flush_step _ _ _ Ha E).
  assert (X : lex_run (String c b) (shift ta ([], LIdle)) = option_map (shift ta) (lex_run (String c b) ([], LIdle)))
    by apply run_shift.
  cbn [lex_run] in X. unfold shift at 1 in X. cbn [fst snd] in X. rewrite app_nil_r in X.
  cbn [lex_step] in X, Hb |- *. rewrite X.
  destruct (lex_run b (idle_step [] c)) as [s'|]; [|discriminate].
  cbn [option_map]. rewrite flush_shift, Hb. reflexivity.
Qed.

(** words *)
Fixpoint all_word (t : string) : bool := match t with "" => true | String c r => is_word c && all_word r end.
Lemma word_run : forall t ts w, all_word t = true -> lex_run t (ts, LWord w) = Some (ts, LWord (w ++ t)).
Proof.
  induction t as [|c t IH]; intros ts w H; cbn [lex_run]; [now rewrite sapp_nil|].
  cbn [all_word] in H. apply andb_true_iff in H. destruct H as [Hc Ht].
  cbn [lex_step]. rewrite Hc, IH by exact Ht. unfold snoc. now rewrite sapp_assoc.
Qed.
Lemma word_lexes : forall t k, t <> "" -> all_word t = true -> classify t = Some k -> lexes t [k].
Proof.
  intros [|c t] k N W C; [congruence|]. unfold lexes, lex. cbn [lex_run lex_step].
  pose proof W as W0. cbn [all_word] in W. apply andb_true_iff in W. destruct W as [Wc Wt].
  unfold idle_step. unfold is_word in Wc. apply andb_true_iff in Wc. destruct Wc as [Wc Wq].
  apply andb_true_iff in Wc. destruct Wc as [Ws Wp].
  apply negb_true_iff in Ws, Wp, Wq. rewrite Ws, Wp, Wq, word_run by exact Wt.
  cbn [flush append]. rewrite C. reflexivity.
Qed.

Lemma num_char : forall s c s', num_step s c = Some s' -> is_word c = true.
Proof.
  intros s c s' H.
  assert (D : (is_digit c || N.eqb (code c) 46 || N.eqb (code c) 101 || N.eqb (code c) 69 ||
               N.eqb (code c) 45 || N.eqb (code c) 43 || N.eqb (code c) 48) = true).
  { unfold num_step in H.
    destruct (is_digit c), (N.eqb (code c) 46), (N.eqb (code c) 101), (N.eqb (code c) 69),
      (N.eqb (code c) 45), (N.eqb (code c) 43), (N.eqb (code c) 48); try reflexivity.
    exfalso. destruct s; discriminate H. }
  clear H. revert D. destruct c as [[] [] [] [] [] [] [] []]; vm_compute; auto.
Qed.
Lemma num_word : forall t s, num_run s t = true -> all_word t = true.
Proof.
  induction t as [|c t IH]; intros s H; cbn in *; [reflexivity|].
  destruct (num_step s c) as [s'|] eqn:E; [|discriminate].
  rewrite (num_char _ _ _ E). cbn. now apply (IH s').
Qed.
Lemma classify_num : forall t, json_number t = true -> classify t = Some (KNum t).
Proof.
  intros t H. unfold classify.
  destruct (String.eqb t "true") eqn:E1; [apply String.eqb_eq in E1; subst; discriminate|].
  destruct (String.eqb t "false") eqn:E2; [apply String.eqb_eq in E2; subst; discriminate|].
  destruct (String.eqb t "null") eqn:E3; [apply String.eqb_eq in E3; subst; discriminate|].
  now rewrite H.
Qed.
Lemma num_lexes : forall t, json_number t = true -> lexes t [KNum t].
Proof.
  intros t H. apply word_lexes; [intros ->; discriminate|now apply (num_word t NStart)|now apply classify_num].
Qed.

(** strings *)
(** quotes escaped *)
Fixpoint esc_quotes (t : string) : string :=
  match t with
  | "" => ""
  | String c r => if is_quote c then String "\" (String """" (esc_quotes r)) else String c (esc_quotes r)
  end.

Lemma quote_code : forall c, is_quote c = true -> c = """"%char.
Proof. intros c. destruct c as [[] [] [] [] [] [] [] []]; vm_compute; congruence. Qed.

Lemma esc_run : forall t ts acc, plain_text t = true ->
  lex_run (esc_quotes t) (ts, LStr acc) = Some (ts, LStr (acc ++ t)).
Proof.
  induction t as [|c t IH]; intros ts acc H; cbn [esc_quotes lex_run plain_text] in *; [now rewrite sapp_nil|].
  apply andb_true_iff in H. destruct H as [H Ht]. apply andb_true_iff in H. destruct H as [Hb Hc].
  apply negb_true_iff in Hb, Hc.
  destruct (is_quote c) eqn:Q.
  - apply quote_code in Q. subst c. cbn [lex_run lex_step].
    change (is_quote "\") with false. change (is_backslash "\") with true. cbn iota.
    cbn [lex_step]. change (escaped """") with (Some """"%char). cbn iota. rewrite IH by exact Ht.
    unfold snoc. now rewrite sapp_assoc.
  - cbn [lex_run lex_step]. rewrite Q, Hb, Hc, IH by exact Ht. unfold snoc. now rewrite sapp_assoc.
Qed.

Definition quoted (t : string) : string := String """" (t ++ String """" "").
Lemma quoted_lexes : forall t, plain_text t = true -> lexes0 (quoted (esc_quotes t)) [KStr t].
Proof.
  intros t H. unfold lexes0, quoted. cbn [lex_run lex_step].
  change (idle_step [] """") with (@nil token, LStr ""). rewrite lex_run_app, esc_run by exact H.
  reflexivity.
Qed.

(** ** Grammar *)
Lemma pda_app : forall a b s,
  pda_run (a ++ b) s = match pda_run a s with Some s' => pda_run b s' | None => None end.
Proof.
  induction a as [|t a IH]; intros b s; cbn [pda_run app]; [reflexivity|].
  destruct (pda_step s t); [apply IH|reflexivity].
Qed.

(** [ts] are the tokens of the value [v], wherever a value may stand *)
Definition parses (ts : list token) (v : json) : Prop :=
  forall m st, m = MValue \/ m = MFirst -> pda_run ts (m, st) = Some (attach v st).

Definition lift (e : list frame) (s : pstate) : pstate :=
  match s with
  | (MEnd v, _) => attach v e
  | (m, st) => (m, st ++ e)
  end.
Definition inner (s : pstate) : Prop :=
  match fst s with
  | MEnd _ => snd s = []
  | MValue => True
  | _ => snd s <> []
  end.

Lemma attach_lift : forall v st e, lift e (attach v st) = attach v (st ++ e).
Proof. intros v [|[l|l k] st] e; reflexivity. Qed.
Lemma attach_inner : forall v st, inner (attach v st).
Proof. intros v [|[l|l k] st]; cbn; congruence. Qed.

Lemma close_lift : forall st t e s', close_step st t = Some s' ->
  close_step (st ++ e) t = Some (lift e s') /\ inner s'.
Proof.
  intros [|[l|l k] st] t e s' H; cbn in H; try discriminate; destruct t as [c| | | | |]; try discriminate;
  destruct c as [[] [] [] [] [] [] [] []]; try discriminate; injection H as <-; cbn [close_step app];
  rewrite attach_lift; split; [reflexivity|apply attach_inner|reflexivity|apply attach_inner].
Qed.
Lemma value_lift : forall st t e s', value_step st t = Some s' ->
  value_step (st ++ e) t = Some (lift e s') /\ inner s'.
Proof.
  intros st t e s' H. destruct t as [c| | | | |]; cbn [value_step] in *;
  try (injection H as <-; rewrite attach_lift; split; [reflexivity|apply attach_inner]).
  destruct c as [[] [] [] [] [] [] [] []]; try discriminate; injection H as <-; split; try reflexivity; discriminate.
Qed.
Lemma key_lift : forall st t e s', key_step st t = Some s' ->
  key_step (st ++ e) t = Some (lift e s') /\ inner s'.
Proof.
  intros [|[l|l k] st] t e s' H; cbn in H; try discriminate. destruct t; try discriminate.
  injection H as <-. split; [reflexivity|discriminate].
Qed.
Lemma close_value : forall st t s', close_step st t = Some s' -> value_step st t = None.
Proof.
  intros st t s' H. destruct t as [c| | | | |]; destruct st as [|[l|l k] st]; cbn in *; try discriminate;
  destruct c as [[] [] [] [] [] [] [] []]; try discriminate; reflexivity.
Qed.
Lemma close_none : forall a st t e, close_step (a :: st) t = None -> close_step ((a :: st) ++ e) t = None.
Proof.
  intros [l|l k] st t e H; destruct t as [c| | | | |]; cbn in *; try reflexivity;
  destruct c as [[] [] [] [] [] [] [] []]; try discriminate; reflexivity.
Qed.

Lemma step_lift : forall s t e s', inner s -> pda_step s t = Some s' ->
  pda_step (lift e s) t = Some (lift e s') /\ inner s'.
Proof.
  intros [m st] t e s' I H. destruct m; cbn [pda_step lift] in *.
  - now apply value_lift.
  - destruct st as [|a st]; [cbn in I; congruence|].
    destruct (close_step (a :: st) t) eqn:E.
    + injection H as <-. destruct (close_lift _ _ e _ E) as [E' I']. rewrite E'. auto.
    + rewrite (close_none _ _ _ _ E). now apply value_lift.
  - now apply key_lift.
  - destruct st as [|a st]; [cbn in I; congruence|].
    destruct (close_step (a :: st) t) eqn:E.
    + injection H as <-. destruct (close_lift _ _ e _ E) as [E' I']. rewrite E'. auto.
    + rewrite (close_none _ _ _ _ E). now apply key_lift.
  - destruct t as [c| | | | |]; try discriminate.
    destruct c as [[] [] [] [] [] [] [] []]; try discriminate. injection H as <-. split; [reflexivity|exact Logic.I].
  - destruct st as [|a st]; [cbn in I; congruence|].
    destruct t as [c| | | | |]; try (now apply close_lift).
    destruct c as [[] [] [] [] [] [] [] []]; try (now apply close_lift).
    destruct a; injection H as <-; (split; [reflexivity|cbn; try discriminate; exact Logic.I]).
  - discriminate.
Qed.
Lemma run_lift : forall ts s e s', inner s -> pda_run ts s = Some s' -> pda_run ts (lift e s) = Some (lift e s').
Proof.
  induction ts as [|t ts IH]; intros s e s' I H; cbn [pda_run] in *; [injection H as <-; reflexivity|].
  destruct (pda_step s t) as [s1|] eqn:E; [|discriminate].
  destruct (step_lift _ _ e _ I E) as [E' I']. rewrite E'. now apply IH.
Qed.

Lemma first_value : forall ts v st, pda_run ts (MValue, st) = Some (attach v st) ->
  ts <> [] -> (forall t r, ts = t :: r -> value_step st t <> None -> close_step st t = None) -> 
  pda_run ts (MFirst, st) = Some (attach v st).
Proof.
  intros [|t ts] v st H N C; [congruence|]. cbn [pda_run pda_step] in *.
  rewrite (C t ts eq_refl); [exact H|]. destruct (value_step st t); congruence.
Qed.
Lemma value_close : forall st t, value_step st t <> None -> close_step st t = None.
Proof.
  intros st t H. destruct (close_step st t) eqn:E; [|reflexivity].
  apply close_value in E. congruence.
Qed.

(** a text that parses on its own has its value everywhere *)
Lemma parse_parses : forall ts v, pda_run ts (MValue, []) = Some (MEnd v, []) -> parses ts v.
Proof.
  intros ts v H m st M. pose proof (run_lift ts (MValue, []) st (MEnd v, []) Logic.I H) as R.
  cbn [lift app] in R. destruct M as [-> | ->]; [exact R|].
  apply first_value; [exact R|intros ->; discriminate|intros; now apply value_close].
Qed.

(** [t] is a text of the value [v] wherever a value may stand *)
Definition denotes (t : string) (v : json) : Prop := exists ts, lexes t ts /\ parses ts v.

Lemma denotes_parse : forall t v, denotes t v -> parse_json t = Some v.
Proof.
  intros t v (ts & L & P). unfold parse_json. unfold lexes in L. rewrite L.
  rewrite (P MValue []) by now left. reflexivity.
Qed.
Lemma parse_denotes : forall t v, parse_json t = Some v -> denotes t v.
Proof.
  intros t v H. unfold parse_json in H. destruct (lex t) as [ts|] eqn:L; [|discriminate].
  exists ts. split; [exact L|]. apply parse_parses.
  destruct (pda_run ts (MValue, [])) as [[[]  [|]]|]; try discriminate. injection H as ->. reflexivity.
Qed.

Lemma denotes_num : forall t, json_number t = true -> denotes t (JNum t).
Proof.
  intros t H. exists [KNum t]. split; [now apply num_lexes|].
  intros m st [-> | ->]; cbn [pda_run pda_step value_step]; [reflexivity|].
  destruct st as [|[]]; reflexivity.
Qed.
Lemma denotes_str : forall t, plain_text t = true -> denotes (quoted (esc_quotes t)) (JStr t).
Proof.
  intros t H. exists [KStr t]. split; [now apply lexes0_lexes, quoted_lexes|].
  intros m st [-> | ->]; cbn [pda_run pda_step value_step]; [reflexivity|].
  destruct st as [|[]]; reflexivity.
Qed.

(** arrays: [sep] is a comma and spaces *)
Definition joins (sep : string) : Prop := lexes0 sep [KPunct ","] /\ ends_word sep = true.

Definition sep_all (sep : string) (l : list string) : string := fold_right (fun t r => (sep ++ t ++ r)%string) "" l.
Definition concat_sep (sep : string) (l : list string) : string :=
  match l with
  | [] => ""
  | t :: r => t ++ sep_all sep r
  end.

Section Rest.
  Variable sep : string.
  Hypothesis J : joins sep.

  (** items after the first: tokens with leading commas *)
  Lemma rest_lexes : forall l vs close, Forall2 denotes l vs -> ends_word close = true ->
    forall tc, lexes0 close tc ->
    exists ts, lexes0 (sep_all sep l ++ close) (ts ++ tc) /\ ends_word (sep_all sep l ++ close) = true /\
      forall done st, pda_run ts (MAfter, FArr done :: st) = Some (MAfter, FArr (done ++ vs) :: st).
  Proof.
    intros l vs close F E tc C. induction F as [|t v l vs H F IH].
    { exists []. cbn [sep_all fold_right append app]. repeat split; [exact C|exact E|].
      intros. cbn. now rewrite app_nil_r. }
    destruct IH as (ts & L & B & P). destruct H as (tv & Lv & Pv). destruct J as [Js Jw].
    exists (KPunct "," :: tv ++ ts). cbn [sep_all fold_right]. fold (sep_all sep l). repeat split.
    - rewrite !sapp_assoc. change ((KPunct "," :: tv ++ ts) ++ tc) with ([KPunct ","] ++ (tv ++ ts) ++ tc).
      apply lexes0_app; [exact Js|]. rewrite <- app_assoc. now apply lexes0_after.
    - destruct sep; [discriminate|]. exact Jw.
    - intros done st. cbn [pda_run pda_step]. rewrite pda_app, (Pv MValue) by now left.
      cbn [attach]. rewrite P, <- app_assoc. reflexivity.
  Qed.
End Rest.

Lemma denotes_arr : forall opn sep close l vs, Forall2 denotes l vs -> joins sep ->
  lexes0 opn [KPunct "["] -> lexes0 close [KPunct "]"] -> ends_word close = true ->
  denotes (opn ++ concat_sep sep l ++ close) (JArr vs).
Proof.
  intros opn sep close l vs F J O C E. destruct F as [|t v l vs H F].
  { exists [KPunct "["; KPunct "]"]. cbn [concat_sep append]. split.
    - exact (lexes0_lexes _ _ (lexes0_app _ _ _ _ O C)).
    - intros m st [-> | ->]; cbn; [reflexivity|]. destruct st as [|[]]; reflexivity. }
  destruct (rest_lexes sep J l vs close F E _ C) as (ts & L & B & P). destruct H as (tv & Lv & Pv).
  exists ([KPunct "["] ++ tv ++ ts ++ [KPunct "]"]). cbn [concat_sep]. split.
  - apply lexes0_lexes, lexes0_app; [exact O|]. rewrite sapp_assoc. now apply lexes0_after.
  - assert (X : forall st, pda_run (tv ++ ts ++ [KPunct "]"]) (MFirst, FArr [] :: st) = Some (attach (JArr (v :: vs)) st)).
    { intros st. rewrite pda_app, (Pv MFirst) by now right. cbn [attach app]. rewrite pda_app, P. reflexivity. }
    intros m st [-> | ->]; cbn [app pda_run pda_step value_step]; [apply X|].
    destruct st as [|[]]; cbn [close_step]; apply X.
Qed.

(** objects *)
Definition member_text (k t : string) : string := quoted (esc_quotes k) ++ ": " ++ t.
Definition is_member (t : string) (p : string * json) : Prop :=
  exists tv, lexes t (KStr (fst p) :: KPunct ":" :: tv) /\ parses tv (snd p).

Lemma member_ok : forall k t v, plain_text k = true -> denotes t v -> is_member (member_text k t) (k, v).
Proof.
  intros k t v K (tv & L & P). exists tv. split; [|exact P].
  unfold member_text. change (KStr (fst (k, v)) :: KPunct ":" :: tv) with ([KStr k] ++ [KPunct ":"] ++ tv).
  apply lexes_app; [now apply quoted_lexes|]. apply lexes_app; [reflexivity|exact L].
Qed.

Lemma rest_members : forall sep l ms close tc, joins sep -> Forall2 is_member l ms -> ends_word close = true ->
  lexes0 close tc ->
  exists ts, lexes0 (sep_all sep l ++ close) (ts ++ tc) /\ ends_word (sep_all sep l ++ close) = true /\
    forall done st, exists k, pda_run ts (MAfter, FObj done "" :: st) = Some (MAfter, FObj (done ++ ms) k :: st).
Proof.
  intros sep l ms close tc J F E C. induction F as [|t [k v] l ms H F IH].
  { exists []. cbn [sep_all fold_right append app]. repeat split; [exact C|exact E|].
    intros. exists "". cbn. now rewrite app_nil_r. }
  destruct IH as (ts & L & B & P). destruct H as (tv & Lv & Pv). destruct J as [Js Jw].
  exists (KPunct "," :: (KStr k :: KPunct ":" :: tv) ++ ts). cbn [sep_all fold_right]. fold (sep_all sep l). repeat split.
  - rewrite !sapp_assoc.
    change ((KPunct "," :: (KStr k :: KPunct ":" :: tv) ++ ts) ++ tc)
      with ([KPunct ","] ++ ((KStr k :: KPunct ":" :: tv) ++ ts) ++ tc).
    apply lexes0_app; [exact Js|]. rewrite <- app_assoc. now apply lexes0_after.
  - destruct sep; [discriminate|]. exact Jw.
  - intros done st. destruct (P (done ++ [(k, v)]) st) as [k' Pk]. exists k'.
    cbn [app pda_run pda_step key_step]. rewrite pda_app. cbn [snd] in Pv.
    rewrite (Pv MValue) by now left. cbn [attach]. rewrite Pk, <- app_assoc. reflexivity.
Qed.

Lemma denotes_obj : forall opn sep close l ms, Forall2 is_member l ms -> joins sep ->
  lexes0 opn [KPunct "{"] -> lexes0 close [KPunct "}"] -> ends_word close = true ->
  denotes (opn ++ concat_sep sep l ++ close) (JObj ms).
Proof.
  intros opn sep close l ms F J O C E. destruct F as [|t [k v] l ms H F].
  { exists [KPunct "{"; KPunct "}"]. cbn [concat_sep append]. split.
    - exact (lexes0_lexes _ _ (lexes0_app _ _ _ _ O C)).
    - intros m st [-> | ->]; cbn; [reflexivity|]. destruct st as [|[]]; reflexivity. }
  destruct (rest_members sep l ms close _ J F E C) as (ts & L & B & P). destruct H as (tv & Lv & Pv).
  exists ([KPunct "{"] ++ (KStr k :: KPunct ":" :: tv) ++ ts ++ [KPunct "}"]). cbn [concat_sep]. split.
  - apply lexes0_lexes, lexes0_app; [exact O|]. rewrite sapp_assoc. now apply lexes0_after.
  - assert (X : forall st, pda_run ((KStr k :: KPunct ":" :: tv) ++ ts ++ [KPunct "}"]) (MFirstKey, FObj [] "" :: st)
        = Some (attach (JObj ((k, v) :: ms)) st)).
    { intros st. cbn [app pda_run pda_step close_step key_step]. rewrite pda_app. cbn [snd] in Pv.
      rewrite (Pv MValue) by now left. cbn [attach app]. rewrite pda_app.
      destruct (P [(k, v)] st) as [k' Pk]. rewrite Pk. reflexivity. }
    intros m st [-> | ->]; cbn [app pda_run pda_step value_step]; [apply X|].
    destruct st as [|[]]; cbn [close_step]; apply X.
Qed.

Lemma joins_comma : joins ",".
Proof. split; reflexivity. Qed.
Lemma joins_space : joins ", ".
Proof. split; reflexivity. Qed.
Definition newline : string := String (ascii_of_N 10) "".
Lemma joins_newline : joins ("," ++ newline).
Proof. split; reflexivity. Qed.

(** ** The parser accepts every value: printing and parsing *)
Section Print.
  Local Unset Elimination Schemes.
  Fixpoint print_json (v : json) : string :=
    match v with
    | JNull => "null"
    | JBool b => if b then "true" else "false"
    | JNum t => t
    | JStr s => quoted (esc_quotes s)
    | JArr l => "[" ++ concat_sep "," (map print_json l) ++ "]"
    | JObj l => "{" ++ concat_sep ", " (map (fun p => member_text (fst p) (print_json (snd p))) l) ++ "}"
    end.
  Fixpoint printable (v : json) : bool :=
    match v with
    | JNull | JBool _ => true
    | JNum t => json_number t
    | JStr s => plain_text s
    | JArr l => forallb printable l
    | JObj l => forallb (fun p => plain_text (fst p) && printable (snd p)) l
    end.
End Print.

Section JsonInd.
  Variable P : json -> Prop.
  Hypothesis HNull : P JNull.
  Hypothesis HBool : forall b, P (JBool b).
  Hypothesis HNum : forall t, P (JNum t).
  Hypothesis HStr : forall t, P (JStr t).
  Hypothesis HArr : forall l, Forall P l -> P (JArr l).
  Hypothesis HObj : forall l, Forall (fun p => P (snd p)) l -> P (JObj l).
  Fixpoint json_ind' (v : json) : P v :=
    match v with
    | JNull => HNull
    | JBool b => HBool b
    | JNum t => HNum t
    | JStr t => HStr t
    | JArr l => HArr l ((fix go l : Forall P l :=
        match l with [] => Forall_nil _ | a :: r => Forall_cons a (json_ind' a) (go r) end) l)
    | JObj l => HObj l ((fix go l : Forall (fun p => P (snd p)) l :=
        match l with [] => Forall_nil _ | a :: r => Forall_cons a (json_ind' (snd a)) (go r) end) l)
    end.
End JsonInd.

Lemma Forall2_map_l : forall A B (R : string -> B -> Prop) (f : A -> string) (g : A -> B) l,
  (forall a, In a l -> R (f a) (g a)) -> Forall2 R (map f l) (map g l).
Proof.
  induction l as [|a l IH]; intros H; cbn; constructor; [apply H; now left|apply IH; intros; apply H; now right].
Qed.

Lemma denotes_word : forall w k v, lexes w [k] -> (forall st, value_step st k = Some (attach v st)) -> denotes w v.
Proof.
  intros w k v L V. exists [k]. split; [exact L|].
  intros m st [-> | ->]; cbn [pda_run pda_step]; rewrite ?V; [reflexivity|].
  rewrite value_close by (rewrite V; discriminate). reflexivity.
Qed.

Lemma print_denotes : forall v, printable v = true -> denotes (print_json v) v.
Proof.
  induction v as [| |t|s|l IH|l IH] using json_ind'; intros H; cbn [printable print_json] in *.
  - apply (denotes_word _ KNull); reflexivity.
  - destruct b; [apply (denotes_word _ KTrue)|apply (denotes_word _ KFalse)]; reflexivity.
  - now apply denotes_num.
  - now apply denotes_str.
  - replace l with (map (fun v => v) l) at 2 by apply map_id.
    apply denotes_arr; try reflexivity; [|apply joins_comma].
    apply Forall2_map_l. intros a Ha. rewrite Forall_forall in IH. rewrite forallb_forall in H. auto.
  - replace l with (map (fun v => v) l) at 2 by apply map_id.
    apply denotes_obj; try reflexivity; [|apply joins_space].
    apply Forall2_map_l. intros [k a] Ha. rewrite Forall_forall in IH. rewrite forallb_forall in H.
    specialize (H _ Ha). cbn [fst snd] in *. apply andb_true_iff in H.
    apply member_ok; [apply H|apply (IH _ Ha), H].
Qed.
