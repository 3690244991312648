(** Proofs about texts between quotes that are not what they say (helper lemmas for C22). *)
From Coq Require Import String Ascii.
From Coq Require Import List NArith ZArith Lia Bool.
From Verif Require Import JsonSpec JsonLemmas.
Import ListNotations.
Local Open Scope string_scope.
Local Open Scope list_scope.

(** ** The tokens of a value *)
Definition comma : token := KPunct ",".
Definition commas (l : list (list token)) : list token :=
  match l with [] => [] | a :: r => a ++ flat_map (fun x => comma :: x) r end.
Fixpoint toks (v : json) : list token :=
  match v with
  | JNull => [KNull]
  | JBool b => [if b then KTrue else KFalse]
  | JNum t => [KNum t]
  | JStr s => [KStr s]
  | JArr l => KPunct "[" :: commas (map toks l) ++ [KPunct "]"]
  | JObj l => KPunct "{" :: commas (map (fun m => KStr (fst m) :: KPunct ":" :: toks (snd m)) l) ++ [KPunct "}"]
  end.
Definition mtoks (m : string * json) : list token := KStr (fst m) :: KPunct ":" :: toks (snd m).
Lemma toks_obj : forall l, toks (JObj l) = KPunct "{" :: commas (map mtoks l) ++ [KPunct "}"].
Proof. reflexivity. Qed.
(** [l] and a comma behind each *)
Definition trail (l : list (list token)) : list token := flat_map (fun x => x ++ [comma]) l.
Lemma commas_snoc : forall l v, commas (l ++ [v]) = trail l ++ v.
Proof.
  assert (R : forall l v a, a ++ flat_map (fun x => comma :: x) (l ++ [v]) = (a ++ [comma]) ++ trail l ++ v).
  { induction l as [|b l IH]; intros v a; cbn; [now rewrite app_nil_r, <- app_assoc|].
    rewrite <- !app_assoc. cbn. do 2 f_equal. specialize (IH v b). cbn in IH. rewrite IH. now rewrite <- !app_assoc. }
  intros [|a l] v; cbn [app commas trail flat_map]; [now rewrite app_nil_r|]. rewrite R. now rewrite <- !app_assoc.
Qed.
Lemma commas_trail : forall l, l <> [] -> commas l ++ [KPunct ","] = trail l.
Proof.
  intros l H. destruct (exists_last H) as (l' & v & ->). rewrite commas_snoc. unfold trail. rewrite flat_map_app. cbn.
  now rewrite app_nil_r, <- app_assoc.
Qed.

(** the tokens that lead to open brackets that wait for a value *)
Inductive under : list frame -> list token -> Prop :=
| under_nil : under [] []
| under_arr l r b : under r b -> under (FArr l :: r) (b ++ KPunct "[" :: trail (map toks l))
| under_obj l k r b : under r b ->
    under (FObj l k :: r) (b ++ KPunct "{" :: trail (map mtoks l) ++ [KStr k; KPunct ":"]).
Definition reached (s : pstate) (ts : list token) : Prop :=
  match s with
  | (MEnd v, []) => ts = toks v
  | (MValue, st) => under st ts
  | (MFirst, FArr [] :: r) => exists b, under r b /\ ts = b ++ [KPunct "["]
  | (MFirstKey, FObj [] _ :: r) => exists b, under r b /\ ts = b ++ [KPunct "{"]
  | (MKey, FObj l _ :: r) => exists b, under r b /\ ts = b ++ KPunct "{" :: trail (map mtoks l)
  | (MColon, FObj l k :: r) => exists b, under r b /\ ts = b ++ KPunct "{" :: trail (map mtoks l) ++ [KStr k]
  | (MAfter, FArr l :: r) => l <> [] /\ exists b, under r b /\ ts = b ++ KPunct "[" :: commas (map toks l)
  | (MAfter, FObj l _ :: r) => l <> [] /\ exists b, under r b /\ ts = b ++ KPunct "{" :: commas (map mtoks l)
  | _ => False
  end.
Lemma not_nil_snoc : forall A (l : list A) a, l ++ [a] <> []. Proof. intros A [|b l] a; discriminate. Qed.
Lemma attach_reached : forall v st b, under st b -> reached (attach v st) (b ++ toks v).
Proof.
  intros v st b U. destruct U as [|l r b U|l k r b U]; cbn [attach reached].
  - reflexivity.
  - split; [apply not_nil_snoc|]. exists b. split; [exact U|]. rewrite map_app. cbn [map]. rewrite commas_snoc, <- !app_assoc. reflexivity.
  - split; [apply not_nil_snoc|]. exists b. split; [exact U|]. rewrite map_app. cbn [map]. rewrite commas_snoc, <- !app_assoc.
    cbn [app]. rewrite <- app_assoc. reflexivity.
Qed.
Lemma value_reached : forall st t s b, value_step st t = Some s -> under st b -> reached s (b ++ [t]).
Proof.
  intros st t s b E U. destruct t as [c|x|x| | |]; cbn [value_step] in E.
  2: injection E as <-; exact (attach_reached (JStr x) st b U).
  2: injection E as <-; exact (attach_reached (JNum x) st b U).
  2: injection E as <-; exact (attach_reached (JBool true) st b U).
  2: injection E as <-; exact (attach_reached (JBool false) st b U).
  2: injection E as <-; exact (attach_reached JNull st b U).
  destruct c as [[] [] [] [] [] [] [] []]; try discriminate; injection E as <-; exists b; split; exact U || reflexivity.
Qed.
Lemma pda_reached : forall ts s s' b, pda_run ts s = Some s' -> reached s b -> reached s' (b ++ ts).
Proof.
  induction ts as [|t ts IH]; intros s s' b E R; cbn [pda_run] in E.
  - injection E as <-. now rewrite app_nil_r.
  - destruct (pda_step s t) as [s1|] eqn:P; [|discriminate].
    replace (b ++ t :: ts) with ((b ++ [t]) ++ ts) by (rewrite <- app_assoc; reflexivity).
    apply (IH s1); [exact E|]. clear IH E ts s'.
    destruct s as [m st]. destruct m; cbn [pda_step] in P; cbn [reached] in R.
    + exact (value_reached st t s1 b P R).
    + destruct st as [|[[|v l]|l k] r]; try contradiction. destruct R as (b' & U & ->).
      destruct (close_step (FArr [] :: r) t) as [s2|] eqn:C.
      * injection P as <-. destruct t as [c|x|x| | |]; try discriminate.
        destruct c as [[] [] [] [] [] [] [] []]; try discriminate. injection C as <-.
        rewrite <- app_assoc. exact (attach_reached (JArr []) r b' U).
      * apply (value_reached _ _ _ _ P). apply (under_arr [] r b' U).
    + destruct st as [|[l|l k] r]; try contradiction. destruct R as (b' & U & ->).
      destruct t as [c|x|x| | |]; try discriminate. cbn [key_step] in P. injection P as <-.
      exists b'. split; [exact U|]. rewrite <- app_assoc. reflexivity.
    + destruct st as [|[l|[|v l] k] r]; try contradiction. destruct R as (b' & U & ->).
      destruct (close_step (FObj [] k :: r) t) as [s2|] eqn:C.
      * injection P as <-. destruct t as [c|x|x| | |]; try discriminate.
        destruct c as [[] [] [] [] [] [] [] []]; try discriminate. injection C as <-.
        rewrite <- app_assoc. exact (attach_reached (JObj []) r b' U).
      * destruct t as [c|x|x| | |]; try discriminate. cbn [key_step] in P. injection P as <-.
        exists b'. split; [exact U|]. rewrite <- app_assoc. reflexivity.
    + destruct st as [|[l|l k] r]; try contradiction. destruct R as (b' & U & ->).
      destruct t as [c|x|x| | |]; try discriminate. destruct c as [[] [] [] [] [] [] [] []]; try discriminate.
      injection P as <-. cbn [reached]. rewrite <- app_assoc. cbn [app]. rewrite <- app_assoc. exact (under_obj l k r b' U).
    + destruct st as [|[l|l k] r]; try contradiction; destruct R as (N & b' & U & ->);
        destruct t as [c|x|x| | |]; try discriminate; destruct c as [[] [] [] [] [] [] [] []]; try discriminate;
        injection P as <-; rewrite <- app_assoc; cbn [app].
      * exact (attach_reached (JArr l) r b' U).
      * rewrite commas_trail by (destruct l; [contradiction|discriminate]). exact (under_arr l r b' U).
      * exact (attach_reached (JObj l) r b' U).
      * rewrite commas_trail by (destruct l; [contradiction|discriminate]). exists b'. split; [exact U|reflexivity].
    + discriminate.
Qed.
(** a value is read from its own tokens only *)
Lemma pda_toks : forall ts v, pda_run ts (MValue, []) = Some (MEnd v, []) -> ts = toks v.
Proof. intros ts v E. exact (pda_reached ts _ _ [] E under_nil). Qed.
Lemma parse_toks : forall t v, parse_json t = Some v -> lex t = Some (toks v).
Proof.
  intros t v E. unfold parse_json in E. destruct (lex t) as [ts|]; [|discriminate]. f_equal.
  destruct (pda_run ts (MValue, [])) as [[[] [|]]|] eqn:P; try discriminate. injection E as ->. now apply pda_toks.
Qed.

(** ** Texts between quotes *)
Lemma slength_app : forall a b : string, String.length (a ++ b) = (String.length a + String.length b)%nat.
Proof. induction a as [|c a IH]; intros b; cbn; [reflexivity|]. now rewrite IH. Qed.
Lemma slength_snoc : forall a c, String.length (snoc a c) = S (String.length a).
Proof. intros. unfold snoc. rewrite slength_app. cbn. lia. Qed.
Lemma utf8_short : forall n, (String.length (utf8 n) <= 4)%nat.
Proof. intros n. unfold utf8. destruct (n <? 128)%N; [cbn; lia|]. destruct (n <? 2048)%N; [cbn; lia|]. destruct (n <? 65536)%N; cbn; lia. Qed.
Lemma snoc_inj : forall a b c d, snoc a c = snoc b d -> c = d.
Proof.
  induction a as [|x a IH]; intros [|y b] c d E; cbn in E.
  - now injection E.
  - injection E as _ E. destruct b; discriminate.
  - injection E as _ E. destruct a; discriminate.
  - injection E as _ E. exact (IH b c d E).
Qed.
Fixpoint unquoted (t : string) : bool :=
  match t with "" => true | String c r => negb (is_quote c) && unquoted r end.

Section Between.
  (** are quotes written with a backslash? *)
  Variable esc : bool.
  Definition written (c : ascii) : string := if esc && is_quote c then "\""" else String c "".
  Fixpoint texts (t : string) : string := match t with "" => "" | String c r => written c ++ texts r end.
  Definition good (t : string) : bool := plain_text t && (esc || unquoted t).
  (** what the lexer knows after the text [u] *)
  Definition knows (u : string) (m : lmode) : Prop :=
    match m with
    | LStr acc => (acc = u /\ good u = true) \/ (String.length acc < String.length u)%nat
    | LEsc acc => (String.length acc < String.length u)%nat /\ exists u', u = snoc u' "\"
    | LHex acc None k _ => (String.length acc + 2 + k <= String.length u /\ k <= 3)%nat
    | LHex acc (Some _) k _ => (String.length acc + 8 + k <= String.length u /\ k <= 3)%nat
    | LSur acc _ => (String.length acc + 6 <= String.length u)%nat
    | LSurEsc acc _ => (String.length acc + 7 <= String.length u)%nat
    | _ => False
    end.
  Lemma plain_snoc : forall u c, plain_text (snoc u c) = plain_text u && (negb (is_backslash c) && negb (is_control c)).
  Proof. induction u as [|x u IH]; intros c; cbn [snoc append plain_text]; [now rewrite andb_true_r|]. fold (snoc u c). rewrite IH. now rewrite !andb_assoc. Qed.
  Lemma unquoted_snoc : forall u c, unquoted (snoc u c) = unquoted u && negb (is_quote c).
  Proof. induction u as [|x u IH]; intros c; cbn [snoc append unquoted]; [now rewrite andb_true_r|]. fold (snoc u c). rewrite IH. now rewrite andb_assoc. Qed.
  Lemma str_add : forall u acc c, knows u (LStr acc) -> is_backslash c = false -> is_control c = false ->
    (esc = false -> is_quote c = false) -> knows (snoc u c) (LStr (snoc acc c)).
  Proof.
    intros u acc c [[-> G]|L] B C Q; [left|right; rewrite !slength_snoc; lia]. split; [reflexivity|].
    unfold good in *. rewrite plain_snoc, unquoted_snoc, B, C. apply andb_true_iff in G. destruct G as [-> G].
    destruct esc; [reflexivity|]. cbn in *. rewrite G, Q by reflexivity. reflexivity.
  Qed.
  Lemma str_length : forall u acc, knows u (LStr acc) -> (String.length acc <= String.length u)%nat.
  Proof. intros u acc [[-> _]|L]; lia. Qed.
  (** the result of one character of the text *)
  Definition went (u : string) (c : ascii) (o : option lstate) : Prop :=
    match o with
    | None => True
    | Some ([], m) => knows (snoc u c) m
    | Some ([KStr s], LIdle) => (String.length s <= String.length u)%nat
    | _ => False
    end.
  Lemma quote_eq : forall c, is_quote c = true -> c = """"%char.
  Proof. exact quote_code. Qed.
  Lemma backslash_eq : forall c, is_backslash c = true -> c = "\"%char.
  Proof. intros c H. unfold is_backslash, code in H. apply N.eqb_eq in H. rewrite <- (ascii_N_embedding c), H. reflexivity. Qed.
  Lemma one_char : forall u m c, knows u m -> went u c (lex_run (written c) ([], m)).
  Proof.
    intros u m c K. unfold written. destruct (is_quote c) eqn:Q.
    - apply quote_eq in Q. subst c. destruct esc eqn:E; cbn [andb].
      + destruct m as [|w|acc|acc|acc hi k v|acc hi|acc hi]; try contradiction.
        * cbn -[knows]. apply (str_add u acc """"%char K); try reflexivity. intros F. congruence.
        * cbn -[knows]. fold (snoc acc "\"). rewrite slength_snoc. destruct K as [K _]. lia.
        * cbn. exact I.
        * cbn. exact I.
        * cbn. exact I.
      + destruct m as [|w|acc|acc|acc hi k v|acc hi|acc hi]; try contradiction.
        * cbn. exact (str_length u acc K).
        * cbn -[knows]. right. rewrite !slength_snoc. destruct K as [K _]. lia.
        * cbn. exact I.
        * cbn. exact I.
        * cbn. exact I.
    - rewrite andb_false_r. cbn [lex_run]. destruct m as [|w|acc|acc|acc hi k v|acc hi|acc hi]; try contradiction; cbn [lex_step].
      + rewrite Q. destruct (is_backslash c) eqn:B.
        * apply backslash_eq in B. subst c. cbn [went knows]. split; [rewrite slength_snoc; pose proof (str_length u acc K); lia|now exists u].
        * destruct (is_control c) eqn:C; [exact I|]. exact (str_add u acc c K B C (fun _ => Q)).
      + destruct K as [K _]. destruct (escaped c) as [d|].
        * cbn [went knows]. right. rewrite !slength_snoc. lia.
        * destruct (Ascii.eqb c "u"); [|exact I]. cbn [went knows]. rewrite slength_snoc. lia.
      + destruct (hex_value c) as [d|]; [|exact I]. set (v' := (v * 16 + d)%N).
        destruct hi as [h|].
        * destruct K as [K1 K2]. destruct k as [|[|[|[|k]]]]; [cbn [went knows]; rewrite slength_snoc; lia| | | |lia].
          1,2: cbn [went knows]; rewrite slength_snoc; lia.
          unfold hex_done. destruct ((56320 <=? v') && (v' <? 57344))%N; [|exact I]. cbn [went knows]. right.
          rewrite slength_snoc, slength_app. pose proof (utf8_short (65536 + (h - 55296) * 1024 + (v' - 56320))%N). lia.
        * destruct K as [K1 K2]. destruct k as [|[|[|[|k]]]]; [cbn [went knows]; rewrite slength_snoc; lia| | | |lia].
          1,2: cbn [went knows]; rewrite slength_snoc; lia.
          unfold hex_done. destruct ((55296 <=? v') && (v' <? 56320))%N; [cbn [went knows]; rewrite slength_snoc; lia|].
          destruct ((56320 <=? v') && (v' <? 57344))%N; [exact I|]. cbn [went knows]. right.
          rewrite slength_snoc, slength_app. pose proof (utf8_short v'). lia.
      + destruct (is_backslash c); [|exact I]. cbn [knows] in K. cbn [went knows]. rewrite slength_snoc. lia.
      + destruct (Ascii.eqb c "u"); [|exact I]. cbn [knows] in K. cbn [went knows]. rewrite slength_snoc. lia.
  Qed.

  (** the string a text and what follows begins with is not [t] *)
  Definition other (t : string) (o : option lstate) : Prop :=
    match o with
    | None => True
    | Some s => forall ts, flush s = Some ts -> exists s rest, ts = KStr s :: rest /\ (s = t -> good t = true)
    end.
  (** what follows the closing quote; [acc]: the text if that quote is not taken for a closing one *)
  Definition follows (tail : string) : Prop := forall acc,
    match lex_run tail ([], LStr acc) with
    | None => True
    | Some s => forall ts, flush s = Some ts -> exists a c rest, ts = KStr (snoc a c) :: rest /\ c <> "\"%char
    end.
  Lemma closed : forall t s r, (s = t -> good t = true) -> other t (lex_run r ([KStr s], LIdle)).
  Proof.
    intros t s r H. change ([KStr s], LIdle) with (shift [KStr s] ([], LIdle)). rewrite run_shift.
    destruct (lex_run r ([], LIdle)) as [q|]; [|exact I]. intros ts F. cbn [option_map] in F.
    rewrite flush_shift in F. destruct (flush q) as [ts'|]; [|discriminate]. injection F as <-. exists s, ts'. split; [reflexivity|exact H].
  Qed.
  Lemma snoc_app : forall u c r, (snoc u c ++ r = u ++ String c r)%string.
  Proof. intros. unfold snoc. rewrite sapp_assoc. reflexivity. Qed.
  Lemma between : forall tail, follows tail -> forall r u m, knows u m ->
    other (u ++ r) (lex_run (texts r ++ String """" tail) ([], m)).
  Proof.
    intros tail T. induction r as [|c r IH]; intros u m K.
    - rewrite sapp_nil. cbn [texts append lex_run]. destruct m as [|w|acc|acc|acc hi k v|acc hi|acc hi]; try contradiction.
      + cbn [lex_step is_quote]. change (is_quote """") with true. cbn iota. apply closed. intros ->.
        destruct K as [[_ G]|L]; [exact G|lia].
      + cbn [lex_step escaped]. destruct K as [_ [u' ->]]. specialize (T (snoc acc """")).
        destruct (lex_run tail ([], LStr (snoc acc """"))) as [q|]; [|exact I]. intros ts F.
        destruct (T ts F) as (a & c & rest & -> & C). exists (snoc a c), rest. split; [reflexivity|].
        intros E. destruct (C (snoc_inj _ _ _ _ E)).
      + exact I.
      + exact I.
      + exact I.
    - cbn [texts]. rewrite sapp_assoc, lex_run_app. pose proof (one_char u m c K) as W.
      destruct (lex_run (written c) ([], m)) as [[ts q]|]; [|exact I].
      destruct ts as [|x ts]; cbn [went] in W.
      + replace (u ++ String c r)%string with (snoc u c ++ r)%string by apply snoc_app. exact (IH (snoc u c) q W).
      + destruct x as [x|s|x| | |]; try contradiction. destruct ts; [|contradiction]. destruct q; try contradiction.
        apply closed. intros ->. rewrite slength_app in W. cbn in W. lia.
  Qed.
  (** a document in which [t] stands between quotes *)
  Lemma only_good : forall pre ts0 t tail v rest,
    lex_run pre ([], LIdle) = Some (ts0, LStr "") -> follows tail -> good "" = true ->
    parse_json (pre ++ texts t ++ String """" tail) = Some v -> toks v = ts0 ++ KStr t :: rest -> good t = true.
  Proof.
    intros pre ts0 t tail v rest P T G E V. apply parse_toks in E. unfold lex in E. rewrite lex_run_app, P in E.
    replace (ts0, LStr "") with (shift ts0 ([], LStr "")) in E by (unfold shift; cbn; now rewrite app_nil_r).
    rewrite run_shift in E. pose proof (between tail T t "" (LStr "") (or_introl (conj eq_refl G))) as B. cbn [append] in B.
    destruct (lex_run (texts t ++ String """" tail) ([], LStr "")) as [q|]; [|discriminate]. cbn [option_map] in E.
    rewrite flush_shift in E. destruct (flush q) as [ts|] eqn:F; [|discriminate]. cbn [option_map] in E.
    destruct (B ts F) as (s & r & -> & H). injection E as E. rewrite V in E.
    apply app_inv_head in E. injection E as E _. exact (H E).
  Qed.
End Between.
